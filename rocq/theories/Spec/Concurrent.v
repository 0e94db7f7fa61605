(** Writing messages from several threads. *)
From Verif Require Import Model.Threads.

(** The packet a message keeps for compressing is at [a]. *)
Definition holds (h : heap) (m : message) (a : addr) : Prop :=
  exists f p alg d, m_comp m = Some (f, p, alg) /\ nth_error h a = Some (CPacket 8 f p (HPlain (PCompressed alg d))).
(** A thread about to call raw() or write() on a message. *)
Definition starts (h : heap) (m : message) (whole : bool) (t : thread) : Prop :=
  holds h m (t_comp t) /\ t = mkThread (t_comp t) whole 0 (write_packets (g_packets (m_pgp m))).
(** What the call gives when nothing else runs. *)
Definition alone (zip : N -> bytes -> option bytes) (m : message) (whole : bool) : result bytes :=
  if whole then message_write zip m ArmorNo else message_raw zip m.
(** The call is over. *)
Definition over (t : thread) : Prop := t_pc t = t_last t \/ forall v, t_val t <> Ok v.
