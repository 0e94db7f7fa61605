(** Several threads, each writing its own Message.  Message::raw and write are const but use the
    Tag8 packet the message points to as a buffer, so what they do is split into steps between
    which other threads run.  A step is a whole call on that packet: the model is more kind than
    C++, where two such calls at once on one object are a data race. *)
From Verif Require Export Model.Heap Model.MessageIO.

(** A Message: the PGP part and the pointer comp, include/Message.h 103. *)
Record hmessage := mkHmessage { hm_pgp : hpgp; hm_comp : option addr }.
(** The copy constructor, Message.cpp 157-160. *)
Definition hmessage_copy (n : nat) (h : heap) (m : hmessage) : result (heap * hmessage) :=
  ' (h, g) <- pgp_copy n h (hm_pgp m) ;; ' (h, c) <- clone_opt (clone n) h (hm_comp m) ;; Ok (h, mkHmessage g c).
(** operator=: not declared (Message.h 110-115), so PGP::operator= and then the pointer. *)
Definition hmessage_assign (n : nat) (h : heap) (m : hmessage) : result (heap * hmessage) :=
  ' (h, g) <- pgp_copy n h (hm_pgp m) ;; Ok (h, mkHmessage g (hm_comp m)).

(** A thread in Message::raw (218-231) or, if [t_whole], Message::write up to the armor (233-243):
    the packet comp points to, the number of steps done and the local string, or the exception
    that ended it.  The string is what PGP::raw gives, when it starts. *)
Record thread := mkThread { t_comp : addr; t_whole : bool; t_pc : nat; t_val : result bytes }.
Definition t_last (t : thread) : nat := if t_whole t then 5 else 3.
Definition tag8_at (h : heap) (a : addr) : result (header_format * partial_flag * N * bytes) :=
  c <- deref h a ;; match c with CPacket _ f p (HPlain (PCompressed alg d)) => Ok (f, p, alg, d) | _ => UB end.
Section Steps.
  Variable zip : N -> bytes -> option bytes.
  (** comp -> set_data(d), Tag8.cpp 106-108. *)
  Definition set_data (h : heap) (a : addr) (d : bytes) : result heap :=
    ' (f, p, alg, _) <- tag8_at h a ;; z <- codec zip alg d ;; Ok (put h a (CPacket 8 f p (HPlain (PCompressed alg z)))).
  (** comp -> write(), Tag8.cpp 73-79. *)
  Definition emit (h : heap) (a : addr) : result bytes := ' (f, p, alg, d) <- tag8_at h a ;; write (mkPacket 8 f p (PCompressed alg d)).
  (** One step. *)
  Definition go (h : heap) (t : thread) : heap * thread :=
    match t_val t with
    | Ok v =>
      if (t_last t <=? t_pc t)%nat then (h, t)
      else
        let next h v := (h, mkThread (t_comp t) (t_whole t) (S (t_pc t)) v) in
        let set d := match set_data h (t_comp t) d with Ok h => next h (Ok v) | Throw e => next h (Throw e) | UB => next h UB | Diverge => next h Diverge end in
        match t_pc t with
        | 0%nat | 3%nat => set v
        | 2%nat => set []
        | _ => next h (emit h (t_comp t))
        end
    | _ => (h, t)
    end.
  Fixpoint replace {A} (l : list A) (i : nat) (x : A) : list A :=
    match l, i with [], _ => [] | _ :: r, O => x :: r | y :: r, S i => y :: replace r i x end.
  (** All of them, in the order of a schedule. *)
  Fixpoint run (h : heap) (ts : list thread) (schedule : list nat) : heap * list thread :=
    match schedule with
    | [] => (h, ts)
    | i :: r => match nth_error ts i with Some t => let (h, t) := go h t in run h (replace ts i t) r | None => run h ts r end
    end.
End Steps.
