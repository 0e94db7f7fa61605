(** Which field values a subpacket, signature or packet can hold so that its octet form can
    represent them (field widths of RFC 4880 section 5), independent of how the code
    writes or reads them. *)
From Verif Require Export Model.Packets.

(** A property of every element; a plain recursive function so that it can be nested. *)
Definition allP {A} (P : A -> Prop) : list A -> Prop :=
  fix go l := match l with [] => True | x :: l' => P x /\ go l' end.

(** An integer with at most 65528 bits, the longest the MPI reader accepts (C05). *)
Definition mpi_fits (m : N) : Prop := m < 2 ^ 65528.

Definition word32 (t : N) : Prop := t < 2 ^ 32.

(** Last character is not NUL (a subpacket regular expression is NUL-terminated). *)
Definition no_final_nul (r : bytes) : Prop := forall r', r <> r' ++ [0].

(** Field widths of the signature subpackets, section 5.2.3.4-5.2.3.26.  [ok] is the
    condition on an embedded signature. *)
Definition sub_fits {S} (ok : S -> Prop) (s : sub S) : Prop :=
  match s with
  | Sub2 t | Sub3 t | Sub9 t => word32 t
  | Sub6 r => no_final_nul r
  | Sub12 _ _ f => len f = 20
  | Sub20 f m n => len f = 4 /\ len m < 2 ^ 16 /\ len n < 2 ^ 16
  | Sub31 _ _ d => d <> []
  | Sub32 (Some x) => ok x
  | _ => True
  end.

(** The subpackets the reader gives back unchanged: notation data only if empty. *)
Definition sub_kept {S} (s : sub S) : Prop :=
  match s with Sub20 _ m n => m = [] /\ n = [] | _ => True end.

(** Number of integers of a signature: RSA one, DSA two (section 5.2.2, 5.2.3). *)
Definition sig_mpis (pka : N) : nat := if pka =? 17 then 2 else 1.

(** Octets of a subpacket area. *)
Definition area (emb : tag2 -> bytes) (l : list (bool * sub tag2)) : bytes :=
  concat (map (sub_write emb) l).

(** A version 3 or 4 signature whose fields fit the packet format, with subpackets the
    reader keeps. *)
Fixpoint sig_fits (s : tag2) : Prop :=
  match s with
  | mkTag2 v type pka hash mpi left16 time keyid hashed unhashed =>
    len left16 = 2 /\ length mpi = sig_mpis pka /\ Forall mpi_fits mpi /\
    ((v = 4 /\ time = 0 /\ keyid = [] /\
      allP (fun c => sub_fits sig_fits (snd c) /\ sub_kept (snd c)) hashed /\
      allP (fun c => sub_fits sig_fits (snd c) /\ sub_kept (snd c)) unhashed /\
      len (area tag2_raw hashed) < 2 ^ 16 /\ len (area tag2_raw unhashed) < 2 ^ 16)
     \/
     (v = 3 /\ In pka [1;2;3;17] /\ word32 time /\ len keyid = 8 /\ hashed = [] /\ unhashed = []))
  end.

(** String-to-key specifier, section 3.7.1: type octet, hash, eight octets of salt and a
    count octet where the type has them. *)
Definition s2k_fits (s : s2k) : Prop :=
  match s2k_type s with
  | 0 => s2k_kind s = S2K0 /\ s2k_salt s = [] /\ s2k_count s = 0
  | 1 => s2k_kind s = S2K1 /\ len (s2k_salt s) = 8 /\ s2k_count s = 0
  | 3 => s2k_kind s = S2K3 /\ len (s2k_salt s) = 8 /\ s2k_count s < 256
  | _ => False
  end.

(** Number of integers of a public key, section 5.5.2: RSA two, DSA four, Elgamal three;
    version 2 and 3 keys two. *)
Definition key_mpis (version pka : N) : option nat :=
  if version <? 4 then Some 2%nat
  else match pka with 1 | 2 | 3 => Some 2%nat | 17 => Some 4%nat | 16 => Some 3%nat | _ => None end.

(** A public key.  [days_fit] is the condition on the validity period of a version 2 or 3
    key; other versions have none. *)
Definition key_fits (days_fit : N -> Prop) (k : key) : Prop :=
  k_version k <= 4 /\ word32 (k_time k) /\ Forall mpi_fits (k_mpi k) /\
  key_mpis (k_version k) (k_pka k) = Some (length (k_mpi k)) /\
  (if k_version k <? 4 then days_fit (k_expire k) else k_expire k = 0).

(** Two octets, and the ones the reader gives back: both octets below 128. *)
Definition days_16 (n : N) : Prop := n < 2 ^ 16.
Definition days_kept (n : N) : Prop := n / 256 < 128 /\ n mod 256 < 128.

(** Octets of the initialisation vector for a cipher number. *)
Definition iv_octets (sym : N) : option N :=
  match map_at block_length sym with Ok b => Some (b / 8) | _ => None end.

(** The secret part of a key packet, section 5.5.3. *)
Definition secret_fits (s : secret) : Prop :=
  if sk_con s =? 0 then sk_sym s = 0 /\ sk_s2k s = None /\ sk_iv s = []
  else iv_octets (sk_sym s) = Some (len (sk_iv s)) /\
       if (sk_con s =? 254) || (sk_con s =? 255)
       then exists x, sk_s2k s = Some x /\ s2k_fits x
       else sk_sym s = sk_con s /\ sk_s2k s = None.

(** Contents of a packet with tag [tag] that its octet form can represent, and that are
    the contents of that type of packet. *)
Definition fits (days_fit : N -> Prop) (tag : N) (c : contents) : Prop :=
  match c with
  | PSession v keyid _ mpi => tag = 1 /\ v = 3 /\ len keyid = 8 /\ Forall mpi_fits mpi
  | PSig s => tag = 2 /\ sig_fits s
  | PSymSession _ _ s esk =>
    tag = 3 /\ (exists x, s = Some x /\ s2k_fits x) /\ esk <> Some []
  | POnePass v _ _ _ keyid _ => tag = 4 /\ v = 3 /\ len keyid = 8
  | PSecret k s => (tag = 5 \/ tag = 7) /\ key_fits days_fit k /\ secret_fits s
  | PKey k => (tag = 6 \/ tag = 14) /\ key_fits days_fit k
  | PCompressed _ _ => tag = 8
  | PLiteral _ name time _ => tag = 11 /\ len name < 256 /\ word32 time
  | PAttributes l =>
    tag = 17 /\ Forall (fun i => im_version i = 1 /\ im_encoding i = 1 /\ len (im_image i) < 2 ^ 31) l
  | PProtected _ _ => tag = 18
  | PRaw d => In tag [9;10;12;13;19;60;61;62;63] /\ (tag = 10 -> d <> [])
  end.
