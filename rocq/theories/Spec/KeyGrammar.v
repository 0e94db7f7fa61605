(** The composition of transferable keys, RFC 4880 sections 11.1 and 11.2. *)
From Verif Require Export Model.Pgp.

(** A packet whose object is of the class its tag stands for: what the reader builds. *)
Definition typed (p : packet) : Prop :=
  match p_tag p with
  | 1 => exists v i a m, p_body p = PSession v i a m
  | 2 => exists s, p_body p = PSig s
  | 3 => exists v a s e, p_body p = PSymSession v a s e
  | 4 => exists v t h a i l, p_body p = POnePass v t h a i l
  | 5 | 7 => exists k s, p_body p = PSecret k s
  | 6 | 14 => exists k, p_body p = PKey k
  | 8 => exists c d, p_body p = PCompressed c d
  | 11 => exists f n t d, p_body p = PLiteral f n t d
  | 17 => exists l, p_body p = PAttributes l
  | 18 => exists v d, p_body p = PProtected v d
  | _ => exists d, p_body p = PRaw d
  end.

(** A signature packet whose type satisfies [P]. *)
Definition signature_of (P : N -> Prop) (p : packet) : Prop :=
  p_tag p = 2 /\ exists s, p_body p = PSig s /\ P (t2_type s).
Definition certifies (t : N) : Prop := In t [16; 17; 18; 19].

(** A user ID or attribute and its certifications; those of a user ID may be revoked. *)
Definition user_part (l : list packet) : Prop :=
  exists u sigs, l = u :: sigs /\ (p_tag u = 13 \/ p_tag u = 17) /\
    Forall (signature_of (fun t => certifies t \/ (p_tag u = 13 /\ t = 48))) sigs.
Definition has_user_id (l : list packet) : Prop := exists u sigs, l = u :: sigs /\ p_tag u = 13.
(** A subkey and its signatures, one of them at least a binding. *)
Definition subkey_part (sub : N) (l : list packet) : Prop :=
  exists k sigs, l = k :: sigs /\ p_tag k = sub /\
    Forall (signature_of (fun _ => True)) sigs /\ Exists (signature_of (eq 24)) sigs.
Definition has_version (v : N) (p : packet) : Prop :=
  exists k, (p_body p = PKey k \/ exists s, p_body p = PSecret k s) /\ k_version k = v.

(** Primary key, revocations of the key, users (a user ID among them), subkeys (none for a
    version 3 key). *)
Definition key_block (primary sub : N) (ps : list packet) : Prop :=
  exists k revs us subs, ps = k :: revs ++ concat us ++ concat subs /\
    p_tag k = primary /\ Forall (signature_of (eq 32)) revs /\
    Forall user_part us /\ Exists has_user_id us /\
    Forall (subkey_part sub) subs /\ (has_version 3 k -> subs = []).
(** Public key block (type 2) and private key block (type 3). *)
Definition transferable (type : N) (ps : list packet) : Prop :=
  (type = 2 /\ key_block 6 14 ps) \/ (type = 3 /\ key_block 5 7 ps).
(** The primary key followed by revocations only. *)
Definition bare (type : N) (ps : list packet) : Prop :=
  exists k revs, ps = k :: revs /\ revs <> [] /\ Forall (signature_of (eq 32)) revs /\
    ((type = 2 /\ p_tag k = 6) \/ (type = 3 /\ p_tag k = 5)).
