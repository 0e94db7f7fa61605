(** The signatures of a secret key that name the key itself as issuer, and what they are over. *)
From Verif Require Export Model.KeyGen Spec.KeyGrammar Spec.Sigs.

(** The key packet nearest before the end of [pre], and the user packet after it. *)
Definition nearest_key (pre : list packet) : option packet := find (fun p => mem [5; 6; 7; 14] (p_tag p)) (rev pre).
Definition nearest_user (pre : list packet) : option packet :=
  match find (fun p => mem [5; 6; 7; 14; 13; 17] (p_tag p)) (rev pre) with
  | Some p => if mem [13; 17] (p_tag p) then Some p else None
  | None => None
  end.
(** The digest of a signature of this type that stands after the packets [pre]; [k] is the primary
    key.  Certifications and their revocations are over the user, bindings and revocations of
    subkeys over the subkey. *)
Definition over (pre : list packet) (k : key) (s : tag2) (digest : bytes) : Prop :=
  (certifies (t2_type s) /\ exists u, nearest_user pre = Some u /\ to_sign_cert (t2_type s) k (p_tag u) (p_body u) s = Ok digest) \/
  (t2_type s = 24 /\ exists p kk x, nearest_key pre = Some p /\ p_tag p = 7 /\ p_body p = PSecret kk x /\ to_sign_18 k kk s = Ok digest) \/
  (t2_type s = 32 /\ to_sign_20 5 k s = Ok digest) \/
  (t2_type s = 40 /\ exists p kk x, nearest_key pre = Some p /\ p_tag p = 7 /\ p_body p = PSecret kk x /\ to_sign_28 7 kk s = Ok digest) \/
  (t2_type s = 48 /\ exists u, nearest_user pre = Some u /\ to_sign_30 k (p_tag u) (p_body u) s = Ok digest).
(** Nothing but the integers and the first octets of the digest differ. *)
Definition same_but_values (s s' : tag2) : Prop :=
  t2_version s' = t2_version s /\ t2_type s' = t2_type s /\ t2_pka s' = t2_pka s /\ t2_hash s' = t2_hash s /\
  t2_time s' = t2_time s /\ t2_keyid s' = t2_keyid s /\ t2_hashed s' = t2_hashed s /\ t2_unhashed s' = t2_unhashed s.
(** [p'] is [p], or both are the same signature by the key [id] but for the values. *)
Definition kept (id : bytes) (p p' : packet) : Prop :=
  p' = p \/
  exists s s', p_tag p = 2 /\ p_tag p' = 2 /\ p_format p' = p_format p /\ p_partial p' = p_partial p /\ p_body p = PSig s /\ p_body p' = PSig s' /\
    sig_keyid s = Ok id /\ same_but_values s s'.
