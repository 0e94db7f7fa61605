(** What it means for the packets of two keys to be merged. *)
From Verif Require Export Model.Merge Spec.KeyGrammar.

(** Two packets the library regards as equal: same tag, same body octets. *)
Definition alike (p q : ptr) : Prop :=
  tag_of p = tag_of q /\ raw (p_body (snd p)) = raw (p_body (snd q)).
(** [np] has a packet equal to [p]. *)
Definition has (np : list ptr) (p : ptr) : Prop := exists q, In q np /\ alike q p.
(** No packet occurs twice. *)
Definition distinct (np : list ptr) : Prop :=
  forall i j p q, nth_error np i = Some p -> nth_error np j = Some q -> alike p q -> i = j.
(** The signature [s] stands below the key, user or subkey [o]: only signatures are between. *)
Definition attached (ps : list ptr) (o s : ptr) : Prop :=
  tag_of o <> 2 /\ tag_of s = 2 /\
  exists pre mid post, ps = pre ++ o :: mid ++ s :: post /\ Forall (fun p => tag_of p = 2) mid.
(** Every user attribute comes after some user ID. *)
Definition attributes_follow (ps : list ptr) : Prop :=
  forall pre x post, ps = pre ++ x :: post -> tag_of x = 17 -> exists u, In u pre /\ tag_of u = 13.
(** The body can be written: a secret key that is to be protected has its S2K. *)
Definition has_body (p : ptr) : Prop := exists w, raw (p_body (snd p)) = Ok w.
(** A signature of version 3 or 4, the versions that are written in full. *)
Definition known_version (p : ptr) : Prop :=
  match p_body (snd p) with PSig s => t2_version s = 3 \/ t2_version s = 4 | _ => True end.
(** The packets of a key the library can work on. *)
Definition proper (type : N) (ps : list ptr) : Prop :=
  Forall (fun p => typed (snd p) /\ has_body p /\ known_version p) ps /\ key_meaningful type (map snd ps) = Ok true /\ attributes_follow ps.
(** Two versions of one key. *)
Definition same_key (ps ps' : list ptr) : Prop :=
  exists k r k' r', ps = k :: r /\ ps' = k' :: r' /\ alike k k'.
(** A signature in one of the keys is below one packet only. *)
Definition one_owner (ps ps' : list ptr) : Prop :=
  forall o s o' s', (attached ps o s \/ attached ps' o s) -> (attached ps o' s' \/ attached ps' o' s') ->
    alike s s' -> alike o o'.
