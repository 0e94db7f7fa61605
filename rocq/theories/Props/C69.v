(** C69: the hash functions are those of the standards (MD5, SHA-1, RIPEMD-160, SHA-2). *)
From Verif Require Import Spec.HashStd Proofs.Lib Proofs.IncludesP Proofs.HashP Proofs.HashStdP Props.C51_C52.
Local Open Scope N_scope.

(** [_partial]: data of 2^32 - 127 octets or more in one piece is missing; there the digest is
    wrong (C51_large_update_refuted). *)
Theorem C69_standard_partial : forall id f m, standard id = Some f -> octets m -> len m <= 2 ^ 32 - 128 -> hash_use id m = Ok (f m).
Proof.
  intros id f m S O L. destruct (digest_std id f S) as (A & h & HA & Hh & E).
  unfold hash_use. rewrite HA. cbn [bind]. f_equal.
  destruct (C51_use_partial id m (md_hash A m) O L) as (A' & h' & HA' & Hh' & ->).
  { unfold hash_use. now rewrite HA. }
  rewrite HA in HA'. apply Ok_inj in HA'. subst A'. rewrite Hh in Hh'. apply Ok_inj in Hh'. subst h'.
  apply E; [exact O|]. apply (C52_whole_blocks id h m Hh).
Qed.

(** The same for an object fed in pieces and asked for the digest at any points; the total
    length is bounded only by the length field. *)
Theorem C69_pieces_partial : forall id f ops, standard id = Some f ->
  octets (fed ops) -> len (fed ops) < 2 ^ 61 -> (forall d, In (Update d) ops -> len d <= 2 ^ 32 - 128) ->
  exists A, hash_alg id = Ok A /\ hash_ops A (md_new A) ops = requested f [] ops.
Proof.
  intros id f ops S O L P. destruct (digest_std id f S) as (A & h & HA & Hh & E). exists A. split; [exact HA|].
  destruct (C51_ops_partial id A ops HA O L P) as (h' & Hh' & ->). rewrite Hh in Hh'. apply Ok_inj in Hh'. subst h'.
  clear L P. assert (O' : octets ([] ++ fed ops)) by exact O. clear O. revert O'. generalize (@nil N) as m.
  induction ops as [|[d|] ops IH]; intros m O; cbn [digests requested fed] in *; [reflexivity|..].
  - apply IH. now rewrite <- app_assoc.
  - f_equal; [|now apply IH]. apply E; [apply octets_app in O; apply O|apply (C52_whole_blocks id h m Hh)].
Qed.

(** Nothing but these identifiers is accepted, and each of them is. *)
Theorem C69_identifiers : forall id m, standard id = None <-> hash_use id m = Throw ERuntime.
Proof.
  intros id m. split; intros H.
  - unfold hash_use. replace (hash_alg id) with (Throw (A := md) ERuntime); [reflexivity|].
    unfold standard in H. unfold hash_alg. repeat match type of H with context [match ?x with _ => _ end] => destruct x; try discriminate H; try reflexivity end.
  - destruct (standard id) as [f|] eqn:S; [|reflexivity]. destruct (digest_std id f S) as (A & h & HA & _). unfold hash_use in H. rewrite HA in H. discriminate.
Qed.

(** Known values of the functions of the specification (FIPS 180-4 and RFC 1321 examples). *)
Example C69_ex : octets (str "abc") /\ len (str "abc") <= 2 ^ 32 - 128 /\ standard 2 = Some sha1 /\
  Ok (sha1 (str "abc")) = unhexlify (str "a9993e364706816aba3e25717850c26c9cd0d89d") /\
  Ok (md5 (str "abc")) = unhexlify (str "900150983cd24fb0d6963f7d28e17f72").
Proof. split; [apply octetsb_spec; reflexivity|]. split; [vm_compute; discriminate|]. split; [reflexivity|]. split; vm_compute; reflexivity. Qed.
Example C69_pieces_ex : let ops := [Update (str "ab"); Digest; Update (str "c"); Digest] in
  octets (fed ops) /\ len (fed ops) < 2 ^ 61 /\ (forall d, In (Update d) ops -> len d <= 2 ^ 32 - 128) /\
  requested sha256 [] ops = [sha256 (str "ab"); sha256 (str "abc")].
Proof.
  split; [apply octetsb_spec; reflexivity|]. split; [reflexivity|]. split; [|reflexivity].
  intros d H. cbn [In] in H. decompose [or] H; try contradiction; try discriminate; match goal with E : Update _ = _ |- _ => injection E as <- end; vm_compute; discriminate.
Qed.
Example C69_identifiers_ex : standard 4 = None /\ standard 8 = Some sha256.
Proof. split; reflexivity. Qed.

Print Assumptions C69_standard_partial.
Print Assumptions C69_pieces_partial.
Print Assumptions C69_identifiers.
