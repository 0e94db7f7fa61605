(** C51, C52: hash objects. *)
From Verif Require Import Proofs.HashP.

(** ** C51 *)

(** Any sequence of updates and digest requests: each request gives the digest of all data
    fed before it, whatever the pieces were and whether digests were asked for in between.
    Missing: single updates of 4 GiB or more (refuted below). *)
Theorem C51_ops_partial : forall id A ops, hash_alg id = Ok A ->
  octets (fed ops) -> len (fed ops) < 2 ^ 61 ->
  (forall d, In (Update d) ops -> len d <= 2 ^ 32 - 128) ->
  exists h, map_at shapes id = Ok h /\ hash_ops A (md_new A) ops = digests A h [] ops.
Proof.
  intros id A ops HA O HL F. destruct (hash_agrees id A HA) as (h & E & G). exists h. split; auto.
  apply ops_digests; auto. now apply after_new.
Qed.

(** Two ways of cutting a message in pieces give the same digest. *)
Theorem C51_chunking_partial : forall id A cs cs', hash_alg id = Ok A -> concat cs = concat cs' ->
  octets (concat cs) -> len (concat cs) < 2 ^ 61 ->
  Forall (fun d => len d <= 2 ^ 32 - 128) cs -> Forall (fun d => len d <= 2 ^ 32 - 128) cs' ->
  md_digest A (fold_left (md_update A) cs (md_new A)) = md_digest A (fold_left (md_update A) cs' (md_new A)).
Proof.
  intros id A cs cs' HA E O HL F F'. destruct (hash_agrees id A HA) as (h & _ & G).
  assert (X : forall l, octets (concat l) -> Forall octets l).
  { induction l; cbn; intros H; constructor; apply octets_app in H as [? ?]; auto. }
  assert (P : forall l, octets (concat l) -> len (concat l) < 2 ^ 61 -> Forall (fun d => len d <= 2 ^ 32 - 128) l ->
     md_digest A (fold_left (md_update A) l (md_new A)) = digest_spec A h (concat l)).
  { intros l Ol Hl Fl. apply digest_after; auto. apply (fold_after A h G l []); auto; [constructor|now apply after_new]. }
  rewrite !P; auto; congruence.
Qed.

(** Hash::use is the standard's iteration over the padded message. *)
Theorem C51_use_partial : forall id m d, octets m -> len m <= 2 ^ 32 - 128 -> hash_use id m = Ok d ->
  exists A h, hash_alg id = Ok A /\ map_at shapes id = Ok h /\ d = digest_spec A h m.
Proof.
  intros id m d O HL H. unfold hash_use in H. destruct (hash_alg id) as [A| | |] eqn:E; try discriminate. cbn [bind] in H. apply Ok_inj in H. subst d.
  destruct (hash_agrees id A E) as (h & Eh & G). exists A, h. repeat split; auto.
  apply digest_after; auto; [lia|]. apply (after_update A h G [] _ m); auto; [constructor|now apply after_new].
Qed.

(** An update of 4 GiB and one block: the last block is never looked at, so any two such
    messages that differ only there have the same digest. *)
Theorem C51_large_update_refuted : forall id A p a b, hash_alg id = Ok A ->
  len p = 2 ^ 32 -> len a = md_size A -> len b = md_size A ->
  md_hash A (p ++ a) = md_hash A (p ++ b).
Proof.
  intros id A p a b HA Hp Ha Hb. destruct (hash_agrees id A HA) as (h & _ & G).
  assert (HB := B_pos A h G). assert (SB := sizeB A h G). assert (BP := B_pow A h G). set (B := N.to_nat (sh_block h)) in *.
  assert (S : forall x, N.shiftl (N.shiftr (len (p ++ x)) (md_shift A)) (md_shift A) = len (p ++ x) \/ len x <> md_size A).
  { intros x. destruct (N.eq_dec (len x) (md_size A)) as [E|]; [left|auto].
    rewrite (shiftB A h G), (shiftrB A h G), len_app, Hp, E, SB. fold B. apply N.div_exact in BP; [|lia].
    rewrite BP at 1 2. replace (N.of_nat B * (2 ^ 32 / N.of_nat B) + N.of_nat B) with ((2 ^ 32 / N.of_nat B + 1) * N.of_nat B) by lia.
    now rewrite N.div_mul by lia. }
  unfold md_hash. f_equal. unfold md_update. cbn [st_stack st_ctx st_clen md_new app].
  destruct (S a) as [->|]; [|contradiction]. destruct (S b) as [->|]; [|contradiction].
  assert (EL : length (p ++ a) = length (p ++ b)) by (rewrite !app_length; unfold len in *; lia).
  rewrite !slice_all by reflexivity. unfold len. rewrite EL.
  assert (Z : forall s, slice s (N.of_nat (length s)) (N.of_nat (length s) - N.of_nat (length s)) = []).
  { intros s. unfold slice. rewrite N.sub_diag. reflexivity. }
  rewrite Z. rewrite <- EL, Z, EL. f_equal.
  destruct (md_little A).
  - f_equal. unfold to_little_end. rewrite EL. apply flat_map_ext_in. intros x _. f_equal.
    assert (u32 (4 * N.of_nat x) + 4 <= 2 ^ 32).
    { unfold u32, two32. change 4294967296 with (4 * 1073741824). rewrite N.mul_mod_distr_l by lia. pose proof (N.mod_lt (N.of_nat x) 1073741824). lia. }
    rewrite !slice_in by (unfold len in Hp; lia). reflexivity.
  - unfold md_calc. unfold len. rewrite EL. apply fold_ext_in. intros x z _. f_equal. unfold md_words.
    rewrite (shiftB A h G).  fold B.
    assert (u32 (N.of_nat x * N.of_nat B) + N.of_nat B <= 2 ^ 32).
    { apply N.div_exact in BP; [|lia]. set (q := 2 ^ 32 / N.of_nat B) in *. assert (q <> 0) by (intros X; rewrite X in BP; lia).
      unfold u32. change two32 with (2 ^ 32). rewrite BP. rewrite (N.mul_comm (N.of_nat x)).
      rewrite N.mul_mod_distr_l by lia. pose proof (N.mod_lt (N.of_nat x) q). nia. }
    rewrite !slice_in by (unfold len in Hp; rewrite ?SB; lia). reflexivity.
Qed.
Example C51_large_ex : len (repeat 0 (N.to_nat (2 ^ 32))) = 2 ^ 32 /\ len (repeat 1 64) = md_size SHA256 /\ repeat 1 64 <> repeat 2 64.
Proof. split; [unfold len; rewrite repeat_length; apply N2Nat.id|]. split; [reflexivity|discriminate]. Qed.

Example C51_ex : let ops := [Update (str "ab"); Digest; Update []; Update (str "c"); Digest] in
  octets (fed ops) /\ len (fed ops) < 2 ^ 61 /\ (forall d, In (Update d) ops -> len d <= 2 ^ 32 - 128) /\
  concat [str "ab"; str "c"] = concat [str "abc"].
Proof.
  split; [apply octetsb_spec; reflexivity|]. split; [reflexivity|]. split; [|reflexivity].
  intros d H. cbn [In] in H. decompose [or] H; try contradiction; try discriminate; match goal with E : Update _ = _ |- _ => injection E as <- end; vm_compute; discriminate.
Qed.

(** The digests of the standards' test message. *)
Example C51_abc : map (fun id => hash_use id (str "abc")) [1; 2; 3; 8; 11] =
  map (fun h => unhexlify (str h))
  ["900150983cd24fb0d6963f7d28e17f72"; "a9993e364706816aba3e25717850c26c9cd0d89d"; "8eb208f7e05d987a9b044a8e98c6b087f15a0bfc";
   "ba7816bf8f01cfea414140de5dae2223b00361a396177a9cb410ff61f20015ad"; "23097d223405d8228642a477bda255b32aadbce4bda0b3f7e36c9da7"]%string.
Proof. vm_compute. reflexivity. Qed.
Example C51_abc_512 : hash_use 10 (str "abc") = unhexlify (str
  "ddaf35a193617abacc417349ae20413112e6fa4e89a97ea20a9eeee64b55d39a2192992a274fc1a836ba3c23a3feebbd454d4423643ce80e2a9ac94fa54ca49f").
Proof. vm_compute. reflexivity. Qed.

(** ** C52 *)

(** The padded message is a whole number of blocks, starts with the message and is longer
    by at least nine octets and at most a block and nine (sixteen and one for SHA-384/512). *)
Theorem C52_whole_blocks : forall id h m, map_at shapes id = Ok h ->
  len (pad h m) mod sh_block h = 0 /\ (exists t, pad h m = m ++ 128 :: t) /\
  len m + 1 + N.of_nat (sh_len h) <= len (pad h m) < len m + 1 + N.of_nat (sh_len h) + sh_block h.
Proof.
  intros id h m H. assert (C : (sh_block h = 64 /\ sh_len h = 8%nat) \/ (sh_block h = 128 /\ sh_len h = 16%nat)).
  { unfold shapes in H. cbn [map_at] in H. repeat match type of H with context [if ?b then _ else _] => destruct b end; try discriminate; apply Ok_inj in H; subst; cbn; auto. }
  assert (L : len (pad h m) = len m + 1 + (sh_block h - (len m + 1 + N.of_nat (sh_len h)) mod sh_block h) mod sh_block h + N.of_nat (sh_len h)).
  { unfold pad. unfold len at 1. rewrite !app_length, repeat_length. replace (length (if sh_little h then _ else _)) with (sh_len h) by (destruct (sh_little h); rewrite ?rev_length, be_length; reflexivity).
    cbn [length]. unfold len. lia. }
  split; [|split; [eexists; unfold pad; reflexivity|]]; rewrite L; destruct C as [(-> & ->)|(-> & ->)]; lia.
Qed.

(** Different messages are padded differently. *)
Theorem C52_injective : forall id h m m', map_at shapes id = Ok h ->
  len m < 2 ^ 61 -> len m' < 2 ^ 61 -> pad h m = pad h m' -> m = m'.
Proof.
  intros id h m m' H Hm Hm' E.
  assert (C : (8 <= sh_len h)%nat).
  { unfold shapes in H. cbn [map_at] in H. repeat match type of H with context [if ?b then _ else _] => destruct b end; try discriminate; apply Ok_inj in H; subst; cbn; lia. }
  set (enc := fun x => if sh_little h then rev (be (sh_len h) (8 * len x)) else be (sh_len h) (8 * len x)).
  assert (P : forall x, exists u, pad h x = u ++ enc x) by (intros x; unfold pad; fold (enc x); eexists; rewrite !app_assoc; reflexivity).
  destruct (P m) as [u Eu]. destruct (P m') as [u' Eu']. rewrite Eu, Eu' in E.
  assert (LE : forall x, length (enc x) = sh_len h) by (intros x; unfold enc; destruct (sh_little h); rewrite ?rev_length, be_length; reflexivity).
  assert (EE : enc m = enc m').
  { apply (f_equal (@rev N)) in E. rewrite !rev_app_distr in E. apply (f_equal (firstn (sh_len h))) in E.
    rewrite !firstn_app, !rev_length, !LE, Nat.sub_diag in E. cbn [firstn] in E. rewrite !app_nil_r in E.
    rewrite !firstn_all2 in E by (rewrite rev_length, LE; lia). apply (f_equal (@rev N)) in E. now rewrite !rev_involutive in E. }
  assert (LL : len m = len m').
  { assert (B : be (sh_len h) (8 * len m) = be (sh_len h) (8 * len m')).
    { unfold enc in EE. destruct (sh_little h); auto. apply (f_equal (@rev N)) in EE. now rewrite !rev_involutive in EE. }
    apply (f_equal be_val) in B. rewrite !be_val_be in B.
    assert (2 ^ 64 <= 256 ^ N.of_nat (sh_len h)). { change (2 ^ 64) with (256 ^ 8). apply N.pow_le_mono_r; lia. }
    rewrite !N.mod_small in B by lia. lia. }
  rewrite <- Eu, <- Eu' in E. unfold pad in E. apply (f_equal (firstn (length m))) in E.
  assert (length m = length m') by (unfold len in LL; lia).
  rewrite firstn_app, Nat.sub_diag, firstn_all in E. cbn [firstn] in E. rewrite H0 in E. rewrite firstn_app, Nat.sub_diag, firstn_all in E.
  cbn [firstn] in E. now rewrite !app_nil_r in E.
Qed.
Example C52_ex : map_at shapes 8 = Ok (mkShape 64 8 4 false 32) /\ len (pad (mkShape 64 8 4 false 32) (repeat 7 56)) = 128.
Proof. split; reflexivity. Qed.

(** The digest has the advertised length (Hash::LENGTH, the standard), for any object. *)
Theorem C52_digest_length : forall id A s, hash_alg id = Ok A ->
  exists bits h, map_at hash_length id = Ok bits /\ map_at shapes id = Ok h /\
    len (md_digest A s) = bits / 8 /\ length (md_digest A s) = sh_out h /\ octets (md_digest A s).
Proof. exact digest_length. Qed.
Theorem C52_use_length : forall id m d, hash_use id m = Ok d ->
  exists bits, map_at hash_length id = Ok bits /\ len d = bits / 8.
Proof.
  intros id m d H. unfold hash_use in H. destruct (hash_alg id) as [A| | |] eqn:E; try discriminate. cbn [bind] in H. apply Ok_inj in H. subst d.
  destruct (C52_digest_length id A (md_update A (md_new A) m) E) as (b & h & Eb & _ & L & _). exists b. auto.
Qed.

Print Assumptions C51_ops_partial.
Print Assumptions C51_chunking_partial.
Print Assumptions C51_use_partial.
Print Assumptions C51_large_update_refuted.
Print Assumptions C52_whole_blocks.
Print Assumptions C52_injective.
Print Assumptions C52_digest_length.
Print Assumptions C52_use_length.
