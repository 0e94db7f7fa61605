(** Signatures as the signing functions make them: they fit their packet format, so they are
    read back from what is written. *)
From Verif Require Import Proofs.SignP Proofs.PgpP Proofs.MpiP Proofs.KeyP Proofs.HashP Proofs.MessageIOP Spec.Sequence.
Local Open Scope N_scope.

(** Integers of at most 16384 bits. *)
Definition moderate (x : N) : Prop := x < 2 ^ 16384.
Lemma moderate_fits x : moderate x -> mpi_fits x.
Proof. unfold moderate, mpi_fits. intros H. eapply N.lt_le_trans; [exact H|]. apply N.pow_le_mono_r; lia. Qed.
Lemma moderate_len x : moderate x -> len (write_MPI x) <= 2050.
Proof.
  intros H. rewrite write_MPI_len. assert (B : bitsize x <= 16384) by (apply bitsize_le; [lia|exact H]).
  assert (X : (bitsize x + 7) / 8 <= (16384 + 7) / 8) by (apply N.div_le_mono; lia). change ((16384 + 7) / 8) with 2048 in X. lia.
Qed.
Lemma moderate_below x y : x < y -> moderate y -> moderate x. Proof. unfold moderate. lia. Qed.
Lemma with_pka_small d digest pka pri pub hash draws vals draws' :
  hash_use hash d = Ok digest -> pka = 1 \/ pka = 17 -> key_pair pka pri pub -> Forall moderate pub ->
  sign_with_pka digest pka pri pub hash draws = Ok (vals, draws') ->
  length vals = sig_mpis pka /\ Forall moderate vals.
Proof.
  intros H [-> | ->] K FF E; unfold key_pair in K; cbn [N.eqb Pos.eqb] in K; unfold sig_mpis; cbn [N.eqb Pos.eqb].
  - destruct K as (n & e & x & m & m' & -> & -> & (p & q & P & Q & D & OP & OQ & -> & ED)). apply Forall_cons_iff in FF as [F _].
    unfold sign_with_pka in E. cbn [N.eqb Pos.eqb orb vec_at nth_error bind] in E.
    inv_bind E. inv_bind E. apply Ok_inj in E. assert (vals = [a0]) as -> by congruence. split; [reflexivity|]. constructor; [|constructor].
    pose proof (odd_mul p q OP OQ) as O. unfold rsa_sign_raw in E1. inv_bind E1. unfold rsa_sign, rsa_decrypt in E1. cbn [vec_at nth_error bind] in E1.
    apply powm_odd in E1 as [_ ->]. eapply moderate_below; [|exact F]. apply N.mod_lt. intros Z. rewrite Z in O. discriminate.
  - destruct K as (p & q & g & y & x & m & m' & -> & -> & (P & O & Q & G & Y)).
    unfold sign_with_pka in E. cbn [N.eqb Pos.eqb orb vec_at nth_error bind] in E.
    unfold dsa_sign_raw in E. inv_bind E. unfold dsa_sign in E. change (0 =? 0) with true in E. cbv iota in E.
    apply dsa_rounds_ok in E as (k' & r & s & -> & T). split; [reflexivity|]. pose proof Q as [Q1 _].
    apply Forall_cons_iff in FF as [_ FF]. apply Forall_cons_iff in FF as [Fq _].
    apply dsa_try_ok in T as (R & R0 & S & SK); auto.
    constructor; [|constructor; [|constructor]]; (eapply moderate_below; [|exact Fq]); [rewrite R; apply N.mod_lt|]; lia.
Qed.
Lemma digest_two hash d digest : hash_use hash d = Ok digest -> len (prefix digest 2) = 2 /\ octets (prefix digest 2).
Proof.
  intros H. pose proof (hash_use_octets _ _ _ H) as O.
  assert (X : exists bits, map_at hash_length hash = Ok bits /\ 2 <= bits / 8).
  { unfold hash_use, hash_alg in H.
    destruct hash as [|p]; [discriminate|]. repeat (destruct p as [p|p|]; try discriminate); (eexists; split; [reflexivity|vm_compute; discriminate]). }
  destruct X as (bits & B & L). pose proof (hash_use_len _ _ _ _ H B) as LD. split; [rewrite len_prefix; lia|].
  unfold prefix. now apply octets_firstn.
Qed.

Lemma made_raw type pka hash id now l v : len id = 8 ->
  tag2_raw (with_values (create_sig 4 type pka hash id now) l v) =
  4 :: type :: pka :: hash :: be 2 6 ++ (5 :: 2 :: be 4 now) ++ be 2 10 ++ (9 :: 16 :: id) ++ l ++ concat (map write_MPI v).
Proof.
  intros L. cbn [create_sig with_values tag2_raw map concat]. rewrite !app_nil_r.
  assert (A : @sub_write tag2 tag2_raw (false, Sub2 now) = 5 :: 2 :: be 4 now).
  { unfold sub_write, write_subpacket. cbn [snd fst sub_type sub_raw]. change (N.lor 2 0) with 2. rewrite len_cons, len_be. reflexivity. }
  assert (B : @sub_write tag2 tag2_raw (false, Sub16 id) = 9 :: 16 :: id).
  { unfold sub_write, write_subpacket. cbn [snd fst sub_type sub_raw]. change (N.lor 16 0) with 16. rewrite len_cons, L. reflexivity. }
  change (4 =? 3) with false. change (4 =? 4) with true. cbv iota. cbn [app].
  change (concat []) with (@nil N). rewrite ?app_nil_r. rewrite A, B.
  replace (len (5 :: 2 :: be 4 now)) with 6 by (rewrite !len_cons, len_be; reflexivity).
  replace (len (9 :: 16 :: id)) with 10 by (rewrite !len_cons, L; reflexivity). rewrite <- !app_assoc. reflexivity.
Qed.
Lemma made_fits d digest k pri draws vals draws' type hash id now :
  hash_use hash d = Ok digest -> k_pka k = 1 \/ k_pka k = 17 -> key_pair (k_pka k) pri (k_mpi k) -> Forall moderate (k_mpi k) ->
  sign_with_pka digest (k_pka k) pri (k_mpi k) hash draws = Ok (vals, draws') ->
  len id = 8 -> now < 2 ^ 32 ->
  let s := with_values (create_sig 4 type (k_pka k) hash id now) (prefix digest 2) vals in
  sig_fits s /\ len (tag2_raw s) <= 4126 /\ (octets id -> type < 256 -> octets (tag2_raw s)).
Proof.
  intros H P KP F S L T s. destruct (with_pka_small _ _ _ _ _ _ _ _ _ H P KP F S) as [LV FV].
  destruct (digest_two _ _ _ H) as [L2 O2].
  assert (FM : Forall mpi_fits vals) by (eapply Forall_impl; [|exact FV]; apply moderate_fits).
  split; [|split].
  - unfold s. cbn [create_sig with_values sig_fits]. split; [exact L2|]. split; [exact LV|]. split; [exact FM|]. left.
    split; [reflexivity|]. split; [reflexivity|]. split; [reflexivity|].
    split; [cbn [allP snd sub_fits sub_kept]; repeat split; exact T|]. split; [cbn; tauto|].
    unfold area. cbn [map concat]. rewrite !app_nil_r. unfold sub_write, write_subpacket. cbn [snd fst sub_type sub_raw].
    rewrite !len_cons, len_be, L. change (1 + N.of_nat 4 <? 192) with true. change (1 + 8 <? 192) with true. cbv iota. rewrite !len_cons, len_be, L. split; reflexivity.
  - unfold s. rewrite made_raw by exact L. repeat (rewrite ?len_cons, ?len_app, ?len_be). rewrite L, L2.
    assert (X : len (concat (map write_MPI vals)) <= 2050 * N.of_nat (length vals)).
    { clear -FV. induction FV as [|x r X F IH]; [cbn; lia|]. cbn [map concat length]. rewrite len_app. pose proof (moderate_len x X). lia. }
    rewrite LV in X. unfold sig_mpis in X. destruct (k_pka k =? 17); lia.
  - intros OI OT. unfold s. rewrite made_raw by exact L.
    assert (OH : hash < 256) by (unfold hash_use, hash_alg in H; destruct hash as [|p]; [reflexivity|]; repeat (destruct p as [p|p|]; try discriminate H); reflexivity).
    repeat (apply Forall_cons; [unfold octet; lia|]). rewrite !octets_app.
    repeat (split; [first [apply be_octets|exact O2|repeat (apply Forall_cons; [unfold octet; lia|]); first [exact OI|apply be_octets]]|]).
    clear. induction vals as [|x r IH]; [constructor|]. cbn [map concat]. apply octets_app. split; [apply write_MPI_octets|exact IH].
Qed.

(** One more packet in new format at the front of a sequence. *)
Lemma sequence_new off tag c body ps : tag < 64 -> raw c = Ok body -> readable_length NEW (len body) -> fits days_kept tag c ->
  (forall h : bytes, len h <= 6 -> placed (off + len h) c) -> (forall n, sequence n ps) -> sequence off (new_packet tag c :: ps).
Proof.
  intros T R L F P S. assert (HK : header_ok (new_packet tag c) (len body)).
  { split; [reflexivity|]. unfold new_packet. cbn [p_format p_tag]. unfold readable_length in L. intuition lia. }
  destruct (frame_written _ body [] [] HK R) as (h & W & _).
  cbn [sequence]. exists h, body. split; [exact W|]. split; [exact R|]. split; [exact HK|]. split; [exact F|]. split; [apply P|apply S].
  revert W. unfold write, new_packet. cbn [p_body p_tag p_format p_partial]. rewrite R. cbn [bind].
  replace (if can_have_partial_length tag then NOT_PARTIAL else NOT_PARTIAL) with NOT_PARTIAL by now destruct (can_have_partial_length tag).
  cbn [write_new_length]. intros W. apply Ok_inj, (f_equal len) in W. revert W. unfold write_new_plain. cbv zeta.
  repeat match goal with |- context [if ?b then _ else _] => destruct b end; rewrite ?len_cons, ?len_app, ?len_be; lia.
Qed.
Lemma signed_sequence hash pka id filename now data s : len id = 8 -> len filename < 256 -> now < 2 ^ 32 ->
  readable_length NEW (6 + len filename + len data) -> sig_fits s -> t2_version s = 4 -> len (tag2_raw s) <= 4126 ->
  forall off, sequence off [new_packet 4 (POnePass 3 0 hash pka id 1); new_packet 11 (PLiteral 98 filename now data); new_packet 2 (PSig s)].
Proof.
  intros L F T R SF V LS off.
  eapply sequence_new; [reflexivity|reflexivity| | | |intros n; eapply sequence_new; [reflexivity|reflexivity| | | |intros n'; eapply sequence_new; [reflexivity|reflexivity| | | |intros; exact I]]].
  - rewrite !len_cons, len_app, L. cbn. lia.
  - cbn [fits]. auto.
  - intros h _. exact I.
  - cbn [raw]. rewrite !len_cons, !len_app, len_be. unfold readable_length in *. change (len [u8 (len filename)]) with 1 in *. lia.
  - cbn [fits]. split; [reflexivity|]. split; [exact F|exact T].
  - intros h _. exact I.
  - cbn [raw]. unfold readable_length. lia.
  - cbn [fits]. auto.
  - intros h _. cbn [placed]. rewrite V. discriminate.
Qed.
Lemma keyid_octets k id : get_keyid k = Ok id -> octets id.
Proof.
  unfold get_keyid, get_fingerprint. destruct (k_version k <? 4).
  - intros E. inv_bind E. apply substr_inv in E as [_ ->]. apply octets_firstn, octets_skipn, write_MPI_octets.
  - destruct (k_version k =? 4); [|discriminate]. intros E. inv_bind E. apply substr_inv in E as [_ ->]. apply octets_firstn, octets_skipn.
    now apply hash_use_octets in E0.
Qed.
Lemma land_255 l : N.land l 255 < 256.
Proof. change 255 with (N.ones 8). rewrite N.land_ones. now apply N.mod_lt. Qed.
Lemma new_write_octets tag c body w : raw c = Ok body -> octets body -> write (new_packet tag c) = Ok w -> octets w.
Proof.
  intros R O. unfold write, new_packet. cbn [p_body p_tag p_format p_partial]. rewrite R. cbn [bind].
  replace (if can_have_partial_length tag then NOT_PARTIAL else NOT_PARTIAL) with NOT_PARTIAL by now destruct (can_have_partial_length tag).
  cbn [write_new_length]. intros H. apply Ok_inj in H. subst w. unfold write_new_plain. cbv zeta.
  assert (U : forall x, octet (u8 x)) by (intros x; unfold octet, u8; now apply N.mod_lt).
  assert (L : forall x, octet (N.land x 255)) by (intros x; apply land_255).
  repeat match goal with |- context [if ?b then _ else _] => destruct b end;
    repeat (apply Forall_cons; [first [apply U|apply L|unfold octet; lia]|]); try exact O.
Qed.
