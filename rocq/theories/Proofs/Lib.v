(** General lemmas about the base vocabulary. *)
From Coq Require Export ZifyBool ZifyNat ZifyN.
From Verif Require Export Model.Base Spec.Bytes.
#[global] Ltac Zify.zify_post_hook ::= Z.div_mod_to_equations.

Lemma len_nil : len [] = 0. Proof. reflexivity. Qed.
Lemma len_cons x s : len (x :: s) = 1 + len s.
Proof. unfold len; cbn [length]; lia. Qed.
Lemma len_app a b : len (a ++ b) = len a + len b.
Proof. unfold len; rewrite app_length; lia. Qed.
Lemma len_repeat x n : len (repeat x n) = N.of_nat n.
Proof. unfold len; now rewrite repeat_length. Qed.
Lemma len_firstn n (s : bytes) : len (firstn n s) = N.min (N.of_nat n) (len s).
Proof. unfold len; rewrite firstn_length; lia. Qed.
Lemma len_skipn n (s : bytes) : len (skipn n s) = len s - N.of_nat n.
Proof. unfold len; rewrite skipn_length; lia. Qed.
Lemma len_0 s : len s = 0 -> s = [].
Proof. destruct s; auto; rewrite len_cons; lia. Qed.
Lemma len_nat s : N.to_nat (len s) = length s.
Proof. unfold len; lia. Qed.
Lemma len_rev s : len (rev s) = len s.
Proof. unfold len; now rewrite rev_length. Qed.

#[global] Hint Rewrite len_nil len_cons len_app len_repeat len_rev : len.

Lemma octets_nil : octets []. Proof. constructor. Qed.
Lemma octets_cons x s : octets (x :: s) <-> x < 256 /\ octets s.
Proof. split; [inversion 1; auto | intros []; constructor; auto]. Qed.
Lemma octets_app a b : octets (a ++ b) <-> octets a /\ octets b.
Proof. apply Forall_app. Qed.
Lemma octets_firstn n s : octets s -> octets (firstn n s).
Proof.
  revert s; induction n; intros [|x s] H; cbn; try constructor; auto.
  - inversion H; auto.
  - inversion H; apply IHn; auto.
Qed.
Lemma octets_skipn n s : octets s -> octets (skipn n s).
Proof.
  revert s; induction n; intros [|x s] H; cbn; auto.
  apply IHn; inversion H; auto.
Qed.
Lemma octets_repeat x n : x < 256 -> octets (repeat x n).
Proof. intros; induction n; cbn; constructor; auto. Qed.
Lemma octets_rev s : octets s -> octets (rev s).
Proof. unfold octets; apply Forall_rev. Qed.
Lemma octetsb_spec s : octetsb s = true <-> octets s.
Proof.
  unfold octetsb, octets; rewrite forallb_forall, Forall_forall.
  split; intros H x Hx; specialize (H x Hx); lia.
Qed.

Lemma beq_eq a b : beq a b = true <-> a = b.
Proof.
  revert b; induction a as [|x a IH]; intros [|y b]; cbn; split; intros H; try easy.
  - apply andb_true_iff in H as [H1 H2]. apply IH in H2. f_equal; [lia|assumption].
  - injection H as -> ->. rewrite N.eqb_refl. cbn. now apply IH.
Qed.
Lemma beq_refl a : beq a a = true. Proof. now apply beq_eq. Qed.
Lemma beq_neq a b : beq a b = false <-> a <> b.
Proof. rewrite <- beq_eq. destruct (beq a b); split; congruence. Qed.

Lemma at_lt s p : p < len s -> exists c, at_ s p = Ok c /\ nth_error s (N.to_nat p) = Some c.
Proof.
  intros H. unfold at_. replace (p <? len s) with true by lia.
  destruct (nth_error s (N.to_nat p)) eqn:E; eauto.
  apply nth_error_None in E. unfold len in H; lia.
Qed.

Lemma at_ok s p : p <= len s -> exists c, at_ s p = Ok c.
Proof.
  intros H. destruct (N.eq_dec p (len s)) as [->|].
  - exists 0. unfold at_. now rewrite N.ltb_irrefl, N.eqb_refl.
  - destruct (at_lt s p) as (c & ? & _); [lia|]; eauto.
Qed.

Lemma at_app pre x post p : p = len pre -> at_ (pre ++ x :: post) p = Ok x.
Proof.
  intros ->. unfold at_. rewrite len_app, len_cons.
  replace (len pre <? len pre + (1 + len post)) with true by lia.
  rewrite len_nat, nth_error_app2 by lia. now rewrite Nat.sub_diag.
Qed.

Lemma at_octet s p c : octets s -> at_ s p = Ok c -> c < 256.
Proof.
  unfold at_. intros Ho. destruct (p <? len s).
  - destruct (nth_error s (N.to_nat p)) eqn:E; try discriminate.
    intros [= <-]. apply nth_error_In in E. unfold octets in Ho; rewrite Forall_forall in Ho; apply Ho; auto.
  - destruct (p =? len s); [intros [= <-]; lia | discriminate].
Qed.

Lemma at_UB s p : at_ s p = UB <-> len s < p.
Proof.
  destruct (N.lt_ge_cases (len s) p) as [H|H].
  - split; auto; intros _. unfold at_.
    replace (p <? len s) with false by lia. now replace (p =? len s) with false by lia.
  - destruct (at_ok s p H) as [c ->]. split; [discriminate | lia].
Qed.

Lemma at_cases s p : (exists c, at_ s p = Ok c) \/ at_ s p = UB.
Proof.
  destruct (N.lt_ge_cases (len s) p).
  - right; now apply at_UB.
  - left; now apply at_ok.
Qed.

Lemma substr_app pre x post p n :
  p = len pre -> n = len x -> substr (pre ++ x ++ post) p n = Ok x.
Proof.
  intros -> ->. unfold substr. rewrite !len_app.
  replace (len pre + (len x + len post) <? len pre) with false by lia.
  rewrite N.min_l by lia.
  rewrite !len_nat, skipn_app, skipn_all, Nat.sub_diag. cbn [app skipn].
  rewrite firstn_app, firstn_all, Nat.sub_diag. cbn. now rewrite app_nil_r.
Qed.

Lemma substr_app_end pre x p n :
  p = len pre -> len x <= n -> substr (pre ++ x) p n = Ok x.
Proof.
  intros -> H. unfold substr. rewrite !len_app.
  replace (len pre + len x <? len pre) with false by lia.
  rewrite N.min_r by lia. replace (len pre + len x - len pre) with (len x) by lia.
  rewrite !len_nat, skipn_app, skipn_all, Nat.sub_diag. cbn [app skipn].
  now rewrite firstn_all.
Qed.

Lemma substr_ok s p n : p <= len s -> exists x, substr s p n = Ok x.
Proof. intros. unfold substr. replace (len s <? p) with false by lia. eauto. Qed.

Lemma substr_throw s p n : len s < p -> substr s p n = Throw EOutOfRange.
Proof. intros. unfold substr. now replace (len s <? p) with true by lia. Qed.

Lemma substr_inv s p n x : substr s p n = Ok x ->
  p <= len s /\ x = firstn (N.to_nat (N.min n (len s - p))) (skipn (N.to_nat p) s).
Proof.
  unfold substr. destruct (len s <? p) eqn:E; [discriminate|]. intros [= <-]. split; auto. lia.
Qed.

Lemma substr_len s p n x : substr s p n = Ok x -> len x = N.min n (len s - p).
Proof.
  intros H; apply substr_inv in H as [H ->]. rewrite len_firstn, len_skipn. lia.
Qed.

Lemma substr_octets s p n x : octets s -> substr s p n = Ok x -> octets x.
Proof.
  intros Ho H; apply substr_inv in H as [_ ->]. now apply octets_firstn, octets_skipn.
Qed.

Lemma substr_split s p n x : substr s p n = Ok x -> p + n <= len s ->
  exists pre post, s = pre ++ x ++ post /\ len pre = p /\ len x = n.
Proof.
  intros H Hl. pose proof (substr_len _ _ _ _ H) as L.
  apply substr_inv in H as [H ->].
  exists (firstn (N.to_nat p) s), (skipn (N.to_nat n) (skipn (N.to_nat p) s)).
  rewrite N.min_l in * by lia. repeat split; auto.
  - now rewrite firstn_skipn, firstn_skipn.
  - rewrite len_firstn. lia.
Qed.

Lemma prefix_app a b n : n = len a -> prefix (a ++ b) n = a.
Proof.
  intros ->. unfold prefix. rewrite len_app, N.min_l, len_nat by lia.
  rewrite firstn_app, firstn_all, Nat.sub_diag. cbn. now rewrite app_nil_r.
Qed.
Lemma prefix_substr s n : substr s 0 n = Ok (prefix s n).
Proof. unfold substr, prefix. destruct (len s) eqn:E; cbn; now rewrite ?N.sub_0_r. Qed.
Lemma prefix_all s n : len s <= n -> prefix s n = s.
Proof. intros; unfold prefix. now rewrite N.min_r, len_nat, firstn_all by lia. Qed.
Lemma len_prefix s n : len (prefix s n) = N.min n (len s).
Proof. unfold prefix. rewrite len_firstn. lia. Qed.

Lemma split_at (s : bytes) p : p <= len s ->
  exists pre post, s = pre ++ post /\ len pre = p.
Proof.
  intros. exists (firstn (N.to_nat p) s), (skipn (N.to_nat p) s).
  rewrite firstn_skipn. split; auto. rewrite len_firstn. lia.
Qed.

Lemma bind_ok {A B} (m : result A) (f : A -> result B) b :
  bind m f = Ok b -> exists a, m = Ok a /\ f a = Ok b.
Proof. destruct m; cbn; intros; try discriminate; eauto. Qed.

(** Invert a successful bind in a hypothesis. *)
Ltac inv_bind H :=
  let a := fresh "a" in let E := fresh "E" in
  apply bind_ok in H; destruct H as (a & E & H).


Lemma safe_bind {A B} (m : result A) (f : A -> result B) :
  safe m -> (forall a, m = Ok a -> safe (f a)) -> safe (bind m f).
Proof. destruct m; cbn; auto. Qed.
Lemma safe_substr s p n : safe (substr s p n).
Proof. unfold substr; destruct (_ <? _); exact I. Qed.
Lemma safe_at s p : p <= len s -> safe (at_ s p).
Proof. intros H; destruct (at_ok s p H) as [c ->]; exact I. Qed.

Lemma firstn_len_app {A} (a b : list A) n : n = length a -> firstn n (a ++ b) = a.
Proof. intros ->. rewrite firstn_app, firstn_all, Nat.sub_diag. cbn. apply app_nil_r. Qed.
Lemma skipn_len_app {A} (a b : list A) n : n = length a -> skipn n (a ++ b) = b.
Proof. intros ->. rewrite skipn_app, skipn_all, Nat.sub_diag. reflexivity. Qed.

(** Bit-level facts. *)
Lemma land_ones_mod a n : N.land a (N.ones n) = a mod 2 ^ n.
Proof. apply N.land_ones. Qed.

Lemma lor_shiftl_add a b n : b < 2 ^ n -> N.lor (N.shiftl a n) b = a * 2 ^ n + b.
Proof.
  intros H. rewrite <- N.shiftl_mul_pow2.
  assert (E : N.land (N.shiftl a n) b = 0).
  { apply N.bits_inj_0. intros m. rewrite N.land_spec.
    destruct (N.lt_ge_cases m n).
    - rewrite N.shiftl_spec_low; auto.
    - destruct (N.eq_dec b 0) as [->|]; [now rewrite N.bits_0, andb_false_r|].
      rewrite (N.bits_above_log2 b m); [apply andb_false_r|].
      apply N.lt_le_trans with n; auto. apply N.log2_lt_pow2; lia. }
  rewrite <- N.lxor_lor by auto. now rewrite <- N.add_nocarry_lxor by auto.
Qed.

(** Big-endian encodings. *)
Lemma be_length n v : length (be n v) = n.
Proof. induction n; cbn; auto. Qed.
Lemma len_be n v : len (be n v) = N.of_nat n.
Proof. unfold len; now rewrite be_length. Qed.
#[global] Hint Rewrite len_be : len.
Lemma be_octets n v : octets (be n v).
Proof. induction n; cbn [be]; constructor; auto. lia. Qed.
Lemma be_val_app a b : be_val (a ++ b) = be_val a * 256 ^ len b + be_val b.
Proof.
  induction a as [|x a IH]; cbn [be_val app]; [lia|].
  rewrite IH, app_length, Nat2N.inj_add, N.pow_add_r. unfold len. lia.
Qed.
Lemma be_val_bound s : octets s -> be_val s < 256 ^ len s.
Proof.
  induction s as [|x s IH]; intros H; cbn [be_val]; [reflexivity|].
  apply octets_cons in H as [Hx H]. specialize (IH H).
  rewrite len_cons, N.pow_add_r. fold (len s). change (256 ^ 1) with 256. nia.
Qed.
Lemma be_val_be n v : be_val (be n v) = v mod 256 ^ N.of_nat n.
Proof.
  induction n; cbn [be be_val]; [now rewrite N.mod_1_r|].
  rewrite IHn, be_length.
  assert (256 ^ N.of_nat n <> 0) by (apply N.pow_nonzero; lia).
  replace (N.of_nat (S n)) with (N.of_nat n + 1) by lia.
  rewrite N.pow_add_r. change (256 ^ 1) with 256.
  rewrite N.mod_mul_r by lia. lia.
Qed.
Lemma be_val_inj a b : octets a -> octets b -> len a = len b -> be_val a = be_val b -> a = b.
Proof.
  revert b; induction a as [|x a IH]; intros [|y b]; rewrite ?len_nil, ?len_cons;
    try lia; auto.
  intros Ha Hb L V. apply octets_cons in Ha as [Hx Ha]. apply octets_cons in Hb as [Hy Hb].
  assert (L' : len a = len b) by lia.
  pose proof (be_val_bound a Ha) as Ba. pose proof (be_val_bound b Hb) as Bb.
  cbn [be_val] in V. fold (len a) (len b) in V. rewrite L' in V, Ba.
  assert (x = y) by nia. subst. f_equal. apply IH; auto. nia.
Qed.
Lemma be_be_val s : octets s -> be (length s) (be_val s) = s.
Proof.
  intros H. apply be_val_inj; auto using be_octets.
  - apply len_be.
  - rewrite be_val_be. apply N.mod_small. now apply be_val_bound.
Qed.
Lemma be_S_r n v : be (S n) v = be n (v / 256) ++ [v mod 256].
Proof.
  apply be_val_inj.
  - apply be_octets.
  - apply octets_app; split; [apply be_octets | repeat constructor; lia].
  - autorewrite with len. lia.
  - rewrite be_val_app, !be_val_be. cbn [be_val length].
    replace (N.of_nat (S n)) with (1 + N.of_nat n) by lia.
    rewrite N.pow_add_r. change (256 ^ 1) with 256. change (len [v mod 256]) with 1.
    assert (256 ^ N.of_nat n <> 0) by (apply N.pow_nonzero; lia).
    rewrite N.mod_mul_r by (lia || auto). rewrite N.pow_1_r. cbn [N.of_nat]. rewrite N.pow_0_r. lia.
Qed.
Lemma be_inj n a b : a < 256 ^ N.of_nat n -> b < 256 ^ N.of_nat n -> be n a = be n b -> a = b.
Proof.
  intros Ha Hb H. apply (f_equal be_val) in H. rewrite !be_val_be in H.
  now rewrite !N.mod_small in H by auto.
Qed.

Lemma Ok_inj {A} (a b : A) : Ok a = Ok b -> a = b.
Proof. congruence. Qed.
Lemma sub64_small a b : b <= a -> a < two64 -> sub64 a b = a - b.
Proof.
  intros H K. unfold sub64. rewrite (N.mod_small b) by lia.
  replace (a + (two64 - b)) with (a - b + 1 * two64) by lia.
  rewrite N.mod_add by (unfold two64; lia). apply N.mod_small. lia.
Qed.
