(** The compression functions of the model are those of the standards. *)
From Verif Require Import Proofs.Lib Proofs.HashP.
From Verif Require Export Spec.HashStd.

(** Words. *)
Lemma lxor_fits a b w : a < 2 ^ w -> b < 2 ^ w -> N.lxor a b < 2 ^ w.
Proof.
  intros A B. destruct (N.eq_dec (N.lxor a b) 0) as [->|Z]; [apply N.neq_0_lt_0, N.pow_nonzero; discriminate|].
  apply N.log2_lt_pow2; [lia|]. eapply N.le_lt_trans; [apply N.log2_lxor|].
  assert (X : forall c, c < 2 ^ w -> N.log2 c < w \/ c = 0).
  { intros c C. destruct (N.eq_dec c 0); [auto|]. left. apply N.log2_lt_pow2; lia. }
  destruct (X a A) as [?| ->], (X b B) as [?| ->]; cbn [N.log2] in *; try lia. now cbn in Z.
Qed.
Lemma rotr_sum w n x : n <= w -> rotr w n x = x / 2 ^ n + (x mod 2 ^ n) * 2 ^ (w - n).
Proof.
  intros H. unfold rotr. f_equal. replace (2 ^ w) with (2 ^ n * 2 ^ (w - n)) by (rewrite <- N.pow_add_r; f_equal; lia).
  apply N.mul_mod_distr_r; apply N.pow_nonzero; discriminate.
Qed.
Lemma div_pow_lt w n x : n <= w -> x < 2 ^ w -> x / 2 ^ n < 2 ^ (w - n).
Proof.
  intros H X. apply N.div_lt_upper_bound; [apply N.pow_nonzero; discriminate|]. rewrite <- N.pow_add_r. replace (n + (w - n)) with w by lia. exact X.
Qed.
Lemma rotr_fits w n x : n <= w -> x < 2 ^ w -> rotr w n x < 2 ^ w.
Proof.
  intros H X. rewrite rotr_sum by exact H. pose proof (div_pow_lt w n x H X) as A.
  assert (B : x mod 2 ^ n < 2 ^ n) by (apply N.mod_lt, N.pow_nonzero; discriminate).
  replace (2 ^ w) with (2 ^ n * 2 ^ (w - n)) by (rewrite <- N.pow_add_r; f_equal; lia). nia.
Qed.
Lemma rotl_rotr w n x : n <= w -> rotl w n x = rotr w (w - n) x.
Proof. intros H. unfold rotl, rotr. replace (w - (w - n)) with n by lia. apply N.add_comm. Qed.
Lemma rotl_fits w n x : n <= w -> x < 2 ^ w -> rotl w n x < 2 ^ w.
Proof. intros H X. rewrite rotl_rotr by exact H. apply rotr_fits; [lia|exact X]. Qed.
Lemma ror_rotr w n x : n <= w -> x < 2 ^ w -> ror_bits x n w = rotr w n x.
Proof.
  intros H X. rewrite rotr_sum by exact H. unfold ror_bits. rewrite N.lor_comm, N.land_ones, N.shiftr_div_pow2.
  rewrite lor_shiftl_add by now apply div_pow_lt. apply N.add_comm.
Qed.
Lemma ror32_std n x : n <= 32 -> x < 2 ^ 32 -> ror32 x n = rotr 32 n x.
Proof. intros H X. unfold ror32. rewrite ror_rotr by assumption. apply N.mod_small. now apply rotr_fits. Qed.
Lemma ror64_std n x : n <= 64 -> x < 2 ^ 64 -> ror64 x n = rotr 64 n x.
Proof. intros H X. unfold ror64. rewrite ror_rotr by assumption. apply N.mod_small. now apply rotr_fits. Qed.
Lemma rol32_std n x : n <= 32 -> x < 2 ^ 32 -> rol32 x n = rotl 32 n x.
Proof. intros H X. unfold rol32. rewrite ror32_std by (assumption || lia). now rewrite rotl_rotr. Qed.
Lemma cpl_fits w x : cpl w x < 2 ^ w.
Proof. unfold cpl. assert (2 ^ w <> 0) by (apply N.pow_nonzero; discriminate). lia. Qed.
Lemma lxor_ones w x : x < 2 ^ w -> N.lxor x (N.ones w) = cpl w x.
Proof.
  intros X. unfold cpl. change (N.lxor x (N.ones w)) with (N.lnot x w). destruct (N.eq_dec x 0) as [->|Z].
  - rewrite N.lnot_0_l. rewrite N.ones_equiv. lia.
  - rewrite N.lnot_sub_low by (apply N.log2_lt_pow2; lia). rewrite N.ones_equiv. lia.
Qed.
Lemma not32_std x : x < 2 ^ 32 -> not32 x = cpl 32 x. Proof. apply (lxor_ones 32). Qed.
Lemma not64_std x : x < 2 ^ 64 -> not64 x = cpl 64 x. Proof. apply (lxor_ones 64). Qed.
Lemma testbit_high x w i : x < 2 ^ w -> w <= i -> N.testbit x i = false.
Proof.
  intros X I. destruct (N.eq_dec x 0) as [->|Z]; [apply N.bits_0|]. apply N.bits_above_log2.
  apply N.lt_le_trans with w; [|exact I]. apply N.log2_lt_pow2; lia.
Qed.
(** The 64-bit Ch on 32-bit words. *)
Lemma Ch_32 x y z : x < 2 ^ 32 -> z < 2 ^ 32 -> Ch x y z = ch 32 x y z.
Proof.
  intros X Z. unfold Ch, ch. f_equal. rewrite <- lxor_ones by exact X. unfold not64. change 0xffffffffffffffff with (N.ones 64).
  apply N.bits_inj. intros i. rewrite !N.land_spec, !N.lxor_spec. destruct (N.lt_ge_cases i 32) as [L|L].
  - now rewrite !N.ones_spec_low by lia.
  - now rewrite (testbit_high z 32 i Z L), !Bool.andb_false_r.
Qed.
Lemma Ch_64 x y z : x < 2 ^ 64 -> Ch x y z = ch 64 x y z.
Proof. intros X. unfold Ch, ch. now rewrite not64_std. Qed.
Lemma u32_sum a : u32 a = a mod 2 ^ 32. Proof. reflexivity. Qed.
Lemma u64_sum a : u64 a = a mod 2 ^ 64. Proof. reflexivity. Qed.
Lemma sum_fits w l : sum w l < 2 ^ w. Proof. apply N.mod_lt, N.pow_nonzero. discriminate. Qed.
Ltac sums := unfold sum; cbn [fold_right]; rewrite ?u32_sum, ?u64_sum; f_equal; lia.

(** Folds. *)
Lemma fold_map (A B C : Type) (f : A -> C -> A) (g : B -> C) : forall l s, fold_left f (map g l) s = fold_left (fun s x => f s (g x)) l s.
Proof. induction l; intros s; cbn; [reflexivity|apply IHl]. Qed.
Lemma fold_same (A B : Type) (P : A -> Prop) (f g : A -> B -> A) : forall l s, P s ->
  (forall s x, P s -> In x l -> f s x = g s x /\ P (g s x)) -> fold_left f l s = fold_left g l s /\ P (fold_left g l s).
Proof.
  induction l as [|x l IH]; intros s H F; cbn [fold_left]; [auto|]. destruct (F s x H (or_introl eq_refl)) as [-> G].
  apply IH; [exact G|]. intros t y T Y. apply F; [exact T|now right].
Qed.
Lemma combine_at (A : Type) (f : nat -> A) : forall (W : list N) k n, length W = n ->
  combine (map f (seq k n)) W = map (fun t => (f t, nth (t - k) W 0)) (seq k n).
Proof.
  intros W k n. revert W k. induction n as [|n IH]; intros W k L; [reflexivity|]. destruct W as [|x W]; [discriminate|].
  cbn [seq map combine]. rewrite Nat.sub_diag. f_equal. rewrite IH by (cbn in L; lia). apply map_ext_in. intros t T. apply in_seq in T.
  f_equal. replace (t - k)%nat with (S (t - S k)) by lia. reflexivity.
Qed.

(** Contexts. *)
Definition fits (w : N) (l : list N) : Prop := Forall (fun x => x < 2 ^ w) l.
Lemma fits4 w a b c d : fits w [a; b; c; d] <-> a < 2 ^ w /\ b < 2 ^ w /\ c < 2 ^ w /\ d < 2 ^ w.
Proof. unfold fits. rewrite !Forall_cons_iff. intuition constructor. Qed.
Lemma fits5 w a b c d e : fits w [a; b; c; d; e] <-> a < 2 ^ w /\ b < 2 ^ w /\ c < 2 ^ w /\ d < 2 ^ w /\ e < 2 ^ w.
Proof. unfold fits. rewrite !Forall_cons_iff. intuition constructor. Qed.
Lemma fits8 w a b c d e f g h : fits w [a; b; c; d; e; f; g; h] <->
  a < 2 ^ w /\ b < 2 ^ w /\ c < 2 ^ w /\ d < 2 ^ w /\ e < 2 ^ w /\ f < 2 ^ w /\ g < 2 ^ w /\ h < 2 ^ w.
Proof. unfold fits. rewrite !Forall_cons_iff. intuition constructor. Qed.
Lemma fits_at w l i : fits w l -> at_word l i < 2 ^ w.
Proof.
  intros F. unfold at_word. destruct (nth_in_or_default i l 0) as [I| ->]; [|apply N.neq_0_lt_0, N.pow_nonzero; discriminate].
  unfold fits in F. rewrite Forall_forall in F. auto.
Qed.

(** Schedules. *)
Lemma rev_at (W : list N) i t : length W = t -> (i < t)%nat -> idx (rev W) i = at_word W (t - S i).
Proof. intros L I. unfold idx, at_word. rewrite rev_nth by lia. now rewrite L. Qed.
Lemma sha1_schedule_length m n : length (sha1_schedule m n) = n.
Proof. induction n; [reflexivity|]. cbn [sha1_schedule]. rewrite app_length. cbn. lia. Qed.
Lemma sha2_schedule_length v m n : length (sha2_schedule v m n) = n.
Proof. induction n; [reflexivity|]. cbn [sha2_schedule]. rewrite app_length. cbn. lia. Qed.
Lemma sha1_schedule_fits m n : fits 32 m -> fits 32 (sha1_schedule m n).
Proof.
  intros M. induction n as [|t IH]; [constructor|]. cbn [sha1_schedule]. apply Forall_app. split; [exact IH|]. constructor; [|constructor].
  destruct (t <? 16)%nat; [now apply fits_at|]. apply rotl_fits; [lia|]. unfold xor3. repeat apply lxor_fits; now apply fits_at.
Qed.
Lemma sha2_schedule_fits v m n : fits (v_w v) m -> fits (v_w v) (sha2_schedule v m n).
Proof.
  intros M. induction n as [|t IH]; [constructor|]. cbn [sha2_schedule]. apply Forall_app. split; [exact IH|]. constructor; [|constructor].
  destruct (t <? 16)%nat; [now apply fits_at|]. apply sum_fits.
Qed.
Lemma first_words (f : nat -> list N) m : (forall t, f (S t) = f t ++ [at_word m t] \/ (16 <= t)%nat) -> f 0%nat = [] -> length m = 16%nat -> f 16%nat = m.
Proof.
  intros S Z L. assert (G : forall t, (t <= 16)%nat -> f t = firstn t m).
  { induction t as [|t IH]; intros T; [exact Z|]. destruct (S t) as [->|]; [|lia]. rewrite IH by lia. unfold at_word.
    clear - L T. revert m L. generalize 16%nat T. clear T. intros n T m L. revert n m T L. induction t as [|t IH]; intros n m T L; destruct m as [|x m]; cbn in *; try lia; [reflexivity|].
    f_equal. apply (IH (n - 1)%nat); lia. }
  rewrite G by lia. rewrite <- L. apply firstn_all.
Qed.
Lemma sha1_schedule_16 m : length m = 16%nat -> sha1_schedule m 16 = m.
Proof.
  intros L. apply (first_words (sha1_schedule m)); [|reflexivity|exact L]. intros t. destruct (Nat.lt_ge_cases t 16) as [T|T]; [left|now right].
  cbn [sha1_schedule]. now rewrite (proj2 (Nat.ltb_lt t 16) T).
Qed.
Lemma sha2_schedule_16 v m : length m = 16%nat -> sha2_schedule v m 16 = m.
Proof.
  intros L. apply (first_words (sha2_schedule v m)); [|reflexivity|exact L]. intros t. destruct (Nat.lt_ge_cases t 16) as [T|T]; [left|now right].
  cbn [sha2_schedule]. now rewrite (proj2 (Nat.ltb_lt t 16) T).
Qed.
Lemma sha1_ext_std m : fits 32 m -> forall n t, (16 <= t)%nat -> sha1_ext n (rev (sha1_schedule m t)) = rev (sha1_schedule m (t + n)).
Proof.
  intros M. induction n as [|n IH]; intros t T; cbn [sha1_ext]; [now rewrite Nat.add_0_r|].
  rewrite !(rev_at _ _ t) by (apply sha1_schedule_length || lia).
  rewrite <- Nat.add_succ_comm, <- IH by lia. f_equal. cbn [sha1_schedule]. rewrite rev_app_distr. cbn [rev app]. f_equal.
  rewrite (proj2 (Nat.ltb_ge t 16) T). pose proof (sha1_schedule_fits m t M) as F.
  rewrite rol32_std; [reflexivity|lia|]. repeat apply lxor_fits; now apply fits_at.
Qed.

(** SHA-1. *)
Lemma sha1_f_std j b c d : b < 2 ^ 32 -> c < 2 ^ 32 -> d < 2 ^ 32 -> (j < 80)%nat -> sha1_f j b c d = (sha1_function j b c d, sha1_constant j).
Proof.
  intros B C D J. unfold sha1_f, sha1_function, sha1_constant.
  change (j <=? 19)%nat with (j <? 20)%nat. change (j <=? 39)%nat with (j <? 40)%nat. change (j <=? 59)%nat with (j <? 60)%nat.
  assert (E : N.sqrt (2 * 2 ^ 60) = 0x5A827999 /\ N.sqrt (3 * 2 ^ 60) = 0x6ED9EBA1 /\ N.sqrt (5 * 2 ^ 60) = 0x8F1BBCDC /\ N.sqrt (10 * 2 ^ 60) = 0xCA62C1D6) by (repeat split; reflexivity).
  destruct E as (-> & -> & -> & ->).
  destruct (j <? 20)%nat; [f_equal|destruct (j <? 40)%nat; [reflexivity|destruct (j <? 60)%nat; [f_equal|reflexivity]]].
  - rewrite not32_std by exact B. unfold ch. rewrite <- lxor_ones by exact B.
    apply N.bits_inj. intros i. rewrite N.lor_spec, N.lxor_spec, !N.land_spec, N.lxor_spec.
    destruct (N.lt_ge_cases i 32) as [L|L].
    + rewrite N.ones_spec_low by lia. now destruct (N.testbit b i), (N.testbit c i), (N.testbit d i).
    + now rewrite (testbit_high b 32 i B L), (testbit_high d 32 i D L), !Bool.andb_false_r.
  - unfold maj, xor3. apply N.bits_inj. intros i. rewrite !N.lor_spec, !N.lxor_spec, !N.land_spec. now destruct (N.testbit b i), (N.testbit c i), (N.testbit d i).
Qed.

Lemma tuple5 {A} (a b c d e a' b' c' d' e' : A) : a = a' -> b = b' -> c = c' -> d = d' -> e = e' -> (a, b, c, d, e) = (a', b', c', d', e').
Proof. congruence. Qed.
Lemma tuple8 {A} (a b c d e f g h a' b' c' d' e' f' g' h' : A) : a = a' -> b = b' -> c = c' -> d = d' -> e = e' -> f = f' -> g = g' -> h = h' ->
  (a, b, c, d, e, f, g, h) = (a', b', c', d', e', f', g', h').
Proof. congruence. Qed.
Lemma sha1_block_std H m : fits 32 (list5 H) -> fits 32 m -> length m = 16%nat ->
  sha1_block H m = sha1_std_block H m /\ fits 32 (list5 (sha1_std_block H m)).
Proof.
  intros FH M L. destruct H as [[[[h0 h1] h2] h3] h4]. unfold sha1_block, sha1_std_block. cbv zeta.
  rewrite <- (sha1_schedule_16 m L) at 1. rewrite sha1_ext_std by (assumption || lia). rewrite rev_involutive. change (16 + 64)%nat with 80%nat.
  rewrite <- (map_id (seq 0 80)) at 1. rewrite combine_at by apply sha1_schedule_length. rewrite fold_map.
  pose proof (sha1_schedule_fits m 80 M) as FW. set (W := sha1_schedule m 80) in *.
  set (std := sha1_step W).
  destruct (fold_same _ _ (fun s => fits 32 (list5 s)) (fun s t => sha1_round s (t, nth (t - 0) W 0)) std (seq 0 80) (h0, h1, h2, h3, h4) FH) as [E F].
  { intros [[[[a b] c] d] e] t P I. apply in_seq in I. cbn [list5] in P. apply fits5 in P as (Pa & Pb & Pc & Pd & Pe).
    unfold std, sha1_step, sha1_round. rewrite sha1_f_std by (assumption || lia). rewrite !rol32_std by (assumption || lia). rewrite Nat.sub_0_r.
    split; [apply tuple5; [unfold at_word; sums|reflexivity..]|]. cbn [list5]. apply fits5.
    repeat split; auto using sum_fits. apply rotl_fits; [lia|assumption]. }
  rewrite E. clear E. destruct (fold_left std (seq 0 80) (h0, h1, h2, h3, h4)) as [[[[a b] c] d] e].
  split; [|cbn [list5]; apply fits5; repeat apply conj; apply sum_fits]. apply tuple5; sums.
Qed.

(** SHA-2. *)
Definition ext_of (w : N) (s0 s1 : N -> N) : nat -> list N -> list N :=
  fix go n r := match n with O => r | S n' => go n' ((s1 (idx r 1) + idx r 6 + s0 (idx r 14) + idx r 15) mod 2 ^ w :: r) end.
Lemma ext_std v s0 s1 m : (forall x, x < 2 ^ v_w v -> s0 x = v_sigma0 v x) -> (forall x, x < 2 ^ v_w v -> s1 x = v_sigma1 v x) -> fits (v_w v) m ->
  forall n t, (16 <= t)%nat -> ext_of (v_w v) s0 s1 n (rev (sha2_schedule v m t)) = rev (sha2_schedule v m (t + n)).
Proof.
  intros S0 S1 M. induction n as [|n IH]; intros t T; cbn [ext_of]; [now rewrite Nat.add_0_r|]. fold (ext_of (v_w v) s0 s1).
  rewrite !(rev_at _ _ t) by (apply sha2_schedule_length || lia). pose proof (sha2_schedule_fits v m t M) as F.
  rewrite S0, S1 by now apply fits_at.
  rewrite <- Nat.add_succ_comm, <- IH by lia. f_equal. cbn [sha2_schedule]. rewrite rev_app_distr. cbn [rev app]. f_equal.
  rewrite (proj2 (Nat.ltb_ge t 16) T). unfold sum. cbn [fold_right]. f_equal. lia.
Qed.
Lemma cbrt_from_spec : forall i r x, r ^ 3 <= x -> x < (r + 2 ^ N.of_nat i) ^ 3 -> let c := cbrt_from i r x in c ^ 3 <= x < (c + 1) ^ 3.
Proof.
  induction i as [|i IH]; intros r x A B; cbn [cbrt_from].
  - cbn in B. auto.
  - rewrite Nat2N.inj_succ, N.pow_succ_r' in B. destruct (_ <=? x) eqn:E.
    + apply IH; [lia|]. replace (r + 2 ^ N.of_nat i + 2 ^ N.of_nat i) with (r + 2 * 2 ^ N.of_nat i) by lia. exact B.
    + apply IH; [exact A|]. apply N.leb_gt in E. exact E.
Qed.
Lemma cbrt_spec x : cbrt x ^ 3 <= x < (cbrt x + 1) ^ 3.
Proof.
  apply cbrt_from_spec; [cbn; lia|]. rewrite N2Nat.id, N.add_0_l. pose proof (N.size_gt x) as S. set (y := 2 ^ N.size x) in *.
  assert (1 <= y) by lia. change 3 with (N.succ (N.succ 1)). rewrite !N.pow_succ_r', N.pow_1_r. nia.
Qed.
Lemma cbrt_unique x c : c ^ 3 <= x -> x < (c + 1) ^ 3 -> cbrt x = c.
Proof.
  intros A B. destruct (cbrt_spec x) as [C D].
  assert (M : forall a b, a < b -> (a + 1) ^ 3 <= b ^ 3) by (intros; apply N.pow_le_mono_l; lia).
  destruct (N.lt_trichotomy (cbrt x) c) as [H|[H|H]]; [|exact H|]; apply M in H; lia.
Qed.
(** The constants, each checked by cubing. *)
Definition is_fraction (w p k : N) : bool :=
  let c := cbrt p * 2 ^ w + k in (c ^ 3 <=? p * 2 ^ (3 * w)) && (p * 2 ^ (3 * w) <? (c + 1) ^ 3) && (k <? 2 ^ w).
Lemma is_fraction_spec w p k : is_fraction w p k = true -> cbrt_fraction w p = k.
Proof.
  unfold is_fraction, cbrt_fraction. intros H. apply andb_prop in H as [H K]. apply andb_prop in H as [A B].
  rewrite (cbrt_unique _ (cbrt p * 2 ^ w + k)) by lia. assert (2 ^ w <> 0) by (apply N.pow_nonzero; discriminate).
  rewrite N.add_comm, N.mod_add by assumption. apply N.mod_small. lia.
Qed.
Lemma constants w n : forall (K : list N) l, length K = n -> length l = n -> forallb (fun x => is_fraction w (snd x) (fst x)) (combine K l) = true ->
  K = map (cbrt_fraction w) l.
Proof.
  induction n as [|n IH]; intros [|k K] [|p l] LK LL H; try discriminate; [reflexivity|]. cbn [combine forallb fst snd] in H.
  apply andb_prop in H as [A B]. cbn [map]. rewrite (is_fraction_spec _ _ _ A). f_equal. apply IH; auto.
Qed.
Lemma K_256 : SHA256_K = map (sha2_constant v256) (seq 0 64).
Proof.
  rewrite (constants 32 64 SHA256_K (firstn 64 primes)); [|reflexivity..|vm_compute; reflexivity].
  unfold sha2_constant. rewrite <- (map_map (at_word primes) (cbrt_fraction (v_w v256))). f_equal.
Qed.
Lemma K_512 : SHA512_K = map (sha2_constant v512) (seq 0 80).
Proof.
  rewrite (constants 64 80 SHA512_K primes); [|reflexivity..|vm_compute; reflexivity].
  unfold sha2_constant. rewrite <- (map_map (at_word primes) (cbrt_fraction (v_w v512))). f_equal.
Qed.
Lemma sigmas_256 x : x < 2 ^ 32 -> S0_256 x = v_Sigma0 v256 x /\ S1_256 x = v_Sigma1 v256 x /\ s0_256 x = v_sigma0 v256 x /\ s1_256 x = v_sigma1 v256 x.
Proof.
  intros X. unfold S0_256, S1_256, s0_256, s1_256, v256. cbn [v_Sigma0 v_Sigma1 v_sigma0 v_sigma1]. unfold xor3, shr.
  rewrite !ror32_std by (assumption || lia). rewrite !N.shiftr_div_pow2. auto.
Qed.
Lemma sigmas_512 x : x < 2 ^ 64 -> S0_512 x = v_Sigma0 v512 x /\ S1_512 x = v_Sigma1 v512 x /\ s0_512 x = v_sigma0 v512 x /\ s1_512 x = v_sigma1 v512 x.
Proof.
  intros X. unfold S0_512, S1_512, s0_512, s1_512, v512. cbn [v_Sigma0 v_Sigma1 v_sigma0 v_sigma1]. unfold xor3, shr.
  rewrite !ror64_std by (assumption || lia). rewrite !N.shiftr_div_pow2. auto.
Qed.
Lemma ext_256 : forall n r, sha256_ext n r = ext_of (v_w v256) s0_256 s1_256 n r.
Proof. induction n as [|n IH]; intros r; [reflexivity|]. cbn [sha256_ext ext_of]. fold (ext_of (v_w v256) s0_256 s1_256). rewrite IH. reflexivity. Qed.
Lemma sha256_block_std H m : fits 32 (list8 H) -> fits 32 m -> length m = 16%nat ->
  sha256_block H m = sha2_std_block v256 H m /\ fits 32 (list8 (sha2_std_block v256 H m)).
Proof.
  intros FH M L. destruct H as [[[[[[[h0 h1] h2] h3] h4] h5] h6] h7]. unfold sha256_block, sha2_std_block. cbv zeta.
  change (v_w v256) with 32. change (v_rounds v256) with 64%nat.
  assert (X : sha256_ext 48 (rev m) = rev (sha2_schedule v256 m 64)).
  { rewrite <- (sha2_schedule_16 v256 m L) at 1. rewrite ext_256. change 64%nat with (16 + 48)%nat.
    apply (ext_std v256 s0_256 s1_256 m) with (t := 16%nat); [..|lia]; [| |exact M]; intros x Hx; apply (sigmas_256 x Hx). }
  rewrite X, rev_involutive. clear X. rewrite K_256, combine_at by apply sha2_schedule_length. rewrite fold_map.
  pose proof (sha2_schedule_fits v256 m 64 M) as FW. set (W := sha2_schedule v256 m 64) in *.
  set (std := sha2_step v256 W).
  destruct (fold_same _ _ (fun s => fits 32 (list8 s)) (fun s t => sha256_round s (sha2_constant v256 t, nth (t - 0) W 0)) std (seq 0 64) (h0, h1, h2, h3, h4, h5, h6, h7) FH) as [E F].
  { intros [[[[[[[a b] c] d] e] f] g] h] t P I. cbn [list8] in P. apply fits8 in P as (Pa & Pb & Pc & Pd & Pe & Pf & Pg & Ph).
    unfold std, sha2_step, sha256_round. change (v_w v256) with 32. destruct (sigmas_256 a Pa) as (-> & _). destruct (sigmas_256 e Pe) as (_ & -> & _).
    rewrite Ch_32 by assumption. rewrite Nat.sub_0_r.
    split; [|cbn [list8]; apply fits8; repeat split; auto using sum_fits].
    assert (T1 : u32 (h + v_Sigma1 v256 e + ch 32 e f g + sha2_constant v256 t + nth t W 0) = sum 32 [h; v_Sigma1 v256 e; ch 32 e f g; sha2_constant v256 t; at_word W t]) by (unfold at_word; sums).
    rewrite T1. assert (T2 : u32 (v_Sigma0 v256 a + Maj a b c) = sum 32 [v_Sigma0 v256 a; maj a b c]) by (unfold Maj, maj, xor3; sums). rewrite T2.
    apply tuple8; try reflexivity; sums. }
  rewrite E. clear E. destruct (fold_left std (seq 0 64) _) as [[[[[[[a b] c] d] e] f] g] h].
  split; [|cbn [list8]; apply fits8; repeat apply conj; apply sum_fits]. apply tuple8; sums.
Qed.
Lemma ext_512 : forall n r, sha512_ext n r = ext_of (v_w v512) s0_512 s1_512 n r.
Proof. induction n as [|n IH]; intros r; [reflexivity|]. cbn [sha512_ext ext_of]. fold (ext_of (v_w v512) s0_512 s1_512). rewrite IH. reflexivity. Qed.
Lemma sha512_block_std H m : fits 64 (list8 H) -> fits 64 m -> length m = 16%nat ->
  sha512_block H m = sha2_std_block v512 H m /\ fits 64 (list8 (sha2_std_block v512 H m)).
Proof.
  intros FH M L. destruct H as [[[[[[[h0 h1] h2] h3] h4] h5] h6] h7]. unfold sha512_block, sha2_std_block. cbv zeta.
  change (v_w v512) with 64. change (v_rounds v512) with 80%nat.
  assert (X : sha512_ext 64 (rev m) = rev (sha2_schedule v512 m 80)).
  { rewrite <- (sha2_schedule_16 v512 m L) at 1. rewrite ext_512. change 80%nat with (16 + 64)%nat.
    apply (ext_std v512 s0_512 s1_512 m) with (t := 16%nat); [..|lia]; [| |exact M]; intros x Hx; apply (sigmas_512 x Hx). }
  rewrite X, rev_involutive. clear X. rewrite K_512, combine_at by apply sha2_schedule_length. rewrite fold_map.
  pose proof (sha2_schedule_fits v512 m 80 M) as FW. set (W := sha2_schedule v512 m 80) in *.
  set (std := sha2_step v512 W).
  destruct (fold_same _ _ (fun s => fits 64 (list8 s)) (fun s t => sha512_round s (sha2_constant v512 t, nth (t - 0) W 0)) std (seq 0 80) (h0, h1, h2, h3, h4, h5, h6, h7) FH) as [E F].
  { intros [[[[[[[a b] c] d] e] f] g] h] t P I. cbn [list8] in P. apply fits8 in P as (Pa & Pb & Pc & Pd & Pe & Pf & Pg & Ph).
    unfold std, sha2_step, sha512_round. change (v_w v512) with 64. destruct (sigmas_512 a Pa) as (-> & _). destruct (sigmas_512 e Pe) as (_ & -> & _).
    rewrite Ch_64 by assumption. rewrite Nat.sub_0_r.
    split; [|cbn [list8]; apply fits8; repeat split; auto using sum_fits].
    assert (T1 : u64 (h + v_Sigma1 v512 e + ch 64 e f g + sha2_constant v512 t + nth t W 0) = sum 64 [h; v_Sigma1 v512 e; ch 64 e f g; sha2_constant v512 t; at_word W t]) by (unfold at_word; sums).
    rewrite T1. assert (T2 : u64 (v_Sigma0 v512 a + Maj a b c) = sum 64 [v_Sigma0 v512 a; maj a b c]) by (unfold Maj, maj, xor3; sums). rewrite T2.
    apply tuple8; try reflexivity; sums. }
  rewrite E. clear E. destruct (fold_left std (seq 0 80) _) as [[[[[[[a b] c] d] e] f] g] h].
  split; [|cbn [list8]; apply fits8; repeat apply conj; apply sum_fits]. apply tuple8; sums.
Qed.

(** MD5. *)
Lemma u32_fits x : u32 x < 2 ^ 32. Proof. apply N.mod_lt. discriminate. Qed.
Lemma tuple4 {A} (a b c d a' b' c' d' : A) : a = a' -> b = b' -> c = c' -> d = d' -> (a, b, c, d) = (a', b', c', d').
Proof. congruence. Qed.
Lemma seq_shift_16 q : seq (16 * q) 16 = map (fun i => (16 * q + i)%nat) (seq 0 16).
Proof. cbn [seq map]. repeat (apply f_equal2; [lia|]). reflexivity. Qed.
Definition md5_row (q k0 dk : nat) (sh : list N) (t0 : nat) : bool :=
  forallb (fun i => (idx MD5_R (16 * q + i) =? at_word sh (i mod 4)) && (idx MD5_K (16 * q + i) =? at_word md5_T (t0 + i)) &&
                    (1 <=? at_word sh (i mod 4)) && (at_word sh (i mod 4) <=? 31)) (seq 0 16).
Lemma md5_round_std X F q k0 dk sh t0 R : md5_row q k0 dk sh t0 = true ->
  (forall i b c d, (i < 16)%nat -> b < 2 ^ 32 -> c < 2 ^ 32 -> d < 2 ^ 32 -> md5_f (16 * q + i) b c d = (F b c d, ((k0 + dk * i) mod 16)%nat)) ->
  fits 32 (list4 R) ->
  fold_left (md5_round X) (seq (16 * q) 16) R = md5_std_round X F k0 dk sh t0 R /\ fits 32 (list4 (md5_std_round X F k0 dk sh t0 R)).
Proof.
  intros T G FR. rewrite seq_shift_16, fold_map. unfold md5_std_round.
  apply (fold_same _ _ (fun s => fits 32 (list4 s)) (fun s i => md5_round X s (16 * q + i)%nat) (md5_step X F k0 dk sh t0) (seq 0 16) R FR).
  intros [[[a b] c] d] i P I. unfold md5_row in T. rewrite forallb_forall in T. specialize (T i I). apply in_seq in I.
  cbn [list4] in P. apply fits4 in P as (Pa & Pb & Pc & Pd).
  apply andb_prop in T as [T T4]. apply andb_prop in T as [T T3]. apply andb_prop in T as [T1 T2].
  apply N.eqb_eq in T1, T2. apply N.leb_le in T3, T4.
  unfold md5_round, md5_step. rewrite G by (assumption || lia). rewrite T1, T2. rewrite rol32_std; [|lia|apply u32_fits].
  split; [|cbn [list4]; apply fits4; repeat apply conj; auto using sum_fits].
  apply tuple4; try reflexivity.
  replace (u32 (a + F b c d + at_word md5_T (t0 + i) + idx X ((k0 + dk * i) mod 16)))
    with (sum 32 [a; F b c d; at_word X ((k0 + dk * i) mod 16); at_word md5_T (t0 + i)]) by (change idx with at_word; symmetry; sums).
  sums.
Qed.
Lemma md5_block_std H m : fits 32 (list4 H) -> md5_block H m = md5_std_block H m /\ fits 32 (list4 (md5_std_block H m)).
Proof.
  intros FH. destruct H as [[[h0 h1] h2] h3]. unfold md5_block, md5_std_block. cbv zeta.
  change (seq 0 64) with (seq (16 * 0) 16 ++ seq (16 * 1) 16 ++ seq (16 * 2) 16 ++ seq (16 * 3) 16). rewrite !fold_left_app.
  destruct (md5_round_std m md5_F 0 0 1 [7; 12; 17; 22] 0 (h0, h1, h2, h3) eq_refl) as [-> F1]; [|exact FH|].
  { intros i b c d I B C D. unfold md5_f, md5_F. change (16 * 0 + i)%nat with i. rewrite (proj2 (Nat.ltb_lt i 16)) by lia. rewrite not32_std by assumption.
    f_equal. symmetry. rewrite Nat.mul_1_l. now apply Nat.mod_small. }
  set (R1 := md5_std_round m md5_F _ _ _ _ _) in *. clearbody R1.
  destruct (md5_round_std m md5_G 1 1 5 [5; 9; 14; 20] 16 R1 eq_refl) as [-> F2]; [|exact F1|].
  { intros i b c d I B C D. unfold md5_f, md5_G. rewrite (proj2 (Nat.ltb_ge (16 * 1 + i) 16)), (proj2 (Nat.ltb_lt (16 * 1 + i) 32)) by lia. rewrite not32_std by assumption.
    f_equal; [f_equal; apply N.land_comm|]. replace (5 * (16 * 1 + i) + 1)%nat with (1 + 5 * i + 5 * 16)%nat by lia. now apply Nat.mod_add. }
  set (R2 := md5_std_round m md5_G _ _ _ _ _) in *. clearbody R2.
  destruct (md5_round_std m md5_H 2 5 3 [4; 11; 16; 23] 32 R2 eq_refl) as [-> F3]; [|exact F2|].
  { intros i b c d I B C D. unfold md5_f, md5_H, xor3. rewrite (proj2 (Nat.ltb_ge (16 * 2 + i) 16)), (proj2 (Nat.ltb_ge (16 * 2 + i) 32)), (proj2 (Nat.ltb_lt (16 * 2 + i) 48)) by lia.
    f_equal. replace (3 * (16 * 2 + i) + 5)%nat with (5 + 3 * i + 6 * 16)%nat by lia. now apply Nat.mod_add. }
  set (R3 := md5_std_round m md5_H _ _ _ _ _) in *. clearbody R3.
  destruct (md5_round_std m md5_I 3 0 7 [6; 10; 15; 21] 48 R3 eq_refl) as [-> F4]; [|exact F3|].
  { intros i b c d I B C D. unfold md5_f, md5_I. rewrite (proj2 (Nat.ltb_ge (16 * 3 + i) 16)), (proj2 (Nat.ltb_ge (16 * 3 + i) 32)), (proj2 (Nat.ltb_ge (16 * 3 + i) 48)) by lia. rewrite not32_std by assumption.
    f_equal. replace (7 * (16 * 3 + i))%nat with (0 + 7 * i + 21 * 16)%nat by lia. now apply Nat.mod_add. }
  destruct (md5_std_round m md5_I _ _ _ _ _) as [[[a b] c] d].
  split; [|cbn [list4]; apply fits4; repeat apply conj; apply sum_fits]. apply tuple4; sums.
Qed.

(** RIPEMD-160. *)
Lemma fold_pair (A B C : Type) (f : A -> C -> A) (g : B -> C -> B) : forall l a b,
  fold_left (fun p x => (f (fst p) x, g (snd p) x)) l (a, b) = (fold_left f l a, fold_left g l b).
Proof. induction l as [|x l IH]; intros a b; cbn [fold_left]; [reflexivity|apply IH]. Qed.
Definition rmd_model (w : list N) (f : nat -> N -> N -> N -> N) (k r s : nat -> N) (t : ripemd_ctx) (j : nat) : ripemd_ctx :=
  let '(a, b, c, d, e) := t in ripemd_step (f j b c d) (idx w (N.to_nat (r j))) (k j) (s j) t.
Definition rmd_table (R : nat -> nat) (r s : nat -> N) : bool :=
  forallb (fun j => (R j =? N.to_nat (r j))%nat && (s j =? rmd_shift j (R j)) && (1 <=? s j) && (s j <=? 31)) (seq 0 80).
Lemma rmd_line_std w f F k r s K R t : rmd_table R r s = true -> (forall j, (j < 80)%nat -> k j = K j) ->
  (forall j b c d, (j < 80)%nat -> b < 2 ^ 32 -> c < 2 ^ 32 -> d < 2 ^ 32 -> f j b c d = F j b c d) -> fits 32 (list5 t) ->
  fold_left (rmd_model w f k r s) (seq 0 80) t = rmd_line w F K R t /\ fits 32 (list5 (rmd_line w F K R t)).
Proof.
  intros T KK G FT. unfold rmd_line.
  apply (fold_same _ _ (fun s => fits 32 (list5 s)) (rmd_model w f k r s) (rmd_step w F K R) (seq 0 80) t FT).
  intros [[[[a b] c] d] e] j P I. unfold rmd_table in T. rewrite forallb_forall in T. specialize (T j I). apply in_seq in I.
  cbn [list5] in P. apply fits5 in P as (Pa & Pb & Pc & Pd & Pe).
  apply andb_prop in T as [T T5]. apply andb_prop in T as [T T4]. apply andb_prop in T as [T2 T3].
  apply N.eqb_eq in T3. apply Nat.eqb_eq in T2. assert (T1 := KK j ltac:(lia)). apply N.leb_le in T4, T5.
  unfold rmd_model, rmd_step, ripemd_step. rewrite G by (assumption || lia). rewrite !rol32_std by (lia || apply u32_fits || assumption).
  rewrite T1, <- T2, T3.
  split; [|cbn [list5]; apply fits5; repeat apply conj; auto using sum_fits; apply rotl_fits; [lia|assumption]].
  apply tuple5; try reflexivity.
  replace (u32 (a + F j b c d + idx w (R j) + K j)) with (sum 32 [a; F j b c d; at_word w (R j); K j]) by (change idx with at_word; symmetry; sums).
  sums.
Qed.
Lemma ripemd_F_std j b c d : (j < 80)%nat -> b < 2 ^ 32 -> c < 2 ^ 32 -> d < 2 ^ 32 -> ripemd_F b c d j = rmd_f j b c d.
Proof.
  intros J B C D. unfold ripemd_F, rmd_f, xor3. rewrite !not32_std by assumption.
  assert (E : (j / 16 = 0 /\ j < 16 \/ j / 16 = 1 /\ 16 <= j < 32 \/ j / 16 = 2 /\ 32 <= j < 48 \/ j / 16 = 3 /\ 48 <= j < 64 \/ j / 16 = 4 /\ 64 <= j)%nat).
  { pose proof (Nat.div_mod j 16). pose proof (Nat.mod_upper_bound j 16). lia. }
  destruct E as [[-> E]|[[-> E]|[[-> E]|[[-> E]|[-> E]]]]];
    repeat (first [rewrite (proj2 (Nat.ltb_lt j _)) by lia; reflexivity|rewrite (proj2 (Nat.ltb_ge j _)) by lia]); reflexivity.
Qed.
Lemma rmd_left_table : rmd_table rmd_left (idx RIPEMD_r) (idx RIPEMD_s) = true.
Proof. vm_compute. reflexivity. Qed.
Lemma rmd_right_table : rmd_table rmd_right (idx RIPEMD_R) (idx RIPEMD_S) = true.
Proof. vm_compute. reflexivity. Qed.
Lemma sixteenth j : (j < 80)%nat -> (j / 16 < 5)%nat.
Proof. intros J. apply Nat.div_lt_upper_bound; lia. Qed.
Lemma rmd_K_std j : (j < 80)%nat -> idx RIPEMD160_k (j / 16) = rmd_K j.
Proof. intros J. apply sixteenth in J. unfold rmd_K. destruct (j / 16)%nat as [|[|[|[|[|n]]]]]; [reflexivity..|lia]. Qed.
Lemma rmd_K'_std j : (j < 80)%nat -> idx RIPEMD160_K (j / 16) = rmd_K' j.
Proof.
  intros J. apply sixteenth in J. unfold rmd_K'.
  destruct (j / 16)%nat as [|[|[|[|[|n]]]]]; [| | | |reflexivity|lia]; symmetry; (apply cbrt_unique; [vm_compute; discriminate|reflexivity]).
Qed.
Lemma rmd_block_std H m : fits 32 (list5 H) -> ripemd_block H m = rmd_std_block H m /\ fits 32 (list5 (rmd_std_block H m)).
Proof.
  intros FH.
  destruct (rmd_line_std m (fun j b c d => ripemd_F b c d j) rmd_f _ _ _ _ _ H rmd_left_table rmd_K_std ripemd_F_std FH) as [E1 F1].
  destruct (rmd_line_std m (fun j b c d => ripemd_F b c d (79 - j)) (fun j => rmd_f (79 - j)) _ _ _ _ _ H rmd_right_table rmd_K'_std) as [E2 F2]; [|exact FH|].
  { intros j b c d J. intros. apply ripemd_F_std; (assumption || lia). }
  destruct H as [[[[h0 h1] h2] h3] h4]. unfold ripemd_block, rmd_std_block. rewrite <- E1, <- E2. 
  rewrite <- E1 in F1. rewrite <- E2 in F2. clear E1 E2. 
  assert (E : forall l a b, fold_left (ripemd_round m) l (a, b) =
    (fold_left (rmd_model m (fun j b c d => ripemd_F b c d j) (fun j => idx RIPEMD160_k (j / 16)) (idx RIPEMD_r) (idx RIPEMD_s)) l a,
     fold_left (rmd_model m (fun j b c d => ripemd_F b c d (79 - j)) (fun j => idx RIPEMD160_K (j / 16)) (idx RIPEMD_R) (idx RIPEMD_S)) l b)).
  { intros l a b. rewrite <- fold_pair. revert a b. induction l as [|j l IH]; intros [[[[a b] c] d] e] [[[[a' b'] c'] d'] e']; [reflexivity|].
    cbn [fold_left]. apply IH. }
  rewrite E. clear E. set (l := fold_left (rmd_model m (fun j b c d => ripemd_F b c d j) _ _ _) _ _) in *. set (r := fold_left (rmd_model m (fun j b c d => ripemd_F b c d (79 - j)) _ _ _) _ _) in *.
  clearbody l r. destruct l as [[[[a b] c] d] e], r as [[[[a' b'] c'] d'] e'].
  split; [|cbn [list5]; apply fits5; repeat apply conj; apply sum_fits]. apply tuple5; sums.
Qed.

(** Blocks of the padded message: sixteen words each. *)
Lemma split_length n k : forall s, (0 < n)%nat -> length s = (n * k)%nat -> length (split_in n s) = k.
Proof.
  induction k as [|k IH]; intros s Hn H.
  - destruct s; [reflexivity|cbn in H; lia].
  - destruct (cut_first n s k H) as (a & r & -> & La & Lr). rewrite split_cons by (auto; lia). cbn [length]. now rewrite IH.
Qed.
Lemma pad_octets h m : octets m -> octets (pad h m).
Proof.
  intros O. unfold pad. apply octets_app. split; [exact O|]. apply octets_app. split; [repeat constructor|]. apply octets_app.
  split; [apply octets_repeat; lia|]. destruct (sh_little h); [apply octets_rev|]; apply be_octets.
Qed.
Lemma blocks_fit h m : octets m -> len (pad h m) mod sh_block h = 0 -> (0 < sh_word h)%nat -> sh_block h = N.of_nat (sh_word h * 16) ->
  Forall (fun b => fits (8 * N.of_nat (sh_word h)) b /\ length b = 16%nat) (blocks h m).
Proof.
  intros O Z W B. unfold blocks. apply Forall_forall. intros b I. apply in_map_iff in I as (p & <- & I).
  assert (NZ : sh_block h <> 0) by lia. apply N.mod_divide in Z; [|exact NZ]. destruct Z as [k Z].
  assert (L : length (pad h m) = (N.to_nat (sh_block h) * N.to_nat k)%nat) by (unfold len in Z; nia).
  destruct (octets_split (N.to_nat (sh_block h)) _ _ ltac:(lia) L (pad_octets h m O) p I) as [Op Lp].
  assert (L' : length p = (sh_word h * 16)%nat) by lia. split; [|unfold words; rewrite map_length; now apply split_length].
  unfold words. apply Forall_forall. intros x X. apply in_map_iff in X as (q & <- & X).
  destruct (octets_split _ _ _ W L' Op q X) as [Oq Lq].
  replace (2 ^ (8 * N.of_nat (sh_word h))) with (256 ^ len q) by (unfold len; rewrite Lq, N.pow_mul_r; reflexivity).
  destruct (sh_little h); [|now apply be_val_bound]. rewrite <- le_be_rev. replace (len q) with (len (rev q)) by (unfold len; now rewrite rev_length).
  apply be_val_bound. now apply octets_rev.
Qed.
Lemma run_std (C : Type) (l : C -> list N) w (f g : C -> list N -> C) : (forall s b, fits w (l s) -> fits w b -> length b = 16%nat -> f s b = g s b /\ fits w (l (g s b))) ->
  forall bs s, fits w (l s) -> Forall (fun b => fits w b /\ length b = 16%nat) bs -> fold_left f bs s = fold_left g bs s.
Proof.
  intros E bs s S F. apply (fold_same _ _ (fun s => fits w (l s)) f g bs s S). intros t b T I.
  rewrite Forall_forall in F. destruct (F b I). now apply E.
Qed.
Lemma iv_fits w (l : list N) : forallb (fun x => x <? 2 ^ w) l = true -> fits w l.
Proof. intros H. apply Forall_forall. intros x X. rewrite forallb_forall in H. apply N.ltb_lt. now apply H. Qed.
(** Initial values. *)
Lemma sqrt_unique' x r : r * r <= x -> x < (r + 1) * (r + 1) -> N.sqrt x = r.
Proof. intros A B. apply N.sqrt_unique. rewrite N.add_1_r in B. now split. Qed.
Lemma iv_std : iv_256 = md_init SHA256 /\ iv_224 = md_init SHA224 /\ iv_512 = md_init SHA512 /\ iv_384 = md_init SHA384.
Proof. vm_compute. auto. Qed.
Lemma big_8 n s : sha2_out n s = big n (list8 s).
Proof. destruct s as [[[[[[[a b] c] d] e] f] g] h]. unfold sha2_out, big. cbn [list8 map concat]. now rewrite app_nil_r. Qed.
Lemma md5_digest m : let h := mkShape 64 8 4 true 16 in octets m -> len (pad h m) mod sh_block h = 0 -> digest_spec MD5 h m = md5 m.
Proof.
  intros h O Z. pose proof (blocks_fit h m O Z ltac:(cbn; lia) eq_refl) as F. unfold digest_spec, md5. fold h. fold (blocks h m).
  cbn [md_out md_block md_init md_ctx MD5]. change (8 * N.of_nat (sh_word h)) with 32 in F.
  fold iv_md5. rewrite (run_std _ list4 32 md5_block md5_std_block); [|intros s b S _ _; now apply md5_block_std|apply iv_fits; vm_compute; reflexivity|exact F].
  destruct (fold_left _ _ _) as [[[a b] c] d]. unfold little. cbn [list4 map concat]. now rewrite app_nil_r.
Qed.
Lemma sha1_digest m : let h := mkShape 64 8 4 false 20 in octets m -> len (pad h m) mod sh_block h = 0 -> digest_spec SHA1 h m = sha1 m.
Proof.
  intros h O Z. pose proof (blocks_fit h m O Z ltac:(cbn; lia) eq_refl) as F. unfold digest_spec, sha1. fold h. fold (blocks h m).
  cbn [md_out md_block md_init md_ctx SHA1]. change (8 * N.of_nat (sh_word h)) with 32 in F.
  fold iv_sha1. rewrite (run_std _ list5 32 sha1_block sha1_std_block); [|intros s b S B L; now apply sha1_block_std|apply iv_fits; vm_compute; reflexivity|exact F].
  destruct (fold_left _ _ _) as [[[[a b] c] d] e]. unfold big. cbn [list5 map concat]. now rewrite app_nil_r.
Qed.
Lemma rmd_digest m : let h := mkShape 64 8 4 true 20 in octets m -> len (pad h m) mod sh_block h = 0 -> digest_spec RIPEMD160 h m = ripemd160 m.
Proof.
  intros h O Z. pose proof (blocks_fit h m O Z ltac:(cbn; lia) eq_refl) as F. unfold digest_spec, ripemd160. fold h. fold (blocks h m).
  cbn [md_out md_block md_init md_ctx RIPEMD160]. change (8 * N.of_nat (sh_word h)) with 32 in F.
  fold iv_sha1. rewrite (run_std _ list5 32 ripemd_block rmd_std_block); [|intros s b S _ _; now apply rmd_block_std|apply iv_fits; vm_compute; reflexivity|exact F].
  destruct (fold_left _ _ _) as [[[[a b] c] d] e]. unfold little. cbn [list5 map concat]. now rewrite app_nil_r.
Qed.
Lemma sha256_digest m : let h := mkShape 64 8 4 false 32 in octets m -> len (pad h m) mod sh_block h = 0 -> digest_spec SHA256 h m = sha256 m.
Proof.
  intros h O Z. pose proof (blocks_fit h m O Z ltac:(cbn; lia) eq_refl) as F. unfold digest_spec, sha256. fold h. fold (blocks h m).
  rewrite <- (proj1 iv_std). cbn [md_out md_block md_init md_ctx SHA256]. change (8 * N.of_nat (sh_word h)) with 32 in F.
  fold iv_256. rewrite (run_std _ list8 32 sha256_block (sha2_std_block v256)); [|intros s b S B L; now apply sha256_block_std|apply iv_fits; vm_compute; reflexivity|exact F].
  now rewrite <- big_8.
Qed.
Lemma sha224_digest m : let h := mkShape 64 8 4 false 28 in octets m -> len (pad h m) mod sh_block h = 0 -> digest_spec SHA224 h m = sha224 m.
Proof.
  intros h O Z. pose proof (blocks_fit h m O Z ltac:(cbn; lia) eq_refl) as F. unfold digest_spec, sha224. fold h. fold (blocks h m).
  rewrite <- (proj1 (proj2 iv_std)). cbn [md_out md_block md_init md_ctx SHA224]. change (8 * N.of_nat (sh_word h)) with 32 in F.
  fold iv_224. rewrite (run_std _ list8 32 sha256_block (sha2_std_block v256)); [|intros s b S B L; now apply sha256_block_std|apply iv_fits; vm_compute; reflexivity|exact F].
  now rewrite <- big_8.
Qed.
Lemma sha512_digest m : let h := mkShape 128 16 8 false 64 in octets m -> len (pad h m) mod sh_block h = 0 -> digest_spec SHA512 h m = sha512 m.
Proof.
  intros h O Z. pose proof (blocks_fit h m O Z ltac:(cbn; lia) eq_refl) as F. unfold digest_spec, sha512. fold h. fold (blocks h m).
  rewrite <- (proj1 (proj2 (proj2 iv_std))). cbn [md_out md_block md_init md_ctx SHA512]. change (8 * N.of_nat (sh_word h)) with 64 in F.
  fold iv_512. rewrite (run_std _ list8 64 sha512_block (sha2_std_block v512)); [|intros s b S B L; now apply sha512_block_std|apply iv_fits; vm_compute; reflexivity|exact F].
  now rewrite <- big_8.
Qed.
Lemma sha384_digest m : let h := mkShape 128 16 8 false 48 in octets m -> len (pad h m) mod sh_block h = 0 -> digest_spec SHA384 h m = sha384 m.
Proof.
  intros h O Z. pose proof (blocks_fit h m O Z ltac:(cbn; lia) eq_refl) as F. unfold digest_spec, sha384. fold h. fold (blocks h m).
  rewrite <- (proj2 (proj2 (proj2 iv_std))). cbn [md_out md_block md_init md_ctx SHA384]. change (8 * N.of_nat (sh_word h)) with 64 in F.
  fold iv_384. rewrite (run_std _ list8 64 sha512_block (sha2_std_block v512)); [|intros s b S B L; now apply sha512_block_std|apply iv_fits; vm_compute; reflexivity|exact F].
  now rewrite <- big_8.
Qed.
Lemma digest_std id f : standard id = Some f -> exists A h, hash_alg id = Ok A /\ map_at shapes id = Ok h /\
  forall m, octets m -> len (pad h m) mod sh_block h = 0 -> digest_spec A h m = f m.
Proof.
  intros H. unfold standard in H.
  repeat match type of H with context [match ?x with _ => _ end] => destruct x; try discriminate H end;
    injection H as <-; do 2 eexists; (split; [reflexivity|]); (split; [reflexivity|]).
  all: first [exact sha224_digest|exact rmd_digest|exact sha384_digest|exact sha512_digest|exact sha1_digest|exact sha256_digest|exact md5_digest].
Qed.
