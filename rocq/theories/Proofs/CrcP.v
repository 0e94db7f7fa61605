(** CRC-24: the register is the remainder modulo the generator polynomial. *)
From Verif Require Import Proofs.Lib Model.Includes Model.Crc24 Spec.Poly Proofs.IncludesP.

Definition W : N := 16777216. (* 2^24 *)

(** Step without the 32-bit truncation. *)
Definition g (c : N) : N := if c <? 8388608 then 2 * c else N.lxor (2 * c) CRC24_POLY.

Lemma shl1 c : N.shiftl c 1 = 2 * c.
Proof. rewrite N.shiftl_mul_pow2. change (2^1) with 2. lia. Qed.

Lemma testbit24 c : c < W -> N.testbit (2 * c) 24 = negb (c <? 8388608).
Proof.
  intros H. unfold W in H. rewrite N.testbit_eqb. change (2 ^ 24) with 16777216.
  destruct (c <? 8388608) eqn:E; cbn [negb].
  - rewrite N.div_small by lia. reflexivity.
  - apply N.eqb_eq. assert (2 * c / 16777216 = 1) as -> by lia. reflexivity.
Qed.

Lemma crc24_bit_g c : c < W -> crc24_bit c = g c.
Proof.
  intros H. unfold crc24_bit, g. rewrite shl1. unfold u32, two32.
  rewrite N.mod_small by (unfold W in H; lia). rewrite testbit24 by auto.
  destruct (c <? 8388608); reflexivity.
Qed.

Lemma lt_W_bits x : x < W <-> forall i, 24 <= i -> N.testbit x i = false.
Proof.
  change W with (2 ^ 24). split.
  - intros H i Hi. destruct (N.eq_dec x 0) as [->|]; [apply N.bits_0|].
    apply N.bits_above_log2. apply N.log2_lt_pow2 in H; lia.
  - intros H. destruct (N.lt_ge_cases x (2 ^ 24)) as [|G]; auto.
    assert (x <> 0) by (intros ->; revert G; apply N.lt_nge; reflexivity).
    assert (L : 24 <= N.log2 x) by (apply N.log2_le_pow2; lia).
    specialize (H _ L). rewrite N.bit_log2 in H by auto. discriminate.
Qed.

Lemma lxor_lt_W a b : a < W -> b < W -> N.lxor a b < W.
Proof.
  rewrite !lt_W_bits. intros Ha Hb i Hi. now rewrite N.lxor_spec, Ha, Hb by auto.
Qed.

Lemma g_lt c : c < W -> g c < W.
Proof.
  intros H. unfold g. destruct (c <? 8388608) eqn:E; [unfold W; lia|].
  apply lt_W_bits. intros i Hi. rewrite N.lxor_spec.
  destruct (N.eq_dec i 24) as [->|Hne].
  - rewrite testbit24 by auto. rewrite E. reflexivity.
  - assert (i = 24 + (i - 24)) by lia.
    assert (2 * c < 2 ^ 25) by (change (2^25) with 33554432; unfold W in H; lia).
    rewrite (N.bits_above_log2 (2 * c)), (N.bits_above_log2 CRC24_POLY); auto.
    + change (N.log2 CRC24_POLY) with 24. lia.
    + destruct (N.eq_dec c 0) as [->|]; [cbn; lia|].
      assert (N.log2 (2 * c) < 25) by (apply N.log2_lt_pow2; lia). lia.
Qed.

Lemma lxor_double a b : N.lxor (2 * a) (2 * b) = 2 * N.lxor a b.
Proof. destruct a, b; reflexivity. Qed.

Lemma g_lin a b : a < W -> b < W -> g (N.lxor a b) = N.lxor (g a) (g b).
Proof.
  intros Ha Hb. pose proof (lxor_lt_W a b Ha Hb) as Hab.
  assert (T : forall c, c < W -> (c <? 8388608) = negb (N.testbit (2 * c) 24)).
  { intros c Hc. rewrite testbit24 by auto. now rewrite negb_involutive. }
  unfold g. rewrite !T by auto. rewrite <- !lxor_double, N.lxor_spec.
  destruct (N.testbit (2 * a) 24), (N.testbit (2 * b) 24); cbn [xorb negb].
  - rewrite <- N.lxor_assoc. rewrite (N.lxor_assoc (2 * a) CRC24_POLY), (N.lxor_comm CRC24_POLY (2*b)), <- N.lxor_assoc.
    rewrite (N.lxor_assoc _ CRC24_POLY CRC24_POLY), N.lxor_nilpotent, N.lxor_0_r. reflexivity.
  - rewrite !N.lxor_assoc. f_equal. apply N.lxor_comm.
  - now rewrite N.lxor_assoc.
  - reflexivity.
Qed.

Lemma g_small c k : c * 2 ^ N.of_nat k < W -> Nat.iter k g c = c * 2 ^ N.of_nat k.
Proof.
  revert c; induction k; intros c H; [cbn; lia|].
  replace (N.of_nat (S k)) with (N.of_nat k + 1) in * by lia.
  rewrite N.pow_add_r, N.pow_1_r in *.
  cbn [Nat.iter nat_rect]. change (nat_rect _ c (fun _ => g) k) with (Nat.iter k g c).
  rewrite IHk by (unfold W in *; nia).
  unfold g. replace (c * 2 ^ N.of_nat k <? 8388608) with true by (unfold W in *; nia). nia.
Qed.

Lemma iter_g_lt k c : c < W -> Nat.iter k g c < W.
Proof. intros; induction k; cbn; auto. now apply g_lt. Qed.

Lemma iter_g_lin k a b : a < W -> b < W ->
  Nat.iter k g (N.lxor a b) = N.lxor (Nat.iter k g a) (Nat.iter k g b).
Proof.
  intros; induction k; cbn; auto. change (nat_rect _ ?c (fun _ => g) k) with (Nat.iter k g c).
  rewrite IHk. apply g_lin; now apply iter_g_lt.
Qed.

Lemma g_inj0 c : c < W -> g c = 0 -> c = 0.
Proof.
  intros H. unfold g. destruct (c <? 8388608) eqn:E; [lia|].
  intros E0. apply (f_equal (fun x => N.testbit x 0)) in E0.
  rewrite N.lxor_spec in E0.
  rewrite N.testbit_even_0 in E0. discriminate.
Qed.

Lemma iter_g_inj0 k c : c < W -> Nat.iter k g c = 0 -> c = 0.
Proof.
  intros H; induction k; cbn; auto. intros E. apply g_inj0 in E; auto. now apply iter_g_lt.
Qed.

Lemma iter_add {A} (f : A -> A) m n x : Nat.iter (m + n) f x = Nat.iter m f (Nat.iter n f x).
Proof. induction m; cbn; auto. f_equal. exact IHm. Qed.

(** Remainder by Horner's rule on the binary digits. *)
Fixpoint red_pos (p : positive) : N :=
  match p with
  | xH => 1
  | xO p => g (red_pos p)
  | xI p => N.lxor (g (red_pos p)) 1
  end.
Definition red (n : N) : N := match n with N0 => 0 | Npos p => red_pos p end.

Lemma red_lt n : red n < W.
Proof.
  destruct n as [|p]; [reflexivity|]. cbn. induction p; cbn.
  - apply lxor_lt_W; [now apply g_lt | reflexivity].
  - now apply g_lt.
  - reflexivity.
Qed.

Lemma red_step n b : red (2 * n + N.b2n b) = N.lxor (g (red n)) (N.b2n b).
Proof.
  destruct n as [|p], b; cbn [N.b2n]; try reflexivity.
  - rewrite N.add_0_r, N.lxor_0_r. reflexivity.
Qed.

Lemma red_lin a b : red (N.lxor a b) = N.lxor (red a) (red b).
Proof.
  revert b. induction a as [|a IH1|a IH1] using N.binary_ind; intros b.
  - now rewrite !N.lxor_0_l.
  - rewrite (N.div2_odd b). set (b2 := N.div2 b).
    assert (E : N.lxor (N.double a) (2 * b2 + N.b2n (N.odd b)) =
          2 * N.lxor a b2 + N.b2n (N.odd b)).
    { destruct a, b2, (N.odd b); cbn; try destruct (Pos.lxor _ _); reflexivity. }
    rewrite E, red_step, IH1. assert (D : N.double a = 2 * a + N.b2n false) by (destruct a; reflexivity). rewrite D.
    rewrite !red_step. cbn [N.b2n]. rewrite N.lxor_0_r, g_lin by apply red_lt.
    now rewrite N.lxor_assoc.
  - rewrite (N.div2_odd b). set (b2 := N.div2 b).
    assert (E : N.lxor (N.succ_double a) (2 * b2 + N.b2n (N.odd b)) =
          2 * N.lxor a b2 + N.b2n (negb (N.odd b))).
    { destruct a, b2, (N.odd b); cbn; try destruct (Pos.lxor _ _); reflexivity. }
    rewrite E, red_step, IH1. assert (D : N.succ_double a = 2 * a + N.b2n true) by (destruct a; reflexivity). rewrite D.
    rewrite !red_step. rewrite g_lin by apply red_lt. rewrite !N.lxor_assoc. f_equal.
    rewrite <- N.lxor_assoc, (N.lxor_comm 1 _), N.lxor_assoc. f_equal.
    destruct (N.odd b); reflexivity.
Qed.

Lemma red_double n : red (2 * n) = g (red n).
Proof.
  replace (2 * n) with (2 * n + N.b2n false) by (cbn [N.b2n]; lia). rewrite red_step. apply N.lxor_0_r.
Qed.

Lemma red_shift n k : red (n * 2 ^ N.of_nat k) = Nat.iter k g (red n).
Proof.
  induction k; [cbn; f_equal; lia|].
  replace (N.of_nat (S k)) with (N.of_nat k + 1) by lia. rewrite N.pow_add_r, N.pow_1_r.
  replace (n * (2 ^ N.of_nat k * 2)) with (2 * (n * 2 ^ N.of_nat k)) by lia.
  rewrite red_double, IHk. reflexivity.
Qed.

Lemma red_id c : c < W -> red c = c.
Proof.
  induction c as [|a IH|a IH] using N.binary_ind; intros H; [reflexivity| |].
  - rewrite N.double_spec in *. rewrite red_double, IH by (unfold W in *; lia).
    unfold g. replace (a <? 8388608) with true by (unfold W in *; lia). reflexivity.
  - rewrite N.succ_double_spec in *. change (2 * a + 1) with (2 * a + N.b2n true).
    rewrite red_step, IH by (unfold W in *; lia).
    unfold g. replace (a <? 8388608) with true by (unfold W in *; lia). cbn [N.b2n].
    destruct a; reflexivity.
Qed.

Lemma clmul_step q b p : clmul (2 * q + N.b2n b) p = N.lxor (2 * clmul q p) (if b then p else 0).
Proof.
  rewrite <- shl1. destruct q, b; cbn [N.b2n]; try reflexivity.
  - cbn. rewrite N.lxor_0_r. reflexivity.
Qed.

Lemma red_is_rem e : is_poly_rem 24 e CRC24_POLY (red e).
Proof.
  split; [apply red_lt|].
  assert (S : forall a (b : bool), (exists q, a = N.lxor (clmul q CRC24_POLY) (red a)) ->
      exists q, 2 * a + N.b2n b = N.lxor (clmul q CRC24_POLY) (red (2 * a + N.b2n b))).
  { intros a b [q Hq]. rewrite red_step.
    exists (2 * q + N.b2n (negb (red a <? 8388608))). rewrite clmul_step.
    assert (E : 2 * a + N.b2n b = N.lxor (2 * a) (N.b2n b)) by (destruct a, b; reflexivity).
    rewrite E. rewrite Hq at 1. rewrite <- lxor_double.
    unfold g. destruct (red a <? 8388608); cbn [negb].
    - rewrite N.lxor_0_r. apply N.lxor_assoc.
    - rewrite !N.lxor_assoc. f_equal.
      rewrite <- !N.lxor_assoc. f_equal.
      rewrite (N.lxor_comm CRC24_POLY), N.lxor_assoc, N.lxor_nilpotent, N.lxor_0_r. reflexivity. }
  induction e as [|a IH|a IH] using N.binary_ind.
  - exists 0. reflexivity.
  - rewrite N.double_spec. replace (2 * a) with (2 * a + N.b2n false) by (cbn [N.b2n]; lia). auto.
  - rewrite N.succ_double_spec. apply (S a true). auto.
Qed.

(** The register. *)
Lemma iter_bit_g k c : c < W -> Nat.iter k crc24_bit c = Nat.iter k g c.
Proof.
  intros; induction k; cbn; auto.
  change (nat_rect _ ?c (fun _ => ?f) k) with (Nat.iter k f c).
  rewrite IHk. apply crc24_bit_g. now apply iter_g_lt.
Qed.

Lemma crc24_octet_g c o : c < W -> o < 256 ->
  crc24_octet c o = N.lxor (Nat.iter 8 g c) (Nat.iter 24 g o).
Proof.
  intros Hc Ho. unfold crc24_octet, u8, u32.
  rewrite (N.mod_small o) by auto. rewrite N.shiftl_mul_pow2.
  change (2 ^ 16) with 65536. rewrite N.mod_small by (unfold two32; lia).
  assert (o * 65536 < W) by (unfold W; lia).
  rewrite iter_bit_g by (apply lxor_lt_W; auto).
  rewrite iter_g_lin by auto. f_equal.
  change 24%nat with (8 + 16)%nat. rewrite iter_add. f_equal.
  rewrite g_small; [reflexivity|]. change (2 ^ N.of_nat 16) with 65536. auto.
Qed.

Lemma crc_state s c : octets s -> c < W ->
  fold_left crc24_octet s c < W /\
  fold_left crc24_octet s c = N.lxor (red (be_val s * 2 ^ 24)) (red (c * 2 ^ (8 * len s))).
Proof.
  intros Hs Hc. induction s as [|o s IH] using rev_ind.
  - cbn [fold_left be_val]. split; auto. rewrite N.mul_0_l. cbn [red]. rewrite N.lxor_0_l.
    change (2 ^ (8 * len [])) with 1. rewrite N.mul_1_r. symmetry. now apply red_id.
  - apply octets_app in Hs as [Hs Ho]. apply octets_cons in Ho as [Ho _].
    rewrite fold_left_app. cbn [fold_left]. destruct (IH Hs) as [Hlt E].
    rewrite crc24_octet_g by auto. split.
    + apply lxor_lt_W; apply iter_g_lt; auto. unfold W; lia.
    + rewrite E. rewrite iter_g_lin by apply red_lt.
      rewrite <- !red_shift.
      rewrite <- (red_id o) at 1 by (unfold W; lia). rewrite <- red_shift.
      rewrite be_val_app, len_app. cbn [be_val length]. change (len [o]) with 1.
      change (256 ^ N.of_nat 0) with 1. rewrite N.mul_1_r, N.add_0_r, N.pow_1_r.
      assert (X : (be_val s * 256 + o) * 2 ^ 24 =
              N.lxor (be_val s * 2 ^ 24 * 2 ^ N.of_nat 8) (o * 2 ^ N.of_nat 24)).
      { change (2 ^ N.of_nat 24) with (2 ^ 24). change (2 ^ N.of_nat 8) with (2 ^ 8).
        rewrite <- N.mul_assoc, (N.mul_comm (2^24)), N.mul_assoc.
        rewrite <- !(N.shiftl_mul_pow2 _ 24), <- N.shiftl_lxor. f_equal.
        rewrite N.shiftl_mul_pow2 || idtac.
        rewrite <- N.shiftl_mul_pow2.
        replace (be_val s * 256 + o) with (N.lor (N.shiftl (be_val s) 8) o)
          by (rewrite lor_shiftl_add; [reflexivity | change (2^8) with 256; lia]).
        symmetry. apply N.lxor_lor. apply N.bits_inj_0. intros m. rewrite N.land_spec.
        destruct (N.lt_ge_cases m 8).
        - rewrite N.shiftl_spec_low; auto.
        - destruct (N.eq_dec o 0) as [->|]; [now rewrite N.bits_0, andb_false_r|].
          rewrite (N.bits_above_log2 o m); [apply andb_false_r|].
          apply N.lt_le_trans with 8; auto. apply N.log2_lt_pow2; [lia|]. change (2^8) with 256. lia. }
      rewrite X, red_lin. rewrite !N.lxor_assoc. f_equal. rewrite N.lxor_comm. f_equal. f_equal.
      replace (8 * (len s + 1)) with (8 * len s + 8) by lia. rewrite N.pow_add_r.
      change (2 ^ N.of_nat 8) with (2 ^ 8). lia.
Qed.

Lemma crc24_red s : octets s ->
  crc24 s = red (N.lxor (be_val s * 2 ^ 24) (CRC24_INIT * 2 ^ (8 * len s))).
Proof.
  intros H. unfold crc24.
  destruct (crc_state s CRC24_INIT H) as [L E]; [reflexivity|].
  change 16777215 with (N.ones 24). rewrite land_ones_mod. change (2 ^ 24) with W at 1.
  rewrite N.mod_small by auto. rewrite E. symmetry. apply red_lin.
Qed.

Lemma crc24_lt s : octets s -> crc24 s < 2 ^ 24.
Proof. intros H. rewrite crc24_red by auto. apply red_lt. Qed.

Lemma crc24_remainder s : octets s ->
  is_poly_rem 24 (N.lxor (be_val s * 2 ^ 24) (CRC24_INIT * 2 ^ (8 * len s))) CRC24_POLY (crc24 s).
Proof. intros H. rewrite crc24_red by auto. apply red_is_rem. Qed.

Lemma crc24_burst s s' d k : octets s -> octets s' -> len s = len s' ->
  N.lxor (be_val s) (be_val s') = d * 2 ^ k -> 0 < d < 2 ^ 24 -> crc24 s <> crc24 s'.
Proof.
  intros Hs Hs' L E [Hd Hd'] C.
  rewrite !crc24_red in C by auto. rewrite !red_lin in C. rewrite <- L in C.
  assert (C' : red (be_val s * 2 ^ 24) = red (be_val s' * 2 ^ 24)).
  { set (t := red (CRC24_INIT * 2 ^ (8 * len s))) in *.
    apply (f_equal (fun x => N.lxor x t)) in C. rewrite !N.lxor_assoc, N.lxor_nilpotent, !N.lxor_0_r in C. auto. }
  assert (Z : red (N.lxor (be_val s) (be_val s') * 2 ^ 24) = 0).
  { rewrite <- N.shiftl_mul_pow2, N.shiftl_lxor, !N.shiftl_mul_pow2, red_lin, C'. apply N.lxor_nilpotent. }
  rewrite E in Z. rewrite <- N.mul_assoc, <- N.pow_add_r in Z.
  replace (k + 24) with (N.of_nat (N.to_nat (k + 24))) in Z by lia.
  rewrite red_shift, red_id in Z by auto.
  apply iter_g_inj0 in Z; auto. lia.
Qed.

Lemma lxor_shift_low a b c n : b < 2 ^ n -> c < 2 ^ n ->
  N.lxor (a * 2 ^ n + b) (a * 2 ^ n + c) = N.lxor b c.
Proof.
  intros Hb Hc. rewrite <- !lor_shiftl_add by auto.
  apply N.bits_inj. intros m. rewrite !N.lxor_spec, !N.lor_spec.
  destruct (N.lt_ge_cases m n).
  - now rewrite N.shiftl_spec_low.
  - assert (Z : forall x, x < 2 ^ n -> N.testbit x m = false).
    { intros x Hx. destruct (N.eq_dec x 0) as [->|]; [apply N.bits_0|].
      apply N.bits_above_log2. apply N.lt_le_trans with n; auto. apply N.log2_lt_pow2; lia. }
    rewrite (Z b), (Z c) by auto. rewrite !orb_false_r, xorb_nilpotent. reflexivity.
Qed.

Lemma lxor_shift_high a b c n : c < 2 ^ n ->
  N.lxor (a * 2 ^ n + c) (b * 2 ^ n + c) = N.lxor a b * 2 ^ n.
Proof.
  intros Hc. rewrite <- !lor_shiftl_add by auto. rewrite <- N.shiftl_mul_pow2, N.shiftl_lxor.
  assert (D : forall x, N.lor (N.shiftl x n) c = N.lxor (N.shiftl x n) c).
  { intros x. symmetry. apply N.lxor_lor. apply N.bits_inj_0. intros m. rewrite N.land_spec.
    destruct (N.lt_ge_cases m n).
    - rewrite N.shiftl_spec_low; auto.
    - destruct (N.eq_dec c 0) as [->|]; [now rewrite N.bits_0, andb_false_r|].
      rewrite (N.bits_above_log2 c m); [apply andb_false_r|].
      apply N.lt_le_trans with n; auto. apply N.log2_lt_pow2; lia. }
  rewrite !D. rewrite !N.lxor_assoc. f_equal.
  rewrite <- N.lxor_assoc, (N.lxor_comm c), N.lxor_assoc, N.lxor_nilpotent, N.lxor_0_r. reflexivity.
Qed.

Lemma lxor_lt_pow a b n : a < 2 ^ n -> b < 2 ^ n -> N.lxor a b < 2 ^ n.
Proof.
  intros Ha Hb. destruct (N.eq_dec (N.lxor a b) 0) as [->|H].
  { apply N.neq_0_lt_0, N.pow_nonzero. lia. }
  destruct (N.eq_dec a 0) as [->|Ha0]; [now rewrite N.lxor_0_l|].
  destruct (N.eq_dec b 0) as [->|Hb0]; [now rewrite N.lxor_0_r|].
  apply N.log2_lt_pow2; [lia|].
  eapply N.le_lt_trans; [apply N.log2_lxor|].
  apply N.max_lub_lt; apply N.log2_lt_pow2; lia.
Qed.

Lemma crc24_three_octets pre w w' post :
  octets (pre ++ w ++ post) -> octets w' -> len w = len w' -> len w <= 3 -> w <> w' ->
  crc24 (pre ++ w ++ post) <> crc24 (pre ++ w' ++ post).
Proof.
  intros H Hw' L L3 Hne. apply octets_app in H as [Hp H]. apply octets_app in H as [Hw Hpost].
  assert (P : forall n, 256 ^ n = 2 ^ (8 * n)) by (intros; rewrite N.pow_mul_r; reflexivity).
  apply crc24_burst with (d := N.lxor (be_val w) (be_val w')) (k := 8 * len post).
  - repeat (apply octets_app; split); auto.
  - repeat (apply octets_app; split); auto.
  - autorewrite with len. lia.
  - rewrite !be_val_app, !len_app, L, !P.
    rewrite lxor_shift_low.
    + rewrite lxor_shift_high; auto. rewrite <- P. now apply be_val_bound.
    + pose proof (be_val_bound (w ++ post)) as B. rewrite be_val_app, len_app, !P, L in B.
      apply B, octets_app; auto.
    + pose proof (be_val_bound (w' ++ post)) as B. rewrite be_val_app, len_app, !P in B.
      apply B, octets_app; auto.
  - split.
    + apply N.neq_0_lt_0. intros E. apply N.lxor_eq in E. apply Hne. now apply be_val_inj.
    + apply lxor_lt_pow.
      * eapply N.lt_le_trans; [now apply be_val_bound|]. rewrite P. apply N.pow_le_mono_r; lia.
      * eapply N.lt_le_trans; [now apply be_val_bound|]. rewrite P. apply N.pow_le_mono_r; lia.
Qed.
