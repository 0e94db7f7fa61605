(** IDEA: multiplication modulo 65537, its inverse by Euclid's algorithm, rounds undone. *)
From Coq Require Import ZArith Znumtheory.
From Verif Require Export Proofs.CipherLib Proofs.DesP.

Local Open Scope Z_scope.
Definition P16 : Z := 65537.

Lemma trial_division : forallb (fun n => negb (P16 mod Z.of_nat n =? 0)) (seq 2 255) = true.
Proof. vm_compute. reflexivity. Qed.
Lemma small_divisor d : 1 < d <= 256 -> ~ (d | P16).
Proof.
  intros H D. pose proof trial_division as T. rewrite forallb_forall in T.
  specialize (T (Z.to_nat d)). rewrite Z2Nat.id in T by lia.
  assert (I : In (Z.to_nat d) (seq 2 255)) by (apply in_seq; lia).
  specialize (T I). apply negb_true_iff, Z.eqb_neq in T.
  apply T. apply Zdivide_mod. exact D.
Qed.
Lemma prime_P16 : prime P16.
Proof.
  apply prime_alt. split; [unfold P16; lia|]. intros d H [e E].
  destruct (Z_le_gt_dec d 256) as [L|L]; [apply (small_divisor d); [lia|exists e; exact E]|].
  assert (e > 0) by (unfold P16 in *; nia).
  apply (small_divisor e); [unfold P16 in *; nia|]. exists d. rewrite E. ring.
Qed.
Lemma unit_P16 k : 0 < k < P16 -> Z.gcd P16 k = 1.
Proof.
  intros H. rewrite Z.gcd_comm. apply Zgcd_1_rel_prime. apply rel_prime_sym.
  apply prime_rel_prime; [apply prime_P16|]. intros D. apply Z.divide_pos_le in D; lia.
Qed.
Lemma mul_nonzero a b : 0 < a < P16 -> 0 < b < P16 -> 0 < (a * b) mod P16.
Proof.
  intros A B. assert (M := Z.mod_pos_bound (a * b) P16 eq_refl).
  destruct (Z.eq_dec ((a * b) mod P16) 0) as [E|E]; [|lia].
  apply Zmod_divide in E; [|discriminate].
  apply prime_mult in E; [|apply prime_P16].
  destruct E as [D|D]; apply Z.divide_pos_le in D; lia.
Qed.

Lemma euclid k : 0 <= k ->
  forall f n a b y l s u v, 0 <= n -> n < Z.of_nat f ->
  0 <= b < a -> a * b < 2 ^ n -> Z.gcd a b = 1 ->
  (exists i, a = l * k + i * P16) -> (exists j, b = y * k + j * P16) ->
  (s = 1 \/ s = -1) -> y = s * u -> l = - s * v -> 0 <= v <= u -> u * a + v * b = P16 ->
  let r := invmod_loop f a b y l in - P16 <= r <= P16 /\ exists i, 1 = r * k + i * P16.
Proof.
  intros K. induction f as [|f IH]; intros n a b y l s u v N0 NF B AB G [i Ea] [j Eb] S Y L V U; [lia|].
  cbn [invmod_loop]. destruct (Z.eqb_spec b 0) as [BZ|NZ].
  - rewrite BZ in G, U. rewrite Z.gcd_0_r, Z.abs_eq in G by lia. rewrite G in Ea, U. cbn zeta. split.
    + destruct S; subst s l; nia.
    + exists i. exact Ea.
  - assert (Q : 1 <= Z.quot a b) by (rewrite Z.quot_div_nonneg by lia; apply Z.div_le_lower_bound; lia).
    assert (R : Z.rem a b = a - b * Z.quot a b).
    { pose proof (Z.quot_rem' a b). lia. }
    assert (RB : 0 <= Z.rem a b < b) by (apply Z.rem_bound_pos; lia).
    assert (N1 : 1 <= n).
    { destruct (Z.eq_dec n 0) as [->|]; [|lia]. change (2 ^ 0) with 1 in AB. pose proof (Z.mul_pos_pos a b ltac:(lia) ltac:(lia)). lia. }
    assert (AR : b + Z.rem a b <= a).
    { pose proof (Z.mul_le_mono_nonneg_l 1 (Z.quot a b) b ltac:(lia) Q). lia. }
    apply (IH (n - 1) b (Z.rem a b) _ _ (- s) (v + Z.quot a b * u) u); try lia.
    + replace n with (1 + (n - 1)) in AB by lia. rewrite Z.pow_add_r in AB by lia.
      change (2 ^ 1) with 2 in AB.
      pose proof (Z.mul_le_mono_nonneg_r (b + Z.rem a b) a b ltac:(lia) AR).
      pose proof (Z.mul_le_mono_nonneg_l (Z.rem a b) b (Z.rem a b) ltac:(lia) ltac:(lia)).
      pose proof (Z.mul_le_mono_nonneg_l (Z.rem a b) b b ltac:(lia) ltac:(lia)).
      lia.
    + rewrite Z.rem_mod_nonneg by lia. rewrite Z.gcd_comm, Z.gcd_mod by lia. now rewrite Z.gcd_comm.
    + now exists j.
    + exists (i - Z.quot a b * j). rewrite R, Ea at 1. rewrite Eb at 1. ring.
    + pose proof (Z.mul_le_mono_nonneg_r 1 (Z.quot a b) u ltac:(lia) Q). lia.
Qed.

Local Open Scope N_scope.
(** The residue a 16-bit word stands for: 0 stands for 65536. *)
Definition val (a : N) : Z := if a =? 0 then 65536 else Z.of_N a.
Definition ok16 (a : N) : Prop := a < 65536.
Lemma u16_small a : a < 65536 -> u16 a = a.
Proof. apply N.mod_small. Qed.
Lemma val_range a : ok16 a -> (0 < val a < P16)%Z.
Proof. unfold val, ok16, P16. destruct (N.eqb_spec a 0); lia. Qed.
Lemma val_inj a b : ok16 a -> ok16 b -> val a = val b -> a = b.
Proof. unfold val, ok16. destruct (N.eqb_spec a 0), (N.eqb_spec b 0); lia. Qed.

Lemma mult_val a b : ok16 a -> ok16 b ->
  ok16 (idea_mult a b) /\ val (idea_mult a b) = ((val a * val b) mod P16)%Z.
Proof.
  intros A B. pose proof (mul_nonzero (val a) (val b) (val_range a A) (val_range b B)) as NZ.
  unfold idea_mult.
  assert (E : (a = 0 /\ b = 0) \/
    (exists x y, (if a =? 0 then 65536 else a) = x /\ (if b =? 0 then 65536 else b) = y /\
      val a = Z.of_N x /\ val b = Z.of_N y /\ x * y < two32 /\ ((a =? 0) && (b =? 0)) = false)).
  { unfold val, ok16, two32 in *. destruct (N.eqb_spec a 0) as [->|Ha], (N.eqb_spec b 0) as [->|Hb]; auto; right;
      do 2 eexists; do 2 (split; [reflexivity|]); do 2 (split; [reflexivity || lia|]); (split; [nia|reflexivity]). }
  destruct E as [[-> ->]|[x [y [Ex [Ey [Va [Vb [L Z]]]]]]]].
  - cbn [N.eqb andb]. split; [reflexivity|]. reflexivity.
  - rewrite Z, Ex, Ey, u32_small by exact L. rewrite Va, Vb in *.
    assert (M : x * y mod 65537 < 65537) by (apply N.mod_lt; discriminate).
    assert (T : ((Z.of_N x * Z.of_N y) mod P16)%Z = Z.of_N (x * y mod 65537)).
    { rewrite N2Z.inj_mod, N2Z.inj_mul by discriminate. reflexivity. }
    rewrite T in *. destruct (N.eqb_spec (x * y mod 65537) 65536) as [E|E].
    + rewrite E. split; reflexivity.
    + rewrite u16_small by lia. unfold val, ok16. split; [lia|].
      destruct (N.eqb_spec (x * y mod 65537) 0); lia.
Qed.

Lemma inv_val k : ok16 k ->
  ok16 (idea_inv k) /\ exists i, (1 = val (idea_inv k) * val k + i * P16)%Z.
Proof.
  intros K. destruct (N.eq_dec k 0) as [->|NZ].
  - split; [reflexivity|]. exists (-65535)%Z. reflexivity.
  - unfold idea_inv. set (r := invmod_loop 40 65537 (Z.of_N k) 1 0).
    assert (E : (- P16 <= r <= P16)%Z /\ exists i, (1 = r * Z.of_N k + i * P16)%Z).
    { unfold ok16 in K. apply (euclid (Z.of_N k) ltac:(lia) 40 33 65537 (Z.of_N k) 1 0 1 1 0); try lia.
      - apply unit_P16. unfold P16. lia.
      - exists 1%Z. reflexivity.
      - exists 0%Z. ring.
      - unfold P16. lia. }
    destruct E as [B [i E]].
    assert (Vk : val k = Z.of_N k) by (unfold val; destruct (N.eqb_spec k 0); [contradiction|reflexivity]).
    assert (C : exists z j, (if (r <? 0)%Z then (r + 65537)%Z else r) = z /\ (0 <= z <= P16)%Z /\
              (1 = z * Z.of_N k + j * P16)%Z).
    { destruct (Z.ltb_spec r 0).
      - exists (r + 65537)%Z, (i - Z.of_N k)%Z. split; [reflexivity|]. split; [unfold P16 in *; lia|].
        unfold P16 in *. lia.
      - exists r, i. split; [reflexivity|]. split; [lia|exact E]. }
    destruct C as [z [j [-> [Bz Ez]]]].
    assert (Hz : (0 < z < P16)%Z).
    { assert (z <> 0%Z) by (intros ->; unfold P16 in *; lia).
      assert (z <> P16) by (intros ->; unfold P16 in *; lia). lia. }
    assert (Vz : ok16 (Z.to_N (z mod 65536)) /\ val (Z.to_N (z mod 65536)) = z).
    { unfold P16 in Hz. destruct (Z.eq_dec z 65536) as [->|N6]; [split; reflexivity|].
      rewrite Z.mod_small by lia. unfold ok16, val. split; [lia|].
      destruct (N.eqb_spec (Z.to_N z) 0); lia. }
    destruct Vz as [V1 V2]. split; [exact V1|]. rewrite V2, Vk. exists j. exact Ez.
Qed.
Lemma mult_inv a k : ok16 a -> ok16 k -> idea_mult (idea_mult a k) (idea_inv k) = a.
Proof.
  intros A K. destruct (mult_val a k A K) as [M1 V1]. destruct (inv_val k K) as [I1 [i E]].
  destruct (mult_val _ _ M1 I1) as [M2 V2].
  apply val_inj; auto. rewrite V2, V1, Zmult_mod_idemp_l.
  replace (val a * val k * val (idea_inv k))%Z with (val a + (- i * val a) * P16)%Z.
  - rewrite Z_mod_plus_full. apply Z.mod_small. pose proof (val_range a A). lia.
  - revert E. generalize (val a) (val k) (val (idea_inv k)) P16. clear. intros x y z p E.
    transitivity (x * (1 - i * p))%Z; [ring|]. replace (1 - i * p)%Z with (z * y)%Z by lia. ring.
Qed.
Lemma mult_ok a b : ok16 a -> ok16 b -> ok16 (idea_mult a b).
Proof. intros. now apply mult_val. Qed.
Lemma inv_ok k : ok16 k -> ok16 (idea_inv k).
Proof. intros. now apply inv_val. Qed.

Lemma lnot16 a : ok16 a -> N.lxor a 65535 = 65535 - a.
Proof.
  intros A. change 65535 with (N.ones 16). change (N.lxor a (N.ones 16)) with (N.lnot a 16).
  rewrite N.lnot_sub_low; [reflexivity|].
  destruct (N.eq_dec a 0) as [->|NZ]; [reflexivity|]. apply N.log2_lt_pow2; [lia|]. exact A.
Qed.
Lemma two_comp_sub a : ok16 a -> two_comp a = u16 (65536 - a).
Proof. intros A. unfold two_comp. rewrite lnot16 by exact A. unfold ok16 in A. f_equal. lia. Qed.
Lemma u16_ok a : ok16 (u16 a). Proof. apply N.mod_lt. discriminate. Qed.
Lemma add_comp a k : ok16 a -> ok16 k -> u16 (u16 (a + k) + two_comp k) = a.
Proof.
  intros A K. rewrite two_comp_sub by exact K. unfold u16, ok16 in *.
  rewrite <- N.add_mod by discriminate.
  replace (a + k + (65536 - k)) with (a + 1 * 65536) by lia.
  rewrite N.mod_add by discriminate. now apply N.mod_small.
Qed.

Definition q4 : Type := N * N * N * N.
Definition okq (x : q4) : Prop := let '(a, b, c, d) := x in ok16 a /\ ok16 b /\ ok16 c /\ ok16 d.
Definition mid (x : q4) : q4 := let '(a, b, c, d) := x in (a, c, b, d).
Definition kx (k0 k1 k2 k3 : N) (x : q4) : q4 :=
  let '(a, b, c, d) := x in (idea_mult a k0, u16 (b + k1), u16 (c + k2), idea_mult d k3).
Definition ma (k4 k5 : N) (x : q4) : q4 :=
  let '(a, b, c, d) := x in
  let t7 := idea_mult (N.lxor a c) k4 in
  let t9 := idea_mult (u16 (N.lxor b d + t7)) k5 in
  let t10 := u16 (t7 + t9) in
  (N.lxor a t9, N.lxor b t10, N.lxor c t9, N.lxor d t10).
Lemma xor16 a b : ok16 a -> ok16 b -> ok16 (N.lxor a b).
Proof. apply (lxor_lt a b 16). Qed.
Lemma round_eq x k0 k1 k2 k3 k4 k5 r :
  idea_round x (k0 :: k1 :: k2 :: k3 :: k4 :: k5 :: r) = Ok (mid (ma k4 k5 (kx k0 k1 k2 k3 x))).
Proof. now destruct x as [[[a b] c] d]. Qed.
Lemma kx_ok k0 k1 k2 k3 x : okq x -> ok16 k0 -> ok16 k3 -> okq (kx k0 k1 k2 k3 x).
Proof.
  destruct x as [[[a b] c] d]. intros [A [B [C D]]] K0 K3. unfold kx.
  repeat split; auto using mult_ok, u16_ok.
Qed.
Lemma ma_ok k4 k5 x : okq x -> ok16 k4 -> ok16 k5 -> okq (ma k4 k5 x).
Proof.
  destruct x as [[[a b] c] d]. intros [A [B [C D]]] K0 K3. unfold ma.
  repeat split; apply xor16; auto using mult_ok, u16_ok, xor16.
Qed.
Lemma mid_ok x : okq x -> okq (mid x).
Proof. destruct x as [[[a b] c] d]. intros [A [B [C D]]]. now repeat split. Qed.
Lemma mid_mid x : mid (mid x) = x.
Proof. now destruct x as [[[a b] c] d]. Qed.
Lemma lxor_cancel a b t : N.lxor (N.lxor a t) (N.lxor b t) = N.lxor a b.
Proof. apply N.bits_inj. intro i. rewrite !N.lxor_spec. now destruct (N.testbit a i), (N.testbit b i), (N.testbit t i). Qed.
Lemma lxor_back a t : N.lxor (N.lxor a t) t = a.
Proof. rewrite N.lxor_assoc, N.lxor_nilpotent. apply N.lxor_0_r. Qed.
Lemma ma_ma k4 k5 x : ma k4 k5 (ma k4 k5 x) = x.
Proof.
  destruct x as [[[a b] c] d]. unfold ma. cbn zeta. rewrite !lxor_cancel, !lxor_back. reflexivity.
Qed.
Lemma kx_undo k0 k1 k2 k3 x : okq x -> ok16 k0 -> ok16 k1 -> ok16 k2 -> ok16 k3 ->
  kx (idea_inv k0) (two_comp k1) (two_comp k2) (idea_inv k3) (kx k0 k1 k2 k3 x) = x.
Proof.
  destruct x as [[[a b] c] d]. intros [A [B [C D]]] K0 K1 K2 K3. unfold kx.
  rewrite !mult_inv, !add_comp by auto. reflexivity.
Qed.
Lemma kx_undo_mid k0 k1 k2 k3 x : okq x -> ok16 k0 -> ok16 k1 -> ok16 k2 -> ok16 k3 ->
  kx (idea_inv k0) (two_comp k2) (two_comp k1) (idea_inv k3) (mid (kx k0 k1 k2 k3 x)) = mid x.
Proof.
  destruct x as [[[a b] c] d]. intros [A [B [C D]]] K0 K1 K2 K3. unfold kx, mid.
  rewrite !mult_inv, !add_comp by auto. reflexivity.
Qed.

Definition q_out (x : q4) : bytes := let '(a, b, c, d) := x in be 2 a ++ be 2 b ++ be 2 c ++ be 2 d.
Definition q_in (d : bytes) : q4 :=
  (u16 (toint256 (slice d 0 2)), u16 (toint256 (slice d 2 2)), u16 (toint256 (slice d 4 2)), u16 (toint256 (slice d 6 2))).

Lemma unhexlify_app a b x y : Nat.even (length a) = true -> unhexlify a = Ok x -> unhexlify b = Ok y ->
  unhexlify (a ++ b) = Ok (x ++ y).
Proof.
  intros E A B. assert (H : exists n, length a = (2 * n)%nat) by now apply Nat.even_spec.
  assert (V : Nat.Even (length a)) by exact H.
  rewrite unhexlify_even in A by exact V.
  unfold unhexlify in *. rewrite odd_len in *. rewrite app_length, Nat.odd_add.
  rewrite <- (Nat.negb_even (length a)), E. cbn [negb xorb].
  rewrite unhexlify_pairs_app by exact V. rewrite A. cbn [bind].
  destruct (Nat.odd (length b)); [discriminate|]. now rewrite B.
Qed.
Lemma q_hex a b c d :
  unhexlify (makehex a 4 ++ makehex b 4 ++ makehex c 4 ++ makehex d 4) = Ok (q_out (a, b, c, d)).
Proof.
  unfold q_out. repeat (apply unhexlify_app; [unfold makehex; rewrite makehex_c_length; reflexivity|apply (unhexlify_makehex 2)|]).
  apply (unhexlify_makehex 2).
Qed.
Lemma idea_run_eq ks d : idea_run ks d =
  (x <- idea_rounds (firstn 8 ks) (q_in d) ;;
   match nth_error ks 8 with
   | Some (k0 :: k1 :: k2 :: k3 :: _) => Ok (q_out (kx k0 k1 k2 k3 (mid x)))
   | _ => UB
   end).
Proof.
  unfold idea_run. fold (q_in d). destruct (idea_rounds _ _) as [[[[a b] c] e]| | |]; cbn [bind]; auto.
  destruct (nth_error ks 8) as [[|k0 [|k1 [|k2 [|k3 r]]]]|]; auto. apply q_hex.
Qed.

Lemma q_in_out x : okq x -> q_in (q_out x) = x.
Proof.
  destruct x as [[[a b] c] d]. intros [A [B [C D]]]. unfold q_in, q_out.
  assert (T : forall v, ok16 v -> u16 (toint256 (be 2 v)) = v).
  { intros v V. rewrite toint256_be_small by (exact V || lia). now apply u16_small. }
  change (slice (be 2 a ++ be 2 b ++ be 2 c ++ be 2 d) 0 2) with (be 2 a).
  change (slice (be 2 a ++ be 2 b ++ be 2 c ++ be 2 d) 2 2) with (be 2 b).
  change (slice (be 2 a ++ be 2 b ++ be 2 c ++ be 2 d) 4 2) with (be 2 c).
  change (slice (be 2 a ++ be 2 b ++ be 2 c ++ be 2 d) 6 2) with (be 2 d).
  now rewrite !T.
Qed.
Lemma q_out_in d : octets d -> length d = 8%nat -> q_out (q_in d) = d.
Proof.
  intros Od L. unfold q_in, q_out.
  assert (T : forall p, p <= 6 -> be 2 (u16 (toint256 (slice d p 2))) = slice d p 2).
  { intros p H. assert (S : octets (slice d p 2)) by now apply slice_octets.
    assert (M : length (slice d p 2) = 2%nat) by (rewrite slice_length; [reflexivity|]; lia).
    rewrite toint256_be_val by (auto; unfold len; lia).
    pose proof (be_val_bound _ S) as V. unfold len in V at 1. rewrite M in V. rewrite u16_small by exact V.
    rewrite <- M at 1. now apply be_be_val. }
  rewrite !T by lia.
  do 8 (destruct d as [|? d]; [discriminate|]). destruct d; [reflexivity|discriminate].
Qed.
Lemma q_in_ok d : okq (q_in d).
Proof. unfold q_in. repeat split; apply u16_ok. Qed.
Lemma q_out_octets x : octets (q_out x) /\ length (q_out x) = 8%nat.
Proof.
  destruct x as [[[a b] c] d]. unfold q_out. split; [|reflexivity].
  rewrite !octets_app. repeat split; apply be_octets.
Qed.

(** What a deciphering round makes of the middle-swapped value before keying. *)
Lemma unround k0 k1 k2 k3 k4 k5 V j : okq V -> ok16 k0 -> ok16 k1 -> ok16 k2 -> ok16 k3 -> ok16 k4 -> ok16 k5 ->
  forall V', V = mid (ma k4 k5 V') ->
  idea_round (mid (kx k0 k1 k2 k3 V))
    (idea_inv k0 :: two_comp k2 :: two_comp k1 :: idea_inv k3 :: k4 :: k5 :: j) = Ok (mid V').
Proof.
  intros K H0 H1 H2 H3 H4 H5 V' E. rewrite round_eq. rewrite kx_undo_mid by auto.
  rewrite E, mid_mid, ma_ma. reflexivity.
Qed.
Lemma unround0 k0 k1 k2 k3 k4 k5 V j : okq V -> ok16 k0 -> ok16 k1 -> ok16 k2 -> ok16 k3 -> ok16 k4 -> ok16 k5 ->
  forall V', V = mid (ma k4 k5 V') ->
  idea_round (kx k0 k1 k2 k3 (mid V))
    (idea_inv k0 :: two_comp k1 :: two_comp k2 :: idea_inv k3 :: k4 :: k5 :: j) = Ok (mid V').
Proof.
  intros K H0 H1 H2 H3 H4 H5 V' E. rewrite round_eq. rewrite kx_undo by auto using mid_ok.
  rewrite E, mid_mid, ma_ma. reflexivity.
Qed.

Lemma step_ok k0 k1 k2 k3 k4 k5 x : okq x -> ok16 k0 -> ok16 k3 -> ok16 k4 -> ok16 k5 ->
  okq (mid (ma k4 k5 (kx k0 k1 k2 k3 x))).
Proof. intros. apply mid_ok, ma_ok; auto. now apply kx_ok. Qed.
Section Keys.
Variables k0 k1 k2 k3 k4 k5 k6 k7 k8 k9 k10 k11 k12 k13 k14 k15 k16 k17 k18 k19 k20 k21 k22 k23 k24 k25 k26
  k27 k28 k29 k30 k31 k32 k33 k34 k35 k36 k37 k38 k39 k40 k41 k42 k43 k44 k45 k46 k47 k48 k49 k50
  k51 : N.
Definition all52 : list N :=
    [k0; k1; k2; k3; k4; k5; k6; k7; k8; k9; k10; k11; k12; k13; k14; k15; k16; k17; k18; k19; k20;
    k21; k22; k23; k24; k25; k26; k27; k28; k29; k30; k31; k32; k33; k34; k35; k36; k37; k38; k39;
    k40; k41; k42; k43; k44; k45; k46; k47; k48; k49; k50; k51].
Lemma group52 : idea_group all52 =
  [[k0; k1; k2; k3; k4; k5];
   [k6; k7; k8; k9; k10; k11];
   [k12; k13; k14; k15; k16; k17];
   [k18; k19; k20; k21; k22; k23];
   [k24; k25; k26; k27; k28; k29];
   [k30; k31; k32; k33; k34; k35];
   [k36; k37; k38; k39; k40; k41];
   [k42; k43; k44; k45; k46; k47];
   [k48; k49; k50; k51]].
Proof. reflexivity. Qed.
Lemma inverse52 : idea_swap (idea_group (idea_inverse all52)) =
  Ok [[idea_inv k48; two_comp k49; two_comp k50; idea_inv k51; k46; k47];
   [idea_inv k42; two_comp k44; two_comp k43; idea_inv k45; k40; k41];
   [idea_inv k36; two_comp k38; two_comp k37; idea_inv k39; k34; k35];
   [idea_inv k30; two_comp k32; two_comp k31; idea_inv k33; k28; k29];
   [idea_inv k24; two_comp k26; two_comp k25; idea_inv k27; k22; k23];
   [idea_inv k18; two_comp k20; two_comp k19; idea_inv k21; k16; k17];
   [idea_inv k12; two_comp k14; two_comp k13; idea_inv k15; k10; k11];
   [idea_inv k6; two_comp k8; two_comp k7; idea_inv k9; k4; k5];
   [idea_inv k0; two_comp k1; two_comp k2; idea_inv k3]].
Proof. reflexivity. Qed.
Lemma idea_all52 d : Forall ok16 all52 -> octets d -> length d = 8%nat ->
  exists e, idea_encrypt all52 d = Ok e /\ octets e /\ length e = 8%nat /\ idea_decrypt all52 e = Ok d.
Proof.
  intros F Od Ld. unfold all52 in F.
  repeat match goal with H : Forall ok16 (_ :: _) |- _ => inversion H; clear H; subst end.
  unfold idea_encrypt, idea_decrypt. rewrite group52, inverse52. cbn [bind]. rewrite !idea_run_eq.
  cbn [firstn nth_error]. cbn [idea_rounds].
  set (V0 := q_in d). assert (K0 : okq V0) by apply q_in_ok.
  set (V1 := mid (ma k4 k5 (kx k0 k1 k2 k3 V0))).
  assert (K1 : okq V1) by (apply step_ok; assumption).
  rewrite (round_eq V0). fold V1. cbn [bind].
  set (V2 := mid (ma k10 k11 (kx k6 k7 k8 k9 V1))).
  assert (K2 : okq V2) by (apply step_ok; assumption).
  rewrite (round_eq V1). fold V2. cbn [bind].
  set (V3 := mid (ma k16 k17 (kx k12 k13 k14 k15 V2))).
  assert (K3 : okq V3) by (apply step_ok; assumption).
  rewrite (round_eq V2). fold V3. cbn [bind].
  set (V4 := mid (ma k22 k23 (kx k18 k19 k20 k21 V3))).
  assert (K4 : okq V4) by (apply step_ok; assumption).
  rewrite (round_eq V3). fold V4. cbn [bind].
  set (V5 := mid (ma k28 k29 (kx k24 k25 k26 k27 V4))).
  assert (K5 : okq V5) by (apply step_ok; assumption).
  rewrite (round_eq V4). fold V5. cbn [bind].
  set (V6 := mid (ma k34 k35 (kx k30 k31 k32 k33 V5))).
  assert (K6 : okq V6) by (apply step_ok; assumption).
  rewrite (round_eq V5). fold V6. cbn [bind].
  set (V7 := mid (ma k40 k41 (kx k36 k37 k38 k39 V6))).
  assert (K7 : okq V7) by (apply step_ok; assumption).
  rewrite (round_eq V6). fold V7. cbn [bind].
  set (V8 := mid (ma k46 k47 (kx k42 k43 k44 k45 V7))).
  assert (K8 : okq V8) by (apply step_ok; assumption).
  rewrite (round_eq V7). fold V8. cbn [bind].
  set (E := kx k48 k49 k50 k51 (mid V8)).
  assert (KE : okq E) by (apply kx_ok; [apply mid_ok| |]; assumption).
  destruct (q_out_octets E) as [OE LE].
  exists (q_out E). split; [reflexivity|]. split; [exact OE|]. split; [exact LE|].
  rewrite idea_run_eq. cbn [firstn nth_error]. cbn [idea_rounds]. rewrite q_in_out by exact KE. unfold E.
  rewrite (unround0 k48 k49 k50 k51 k46 k47 V8 [] K8 ltac:(assumption) ltac:(assumption) ltac:(assumption) ltac:(assumption) ltac:(assumption) ltac:(assumption)
    (kx k42 k43 k44 k45 V7) eq_refl). cbn [bind].
  rewrite (unround k42 k43 k44 k45 k40 k41 V7 [] K7 ltac:(assumption) ltac:(assumption) ltac:(assumption) ltac:(assumption) ltac:(assumption) ltac:(assumption)
    (kx k36 k37 k38 k39 V6) eq_refl). cbn [bind].
  rewrite (unround k36 k37 k38 k39 k34 k35 V6 [] K6 ltac:(assumption) ltac:(assumption) ltac:(assumption) ltac:(assumption) ltac:(assumption) ltac:(assumption)
    (kx k30 k31 k32 k33 V5) eq_refl). cbn [bind].
  rewrite (unround k30 k31 k32 k33 k28 k29 V5 [] K5 ltac:(assumption) ltac:(assumption) ltac:(assumption) ltac:(assumption) ltac:(assumption) ltac:(assumption)
    (kx k24 k25 k26 k27 V4) eq_refl). cbn [bind].
  rewrite (unround k24 k25 k26 k27 k22 k23 V4 [] K4 ltac:(assumption) ltac:(assumption) ltac:(assumption) ltac:(assumption) ltac:(assumption) ltac:(assumption)
    (kx k18 k19 k20 k21 V3) eq_refl). cbn [bind].
  rewrite (unround k18 k19 k20 k21 k16 k17 V3 [] K3 ltac:(assumption) ltac:(assumption) ltac:(assumption) ltac:(assumption) ltac:(assumption) ltac:(assumption)
    (kx k12 k13 k14 k15 V2) eq_refl). cbn [bind].
  rewrite (unround k12 k13 k14 k15 k10 k11 V2 [] K2 ltac:(assumption) ltac:(assumption) ltac:(assumption) ltac:(assumption) ltac:(assumption) ltac:(assumption)
    (kx k6 k7 k8 k9 V1) eq_refl). cbn [bind].
  rewrite (unround k6 k7 k8 k9 k4 k5 V1 [] K1 ltac:(assumption) ltac:(assumption) ltac:(assumption) ltac:(assumption) ltac:(assumption) ltac:(assumption)
    (kx k0 k1 k2 k3 V0) eq_refl). cbn [bind].
  rewrite mid_mid, kx_undo by assumption. exact (f_equal Ok (q_out_in d Od Ld)).
Qed.
End Keys.

Lemma idea_inverse_ok k d : length k = 52%nat -> Forall ok16 k -> octets d -> length d = 8%nat ->
  exists e, idea_encrypt k d = Ok e /\ octets e /\ length e = 8%nat /\ idea_decrypt k e = Ok d.
Proof.
  intros L. do 52 (destruct k as [|?k k]; [discriminate|]). destruct k; [|discriminate]. apply idea_all52.
Qed.

Lemma idea_rot_octets key : octets (idea_rot key).
Proof.
  unfold idea_rot. apply Forall_forall. intros x H. apply in_map_iff in H. destruct H as [y [<- _]].
  eapply N.lt_le_trans; [apply toint2_lt|]. change 256 with (2 ^ 8). apply N.pow_le_mono_r; [discriminate|].
  unfold len, slice. rewrite firstn_length. change (N.to_nat 8) with 8%nat. lia.
Qed.
Lemma idea_words_ok n : forall key, octets key -> Forall ok16 (idea_words n key) /\ length (idea_words n key) = (8 * n)%nat.
Proof.
  induction n as [|n IH]; intros key O; [split; [constructor|reflexivity]|].
  cbn [idea_words]. destruct (IH (idea_rot key) (idea_rot_octets key)) as [F L]. split.
  - apply Forall_app. split; [|exact F].
    apply Forall_forall. intros x H. apply in_map_iff in H. destruct H as [y [<- _]].
    assert (S : octets (slice key (2 * N.of_nat y) 2)) by now apply slice_octets.
    assert (M : (length (slice key (2 * N.of_nat y) 2) <= 2)%nat).
    { unfold slice. rewrite firstn_length. change (N.to_nat 2) with 2%nat. lia. }
    rewrite toint256_be_val by (auto; unfold len; lia).
    unfold ok16. eapply N.lt_le_trans; [now apply be_val_bound|]. change 65536 with (256 ^ 2).
    apply N.pow_le_mono_r; [discriminate|]. unfold len. lia.
  - rewrite app_length, map_length, seq_length, L. lia.
Qed.
Lemma idea_setkey_ok KEY : octets KEY -> Forall ok16 (idea_setkey KEY) /\ length (idea_setkey KEY) = 52%nat.
Proof.
  intros O. destruct (idea_words_ok 7 KEY O) as [F L]. unfold idea_setkey. split.
  - apply Forall_forall. intros x H. rewrite Forall_forall in F. apply F.
    rewrite <- (firstn_skipn 52 (idea_words 7 KEY)). apply in_or_app. now left.
  - rewrite firstn_length, L. reflexivity.
Qed.
Lemma idea_ok KEY : octets KEY -> len KEY = 16 ->
  exists c, IDEA KEY = Ok c /\ c_block c = 8 /\ inverts c 8 /\ whole_blocks c 8.
Proof.
  intros O L. unfold IDEA. rewrite L. change (negb (16 =? 16)) with false. cbn iota.
  eexists. split; [reflexivity|]. split; [reflexivity|]. split; [|apply (whole_on_block 8)].
  intros b Ob Lb. destruct (idea_setkey_ok KEY O) as [F LK].
  destruct (idea_inverse_ok _ b LK F Ob Lb) as [e [E [Oe [Le D]]]].
  exists e. unfold IDEA_from. cbn [c_encrypt c_decrypt]. rewrite !on_block_len by auto. auto.
Qed.
