(** Public key algorithms. *)
From Verif Require Export Model.Pka Spec.Primes Proofs.Lib Proofs.MpiP Proofs.FermatP.
Local Open Scope N_scope.

(** ** Congruences *)
Lemma mod_divide a b m : m <> 0 -> b <= a -> (a mod m = b mod m <-> N.divide m (a - b)).
Proof.
  intros M L. split.
  - intros E. exists (a / m - b / m).
    pose proof (N.div_mod a m M) as A. pose proof (N.div_mod b m M) as B.
    pose proof (N.div_le_mono b a m M L). rewrite N.mul_sub_distr_r. rewrite E in A. lia.
  - intros [k K]. replace a with (b + k * m) by lia. now apply N.mod_add.
Qed.
Lemma crt a b p q : p <> 0 -> q <> 0 -> N.gcd p q = 1 -> a mod p = b mod p -> a mod q = b mod q ->
  a mod (p * q) = b mod (p * q).
Proof.
  intros P Q G. revert a b. 
  assert (W : forall a b, b <= a -> a mod p = b mod p -> a mod q = b mod q -> a mod (p * q) = b mod (p * q)).
  { intros a b L Ep Eq. apply mod_divide in Ep; auto. apply mod_divide in Eq; auto.
    apply mod_divide; [nia|auto|]. destruct Ep as [k K]. rewrite K in *.
    rewrite (N.mul_comm k p) in Eq. apply N.gauss in Eq; [|now rewrite N.gcd_comm]. destruct Eq as [j ->].
    exists j. ring. }
  intros a b Ep Eq. destruct (N.le_ge_cases b a); [now apply W|]. symmetry. now apply W.
Qed.
Lemma primes_coprime p q : is_prime p -> is_prime q -> p <> q -> N.gcd p q = 1.
Proof.
  intros [P1 P] [Q1 Q] D. destruct (P (N.gcd p q) (N.gcd_divide_l p q)) as [E|E]; [auto|].
  pose proof (N.gcd_divide_r p q) as H. rewrite E in H. destruct (Q p H); lia.
Qed.
Lemma prime_coprime p a : is_prime p -> a mod p <> 0 -> N.gcd a p = 1.
Proof.
  intros [P1 P] D. destruct (P (N.gcd a p) (N.gcd_divide_r a p)) as [E|E]; [auto|].
  pose proof (N.gcd_divide_l a p) as H. rewrite E in H. exfalso. apply D. apply N.mod_divide; [lia|auto].
Qed.
Lemma pow_mod a e m : m <> 0 -> (a mod m) ^ e mod m = a ^ e mod m.
Proof.
  intros M. induction e as [|e IH] using N.peano_ind; [reflexivity|].
  rewrite !N.pow_succ_r'. rewrite N.mul_mod, IH, N.mod_mod, <- N.mul_mod; auto.
Qed.
Lemma fermat_pow a p k : is_prime p -> a ^ (1 + k * (p - 1)) mod p = a mod p.
Proof.
  intros P. pose proof P as [P1 _]. induction k as [|k IH] using N.peano_ind.
  - now rewrite N.mul_0_l, N.add_0_r, N.pow_1_r.
  - replace (1 + N.succ k * (p - 1)) with ((1 + k * (p - 1)) + (p - 1)) by lia.
    rewrite N.pow_add_r, N.mul_mod, IH, <- N.mul_mod by lia.
    replace (a * a ^ (p - 1)) with (a ^ p); [now apply fermat|].
    replace p with (N.succ (p - 1)) at 1 by lia. apply N.pow_succ_r'.
Qed.
Lemma fermat_1 a p : is_prime p -> a mod p <> 0 -> a ^ (p - 1) mod p = 1.
Proof.
  intros P A. pose proof P as [P1 _]. pose proof (fermat_pow a p 1 P) as F.
  rewrite N.mul_1_l in F. rewrite N.add_comm, N.add_1_r, N.pow_succ_r' in F.
  replace (a mod p) with ((a * 1) mod p) in F by now rewrite N.mul_1_r.
  assert (C : N.gcd p a = 1) by (rewrite N.gcd_comm; now apply prime_coprime).
  assert (G : forall x y, (a * x) mod p = (a * y) mod p -> y <= x -> x mod p = y mod p).
  { intros x y E L. apply mod_divide in E; [|lia|now apply N.mul_le_mono_l]. rewrite <- N.mul_sub_distr_l in E.
    apply N.gauss in E; auto. apply mod_divide; auto. lia. }
  transitivity (1 mod p); [|apply N.mod_small; lia].
  destruct (N.eq_dec (a ^ (p - 1)) 0) as [E|E].
  - exfalso. rewrite E, N.mul_0_r, N.mul_1_r in F. apply A. rewrite <- F. apply N.mod_0_l. lia.
  - apply G; [exact F|lia].
Qed.
(** Exponents count modulo the order. *)
Lemma order_mod g q p e : p <> 0 -> q <> 0 -> g ^ q mod p = 1 mod p -> g ^ (e mod q) mod p = g ^ e mod p.
Proof.
  intros P Q O. rewrite (N.div_mod e q Q) at 2. rewrite N.pow_add_r, N.pow_mul_r.
  rewrite (N.mul_mod ((g ^ q) ^ (e / q))), <- (pow_mod (g ^ q)), O, pow_mod, N.pow_1_l, <- N.mul_mod by auto.
  now rewrite N.mul_1_l.
Qed.

(** ** Modular inverse *)
Lemma euclid_ok a m : (0 < m)%Z -> forall n r0 r1 t0 t1 g t,
  (0 <= r1 < r0)%Z -> (r0 * r1 < 2 ^ Z.of_nat n)%Z ->
  (exists k, t0 * a = r0 + k * m)%Z -> (exists k, t1 * a = r1 + k * m)%Z ->
  euclid n r0 r1 t0 t1 = (g, t) ->
  g = Z.gcd r0 r1 /\ exists k, (t * a = g + k * m)%Z.
Proof.
  intros M. induction n as [|n IH]; intros r0 r1 t0 t1 g t R B I0 I1 E; cbn [euclid] in E.
  - assert (r1 = 0%Z) as -> by (change (2 ^ Z.of_nat 0)%Z with 1%Z in B; nia).
    injection E as <- <-. rewrite Z.gcd_0_r, Z.abs_eq by lia. auto.
  - destruct (Z.eqb_spec r1 0) as [->|N1].
    + injection E as <- <-. rewrite Z.gcd_0_r, Z.abs_eq by lia. auto.
    + pose proof (Z.mod_pos_bound r0 r1 ltac:(lia)) as MB. pose proof (Z.div_mod r0 r1 N1) as DM.
      assert (D1 : (1 <= r0 / r1)%Z) by (apply Z.div_le_lower_bound; lia).
      apply IH in E; [|lia| |auto|].
      * destruct E as [-> E]. split; [|auto]. rewrite Z.gcd_comm, Z.gcd_mod, Z.gcd_comm by auto. reflexivity.
      * rewrite Nat2Z.inj_succ, Z.pow_succ_r in B by lia.
        assert (2 * (r0 mod r1) < r0)%Z by nia.
        assert (r1 * (2 * (r0 mod r1)) < r1 * r0)%Z by (apply Z.mul_lt_mono_pos_l; lia). nia.
      * destruct I0 as [k0 K0], I1 as [k1 K1]. exists (k0 - r0 / r1 * k1)%Z.
        replace ((t0 - r0 / r1 * t1) * a)%Z with (t0 * a - r0 / r1 * (t1 * a))%Z by ring. rewrite K0, K1.
        replace (r0 mod r1)%Z with (r0 - r1 * (r0 / r1))%Z by lia. ring.
Qed.
Lemma of_N_gcd a b : Z.gcd (Z.of_N a) (Z.of_N b) = Z.of_N (N.gcd a b).
Proof. destruct a, b; reflexivity. Qed.
Lemma size_lt m : m < 2 ^ N.size m. Proof. apply N.size_gt. Qed.
Lemma inverse_cases a m : 1 < m ->
  mod_inverse a m < m /\
  ((N.gcd a m = 1 /\ (mod_inverse a m * a) mod m = 1) \/ (N.gcd a m <> 1 /\ mod_inverse a m = 0)).
Proof.
  intros M. unfold mod_inverse.
  destruct (euclid (N.to_nat (2 * N.size m)) (Z.of_N m) (Z.of_N (a mod m)) 0 1) as [g t] eqn:E.
  pose proof (N.mod_lt a m ltac:(lia)) as ML.
  assert (G : g = Z.gcd (Z.of_N m) (Z.of_N (a mod m)) /\ exists k, (t * Z.of_N a = g + k * Z.of_N m)%Z).
  { assert (R : (0 <= Z.of_N (a mod m) < Z.of_N m)%Z) by (split; [apply N2Z.is_nonneg|now apply N2Z.inj_lt]).
    assert (M0 : (0 < Z.of_N m)%Z) by lia.
    apply (euclid_ok (Z.of_N a) (Z.of_N m) M0 _ _ _ _ _ _ _ R) in E; auto.
    - rewrite N_nat_Z, N2Z.inj_mul. pose proof (size_lt m) as S.
      assert (Z.of_N m < 2 ^ Z.of_N (N.size m))%Z by (change 2%Z with (Z.of_N 2); rewrite <- N2Z.inj_pow; lia).
      replace (Z.of_N 2 * Z.of_N (N.size m))%Z with (Z.of_N (N.size m) + Z.of_N (N.size m))%Z by lia.
      rewrite Z.pow_add_r by lia. apply Z.mul_lt_mono_nonneg; (apply N2Z.is_nonneg || (apply R) || (eapply Z.lt_trans; [apply R|auto]) || auto).
    - exists (-1)%Z. lia.
    - exists (Z.of_N (a / m)). pose proof (f_equal Z.of_N (N.div_mod a m ltac:(lia))) as D.
      rewrite N2Z.inj_add, N2Z.inj_mul in D. rewrite D at 1. ring. }
  destruct G as [-> [k K]]. rewrite of_N_gcd in *.
  assert (GG : N.gcd m (a mod m) = N.gcd a m) by (rewrite N.gcd_comm, N.gcd_mod by lia; apply N.gcd_comm).
  rewrite GG in *. pose proof (Z.mod_pos_bound t (Z.of_N m) ltac:(lia)) as TB.
  destruct (Z.eqb_spec (Z.of_N (N.gcd a m)) 1) as [G1|G1].
  - split; [lia|]. left. split; [lia|].
    apply N2Z.inj. rewrite N2Z.inj_mod, N2Z.inj_mul, Z2N.id by lia.
    rewrite Z.mul_mod_idemp_l by lia. rewrite K, G1. rewrite Z.mod_add by lia. apply Z.mod_small. lia.
  - split; [lia|]. right. split; [lia|reflexivity].
Qed.
Lemma inverse_ok a m : 1 < m -> N.gcd a m = 1 -> (mod_inverse a m * a) mod m = 1.
Proof. intros M G. destruct (inverse_cases a m M) as [_ [[_ H]|[H _]]]; [auto|contradiction]. Qed.
Lemma invert_ok a m : 1 < m -> N.gcd a m = 1 -> exists i, invert a m = Ok i /\ i < m /\ (i * a) mod m = 1.
Proof.
  intros M G. exists (mod_inverse a m). unfold invert. replace (m =? 0) with false by lia.
  split; [reflexivity|]. split; [now apply inverse_cases|now apply inverse_ok].
Qed.
Lemma mpz_powm_ok b e m : N.odd m = true -> mpz_powm b e m = Ok (b ^ e mod m).
Proof.
  intros O. unfold mpz_powm. rewrite <- N.negb_odd, O. cbn [negb]. rewrite powm_spec; [reflexivity|].
  intros ->. discriminate.
Qed.
Lemma mpz_mod_ok a m : m <> 0 -> mpz_mod a m = Ok (a mod m).
Proof. intros M. unfold mpz_mod. now replace (m =? 0) with false by lia. Qed.
Lemma odd_nz p : N.odd p = true -> p <> 0. Proof. now intros O ->. Qed.
Lemma prime_2 p : is_prime p -> N.odd p = true \/ p = 2.
Proof.
  intros [P1 P]. destruct (N.odd p) eqn:O; [now left|]. right. rewrite <- N.negb_even in O.
  apply (f_equal negb) in O. rewrite negb_involutive in O. cbn in O. apply N.even_spec in O. destruct O as [k K].
  destruct (P 2); [exists k; lia|lia|auto].
Qed.

(** ** RSA *)
Lemma rsa_math p q e d m : is_prime p -> is_prime q -> p <> q ->
  (e * d) mod ((p - 1) * (q - 1)) = 1 -> m < p * q -> (m ^ e mod (p * q)) ^ d mod (p * q) = m.
Proof.
  intros P Q D E M. pose proof P as [P1 _]. pose proof Q as [Q1 _].
  assert (NZ : p * q <> 0) by (apply N.neq_mul_0; lia).
  rewrite pow_mod, <- N.pow_mul_r by auto. set (t := (p - 1) * (q - 1)) in *.
  assert (T : t <> 0) by (apply N.neq_mul_0; lia).
  pose proof (N.div_mod (e * d) t T) as K. rewrite E in K. set (k := e * d / t) in *.
  transitivity (m mod (p * q)); [|now apply N.mod_small].
  apply crt; [lia|lia|now apply primes_coprime| |].
  - rewrite K. replace (t * k + 1) with (1 + (k * (q - 1)) * (p - 1)) by (unfold t; ring). now apply fermat_pow.
  - rewrite K. replace (t * k + 1) with (1 + (k * (p - 1)) * (q - 1)) by (unfold t; ring). now apply fermat_pow.
Qed.
Lemma odd_mul p q : N.odd p = true -> N.odd q = true -> N.odd (p * q) = true.
Proof. intros P Q. now rewrite N.odd_mul, P, Q. Qed.

Lemma coprime_from_ok : forall f tot e, (exists j, (j < f)%nat /\ N.gcd tot (e + 2 * N.of_nat j) = 1) ->
  exists e', coprime_from f tot e = Ok e' /\ N.gcd tot e' = 1.
Proof.
  induction f as [|f IH]; intros tot e (j & J & G); [lia|]. cbn [coprime_from].
  destruct (N.gcd tot e =? 1) eqn:E; [exists e; split; [reflexivity|lia]|].
  apply IH. destruct j as [|j].
  - rewrite N.mul_0_r, N.add_0_r in G. lia.
  - exists j. split; [lia|]. replace (e + 2 + 2 * N.of_nat j) with (e + 2 * N.of_nat (S j)) by lia. exact G.
Qed.
Lemma odd_repr e : N.odd e = true -> exists k, e = 2 * k + 1.
Proof. intros O. apply N.odd_spec in O. exact O. Qed.
Lemma coprime_exists tot e : N.even tot = true -> tot <> 0 -> N.odd e = true ->
  exists j, (j < S (N.to_nat tot))%nat /\ N.gcd tot (e + 2 * N.of_nat j) = 1.
Proof.
  intros T T0 O. apply N.even_spec in T. destruct T as [h ->]. apply odd_repr in O. destruct O as [k ->].
  exists (N.to_nat (h - k mod h)). split.
  - pose proof (N.mod_le k h). lia.
  - rewrite N2Nat.id. assert (H : h <> 0) by lia. pose proof (N.div_mod k h H) as D. pose proof (N.mod_lt k h H) as L.
    replace (2 * k + 1 + 2 * (h - k mod h)) with (1 + (k / h + 1) * (2 * h)).
    + rewrite N.gcd_add_mult_diag_r. apply N.gcd_1_r.
    + set (x := k mod h) in *. replace ((k / h + 1) * (2 * h)) with (2 * (h * (k / h)) + 2 * h) by ring.
      rewrite D at 2. lia.
Qed.
Lemma rsa_primes_ok np bits : (forall n, is_prime (np n)) -> forall f draws p q r,
  rsa_primes f np bits draws = Ok (p, q, r) -> is_prime p /\ is_prime q /\ p <> q.
Proof.
  intros NP. induction f as [|f IH]; intros draws p q r E; cbn [rsa_primes] in E; [discriminate|].
  apply bind_ok in E as ([a d1] & _ & E). apply bind_ok in E as ([b d2] & _ & E).
  destruct (np a =? np b) eqn:D; [eauto|]. apply Ok_inj in E. 
  assert (p = np a /\ q = np b) as [-> ->] by (split; congruence).
  repeat split; auto; lia || apply NP.
Qed.
Lemma rsa_keygen_ok np bits draws v r : (forall n, is_prime (np n)) -> rsa_keygen np bits draws = Ok (v, r) ->
  exists e d p q u, v = [p * q; e; d; p; q; u] /\ is_prime p /\ is_prime q /\ p < q /\
    (e * d) mod ((p - 1) * (q - 1)) = 1 /\ (u * p) mod q = 1.
Proof.
  intros NP E. unfold rsa_keygen in E. apply bind_ok in E as ([[p0 q0] d1] & R & E).
  apply rsa_primes_ok in R as (P0 & Q0 & D); auto.
  assert (S : exists p q, (if q0 <? p0 then (q0, p0) else (p0, q0)) = (p, q) /\ is_prime p /\ is_prime q /\ p < q /\ p0 * q0 = p * q).
  { destruct (q0 <? p0) eqn:L; [exists q0, p0|exists p0, q0]; repeat split; try apply P0; try apply Q0; try lia. }
  destruct S as (p & q & SE & P & Q & L & PQ). cbv zeta in E. rewrite SE, PQ in E.
  apply bind_ok in E as ([e0 d2] & _ & E). apply bind_ok in E as (e & EE & E).
  apply bind_ok in E as (d & DD & E). apply bind_ok in E as (u & UU & E). apply Ok_inj in E.
  pose proof P as [P1 _]. pose proof Q as [Q1 _].
  set (tot := (p - 1) * (q - 1)) in *.
  assert (T2 : 1 < tot) by (unfold tot; assert (1 * 2 <= (p - 1) * (q - 1)) by (apply N.mul_le_mono; lia); lia).
  assert (OQ : N.odd q = true) by (destruct (prime_2 q Q); [auto|lia]).
  assert (TE : N.even tot = true).
  { unfold tot. rewrite N.even_mul. apply orb_true_iff. right. rewrite N.even_sub by lia. now rewrite <- N.negb_odd, OQ. }
  set (e1 := if N.even e0 then e0 + 1 else e0) in *.
  assert (O1 : N.odd e1 = true).
  { unfold e1. destruct (N.even e0) eqn:E0; [|now rewrite <- N.negb_even, E0].
    rewrite N.add_1_r, N.odd_succ. exact E0. }
  destruct (coprime_from_ok _ tot e1 (coprime_exists tot e1 TE ltac:(lia) O1)) as (e' & C & G).
  rewrite C in EE. apply Ok_inj in EE. subst e'.
  rewrite N.gcd_comm in G. destruct (invert_ok e tot T2 G) as (d' & D' & _ & DM). rewrite D' in DD. apply Ok_inj in DD. subst d'.
  destruct (invert_ok p q Q1) as (u' & U' & _ & UM); [apply primes_coprime; auto; lia|].
  rewrite U' in UU. apply Ok_inj in UU. subst u'.
  exists e, d, p, q, u. split; [congruence|]. rewrite N.mul_comm. auto.
Qed.

(** ** ElGamal *)
Lemma pow_nz g n p : is_prime p -> g mod p <> 0 -> g ^ n mod p <> 0.
Proof.
  intros P G. pose proof P as [P1 _]. induction n as [|n IH] using N.peano_ind.
  - rewrite N.pow_0_r, N.mod_small by lia. lia.
  - rewrite N.pow_succ_r'. intros E. apply N.mod_divide in E; [|lia].
    apply N.gauss in E; [|rewrite N.gcd_comm; now apply prime_coprime]. apply IH. apply N.mod_divide; [lia|auto].
Qed.
Lemma elgamal_math p g x k m : is_prime p -> g mod p <> 0 -> m < p ->
  let s := (g ^ k mod p) ^ x mod p in
  (mod_inverse s p * ((m * ((g ^ x mod p) ^ k mod p)) mod p)) mod p = m.
Proof.
  intros P G M s. pose proof P as [P1 _].
  assert (E : (g ^ x mod p) ^ k mod p = s).
  { unfold s. rewrite !pow_mod, <- !N.pow_mul_r by lia. now rewrite N.mul_comm. }
  rewrite E. assert (S : N.gcd s p = 1).
  { apply prime_coprime; [auto|]. unfold s. rewrite N.mod_mod, pow_mod, <- N.pow_mul_r by lia. now apply pow_nz. }
  pose proof (inverse_ok s p P1 S) as I. rewrite N.mul_mod_idemp_r by lia.
  replace (mod_inverse s p * (m * s)) with (m * (mod_inverse s p * s)) by ring.
  rewrite N.mul_mod, I, N.mul_1_r, N.mod_mod, N.mod_small by lia. reflexivity.
Qed.

(** ** DSA *)
Lemma order_cong g q p a b : p <> 0 -> q <> 0 -> g ^ q mod p = 1 mod p -> a mod q = b mod q -> g ^ a mod p = g ^ b mod p.
Proof. intros P Q O E. rewrite <- (order_mod g q p a), <- (order_mod g q p b) by auto. now rewrite E. Qed.
Lemma dsa_math p q g x m k w s : 1 < p -> 1 < q -> g ^ q mod p = 1 ->
  let r := (g ^ k mod p) mod q in
  (s * k) mod q = (m + x * r) mod q -> (w * s) mod q = 1 ->
  ((g ^ ((m * w) mod q) mod p) * ((g ^ x mod p) ^ ((r * w) mod q) mod p)) mod p mod q = r.
Proof.
  intros P Q O r S W. assert (P0 : p <> 0) by lia. assert (Q0 : q <> 0) by lia.
  assert (O' : g ^ q mod p = 1 mod p) by (rewrite O; symmetry; now apply N.mod_small).
  unfold r at 2. f_equal.
  rewrite <- N.mul_mod, <- N.mul_mod_idemp_r, pow_mod, N.mul_mod_idemp_r by auto.
  rewrite <- N.pow_mul_r, <- N.pow_add_r.
  apply (order_cong g q); auto. clear O O'.
  rewrite N.add_mod_idemp_l by auto. rewrite <- N.add_mod_idemp_r, N.mul_mod_idemp_r, N.add_mod_idemp_r by auto.
  replace (m * w + x * (r * w)) with (w * (m + x * r)) by ring.
  rewrite <- N.mul_mod_idemp_r, <- S, N.mul_mod_idemp_r by auto.
  replace (w * (s * k)) with ((w * s) * k) by ring. rewrite <- N.mul_mod_idemp_l, W by auto. now rewrite N.mul_1_l.
Qed.
Lemma dsa_try_ok data x pri p q g rest k r s : 1 < p -> N.odd p = true -> 1 < q ->
  dsa_try data (x :: pri) (p :: q :: g :: rest) k = Ok (Some (r, s)) ->
  r = (g ^ k mod p) mod q /\ 0 < r /\ 0 < s < q /\ (s * k) mod q = (data + x * r) mod q.
Proof.
  intros P O Q E. unfold dsa_try in E. cbn [vec_at nth_error bind] in E.
  rewrite mpz_powm_ok in E by auto. cbn [bind] in E. rewrite mpz_mod_ok in E by lia. cbn [bind] in E.
  set (r0 := (g ^ k mod p) mod q) in *. destruct (r0 =? 0) eqn:R; [discriminate|].
  unfold invert in E. replace (q =? 0) with false in E by lia. cbn [bind] in E. rewrite mpz_mod_ok in E by lia. cbn [bind] in E.
  destruct (inverse_cases k q Q) as [IL [[G I]|[_ I]]].
  - destruct (_ mod q =? 0) eqn:S; [discriminate|]. apply Ok_inj in E.
    assert (r = r0) by congruence. assert (E2 : s = (mod_inverse k q * (data + x * r0)) mod q) by congruence. subst r.
    split; [reflexivity|]. split; [lia|]. pose proof (N.mod_lt (mod_inverse k q * (data + x * r0)) q ltac:(lia)).
    rewrite <- E2 in *. split; [lia|]. rewrite E2. rewrite N.mul_mod_idemp_l by lia.
    replace (mod_inverse k q * (data + x * r0) * k) with ((mod_inverse k q * k) * (data + x * r0)) by ring.
    rewrite <- N.mul_mod_idemp_l, I, N.mul_1_l by lia. reflexivity.
  - rewrite I, N.mul_0_l, N.mod_0_l in E by lia. discriminate.
Qed.
Lemma dsa_verify_ok data p q g y rest r s : 1 < p -> N.odd p = true -> 1 < q -> 0 < r < q ->
  dsa_verify data [r; s] (p :: q :: g :: y :: rest) =
  Ok (((g ^ ((data * mod_inverse s q) mod q) mod p) * (y ^ ((r * mod_inverse s q) mod q) mod p)) mod p mod q =? r).
Proof.
  intros P O Q R. unfold dsa_verify. cbn [vec_at nth_error bind].
  replace (0 <? r) with true by lia. replace (r <? q) with true by lia. cbn [negb bind andb].
  unfold invert. replace (q =? 0) with false by lia. cbn [bind].
  rewrite !(mpz_mod_ok _ q) by lia. cbn [bind]. rewrite !mpz_powm_ok by auto. cbn [bind].
  rewrite mpz_mod_ok by lia. cbn [bind]. rewrite mpz_mod_ok by lia. reflexivity.
Qed.
Lemma dsa_one data x pri p q g y rest k r s : dsa_key p q g y x ->
  dsa_try data (x :: pri) (p :: q :: g :: y :: rest) k = Ok (Some (r, s)) ->
  dsa_verify data [r; s] (p :: q :: g :: y :: rest) = Ok true.
Proof.
  intros (P & O & Q & G & Y) E. pose proof Q as [Q1 _].
  apply dsa_try_ok in E as (R & R0 & S & SK); auto.
  assert (RQ : r < q) by (rewrite R; apply N.mod_lt; lia).
  rewrite dsa_verify_ok by auto. f_equal. apply N.eqb_eq. rewrite Y.
  assert (W : (mod_inverse s q * s) mod q = 1) by (apply inverse_ok; [auto|]; apply prime_coprime; [auto|]; clear - S; rewrite N.mod_small; lia).
  clear - P Q1 G R SK W. rewrite R in *. apply (dsa_math p q g x data k _ s); auto.
Qed.
Lemma dsa_rounds_ok data pri pub : forall f draws sig r, dsa_rounds f data pri pub draws = Ok (sig, r) ->
  exists k a b, sig = [a; b] /\ dsa_try data pri pub k = Ok (Some (a, b)).
Proof.
  induction f as [|f IH]; intros draws sig r E; cbn [dsa_rounds] in E; [discriminate|].
  apply bind_ok in E as (q & _ & E). apply bind_ok in E as ([k0 d1] & _ & E). apply bind_ok in E as (k & _ & E).
  apply bind_ok in E as (t & T & E). destruct t as [[a b]|]; [|eauto]. apply Ok_inj in E. exists k, a, b. split; [congruence|auto].
Qed.

(** ** Generated parameters *)
Lemma generator_ok p exp : is_prime p -> 0 < exp < p - 1 -> forall f h g,
  1 < h <= p -> (forall i, 0 < i < h -> i ^ exp mod p = 1) ->
  generator_from f h exp p = Ok g ->
  N.odd p = true /\ exists h', 0 < h' < p /\ g = h' ^ exp mod p /\ g <> 1.
Proof.
  intros P X. induction f as [|f IH]; intros h g H A E; cbn [generator_from] in E; [discriminate|].
  apply bind_ok in E as (g' & M & E).
  assert (O : N.odd p = true).
  { unfold mpz_powm in M. destruct (N.even p) eqn:EP; [discriminate|]. now rewrite <- N.negb_even, EP. }
  split; [exact O|]. rewrite mpz_powm_ok in M by auto. apply Ok_inj in M.
  assert (HP : h <> p).
  { intros ->. pose proof (roots p exp P ltac:(lia) A). lia. }
  destruct (g' =? 1) eqn:G1.
  - apply (IH (h + 1) g); [lia| |exact E].
    intros i Hi. destruct (N.eq_dec i h) as [->|]; [lia|apply A; lia].
  - apply Ok_inj in E. subst g'. exists h. split; [lia|]. split; [auto|lia].
Qed.
Lemma prime_from_ok test q : (forall n, test n = true -> is_prime n) -> forall f p p',
  (exists k, p = k * q + 1) -> prime_from f test p q = Ok p' -> is_prime p' /\ exists k, p' = k * q + 1.
Proof.
  intros T. induction f as [|f IH]; intros p p' K E; cbn [prime_from] in E; [discriminate|].
  destruct (test p) eqn:TP.
  - apply Ok_inj in E. subst p'. auto.
  - apply IH in E; auto. destruct K as [k ->]. exists (k + 1). ring.
Qed.
Lemma prime_within_ok np draw bits : (forall n, is_prime (np n)) -> forall f draws q r,
  prime_within f np draw bits draws = Ok (q, r) -> is_prime q.
Proof.
  intros NP. induction f as [|f IH]; intros draws q r E; cbn [prime_within] in E; [discriminate|].
  apply bind_ok in E as ([a d] & _ & E). destruct (_ <? _); [eauto|]. apply Ok_inj in E.
  assert (q = np a) as -> by congruence. apply NP.
Qed.
Lemma exponent_below_ok bits m : forall f draws x r, exponent_below f bits m draws = Ok (x, r) -> 0 < x < m.
Proof.
  induction f as [|f IH]; intros draws x r E; cbn [exponent_below] in E; [discriminate|].
  apply bind_ok in E as ([a d] & _ & E). destruct ((a =? 0) || (m <=? a)) eqn:B; [eauto|]. apply Ok_inj in E.
  assert (x = a) as -> by congruence. apply orb_false_iff in B. lia.
Qed.
(** p = k q + 1 and g as both searches find them. *)
Lemma group_ok test f q p0 p exp g : (forall n, test n = true -> is_prime n) -> is_prime q ->
  (k <- mpz_div p0 q ;; prime_from f test (k * q + 1) q) = Ok p -> mpz_div (p - 1) q = Ok exp ->
  generator_from f 2 exp p = Ok g ->
  is_prime p /\ N.odd p = true /\ N.divide q (p - 1) /\ 1 < g < p /\ g ^ q mod p = 1 /\ g mod p <> 0.
Proof.
  intros T Q PP X G. pose proof Q as [Q1 _].
  apply bind_ok in PP as (k & _ & PP). apply prime_from_ok in PP as [P [j J]]; [|auto|now exists k].
  pose proof P as [P1 _]. unfold mpz_div in X. replace (q =? 0) with false in X by lia. apply Ok_inj in X.
  assert (PJ : p - 1 = j * q) by lia. assert (XJ : exp = j) by (rewrite <- X, PJ; apply N.div_mul; lia). subst exp.
  assert (J0 : j <> 0) by (intros Z0; rewrite Z0 in *; lia).
  assert (B : 0 < j < p - 1).
  { split; [lia|]. rewrite PJ. assert (j * 1 < j * q) by (apply N.mul_lt_mono_pos_l; lia). lia. }
  rewrite XJ in G.
  destruct (generator_ok p j P B f 2 g ltac:(lia)) as (O & h & H & GE & G1).
  { intros i Hi. assert (i = 1) as -> by lia. rewrite N.pow_1_l. apply N.mod_small. lia. }
  { exact G. }
  assert (HN : h mod p <> 0) by (rewrite N.mod_small; lia).
  assert (GL : g < p) by (rewrite GE; apply N.mod_lt; lia).
  assert (G0 : g <> 0) by (rewrite GE; now apply pow_nz).
  split; [auto|]. split; [auto|]. split; [now exists j|]. split; [lia|]. split.
  - rewrite GE, pow_mod, <- N.pow_mul_r, <- PJ by lia. now apply fermat_1.
  - rewrite N.mod_small; lia.
Qed.
Lemma elgamal_keygen_ok f np test bits draws v r : (forall n, is_prime (np n)) -> (forall n, test n = true -> is_prime n) ->
  elgamal_keygen f np test bits draws = Ok (v, r) ->
  exists p g y x, v = [p; g; y; x] /\ elgamal_key p g y x /\ 0 < x < p.
Proof.
  intros NP T E. unfold elgamal_keygen in E. cbv zeta in E.
  apply bind_ok in E as ([q d1] & Q & E). apply prime_within_ok in Q; auto.
  apply bind_ok in E as ([p0 d2] & _ & E). apply bind_ok in E as (k & K & E). apply bind_ok in E as (p & P & E).
  apply bind_ok in E as (exp & X & E). apply bind_ok in E as (g & G & E). apply bind_ok in E as ([x d3] & XX & E).
  apply bind_ok in E as (y & Y & E). apply Ok_inj in E.
  destruct (group_ok test f q (p0 - 1) p exp g T Q) as (PP & O & _ & _ & _ & GN); auto.
  { rewrite K. exact P. }
  rewrite mpz_powm_ok in Y by auto. apply Ok_inj in Y. apply exponent_below_ok in XX.
  exists p, g, y, x. split; [congruence|]. split; [|auto]. repeat split; auto; apply PP.
Qed.
Lemma dsa_keygen_rounds_ok p q g : N.odd p = true -> forall f x draws pri pub r,
  dsa_keygen_rounds f x [p; q; g] draws = Ok (pri, pub, r) -> pri = [x] /\ pub = [p; q; g; g ^ x mod p].
Proof.
  intros O. induction f as [|f IH]; intros x draws pri pub r E; cbn [dsa_keygen_rounds] in E; [discriminate|].
  cbn [vec_at nth_error bind] in E. rewrite mpz_powm_ok in E by auto. cbn [bind] in E.
  apply bind_ok in E as ([rs d] & _ & E). apply bind_ok in E as (ok & _ & E).
  destruct ok; [|eauto]. apply Ok_inj in E. cbn [app] in E. split; congruence.
Qed.
Lemma dsa_generated f np test L n draws pub0 d0 pri pub r :
  (forall n, is_prime (np n)) -> (forall n, test n = true -> is_prime n) ->
  dsa_new_public f np test L n draws = Ok (pub0, d0) -> dsa_keygen f pub0 d0 = Ok (pri, pub, r) ->
  exists p q g y x, pub = [p; q; g; y] /\ pri = [x] /\ is_prime p /\ N.divide q (p - 1) /\ dsa_key p q g y x /\ 0 < x < q.
Proof.
  intros NP T E K. unfold dsa_new_public in E.
  apply bind_ok in E as ([q d1] & Q & E). apply prime_within_ok in Q; auto.
  apply bind_ok in E as ([p0 d2] & _ & E). apply bind_ok in E as (k & KK & E). apply bind_ok in E as (p & P & E).
  apply bind_ok in E as (exp & X & E). apply bind_ok in E as (g & G & E). apply Ok_inj in E.
  assert (pub0 = [p; q; g]) as -> by congruence. clear E.
  destruct (group_ok test f q (p0 - 1) p exp g T Q) as (PP & O & D & _ & GQ & _); auto.
  { rewrite KK. exact P. }
  unfold dsa_keygen in K. cbn [vec_at nth_error bind] in K. cbv zeta in K.
  apply bind_ok in K as ([x d3] & XX & K). apply exponent_below_ok in XX.
  apply dsa_keygen_rounds_ok in K as [-> ->]; auto.
  exists p, q, g, (g ^ x mod p), x. split; [reflexivity|]. split; [reflexivity|]. split; [auto|]. split; [auto|].
  split; [|auto]. pose proof PP as [P1 _]. repeat split; auto; apply Q.
Qed.

Definition no_divisor (p k : N) : bool := (k =? 1) || (k =? p) || negb (p mod k =? 0).
Lemma prime_check p : (1 <? p) && forallb (no_divisor p) (map N.of_nat (seq 1 (N.to_nat p))) = true -> is_prime p.
Proof.
  intros H. apply andb_prop in H as [P C]. apply N.ltb_lt in P. split; [exact P|]. intros d D.
  assert (L : 0 < d <= p).
  { split; [|apply N.divide_pos_le; [lia|exact D]]. destruct D as [k K]. destruct d; [rewrite N.mul_0_r in K; lia|lia]. }
  apply N.mod_divide in D; [|lia]. rewrite forallb_forall in C.
  assert (I : In d (map N.of_nat (seq 1 (N.to_nat p)))) by (apply in_map_iff; exists (N.to_nat d); split; [lia|apply in_seq; lia]).
  apply C in I. unfold no_divisor in I. rewrite D in I. cbn [N.eqb negb] in I. lia.
Qed.
