(** Proth's test: large primes for examples. *)
From Coq Require Import Znumtheory.
From Verif Require Import Proofs.FermatP Proofs.PkaP.
Local Open Scope N_scope.

Lemma small_factor : forall n, 1 < n -> is_prime n \/ exists r, is_prime r /\ N.divide r n /\ r * r <= n.
Proof.
  intros n. induction n as [n IH] using (well_founded_induction N.lt_wf_0). intros H.
  destruct (forallb (no_divisor n) (map N.of_nat (seq 1 (N.to_nat n)))) eqn:C.
  { left. apply prime_check. rewrite C, andb_true_r. lia. }
  right. assert (X : exists d, 1 < d < n /\ N.divide d n).
  { assert (Y : ~ forall x, In x (map N.of_nat (seq 1 (N.to_nat n))) -> no_divisor n x = true).
    { intros A. apply forallb_forall in A. congruence. }
    clear IH. revert C Y. generalize (map N.of_nat (seq 1 (N.to_nat n))). intros l. induction l as [|d l IHl]; intros C Y; [discriminate|].
    cbn [forallb] in C. destruct (no_divisor n d) eqn:D.
    - apply IHl; auto. intros A. apply Y. intros x [<-|I]; auto.
    - unfold no_divisor in D. exists d. apply orb_false_iff in D as [D D3]. apply orb_false_iff in D as [D1 D2].
      assert (D0 : d <> 0) by (intros ->; cbn in D3; destruct n; [lia|discriminate]).
      assert (M : n mod d = 0) by lia. apply N.mod_divide in M; [|exact D0]. split; [|exact M].
      pose proof (N.divide_pos_le d n ltac:(lia) M). lia. }
  destruct X as (d & R & (e & E)).
  assert (m : exists m, 1 < m < n /\ N.divide m n /\ m * m <= n).
  { destruct (N.le_gt_cases d e) as [L|L].
    - exists d. split; [lia|]. split; [now exists e|]. nia.
    - exists e. split; [nia|]. split; [exists d; lia|]. nia. }
  destruct m as (m & Rm & Dm & Sm). destruct (IH m ltac:(lia) ltac:(lia)) as [P|(r & P & D & S)].
  - exists m. auto.
  - exists r. split; [exact P|]. split; [etransitivity; eassumption|]. lia.
Qed.

Open Scope Z_scope.
Lemma pow_one r x : 1 < r -> (r | x - 1) -> forall e, 0 <= e -> (r | x ^ e - 1).
Proof.
  intros R D. apply natlike_ind; [exists 0; rewrite Z.pow_0_r; lia|]. intros e E [k K]. destruct D as [j J].
  exists (x * k + j). rewrite Z.pow_succ_r by lia. replace (x ^ e) with (k * r + 1) by lia. nia.
Qed.
Lemma pow_minus_one r x : 1 < r -> (r | x + 1) -> forall n, 0 <= n -> (r | x ^ (2 * n + 1) + 1).
Proof.
  intros R D n Hn. assert (S : (r | x * x - 1)) by (destruct D as [k K]; exists (k * (x - 1)); nia).
  destruct (pow_one r (x * x) R S n Hn) as [k K]. destruct D as [j J]. exists (x * k + j).
  rewrite Z.pow_add_r, Z.pow_1_r, Z.pow_mul_r by lia. rewrite Z.pow_2_r. replace ((x * x) ^ n) with (k * r + 1) by lia. nia.
Qed.
(** An odd part and a power of two. *)
Lemma two_part : forall n, 0 < n -> exists j o, 0 <= j /\ 0 <= o /\ n = 2 ^ j * (2 * o + 1).
Proof.
  intros n Hn. assert (G : forall b, 0 <= b -> forall n, 0 < n <= b -> exists j o, 0 <= j /\ 0 <= o /\ n = 2 ^ j * (2 * o + 1)); [|apply (G n); lia].
  clear. apply (natlike_ind (fun b => forall n, 0 < n <= b -> exists j o, 0 <= j /\ 0 <= o /\ n = 2 ^ j * (2 * o + 1))); [lia|].
  intros b B IH n Hn. destruct (Z.even n) eqn:E.
  - apply Z.even_spec in E as [m ->]. destruct (IH m ltac:(lia)) as (j & o & J & O & ->). exists (j + 1), o.
    repeat split; try lia. rewrite Z.pow_add_r by lia. lia.
  - rewrite <- Z.negb_odd in E. apply negb_false_iff, Z.odd_spec in E as [m ->]. exists 0, m. repeat split; lia.
Qed.
Lemma proth_Z n h k a r : 0 < k -> 0 < h -> n = h * 2 ^ k + 1 -> (n | a ^ (h * 2 ^ (k - 1)) + 1) ->
  prime r -> r <> 2 -> (r | n) -> 2 ^ k <= r - 1.
Proof.
  intros K H E W P R2 D. assert (R1 : 1 < r) by (destruct P; lia).
  assert (WR : (r | a ^ (h * 2 ^ (k - 1)) + 1)) by (eapply Z.divide_trans; eassumption).
  assert (A : ~ (r | a)).
  { intros [x X]. subst a. rewrite Z.pow_mul_l in WR.
    assert (Q : (r | r ^ (h * 2 ^ (k - 1)))).
    { assert (0 < 2 ^ (k - 1)) by (apply Z.pow_pos_nonneg; lia). assert (G : 0 < h * 2 ^ (k - 1)) by nia. revert G.
      generalize (h * 2 ^ (k - 1)). intros m G. exists (r ^ (m - 1)). replace m with (m - 1 + 1) at 1 by lia.
      now rewrite Z.pow_add_r, Z.pow_1_r by lia. }
    assert (O : (r | 1)).
    { apply (Z.divide_add_cancel_r r (x ^ (h * 2 ^ (k - 1)) * r ^ (h * 2 ^ (k - 1)))); [|exact WR]. now apply Z.divide_mul_r. }
    apply Z.divide_1_r_nonneg in O; lia. }
  pose proof (fermat_unit r P a A) as F.
  destruct (two_part (r - 1) ltac:(lia)) as (j & o & J & O & RE).
  destruct (Z.le_gt_cases k j) as [L|L].
  - assert (2 ^ k <= 2 ^ j) by (apply Z.pow_le_mono_r; lia). assert (0 < 2 ^ j) by (apply Z.pow_pos_nonneg; lia). nia.
  - exfalso.
    pose proof (pow_minus_one r _ R1 WR o O) as M1. rewrite <- Z.pow_mul_r in M1 by (try lia; assert (0 < 2 ^ (k - 1)) by (apply Z.pow_pos_nonneg; lia); nia).
    pose proof (pow_one r (a ^ (r - 1)) R1 F (h * 2 ^ (k - 1 - j))) as M2.
    assert (0 < 2 ^ (k - 1 - j)) by (apply Z.pow_pos_nonneg; lia). specialize (M2 ltac:(nia)). rewrite <- Z.pow_mul_r in M2 by nia.
    replace ((r - 1) * (h * 2 ^ (k - 1 - j))) with (h * 2 ^ (k - 1) * (2 * o + 1)) in M2.
    + destruct M1 as [x X], M2 as [y Y]. assert (T : (r | 2)) by (exists (x - y); lia).
      apply Z.divide_pos_le in T; [|lia]. lia.
    + rewrite RE. replace (k - 1) with (j + (k - 1 - j)) at 1 by lia. rewrite Z.pow_add_r by lia. ring.
Qed.
Open Scope N_scope.
Lemma proth n h k a : n = h * 2 ^ k + 1 -> 0 < k -> 0 < h <= 2 ^ k -> powm a ((n - 1) / 2) n = n - 1 -> is_prime n.
Proof.
  intros E K H W. assert (P2 : 0 < 2 ^ k) by (apply N.neq_0_lt_0, N.pow_nonzero; lia).
  destruct (small_factor n ltac:(nia)) as [P|(r & P & D & S)]; [exact P|exfalso].
  assert (X : (2 ^ Z.of_N k <= Z.of_N r - 1)%Z).
  { apply (proth_Z (Z.of_N n) (Z.of_N h) (Z.of_N k) (Z.of_N a)); try lia.
    - rewrite powm_spec in W.
      + replace ((n - 1) / 2) with (h * 2 ^ (k - 1)) in W.
        * exists (Z.of_N (a ^ (h * 2 ^ (k - 1)) / n + 1)). pose proof (N.div_mod' (a ^ (h * 2 ^ (k - 1))) n) as DM. rewrite W in DM.
          replace (Z.of_N a ^ (Z.of_N h * 2 ^ (Z.of_N k - 1)))%Z with (Z.of_N (a ^ (h * 2 ^ (k - 1)))).
          -- rewrite DM at 1. nia.
          -- rewrite N2Z.inj_pow, N2Z.inj_mul, N2Z.inj_pow. do 3 f_equal. lia.
        * rewrite E. replace (h * 2 ^ k + 1 - 1) with (h * 2 ^ (k - 1) * 2); [now rewrite N.div_mul|].
          replace k with (k - 1 + 1) at 2 by lia. rewrite N.pow_add_r. lia.
      + nia.
    - apply prime_Z, P.
    - intros R2. destruct D as [x X]. assert (r = 2) by lia. subst r.
      assert (M : n mod 2 = 1); [|rewrite X, N.mod_mul in M; lia].
      rewrite E. replace (h * 2 ^ k) with (h * 2 ^ (k - 1) * 2); [rewrite N.add_comm, N.mod_add by lia; reflexivity|].
      replace k with (k - 1 + 1) at 2 by lia. rewrite N.pow_add_r. lia.
    - destruct D as [x X]. exists (Z.of_N x). lia. }
  assert (Y : 2 ^ k < r).
  { assert (Z.of_N (2 ^ k) = (2 ^ Z.of_N k)%Z) by (rewrite N2Z.inj_pow; reflexivity). lia. }
  nia.
Qed.
