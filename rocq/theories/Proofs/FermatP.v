(** Fermat's little theorem, and the number of roots of a polynomial modulo a prime. *)
From Coq Require Import NArith ZArith Arith Lia List Znumtheory Permutation.
From Verif Require Import Spec.Primes.
Import ListNotations.
Local Open Scope Z_scope.

Lemma prime_Z p : is_prime p -> prime (Z.of_N p).
Proof.
  intros [P1 P2]. apply prime_intro; [lia|]. intros n Hn. apply Zgcd_1_rel_prime.
  pose proof (Z.gcd_nonneg n (Z.of_N p)) as G. destruct (Z.gcd_divide_r n (Z.of_N p)) as [k K].
  destruct (Z.gcd_divide_l n (Z.of_N p)) as [j J]. set (g := Z.gcd n (Z.of_N p)) in *.
  assert (0 <= k) by nia.
  destruct (P2 (Z.to_N g)) as [E|E]; [exists (Z.to_N k); apply N2Z.inj; rewrite N2Z.inj_mul, !Z2N.id by lia; exact K| |]; (apply (f_equal Z.of_N) in E; rewrite Z2N.id in E by exact G).
  - exact E.
  - exfalso. rewrite E in J. assert (0 < j) by nia. nia.
Qed.

Section Prime.
  Context (P : Z) (HP : prime P).
  Lemma P_gt : 1 < P.
  Proof. now destruct HP. Qed.
  Lemma not_small x : 0 < x < P -> ~ (P | x).
  Proof. intros H D. apply Z.divide_pos_le in D; lia. Qed.

  (** Products. *)
  Definition prod (l : list Z) : Z := fold_right Z.mul 1 l.
  Lemma prod_perm a b : Permutation a b -> prod a = prod b.
  Proof. unfold prod. induction 1; cbn [fold_right]; [reflexivity|now rewrite IHPermutation|ring|congruence]. Qed.
  Lemma prod_scaled a : forall l, (P | a ^ Z.of_nat (length l) * prod l - prod (map (fun x => a * x mod P) l)).
  Proof.
    induction l as [|x l IH]; [exists 0; cbn; lia|]. cbn [length map prod fold_right]. fold (prod l).
    fold (prod (map (fun x => a * x mod P) l)). destruct IH as [k K]. pose proof P_gt as G.
    pose proof (Z.div_mod (a * x) P ltac:(lia)) as D. set (r := a * x mod P) in *. set (q := a * x / P) in *.
    replace (Z.of_nat (S (length l))) with (Z.of_nat (length l) + 1) by lia. rewrite Z.pow_add_r by lia. rewrite Z.pow_1_r.
    set (A := a ^ Z.of_nat (length l)) in *. set (R := prod (map (fun x => a * x mod P) l)) in *. set (Q := prod l) in *.
    exists (r * k + q * A * Q). replace (A * a * (x * Q) - r * R) with ((a * x) * (A * Q) - r * R) by ring. rewrite D.
    replace R with (A * Q - k * P) by lia. ring.
  Qed.
  Lemma prod_coprime : forall l, Forall (fun x => 0 < x < P) l -> ~ (P | prod l).
  Proof.
    induction 1 as [|x l H F IH]; cbn.
    - pose proof P_gt. intros D. apply Z.divide_pos_le in D; lia.
    - intros D. apply prime_mult in D as [D|D]; [now apply not_small in D|contradiction|exact HP].
  Qed.

  Definition residues : list Z := map Z.of_nat (seq 1 (Z.to_nat P - 1)).
  Lemma in_residues x : In x residues <-> 0 < x < P.
  Proof.
    unfold residues. rewrite in_map_iff. split.
    - intros (k & <- & H). apply in_seq in H. lia.
    - intros H. exists (Z.to_nat x). split; [lia|]. apply in_seq. lia.
  Qed.
  Lemma nodup_map {A B} (f : A -> B) : forall l, NoDup l -> (forall x y, In x l -> In y l -> f x = f y -> x = y) -> NoDup (map f l).
  Proof.
    induction l as [|x l IH]; intros N I; [constructor|]. inversion N; subst. cbn. constructor.
    - intros H. apply in_map_iff in H as (y & E & H). assert (x = y) as -> by (apply I; cbn; auto). contradiction.
    - apply IH; [assumption|]. intros y z Y Z. apply I; cbn; auto.
  Qed.
  Lemma nodup_residues : NoDup residues.
  Proof. apply nodup_map; [apply seq_NoDup|]. intros. lia. Qed.
  Lemma length_residues : Z.of_nat (length residues) = P - 1.
  Proof. unfold residues. rewrite map_length, seq_length. pose proof P_gt. lia. Qed.

  Lemma mod_residue a x : ~ (P | a) -> 0 < x < P -> 0 < a * x mod P < P.
  Proof.
    intros A X. pose proof P_gt. pose proof (Z.mod_pos_bound (a * x) P ltac:(lia)) as B.
    assert (a * x mod P <> 0); [|lia]. intros E. apply Z.mod_divide in E; [|lia].
    apply prime_mult in E as [E|E]; [contradiction|now apply not_small in E|exact HP].
  Qed.
  Lemma mod_injective a x y : ~ (P | a) -> 0 < x < P -> 0 < y < P -> a * x mod P = a * y mod P -> x = y.
  Proof.
    intros A X Y E. pose proof P_gt. assert (D : (P | a * (x - y))).
    { apply Z.mod_divide; [lia|]. rewrite Z.mul_sub_distr_l, Zminus_mod, E, Z.sub_diag. apply Z.mod_0_l. lia. }
    apply prime_mult in D as [D|D]; [contradiction| |exact HP]. destruct D as [k K]. clear E.
    assert (k < 1) by nia. assert (-1 < k) by nia. assert (k = 0) as -> by lia. lia.
  Qed.
  Lemma scaled_perm a : ~ (P | a) -> Permutation (map (fun x => a * x mod P) residues) residues.
  Proof.
    intros A. apply NoDup_Permutation_bis.
    - apply nodup_map; [apply nodup_residues|]. intros x y X Y. apply in_residues in X. apply in_residues in Y. now apply mod_injective.
    - now rewrite map_length.
    - intros y H. apply in_map_iff in H as (x & <- & X). apply in_residues in X. now apply in_residues, mod_residue.
  Qed.
  Lemma fermat_unit a : ~ (P | a) -> (P | a ^ (P - 1) - 1).
  Proof.
    intros A. pose proof (prod_scaled a residues) as D. rewrite (prod_perm _ _ (scaled_perm a A)), length_residues in D.
    replace (a ^ (P - 1) * prod residues - prod residues) with ((a ^ (P - 1) - 1) * prod residues) in D by ring.
    apply prime_mult in D as [D|D]; [exact D| |exact HP]. exfalso. revert D. apply prod_coprime.
    apply Forall_forall. intros x. apply in_residues.
  Qed.
  Lemma fermat_Z a : (P | a ^ P - a).
  Proof.
    pose proof P_gt. replace (a ^ P) with (a * a ^ (P - 1)) by (rewrite <- Z.pow_succ_r by lia; f_equal; lia).
    destruct (Zdivide_dec P a) as [D|D].
    - destruct D as [k K]. exists (k * (a ^ (P - 1) - 1)). rewrite K at 1 3. ring.
    - replace (a * a ^ (P - 1) - a) with (a * (a ^ (P - 1) - 1)) by ring. apply Z.divide_mul_r. now apply fermat_unit.
  Qed.

  (** Polynomials: coefficients from the constant on. *)
  Definition eval (f : list Z) (x : Z) : Z := fold_right (fun c r => c + x * r) 0 f.
  Fixpoint quotient (a : Z) (f : list Z) : list Z :=
    match f with
    | [] => []
    | _ :: f' => match f' with [] => [] | _ => eval f' a :: quotient a f' end
    end.
  Lemma quotient_eval a x : forall f, eval f x - eval f a = (x - a) * eval (quotient a f) x.
  Proof.
    induction f as [|c f IH]; [cbn; ring|]. destruct f as [|d f]; [cbn; ring|].
    change (quotient a (c :: d :: f)) with (eval (d :: f) a :: quotient a (d :: f)).
    change (eval (c :: d :: f) x) with (c + x * eval (d :: f) x). change (eval (c :: d :: f) a) with (c + a * eval (d :: f) a).
    change (eval (eval (d :: f) a :: quotient a (d :: f)) x) with (eval (d :: f) a + x * eval (quotient a (d :: f)) x).
    replace (c + x * eval (d :: f) x - (c + a * eval (d :: f) a)) with (x * (eval (d :: f) x - eval (d :: f) a) + (x - a) * eval (d :: f) a) by ring.
    rewrite IH. ring.
  Qed.
  Lemma quotient_length a : forall f, length (quotient a f) = (length f - 1)%nat.
  Proof.
    induction f as [|c f IH]; [reflexivity|]. destruct f as [|d f]; [reflexivity|].
    change (quotient a (c :: d :: f)) with (eval (d :: f) a :: quotient a (d :: f)). cbn [length] in *. rewrite IH. lia.
  Qed.
  Lemma quotient_last a : forall f, (1 < length f)%nat -> last (quotient a f) 0 = last f 0.
  Proof.
    induction f as [|c f IH]; [cbn; lia|]. intros L. destruct f as [|d f]; [cbn in L; lia|].
    change (quotient a (c :: d :: f)) with (eval (d :: f) a :: quotient a (d :: f)).
    destruct f as [|e f]; [cbn; ring|]. specialize (IH ltac:(cbn; lia)).
    change (last (c :: d :: e :: f) 0) with (last (d :: e :: f) 0). rewrite <- IH.
    change (quotient a (d :: e :: f)) with (eval (e :: f) a :: quotient a (e :: f)). reflexivity.
  Qed.
  Lemma few_roots : forall n f l, length f = S n -> ~ (P | last f 0) -> Forall (fun x => (P | eval f x)) l ->
    ForallOrdPairs (fun x y => ~ (P | y - x)) l -> (length l <= n)%nat.
  Proof.
    induction n as [|n IH]; intros f l L N R D.
    - destruct l as [|x l]; [cbn; lia|]. destruct f as [|c [|]]; try discriminate. apply Forall_inv in R. cbn in R, N.
      exfalso. apply N. now replace c with (c + x * 0) by ring.
    - destruct l as [|a l]; [cbn; lia|]. apply Forall_cons_iff in R as [Ra R]. inversion D as [|? ? Da D']; subst.
      cbn. apply le_n_S. apply (IH (quotient a f)).
      + rewrite quotient_length. lia.
      + rewrite quotient_last by lia. exact N.
      + apply Forall_forall. intros x X. pose proof (proj1 (Forall_forall _ _) R x X) as Rx. cbn in Rx.
        pose proof (proj1 (Forall_forall _ _) Da x X) as Dx. cbn in Dx.
        assert (E : (P | (x - a) * eval (quotient a f) x)) by (rewrite <- quotient_eval; now apply Z.divide_sub_r).
        apply prime_mult in E as [E|E]; [contradiction|exact E|exact HP].
      + exact D'.
  Qed.
  Lemma eval_app f g x : eval (f ++ g) x = eval f x + x ^ Z.of_nat (length f) * eval g x.
  Proof.
    induction f as [|c f IH]; [cbn [app length]; change (Z.of_nat 0) with 0; rewrite Z.pow_0_r; change (eval [] x) with 0; ring|].
    change (eval ((c :: f) ++ g) x) with (c + x * eval (f ++ g) x). rewrite IH. change (eval (c :: f) x) with (c + x * eval f x).
    cbn [length]. rewrite Nat2Z.inj_succ, Z.pow_succ_r by lia. ring.
  Qed.
  Lemma eval_zeros n x : eval (repeat 0 n) x = 0.
  Proof. induction n as [|n IH]; [reflexivity|]. change (eval (repeat 0 (S n)) x) with (0 + x * eval (repeat 0 n) x). rewrite IH. ring. Qed.
  Lemma ord_pairs (l : list Z) : NoDup l -> Forall (fun x => 0 < x < P) l -> ForallOrdPairs (fun x y => ~ (P | y - x)) l.
  Proof.
    induction 1 as [|x l N ND IH]; intros F; constructor; apply Forall_cons_iff in F as [Fx F]; auto.
    apply Forall_forall. intros y Y [k K]. pose proof (proj1 (Forall_forall _ _) F y Y) as Fy. cbn in Fy.
    assert (k < 1) by nia. assert (-1 < k) by nia. assert (k = 0) as -> by lia. assert (y = x) as -> by lia. contradiction.
  Qed.
  Lemma roots_Z e : (0 < e)%nat -> (forall x, 0 < x < P -> (P | x ^ Z.of_nat e - 1)) -> P - 1 <= Z.of_nat e.
  Proof.
    intros E H. pose proof P_gt. rewrite <- length_residues. apply inj_le.
    apply (few_roots e (-1 :: repeat 0 (e - 1) ++ [1])).
    - cbn. rewrite app_length, repeat_length. cbn. lia.
    - change (-1 :: repeat 0 (e - 1) ++ [1]) with ((-1 :: repeat 0 (e - 1)) ++ [1]). rewrite last_last.
      intros D. apply Z.divide_pos_le in D; lia.
    - apply Forall_forall. intros x X. apply in_residues in X.
      change (-1 :: repeat 0 (e - 1) ++ [1]) with ((-1 :: repeat 0 (e - 1)) ++ [1]). rewrite eval_app.
      change (eval (-1 :: repeat 0 (e - 1)) x) with (-1 + x * eval (repeat 0 (e - 1)) x). rewrite eval_zeros.
      replace (length (-1 :: repeat 0 (e - 1))) with e by (cbn; rewrite repeat_length; lia).
      replace (-1 + x * 0 + x ^ Z.of_nat e * eval [1] x) with (x ^ Z.of_nat e - 1) by (change (eval [1] x) with (1 + x * 0); ring). auto.
    - apply ord_pairs; [apply nodup_residues|]. apply Forall_forall. intros x. apply in_residues.
  Qed.
End Prime.

Lemma fermat a p : is_prime p -> N.modulo (N.pow a p) p = N.modulo a p.
Proof.
  intros HP. pose proof (fermat_Z _ (prime_Z p HP) (Z.of_N a)) as D. destruct HP as [P1 _].
  apply N2Z.inj. rewrite !N2Z.inj_mod, N2Z.inj_pow by lia. destruct D as [k K].
  replace (Z.of_N a ^ Z.of_N p) with (Z.of_N a + k * Z.of_N p) by lia. apply Z.mod_add. lia.
Qed.

(** A power that is 1 on every non-zero residue has exponent at least p - 1. *)
Lemma roots p e : is_prime p -> (0 < e)%N ->
  (forall h, (0 < h < p)%N -> N.modulo (N.pow h e) p = 1%N) -> (p - 1 <= e)%N.
Proof.
  intros HP E H. pose proof (roots_Z _ (prime_Z p HP) (N.to_nat e) ltac:(lia)) as R. destruct HP as [P1 _].
  assert (K : Z.of_N p - 1 <= Z.of_nat (N.to_nat e)); [|lia]. apply R. intros x X.
  specialize (H (Z.to_N x) ltac:(lia)). apply (f_equal Z.of_N) in H. rewrite N2Z.inj_mod, N2Z.inj_pow in H.
  rewrite Z2N.id in H by lia. rewrite N_nat_Z. apply Z.mod_divide; [lia|].
  rewrite Zminus_mod, H. rewrite Z.mod_small with (a := 1) by lia. apply Z.mod_0_l. lia.
Qed.
