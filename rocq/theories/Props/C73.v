(** C73: generated keys have the size asked for.
    [nextprime] is mpz_nextprime and [prime_test] mpz_probab_prime_p; [draws] are the numbers
    drawn, [fuel] bounds loops the code leaves unbounded.  [bitsize] is the number of binary
    digits: bitsize x <= n exactly when x < 2^n. *)
From Verif Require Import Model.Pka Spec.Primes Proofs.Lib Proofs.MpiP Proofs.FermatP Proofs.PkaP.

Lemma random_ok bits draws x r : random bits draws = Ok (x, r) -> x < 2 ^ bits.
Proof.
  unfold random. destruct (bits =? 0); [discriminate|]. destruct draws as [|a d]; [discriminate|]. intros E.
  apply Ok_inj in E. assert (x = a mod 2 ^ bits) as -> by congruence. apply N.mod_lt. apply N.pow_nonzero. discriminate.
Qed.
Lemma top_random_ok bits draws x r : 0 < bits < 2 ^ 32 -> top_random bits draws = Ok (x, r) -> 2 ^ (bits - 1) <= x < 2 ^ bits.
Proof.
  intros B. unfold top_random. replace (u32 (bits + (two32 - 1))) with (bits - 1).
  2:{ unfold u32, two32. replace (bits + (4294967296 - 1)) with ((bits - 1) + 1 * 4294967296) by lia.
      rewrite N.mod_add by lia. symmetry. apply N.mod_small. lia. }
  cbv zeta. assert (D : 2 ^ bits = 2 * 2 ^ (bits - 1)) by (rewrite <- N.pow_succ_r'; f_equal; lia).
  destruct (bits - 1 =? 0) eqn:Z; intros E.
  - apply Ok_inj in E. assert (x = 1) as -> by congruence. assert (Z' : bits - 1 = 0) by lia. rewrite Z' in *. rewrite D. cbn; lia.
  - apply bind_ok in E as ([a d] & R & E). apply random_ok in R. apply Ok_inj in E.
    assert (x = 2 ^ (bits - 1) + a) as -> by congruence. lia.
Qed.
Lemma prime_within_size np draw bits (P : N -> Prop) : (forall d a r, draw d = Ok (a, r) -> P a) -> forall f draws q r,
  prime_within f np draw bits draws = Ok (q, r) -> exists a, P a /\ q = np a /\ bitsize q <= bits.
Proof.
  intros D. induction f as [|f IH]; intros draws q r E; cbn [prime_within] in E; [discriminate|].
  apply bind_ok in E as ([a d] & R & E). apply D in R. cbv zeta in E. destruct (bits <? bitsize (np a)) eqn:B; [eauto|].
  apply Ok_inj in E. assert (q = np a) as -> by congruence. exists a. repeat split; auto. lia.
Qed.
Lemma prime_from_ge test q : forall f p p', prime_from f test p q = Ok p' -> p <= p'.
Proof.
  induction f as [|f IH]; intros p p' E; cbn [prime_from] in E; [discriminate|].
  destruct (test p); [apply Ok_inj in E; lia|]. apply IH in E. lia.
Qed.
Lemma from_multiple q p0 k f test p : mpz_div (p0 - 1) q = Ok k -> prime_from f test (k * q + 1) q = Ok p -> p0 < p + q.
Proof.
  intros K P. apply prime_from_ge in P. unfold mpz_div in K. destruct (q =? 0) eqn:Q; [discriminate|].
  apply Ok_inj in K. subst k. pose proof (N.mul_succ_div_gt (p0 - 1) q ltac:(lia)). lia.
Qed.
Lemma bits_pred q : 1 < q -> 2 ^ (bitsize q - 1) <= q.
Proof.
  intros Q. unfold bitsize. replace (N.max 1 (N.size q)) with (N.size q).
  - pose proof (N.size_le q). assert (S0 : 0 < N.size q) by (destruct q; cbn; lia).
    assert (2 ^ N.size q = 2 * 2 ^ (N.size q - 1)) by (rewrite <- N.pow_succ_r'; f_equal; lia). lia.
  - assert (0 < N.size q) by (destruct q; cbn; lia). lia.
Qed.
Lemma exponent_below_size bits m : forall f draws x r, exponent_below f bits m draws = Ok (x, r) -> x < 2 ^ bits.
Proof.
  induction f as [|f IH]; intros draws x r E; cbn [exponent_below] in E; [discriminate|].
  apply bind_ok in E as ([a d] & R & E). apply random_ok in R. destruct (_ || _); [eauto|]. apply Ok_inj in E. congruence.
Qed.

(** ** DSA *)
(** q has exactly the bits asked for. *)
Theorem C73_dsa_q : forall fuel nextprime prime_test L n draws v rest, (forall a, a < nextprime a) -> 0 < n < 2 ^ 32 ->
  dsa_new_public fuel nextprime prime_test L n draws = Ok (v, rest) ->
  exists p q g, v = [p; q; g] /\ 2 ^ (n - 1) <= q < 2 ^ n.
Proof.
  intros f np test L n draws v r NP B E. unfold dsa_new_public in E.
  apply bind_ok in E as ([q d1] & Q & E). apply bind_ok in E as ([p0 d2] & _ & E). apply bind_ok in E as (k & _ & E).
  apply bind_ok in E as (p & _ & E). apply bind_ok in E as (e & _ & E). apply bind_ok in E as (g & _ & E).
  apply prime_within_size with (P := fun a => 2 ^ (n - 1) <= a) in Q.
  - destruct Q as (a & A & -> & S). exists p, (np a), g. split; [congruence|]. apply bitsize_le in S; [|lia]. pose proof (NP a). lia.
  - intros d a r' R. apply top_random_ok in R; [lia|auto].
Qed.
(** p is the size asked for up to the size of q. *)
Theorem C73_dsa_p_partial : forall fuel nextprime prime_test L n draws v rest, 0 < L < 2 ^ 32 ->
  dsa_new_public fuel nextprime prime_test L n draws = Ok (v, rest) ->
  exists p q g, v = [p; q; g] /\ 2 ^ (L - 1) < p + q.
Proof.
  intros f np test L n draws v r B E. unfold dsa_new_public in E.
  apply bind_ok in E as ([q d1] & Q & E). apply bind_ok in E as ([p0 d2] & T & E). apply bind_ok in E as (k & K & E).
  apply bind_ok in E as (p & P & E). apply bind_ok in E as (e & _ & E). apply bind_ok in E as (g & _ & E).
  exists p, q, g. split; [congruence|]. apply top_random_ok in T; [|auto]. pose proof (from_multiple _ _ _ _ _ _ K P). lia.
Qed.
(** Missing part: p can be a bit short, and, as the search for a prime has no upper bound, too
    long. *)
Definition toy_test (p : N) : bool := (1 <? p) && forallb (no_divisor p) (map N.of_nat (seq 1 (N.to_nat p))).
Definition toy_next (n : N) : N := if n <? 2 then 2 else if n <? 3 then 3 else if n <? 5 then 5 else 7.
Theorem C73_dsa_p_refuted :
  (exists draws v, dsa_new_public 9 toy_next toy_test 4 2 draws = Ok (v, []) /\ nth_error v 0 = Some 7 /\ bitsize 7 = 3) /\
  (exists draws v, dsa_new_public 9 toy_next toy_test 4 3 draws = Ok (v, []) /\ nth_error v 0 = Some 29 /\ bitsize 29 = 5).
Proof.
  split.
  - exists [0; 1]. eexists. split; [vm_compute; reflexivity|]. split; reflexivity.
  - exists [2; 1]. eexists. split; [vm_compute; reflexivity|]. split; reflexivity.
Qed.
(** The secret number: every value of fewer bits than q can be chosen, and no other. *)
Theorem C73_dsa_secret : forall p q g x, 1 < q -> bitsize q < 2 ^ 32 -> N.odd p = true ->
  (exists fuel draws pub rest, dsa_keygen fuel [p; q; g] draws = Ok ([x], pub, rest)) ->
  0 < x < 2 ^ (bitsize q - 1).
Proof.
  intros p q g x Q B O (f & draws & pub & r & E). unfold dsa_keygen in E. cbn [vec_at nth_error bind] in E. cbv zeta in E.
  apply bind_ok in E as ([a d] & X & E). apply dsa_keygen_rounds_ok in E as [A _]; auto. assert (x = a) as -> by congruence.
  pose proof (exponent_below_ok _ _ _ _ _ _ X). pose proof (exponent_below_size _ _ _ _ _ _ X) as S.
  replace (u32 (bitsize q + (two32 - 1))) with (bitsize q - 1) in S.
  2:{ assert (1 <= bitsize q) by (unfold bitsize; lia). unfold u32, two32.
      replace (bitsize q + (4294967296 - 1)) with ((bitsize q - 1) + 1 * 4294967296) by lia.
      rewrite N.mod_add by lia. symmetry. apply N.mod_small. lia. }
  split; [lia|exact S].
Qed.
Theorem C73_dsa_draw : forall p q g x, 1 < q -> bitsize q < 2 ^ 32 -> 0 < x < 2 ^ (bitsize q - 1) ->
  forall fuel draws, dsa_keygen (S fuel) [p; q; g] (x :: draws) = dsa_keygen_rounds (S fuel) x [p; q; g] draws.
Proof.
  intros p q g x Q B X f draws. unfold dsa_keygen. cbn [vec_at nth_error bind]. cbv zeta.
  replace (u32 (bitsize q + (two32 - 1))) with (bitsize q - 1).
  2:{ assert (1 <= bitsize q) by (unfold bitsize; lia). unfold u32, two32.
      replace (bitsize q + (4294967296 - 1)) with ((bitsize q - 1) + 1 * 4294967296) by lia.
      rewrite N.mod_add by lia. symmetry. apply N.mod_small. lia. }
  cbn [exponent_below]. unfold random. replace (bitsize q - 1 =? 0) with false.
  2:{ symmetry. apply N.eqb_neq. intros Z. rewrite Z in X. cbn in X. lia. }
  cbn [bind]. rewrite N.mod_small by lia. pose proof (bits_pred q Q).
  replace ((x =? 0) || (q <=? x)) with false by lia. reflexivity.
Qed.
Example dsa_sizes_met : exists pri pub, dsa_keygen 9 [23; 11; 4] [7; 3] = Ok (pri, pub, []) /\ pri = [7] /\ bitsize 11 = 4.
Proof. do 2 eexists. split; [vm_compute; reflexivity|]. split; reflexivity. Qed.

(** ** ElGamal *)
(** The size is first made a multiple of 5; the prime has it up to a fifth. *)
Theorem C73_elgamal_partial : forall fuel nextprime prime_test bits draws v rest, 5 <= bits < 2 ^ 32 ->
  elgamal_keygen fuel nextprime prime_test bits draws = Ok (v, rest) ->
  exists p g y x, v = [p; g; y; x] /\ 2 ^ (5 * (bits / 5) - 1) < p + 2 ^ (bits / 5) /\ 0 < x < 2 ^ (5 * (bits / 5)) /\ x < p.
Proof.
  intros f np test bits draws v r B E. unfold elgamal_keygen in E. cbv zeta in E.
  apply bind_ok in E as ([q d1] & Q & E). apply bind_ok in E as ([p0 d2] & T & E). apply bind_ok in E as (k & K & E).
  apply bind_ok in E as (p & P & E). apply bind_ok in E as (e & _ & E). apply bind_ok in E as (g & _ & E).
  apply bind_ok in E as ([x d3] & X & E). apply bind_ok in E as (y & _ & E).
  exists p, g, y, x. split; [congruence|].
  apply prime_within_size with (P := fun _ => True) in Q; [|trivial]. destruct Q as (a & _ & _ & S).
  assert (F : 1 <= bits / 5) by (apply N.div_le_lower_bound; lia).
  apply bitsize_le in S; [|exact F].
  pose proof (N.mul_div_le bits 5 ltac:(lia)).
  apply top_random_ok in T; [|lia]. pose proof (from_multiple _ _ _ _ _ _ K P).
  rewrite (N.mul_comm 5). pose proof (exponent_below_ok _ _ _ _ _ _ X). pose proof (exponent_below_size _ _ _ _ _ _ X). lia.
Qed.
(** Below 5 bits there is nothing to draw. *)
Theorem C73_elgamal_small : forall fuel nextprime prime_test bits draws, bits < 5 ->
  elgamal_keygen (S fuel) nextprime prime_test bits draws = Throw EInvalidArgument.
Proof.
  intros f np test bits draws B. unfold elgamal_keygen. cbv zeta. rewrite N.div_small by exact B. reflexivity.
Qed.
Example elgamal_size_met : elgamal_keygen 9 (fun n => 3) (fun n => n =? 523) 10 [1; 0; 17] = Ok ([523; 462; 60; 17], []).
Proof. vm_compute. reflexivity. Qed.

(** ** RSA, compiled without GPG_COMPATIBLE *)
(** Each prime is the one after a number of at most the bits asked for. *)
Theorem C73_rsa_partial : forall nextprime bits draws v rest, rsa_keygen nextprime bits draws = Ok (v, rest) ->
  exists a b e d p q u, v = [nextprime a * nextprime b; e; d; p; q; u] /\ a < 2 ^ bits /\ b < 2 ^ bits /\ nextprime a <> nextprime b.
Proof.
  intros np bits draws v r E. unfold rsa_keygen in E. apply bind_ok in E as ([[p q] d1] & P & E). cbv zeta in E.
  destruct (if q <? p then (q, p) else (p, q)) as [p' q'].
  apply bind_ok in E as ([e0 d2] & _ & E). apply bind_ok in E as (e & _ & E). apply bind_ok in E as (d & _ & E).
  apply bind_ok in E as (u & _ & E).
  assert (H : exists a b, p = np a /\ q = np b /\ a < 2 ^ bits /\ b < 2 ^ bits /\ np a <> np b).
  { clear E. revert P. generalize (S (length draws)) as f. intros f. revert draws.
    induction f as [|f IH]; intros draws P; cbn [rsa_primes] in P; [discriminate|].
    apply bind_ok in P as ([a da] & A & P). apply bind_ok in P as ([b db] & B & P). apply random_ok in A, B. cbv zeta in P.
    destruct (np a =? np b) eqn:D; [eauto|]. apply Ok_inj in P. exists a, b. repeat split; try congruence; auto. lia. }
  destruct H as (a & b & -> & -> & A & B & D). exists a, b, e, d, p', q', u. repeat split; auto. congruence.
Qed.
(** Missing part: there is no lower bound.  Whatever size is asked for, the modulus can be 6. *)
Theorem C73_rsa_refuted : forall nextprime bits rest, nextprime 0 = 2 -> nextprime 2 = 3 -> 2 <= bits ->
  exists draws v, rsa_keygen nextprime bits (draws ++ rest) = Ok (v, rest) /\ nth_error v 0 = Some 6.
Proof.
  intros np bits rest H0 H2 B. exists [0; 2; 0]. eexists.
  assert (M : 2 mod 2 ^ bits = 2).
  { apply N.mod_small. apply N.lt_le_trans with (2 ^ 2); [reflexivity|]. apply N.pow_le_mono_r; lia. }
  assert (Z : 0 mod 2 ^ bits = 0) by (apply N.mod_0_l, N.pow_nonzero; discriminate).
  unfold rsa_keygen. cbn [app length rsa_primes]. unfold random. replace (bits =? 0) with false by lia. cbn [bind].
  rewrite M, Z, H0, H2. cbn [bind N.eqb Pos.eqb]. split; [vm_compute; reflexivity|reflexivity].
Qed.
(** Nor for the public exponent: with any primes it can be 1, and then encryption changes
    nothing. *)
Theorem C73_rsa_exponent_refuted : forall nextprime bits a b rest, (forall n, is_prime (nextprime n)) ->
  0 < bits -> a < 2 ^ bits -> b < 2 ^ bits -> nextprime a <> nextprime b ->
  exists draws pri n, rsa_keygen nextprime bits (draws ++ rest) = Ok (n :: 1 :: pri, rest) /\ n = nextprime a * nextprime b /\
    (N.odd n = true -> forall m, m < n -> rsa_encrypt m [n; 1] = Ok m).
Proof.
  intros np bits a b rest NP B A A' D. exists [a; b; 0].
  pose proof (NP a) as [Pa _]. pose proof (NP b) as [Pb _].
  assert (Z : 0 mod 2 ^ bits = 0) by (apply N.mod_0_l, N.pow_nonzero; discriminate).
  unfold rsa_keygen. cbn [app length rsa_primes]. unfold random. replace (bits =? 0) with false by lia. cbn [bind].
  rewrite Z, !N.mod_small by assumption. replace (np a =? np b) with false by lia. cbn [bind N.even N.add].
  destruct (if np b <? np a then (np b, np a) else (np a, np b)) as [p q] eqn:PQ.
  assert (I : 1 < p /\ 1 < q) by (destruct (np b <? np a); apply pair_equal_spec in PQ as [<- <-]; lia).
  cbn [coprime_from]. rewrite N.gcd_1_r. cbn [N.eqb Pos.eqb bind].
  unfold invert. replace ((p - 1) * (q - 1) =? 0) with false by (symmetry; apply N.eqb_neq; apply N.neq_mul_0; lia).
  replace (q =? 0) with false by lia. cbn [bind]. do 2 eexists. split; [reflexivity|]. split; [reflexivity|].
  intros O m M. unfold rsa_encrypt. cbn [vec_at nth_error bind]. rewrite mpz_powm_ok by exact O. rewrite N.pow_1_r, N.mod_small by exact M. reflexivity.
Qed.
Example rsa_small_met : toy_next 0 = 2 /\ toy_next 2 = 3 /\
  rsa_keygen toy_next 1024 [0; 2; 0] = Ok ([6; 1; 1; 2; 3; 2], []).
Proof. repeat split; vm_compute; reflexivity. Qed.

Print Assumptions C73_dsa_q.
Print Assumptions C73_dsa_p_partial.
Print Assumptions C73_dsa_p_refuted.
Print Assumptions C73_dsa_secret.
Print Assumptions C73_dsa_draw.
Print Assumptions C73_elgamal_partial.
Print Assumptions C73_elgamal_small.
Print Assumptions C73_rsa_partial.
Print Assumptions C73_rsa_refuted.
Print Assumptions C73_rsa_exponent_refuted.
