(** Random numbers. *)
From Verif Require Export Model.Rng Proofs.PkaP Proofs.IncludesP.
Local Open Scope N_scope.

Lemma bbs_bits k : forall n b, N.odd (bbs_m b) = true ->
  exists out b', bbs_rand_bits n k b = Ok (out, b') /\ length out = n /\
    Forall (fun c => c = 48 \/ c = 49) out /\ bbs_m b' = bbs_m b.
Proof.
  induction n as [|n IH]; intros b O; cbn [bbs_rand_bits].
  - exists [], b. auto.
  - rewrite mpz_powm_ok by auto. cbn [bind].
    destruct (IH (mkBbs (bbs_seeded b) (bbs_state b ^ 2 mod bbs_m b) (bbs_m b)) O) as (out & b' & -> & L & F & M).
    cbn [bind]. do 2 eexists. split; [reflexivity|]. cbn [length]. rewrite L. split; [reflexivity|].
    split; [|exact M]. constructor; [|auto]. destruct (parity _ _); auto.
Qed.
Lemma unbinify_chunks_len : forall k f s, length s = (8 * k)%nat -> (k <= f)%nat ->
  length (unbinify_chunks f s) = k /\ octets (unbinify_chunks f s).
Proof.
  induction k as [|k IH]; intros f s L F.
  - destruct s; [|cbn in L; lia]. destruct f; split; cbn; auto; constructor.
  - destruct f as [|f]; [lia|]. cbn [unbinify_chunks]. destruct s as [|c s']; [cbn in L; lia|].
    set (s := c :: s') in *. destruct (IH f (skipn 8 s)) as [L' O'].
    + rewrite skipn_length. lia.
    + lia.
    + split; [cbn [length]; lia|]. constructor; [|exact O'].
      unfold bits_to_char. set (g := fun c b => _). clear.
      assert (G : forall l v, v < 256 -> fold_left g l v < 256).
      { induction l as [|x l IH]; intros v V; [exact V|]. cbn [fold_left]. apply IH. unfold g, u8. apply N.mod_lt. discriminate. }
      apply G. reflexivity.
Qed.
Lemma unbinify_len s k : length s = (8 * k)%nat -> exists out, unbinify s = Ok out /\ length out = k /\ octets out.
Proof.
  intros L. unfold unbinify.
  replace (N.land (len s) 7) with 0.
  - cbn [N.eqb negb]. eexists. split; [reflexivity|]. apply unbinify_chunks_len; lia.
  - change 7 with (N.ones 3). rewrite N.land_ones. unfold len. rewrite L. change (2 ^ 3) with 8.
    replace (N.of_nat (8 * k)) with (N.of_nat k * 8) by lia. now rewrite N.mod_mul.
Qed.
Lemma bbs_bytes n k b : N.odd (bbs_m b) = true ->
  exists out b', bbs_rand_bytes n k b = Ok (out, b') /\ len out = (n * 8) mod 2 ^ 32 / 8 /\ octets out.
Proof.
  intros O. unfold bbs_rand_bytes. rewrite N.shiftl_mul_pow2. change (2 ^ 3) with 8.
  set (m := u32 (n * 8)).
  destruct (bbs_bits k (N.to_nat m) b O) as (bits & b' & -> & L & _). cbn [bind].
  assert (M : m = m / 8 * 8).
  { unfold m, u32. change two32 with (536870912 * 8). rewrite N.mul_mod_distr_r by discriminate.
    now rewrite N.div_mul by discriminate. }
  destruct (unbinify_len bits (N.to_nat (m / 8))) as (out & -> & L' & O'); [lia|]. cbn [bind].
  do 2 eexists. split; [reflexivity|]. split; [unfold len; rewrite L', N2Nat.id; reflexivity|auto].
Qed.
Lemma makebin_digits v n : Forall (fun c => c = 48 \/ c = 49) (makebin v n).
Proof.
  revert v. induction n as [|n IH]; intros v; cbn [makebin]; [constructor|].
  apply Forall_app. split; [apply IH|]. constructor; [|constructor].
  pose proof (N.mod_lt v 2 ltac:(discriminate)). lia.
Qed.
Lemma binify_len s : len (binify s 0) = 8 * len s /\ Forall (fun c => c = 48 \/ c = 49) (binify s 0).
Proof.
  unfold binify. replace (_ <? 0) with false by lia. split.
  - unfold len. replace (length (flat_map binify_char s)) with (8 * length s)%nat; [lia|].
    induction s as [|c s IH]; [reflexivity|]. cbn [flat_map]. rewrite app_length, <- IH. unfold binify_char.
    rewrite makebin_length. cbn [length]. lia.
  - induction s as [|c s IH]; cbn [flat_map]; [constructor|]. apply Forall_app. split; [apply makebin_digits|exact IH].
Qed.
Lemma ssl_bits source n : (forall k b, source k = Some b -> len b = k) -> n < 2 ^ 32 ->
  (exists out, ssl_rand_bits source n = Ok out /\ len out = n /\ Forall (fun c => c = 48 \/ c = 49) out) \/
  ssl_rand_bits source n = Throw ERuntime.
Proof.
  intros S B. unfold ssl_rand_bits, ssl_rand_bytes.
  set (k := u32 _). destruct (source k) as [b|] eqn:E; [|now right]. left. cbn [bind].
  apply S in E. destruct (binify_len b) as [L F].
  assert (K : n <= 8 * k).
  { unfold k. rewrite N.shiftr_div_pow2. change (2 ^ 3) with 8. change 255 with (N.ones 8). rewrite N.land_ones. change (2 ^ 8) with 256.
    assert (D : n / 8 < 536870912) by (apply N.div_lt_upper_bound; lia).
    unfold u32. destruct (n mod 256 =? 0) eqn:Z0.
    - rewrite N.mod_small by (unfold two32; lia). pose proof (N.div_mod n 256 ltac:(discriminate)) as DM.
      assert (n = (n / 256 * 32) * 8) by lia. pose proof (N.div_mul (n / 256 * 32) 8 ltac:(discriminate)).
      rewrite H at 2. rewrite H0. lia.
    - rewrite N.mod_small by (unfold two32; lia). pose proof (N.div_mod n 8 ltac:(discriminate)) as DM.
      pose proof (N.mod_lt n 8 ltac:(discriminate)). lia. }
  rewrite prefix_substr. exists (prefix (binify b 0) n). split; [reflexivity|]. split.
  - rewrite len_prefix, L, E. lia.
  - unfold prefix. rewrite <- (firstn_skipn (N.to_nat (N.min n (len (binify b 0)))) (binify b 0)) in F. apply Forall_app in F. apply F.
Qed.
Lemma blum_from_ok np : (forall n, is_prime (np n)) -> forall f p p', is_prime p -> blum_from f np p = Ok p' ->
  is_prime p' /\ p' mod 4 = 3.
Proof.
  intros NP. induction f as [|f IH]; intros p p' P E; cbn [blum_from] in E; [discriminate|].
  destruct (N.land p 3 =? 3) eqn:B.
  - apply Ok_inj in E. subst p'. split; [auto|]. change 3 with (N.ones 2) in B at 1. rewrite N.land_ones in B.
    change (2 ^ 2) with 4 in B. lia.
  - apply IH in E; auto.
Qed.
