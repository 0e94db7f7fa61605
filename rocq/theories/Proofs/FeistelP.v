(** Blowfish, CAST-128 and DES: their rounds undone. *)
From Verif Require Export Proofs.CipherLib.

(** * Blowfish *)
Lemma bf_round_eq s l r k : bf_round s (l, r) k = (x32 r (bf_f s (x32 l k)), x32 l k).
Proof. reflexivity. Qed.
Definition ok2 (s : N * N) : Prop := fst s < two32 /\ snd s < two32.
Lemma bf_round_ok s lr k : ok2 (bf_round s lr k).
Proof. destruct lr. rewrite bf_round_eq. split; apply x32_lt. Qed.
Lemma bf_rounds_ok s ks lr : ok2 lr -> ok2 (fold_left (bf_round s) ks lr).
Proof. revert lr. induction ks; cbn [fold_left]; auto using bf_round_ok. Qed.

Lemma bf_back s n : forall P lr, length P = (n + 2)%nat -> ok2 lr ->
  let e := fold_left (bf_round s) (firstn n P) lr in
  fold_left (bf_round s) (firstn n (rev P)) (x32 (snd e) (idx P (n + 1)), x32 (fst e) (idx P n))
  = (x32 (snd lr) (idx P 1), x32 (fst lr) (idx P 0)).
Proof.
  induction n as [|n IH]; intros P lr L K; cbn zeta.
  - reflexivity.
  - destruct (exists_last (l := P)) as [Q [z E]]; [intros ->; discriminate|]. subst P.
    rewrite app_length in L. cbn [length] in L.
    assert (LQ : length Q = (n + 2)%nat) by lia.
    assert (E1 : firstn (S n) (Q ++ [z]) = firstn n Q ++ [idx Q n]).
    { rewrite firstn_app. replace (S n - length Q)%nat with O by lia.
      rewrite firstn_O, app_nil_r. unfold idx.
      clear - LQ. revert n LQ. induction Q as [|q Q IHQ]; intros n LQ; [cbn in LQ; lia|].
      destruct n; [reflexivity|]. rewrite firstn_cons. cbn [firstn nth app]. f_equal.
      apply IHQ. cbn in LQ. lia. }
    assert (I1 : idx (Q ++ [z]) (S n + 1) = z).
    { unfold idx. rewrite app_nth2 by lia. replace (S n + 1 - length Q)%nat with O by lia. reflexivity. }
    assert (I2 : idx (Q ++ [z]) (S n) = idx Q (n + 1)).
    { unfold idx. rewrite app_nth1 by lia. f_equal. lia. }
    assert (I3 : idx (Q ++ [z]) 1 = idx Q 1) by (unfold idx; rewrite app_nth1 by lia; reflexivity).
    assert (I4 : idx (Q ++ [z]) 0 = idx Q 0) by (unfold idx; rewrite app_nth1 by lia; reflexivity).
    rewrite E1, I1, I2, I3, I4, rev_app_distr. cbn [rev app firstn].
    rewrite fold_left_app. cbn [fold_left].
    specialize (IH Q lr LQ K). cbn zeta in IH.
    pose proof (bf_rounds_ok s (firstn n Q) lr K) as KE.
    destruct (fold_left (bf_round s) (firstn n Q) lr) as [l r]. destruct KE as [Kl Kr]. cbn [fst snd] in *.
    rewrite (bf_round_eq s l r). cbn [fst snd].
    rewrite bf_round_eq. rewrite (x32_twice (x32 l (idx Q n)) z) by apply x32_lt.
    assert (SW : x32 (x32 (x32 r (bf_f s (x32 l (idx Q n)))) (idx Q (n + 1))) (bf_f s (x32 l (idx Q n)))
                 = x32 r (idx Q (n + 1))).
    { set (f := bf_f s (x32 l (idx Q n))). set (k := idx Q (n + 1)).
      apply N.bits_inj. intro i. unfold x32. repeat rewrite ?u32_bits, ?N.lxor_spec.
      destruct (i <? 32); [|reflexivity]. cbn [andb].
      destruct (N.testbit r i), (N.testbit f i), (N.testbit k i); reflexivity. }
    rewrite SW. exact IH.
Qed.

Lemma bf_run_ok p s d : exists a b, bf_run p s d = Ok (be 4 a ++ be 4 b) /\ a < two32 /\ b < two32.
Proof.
  unfold bf_run. rewrite words_out_be. cbn [flat_map]. rewrite app_nil_r.
  eexists _, _. split; [reflexivity|]. split; apply u32_lt.
Qed.

Lemma bf_inverse p s d : length p = 18%nat -> octets d -> length d = 8%nat ->
  exists e, bf_run p s d = Ok e /\ octets e /\ length e = 8%nat /\ bf_run (rev p) s e = Ok d.
Proof.
  intros Lp O L. unfold bf_run. rewrite words_out_be. cbn [flat_map]. rewrite app_nil_r.
  set (lr := (word (slice d 0 4), word (slice d 4 4))).
  assert (K : ok2 lr) by (split; apply word_lt).
  pose proof (bf_back s 16 p lr Lp K) as B. cbn zeta in B.
  set (e := fold_left (bf_round s) (firstn 16 p) lr) in *.
  eexists. split; [reflexivity|].
  destruct (block8_out (u32 (N.lxor (snd e) (idx p 17))) (u32 (N.lxor (fst e) (idx p 16)))) as [Oe Le].
  split; [exact Oe|]. split; [exact Le|].
  rewrite words_out_be. cbn [flat_map]. rewrite app_nil_r.
  destruct (block8_in (u32 (N.lxor (snd e) (idx p 17))) (u32 (N.lxor (fst e) (idx p 16)))) as [W1 W2].
  rewrite W1, W2.
  rewrite !(u32_small (u32 _)) by apply u32_lt.
  change (u32 (N.lxor (snd e) (idx p 17))) with (x32 (snd e) (idx p (16 + 1))).
  change (u32 (N.lxor (fst e) (idx p 16))) with (x32 (fst e) (idx p 16)).
  rewrite B. cbn [fst snd].
  assert (R17 : idx (rev p) 17 = idx p 0) by (unfold idx; rewrite rev_nth by lia; f_equal; lia).
  assert (R16 : idx (rev p) 16 = idx p 1) by (unfold idx; rewrite rev_nth by lia; f_equal; lia).
  rewrite R17, R16.
  change (u32 (N.lxor (x32 (fst lr) (idx p 0)) (idx p 0))) with (x32 (x32 (fst lr) (idx p 0)) (idx p 0)).
  change (u32 (N.lxor (x32 (snd lr) (idx p 1)) (idx p 1))) with (x32 (x32 (snd lr) (idx p 1)) (idx p 1)).
  rewrite !x32_twice by apply K. cbn [fst snd]. f_equal. symmetry. now apply block8_split.
Qed.

Lemma set_idx_length l i v : length (set_idx l i v) = length l.
Proof. revert i. induction l; intros [|i]; cbn [set_idx length]; auto. Qed.
Lemma bf_fill_p_ok todo s : forall p ini, exists p' i', bf_fill_p todo s p ini = Ok (p', i') /\ length p' = length p.
Proof.
  induction todo as [|x r IH]; intros p ini; cbn [bf_fill_p]; [eauto|].
  destruct (bf_run_ok p s ini) as [a [b [E _]]]. rewrite E. cbn [bind].
  match goal with |- context [bf_fill_p r s ?q ?z] => destruct (IH q z) as [p' [i' [E' L']]] end.
  rewrite E'. exists p', i'. split; [reflexivity|]. now rewrite L', !set_idx_length.
Qed.
Lemma bf_fill_s_ok todo p : forall s ini, exists s', bf_fill_s todo s p ini = Ok s'.
Proof.
  induction todo as [|[x y] r IH]; intros s ini; cbn [bf_fill_s]; [eauto|].
  destruct (bf_run_ok p s ini) as [a [b [E _]]]. rewrite E. cbn [bind]. apply IH.
Qed.

Lemma blowfish_ok KEY : 4 <= len KEY <= 112 -> exists c, Blowfish KEY = Ok c /\ c_block c = 8 /\
  inverts c 8 /\ whole_blocks c 8.
Proof.
  intros [A B]. unfold Blowfish.
  rewrite (proj2 (N.ltb_ge (len KEY) 4)) by lia. rewrite (proj2 (N.ltb_ge 112 (len KEY))) by lia.
  cbn [orb].
  destruct (bf_fill_p_ok (seq 0 9) Blowfish_SBOX (bf_p0 KEY) (repeat 0 8)) as [p [i [E L]]].
  rewrite E. cbn [bind].
  destruct (bf_fill_s_ok (list_prod (seq 0 4) (seq 0 128)) p Blowfish_SBOX i) as [s E2].
  rewrite E2. cbn [bind]. eexists. split; [reflexivity|]. split; [reflexivity|].
  split; [|apply (whole_on_block 8)].
  assert (L18 : length p = 18%nat) by (rewrite L; unfold bf_p0; now rewrite map_length, seq_length).
  intros b O Lb. destruct (bf_inverse p s b L18 O Lb) as [e [E3 [Oe [Le D]]]].
  exists e. cbn [c_encrypt c_decrypt]. rewrite !on_block_len by auto. auto.
Qed.

(** * CAST-128 *)
Definition cast_unround km kr (t : N * N) (i : nat) : N * N :=
  let u := cast_round km kr (snd t, fst t) i in (snd u, fst u).
Lemma cast_undo km kr s i : ok2 s ->
  ok2 (cast_round km kr s i) /\ cast_unround km kr (cast_round km kr s i) i = s.
Proof.
  destruct s as [l r]. intros [A B]. unfold cast_unround, cast_round. cbn [fst snd] in *.
  set (f := cast_f _ r _ _).
  split; [split; [auto|apply u32_lt]|].
  f_equal. exact (x32_twice l f A).
Qed.
Lemma cast_fold_swap km kr is s :
  fold_left (cast_unround km kr) is s
  = let u := fold_left (cast_round km kr) is (snd s, fst s) in (snd u, fst u).
Proof.
  revert s. induction is as [|i is IH]; intros s; cbn [fold_left]; [now destruct s|].
  rewrite IH. unfold cast_unround. cbn zeta. cbn [fst snd]. now rewrite <- surjective_pairing.
Qed.
Lemma cast_inverse km kr is d : octets d -> length d = 8%nat ->
  exists e, cast_run km kr is d = Ok e /\ octets e /\ length e = 8%nat /\ cast_run km kr (rev is) e = Ok d.
Proof.
  intros O L. unfold cast_run. rewrite words_out_be. cbn [flat_map]. rewrite app_nil_r.
  set (lr := (word (slice d 0 4), word (slice d 4 4))).
  assert (K : ok2 lr) by (split; apply word_lt).
  destruct (fold_inverse ok2 _ _ (cast_undo km kr) is lr K) as [[A B] G].
  rewrite cast_fold_swap in G. cbn zeta in G.
  set (e := fold_left (cast_round km kr) is lr) in *.
  eexists. split; [reflexivity|].
  destruct (block8_out (snd e) (fst e)) as [Oe Le]. split; [exact Oe|]. split; [exact Le|].
  rewrite words_out_be. cbn [flat_map]. rewrite app_nil_r.
  destruct (block8_in (snd e) (fst e)) as [W1 W2]. rewrite W1, W2, !u32_small by auto.
  injection G as G1 G2. rewrite G1, G2. f_equal. symmetry. now apply block8_split.
Qed.
Lemma cast_ok KEY : exists c, CAST128 KEY = Ok c /\ c_block c = 8 /\ inverts c 8 /\ whole_blocks c 8.
Proof.
  unfold CAST128. eexists. split; [reflexivity|]. split; [reflexivity|].
  split; [|apply (whole_on_block 8)].
  intros b O Lb. set (k := cast_keys _).
  destruct (cast_inverse (fst k) (snd k) (seq 1 (if 10 <? len KEY then 16 else 12)) b O Lb)
    as [e [E3 [Oe [Le D]]]].
  exists e. cbn [c_encrypt c_decrypt]. rewrite !on_block_len by auto. auto.
Qed.
