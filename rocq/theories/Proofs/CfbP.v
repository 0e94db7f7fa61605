(** Cipher feedback: the model computes the standard mode, and decryption inverts it. *)
From Verif Require Export Spec.Cfb Proofs.Lib.

Lemma xor_strings_xor a b : xor_strings a b = xor a b.
Proof. unfold xor_strings. revert b; induction a as [|x a IH]; intros [|y b]; cbn [zip_strings xor]; congruence. Qed.
Lemma xor_length a b : length (xor a b) = Nat.min (length a) (length b).
Proof. revert b; induction a as [|x a IH]; intros [|y b]; cbn [xor length]; try lia. rewrite IH. lia. Qed.
Lemma len_xor a b : len (xor a b) = N.min (len a) (len b).
Proof. unfold len. rewrite xor_length. lia. Qed.
Lemma xor_twice a b : (length b <= length a)%nat -> xor a (xor a b) = b.
Proof.
  revert b; induction a as [|x a IH]; intros [|y b] H; cbn [xor length] in *; try reflexivity; try lia.
  rewrite <- N.lxor_assoc, N.lxor_nilpotent, N.lxor_0_l, IH by lia. reflexivity.
Qed.
Lemma xor_nil_r a : xor a [] = []. Proof. now destruct a. Qed.
Lemma xor_firstn n a b : xor (firstn n a) b = firstn n (xor a b).
Proof. revert a b; induction n as [|n IH]; intros [|x a] [|y b]; cbn [firstn xor]; try reflexivity. now rewrite IH. Qed.
Lemma xor_firstn_r n a b : xor a (firstn n b) = firstn n (xor a b).
Proof. revert a b; induction n as [|n IH]; intros [|x a] [|y b]; cbn [firstn xor]; try reflexivity. now rewrite IH. Qed.
Lemma xor_cut n a b : (length a <= n)%nat -> xor a (firstn n b) = xor a b.
Proof. intros H. rewrite xor_firstn_r. apply firstn_all2. rewrite xor_length. lia. Qed.
Lemma xor_cut_l n a b : (length b <= n)%nat -> xor (firstn n a) b = xor a b.
Proof. intros H. rewrite xor_firstn. apply firstn_all2. rewrite xor_length. lia. Qed.
Lemma xor_octets a b : octets a -> octets b -> octets (xor a b).
Proof.
  revert b; induction a as [|x a IH]; intros [|y b] Ha Hb; cbn [xor]; try constructor.
  - apply octets_cons in Ha, Hb. destruct Ha as [Hx _], Hb as [Hy _].
    change 256 with (2 ^ 8) in *. destruct (N.eq_dec (N.lxor x y) 0) as [->|D]; [lia|].
    apply N.log2_lt_pow2; [lia|]. eapply N.le_lt_trans; [apply N.log2_lxor|].
    apply N.max_lub_lt; (destruct (N.eq_dec x 0) as [->|]; [try (cbn; lia)|]);
      (destruct (N.eq_dec y 0) as [->|]; [try (cbn; lia)|]); try (apply N.log2_lt_pow2; lia).
  - apply octets_cons in Ha, Hb. apply IH; tauto.
Qed.

Lemma prefix_firstn s n : prefix s n = firstn (N.to_nat n) s.
Proof.
  unfold prefix. destruct (N.le_gt_cases n (len s)).
  - now rewrite N.min_l by lia.
  - rewrite N.min_r by lia. unfold len in *. rewrite Nnat.Nat2N.id, firstn_all, firstn_all2; [easy|lia].
Qed.
Lemma substr_skip s p n : p <= len s ->
  substr s p n = Ok (firstn (N.to_nat n) (skipn (N.to_nat p) s)).
Proof.
  intros H. destruct (split_at s p H) as (a & b & -> & Ha).
  unfold substr. rewrite len_app. replace (len a + len b <? p) with false by lia.
  rewrite skipn_len_app by (unfold len in *; lia).
  f_equal. replace (len a + len b - p) with (len b) by lia. apply (prefix_firstn b n).
Qed.

Section cfb.
  Variables (E : bytes -> bytes) (bs : nat).
  Hypothesis bs_pos : (2 <= bs)%nat.
  Hypothesis HE : block_function E bs.

  Lemma cfb_fuel f g fr p : (length p <= f)%nat -> (length p <= g)%nat -> cfb E bs f fr p = cfb E bs g fr p.
  Proof.
    revert g fr p; induction f as [|f IH]; intros [|g] fr [|x p] Hf Hg; cbn [length cfb] in *; try reflexivity; try lia.
    f_equal. apply IH; rewrite skipn_length; cbn [length]; lia.
  Qed.
  Lemma cfb_nil fr : cfb_mode E bs fr [] = []. Proof. reflexivity. Qed.
  Lemma cfb_step fr p : p <> [] ->
    cfb_mode E bs fr p = xor (E fr) (firstn bs p) ++ cfb_mode E bs (xor (E fr) (firstn bs p)) (skipn bs p).
  Proof.
    destruct p as [|x p]; [easy|intros _]. unfold cfb_mode. cbn [length cfb]. f_equal.
    apply cfb_fuel; rewrite skipn_length; cbn [length]; lia.
  Qed.
  Lemma cfb_short fr p : (length p <= bs)%nat -> cfb_mode E bs fr p = xor (E fr) p.
  Proof.
    intros H. destruct p as [|x p]; [now rewrite xor_nil_r|].
    rewrite cfb_step by easy. rewrite firstn_all2, skipn_all2, cfb_nil, app_nil_r by lia. reflexivity.
  Qed.
  Lemma cfb_block fr a b : length a = bs ->
    cfb_mode E bs fr (a ++ b) = xor (E fr) a ++ cfb_mode E bs (xor (E fr) a) b.
  Proof.
    intros H. rewrite cfb_step.
    - rewrite firstn_len_app, skipn_len_app by lia. reflexivity.
    - destruct a; [cbn in H; lia|easy].
  Qed.
  Lemma cfb_length fr p : length fr = bs -> length (cfb_mode E bs fr p) = length p.
  Proof.
    remember (length p) as n eqn:L. revert fr p L.
    induction n as [n IH] using lt_wf_ind; intros fr p L F.
    destruct (Nat.le_gt_cases (length p) bs) as [S|S].
    - rewrite cfb_short, xor_length, (HE fr F) by easy. lia.
    - rewrite cfb_step by (destruct p; [cbn in S; lia|easy]).
      assert (X : length (xor (E fr) (firstn bs p)) = bs)
        by (rewrite xor_length, firstn_length, (HE fr F); lia).
      rewrite app_length, X, (IH (length p - bs)%nat); [lia|lia|rewrite skipn_length; lia|exact X].
  Qed.

  (** The inverse mode. *)
  Fixpoint uncfb_f (f : nat) (fr c : bytes) : bytes :=
    match f with
    | O => []
    | S f => match c with
             | [] => []
             | _ => xor (E fr) (firstn bs c) ++ uncfb_f f (firstn bs c) (skipn bs c)
             end
    end.
  Definition uncfb (fr c : bytes) : bytes := uncfb_f (length c) fr c.
  Lemma uncfb_fuel f g fr p : (length p <= f)%nat -> (length p <= g)%nat -> uncfb_f f fr p = uncfb_f g fr p.
  Proof.
    revert g fr p; induction f as [|f IH]; intros [|g] fr [|x p] Hf Hg; cbn [length uncfb_f] in *; try reflexivity; try lia.
    f_equal. apply IH; rewrite skipn_length; cbn [length]; lia.
  Qed.
  Lemma uncfb_step fr p : p <> [] ->
    uncfb fr p = xor (E fr) (firstn bs p) ++ uncfb (firstn bs p) (skipn bs p).
  Proof.
    destruct p as [|x p]; [easy|intros _]. unfold uncfb. cbn [length uncfb_f]. f_equal.
    apply uncfb_fuel; rewrite skipn_length; cbn [length]; lia.
  Qed.
  Lemma uncfb_short fr p : (length p <= bs)%nat -> uncfb fr p = xor (E fr) p.
  Proof.
    intros H. destruct p as [|x p]; [now rewrite xor_nil_r|].
    rewrite uncfb_step by easy. rewrite firstn_all2, skipn_all2 by lia. unfold uncfb. cbn [uncfb_f length].
    now rewrite app_nil_r.
  Qed.
  Lemma uncfb_block fr a b : length a = bs -> uncfb fr (a ++ b) = xor (E fr) a ++ uncfb a b.
  Proof.
    intros H. rewrite uncfb_step.
    - rewrite firstn_len_app, skipn_len_app by lia. reflexivity.
    - destruct a; [cbn in H; lia|easy].
  Qed.
  Lemma uncfb_cfb fr p : length fr = bs -> uncfb fr (cfb_mode E bs fr p) = p.
  Proof.
    remember (length p) as n eqn:L. revert fr p L.
    induction n as [n IH] using lt_wf_ind; intros fr p L F.
    destruct (Nat.le_gt_cases (length p) bs) as [S|S].
    - rewrite cfb_short by easy. rewrite uncfb_short by (rewrite xor_length; lia).
      apply xor_twice. rewrite (HE fr F). lia.
    - rewrite cfb_step by (destruct p; [cbn in S; lia|easy]).
      assert (X : length (xor (E fr) (firstn bs p)) = bs)
        by (rewrite xor_length, firstn_length, (HE fr F); lia).
      rewrite uncfb_block by exact X. rewrite xor_twice by (rewrite firstn_length, (HE fr F); lia).
      rewrite (IH (length p - bs)%nat); [apply firstn_skipn|lia|rewrite skipn_length; lia|exact X].
  Qed.
  Lemma uncfb_length fr p : length fr = bs -> length (uncfb fr p) = length p.
  Proof.
    remember (length p) as n eqn:L. revert fr p L.
    induction n as [n IH] using lt_wf_ind; intros fr p L F.
    destruct (Nat.le_gt_cases (length p) bs) as [S|S].
    - rewrite uncfb_short, xor_length, (HE fr F) by easy. lia.
    - rewrite uncfb_step by (destruct p; [cbn in S; lia|easy]).
      rewrite app_length, xor_length, firstn_length, (HE fr F).
      rewrite (IH (length p - bs)%nat); [lia|lia|rewrite skipn_length; lia|rewrite firstn_length; lia].
  Qed.

  Variable c : cipher.
  Hypothesis Hb : c_block c = N.of_nat bs.
  Hypothesis Hc : forall b, length b = bs -> c_encrypt c b = Ok (E b).

  Lemma ocfb_loop_ok n : forall d1 d2 C0 last, (length d2 < n)%nat -> length C0 = (length d1 + 2)%nat ->
    length last = bs ->
    ocfb_loop c n (d1 ++ d2) (C0 ++ last) (len d1) = Ok (C0 ++ last ++ cfb_mode E bs last d2).
  Proof.
    induction n as [|n IH]; intros d1 d2 C0 last Hn HC HL; [lia|]. cbn [ocfb_loop].
    rewrite len_app. destruct d2 as [|y d2].
    - rewrite len_nil, cfb_nil, app_nil_r. replace (len d1 <? len d1 + 0) with false by lia. now rewrite app_nil_r.
    - replace (len d1 <? len d1 + len (y :: d2)) with true by (rewrite len_cons; lia).
      rewrite (substr_app_end C0 last) by (unfold len; lia). cbn [bind].
      rewrite Hc by exact HL. cbn [bind].
      rewrite substr_skip by (rewrite len_app; lia). cbn [bind].
      rewrite Hb, Nnat.Nat2N.id, len_nat, skipn_len_app, xor_strings_xor by easy.
      set (d := y :: d2) in *.
      rewrite (cfb_step last d) by easy.
      set (x := xor (E last) (firstn bs d)).
      destruct (Nat.le_gt_cases (length d) bs) as [S|S].
      + rewrite skipn_all2, cfb_nil, app_nil_r by lia.
        assert (T : ocfb_loop c n (d1 ++ d) ((C0 ++ last) ++ x) (len d1 + N.of_nat bs) = Ok ((C0 ++ last) ++ x)).
        { destruct n; [cbn [length d] in Hn; unfold d in Hn; cbn [length] in Hn; lia|]. cbn [ocfb_loop].
          rewrite len_app. replace (len d1 + N.of_nat bs <? len d1 + len d) with false by (unfold len; lia). reflexivity. }
        rewrite T, app_assoc. reflexivity.
      + specialize (IH (d1 ++ firstn bs d) (skipn bs d) (C0 ++ last) x).
        rewrite <- app_assoc, firstn_skipn in IH.
        rewrite len_app, len_firstn in IH. replace (N.min (N.of_nat bs) (len d)) with (N.of_nat bs) in IH by (unfold len; lia).
        rewrite IH.
        * now rewrite <- app_assoc.
        * rewrite skipn_length. lia.
        * rewrite !app_length, firstn_length. lia.
        * unfold x. rewrite xor_length, firstn_length, HE by easy. lia.
  Qed.
  Lemma ocfb_loop_stop n data C x : len data <= x -> ocfb_loop c (S n) data C x = Ok C.
  Proof. intros H. cbn [ocfb_loop]. replace (x <? len data) with false by lia. reflexivity. Qed.

  Lemma last_two_length p : length p = bs -> length (last_two p) = 2%nat.
  Proof. intros H. unfold last_two. rewrite skipn_length. lia. Qed.
  Lemma sub64_bs : N.of_nat bs < two64 -> sub64 (N.of_nat bs) 2 = N.of_nat (bs - 2).
  Proof.
    intros H. unfold sub64. rewrite (N.mod_small 2) by (unfold two64; lia).
    replace (N.of_nat bs + (two64 - 2)) with (N.of_nat (bs - 2) + 1 * two64) by (unfold two64; lia).
    rewrite N.mod_add by (unfold two64; lia). apply N.mod_small. lia.
  Qed.
  Hypothesis bs_fits : N.of_nat bs < two64.

  Lemma rep_substr pre ex : length pre = bs -> substr (pre ++ ex) (sub64 (N.of_nat bs) 2) 2 = Ok (last_two pre).
  Proof.
    intros H. rewrite sub64_bs by easy.
    rewrite substr_skip by (rewrite len_app; unfold len; lia).
    rewrite Nnat.Nat2N.id, skipn_app. replace (bs - 2 - length pre)%nat with 0%nat by lia.
    rewrite firstn_app, skipn_length. replace (bs - 2)%nat with (length pre - 2)%nat by lia.
    replace (N.to_nat 2 - (length pre - (length pre - 2)))%nat with 0%nat by lia. cbn [firstn skipn].
    rewrite app_nil_r. fold (last_two pre). rewrite firstn_all2; [easy|rewrite last_two_length by easy; lia].
  Qed.

  (** Encryption computes the standard mode. *)
  Lemma ocfb_other tag data pre ex : tag <> 9 -> tag <> 18 -> length pre = bs -> (2 <= length ex)%nat ->
    ocfb_encrypt c tag data (pre ++ ex) = Throw ERuntime.
  Proof.
    intros H9 H18 Hp Hx. unfold ocfb_encrypt. rewrite Hb.
    replace (len (pre ++ ex) <? N.of_nat bs + 2) with false by (rewrite len_app; unfold len; lia).
    rewrite Nnat.Nat2N.id, Hc by apply repeat_length. cbn [bind].
    set (Z := repeat 0 bs). assert (LZ : length Z = bs) by apply repeat_length.
    assert (Pf : Base.prefix (pre ++ ex) (N.of_nat bs + 2) = pre ++ firstn 2 ex).
    { rewrite prefix_firstn, firstn_app. rewrite firstn_all2 by lia. do 2 f_equal. lia. }
    rewrite Pf, xor_strings_xor.
    rewrite Hc by (rewrite xor_length, HE by easy; rewrite app_length; lia).
    cbn [bind]. rewrite rep_substr by easy. cbn [bind].
    replace (tag =? 9) with false by lia. now replace (tag =? 18) with false by lia.
  Qed.
  Lemma ocfb_encrypt_ok tag data pre ex : tag = 9 \/ tag = 18 -> length pre = bs -> (2 <= length ex)%nat ->
    ocfb_encrypt c tag data (pre ++ ex) = Ok (openpgp_cfb E bs (tag =? 9) pre data).
  Proof.
    intros Ht Hp Hx. unfold ocfb_encrypt. rewrite Hb.
    replace (len (pre ++ ex) <? N.of_nat bs + 2) with false by (rewrite len_app; unfold len; lia).
    rewrite Nnat.Nat2N.id, Hc by apply repeat_length. cbn [bind].
    set (Z := repeat 0 bs). assert (LZ : length Z = bs) by apply repeat_length.
    assert (Pf : Base.prefix (pre ++ ex) (N.of_nat bs + 2) = pre ++ firstn 2 ex).
    { rewrite prefix_firstn, firstn_app. rewrite firstn_all2 by lia. do 2 f_equal. lia. }
    rewrite Pf, xor_strings_xor.
    assert (X1 : xor (E Z) (pre ++ firstn 2 ex) = xor (E Z) pre).
    { rewrite <- (xor_cut bs _ (pre ++ _)) by (rewrite HE by easy; lia). rewrite firstn_len_app by lia. easy. }
    rewrite X1. set (c1 := xor (E Z) pre).
    assert (L1 : length c1 = bs) by (unfold c1; rewrite xor_length, HE by easy; lia).
    rewrite Hc by easy. cbn [bind]. rewrite rep_substr by easy. cbn [bind].
    assert (L2 : length (last_two pre) = 2%nat) by now apply last_two_length.
    assert (LE1 : length (E c1) = bs) by now apply HE.
    destruct Ht as [->| ->]; cbn [N.eqb Pos.eqb]; unfold openpgp_cfb; fold Z.
    - rewrite cfb_block by easy. fold c1. rewrite cfb_short by lia.
      set (c2 := xor (E c1) (last_two pre)).
      assert (L3 : length c2 = 2%nat) by (unfold c2; rewrite xor_length; lia).
      rewrite prefix_firstn, xor_strings_xor, xor_cut_l by lia. fold c2.
      rewrite substr_skip by (rewrite len_app; unfold len; lia). cbn [bind].
      rewrite Nnat.Nat2N.id. change (N.to_nat 2) with 2%nat.
      rewrite firstn_all2 by (rewrite skipn_length, app_length; lia).
      set (FR := skipn 2 (c1 ++ c2)).
      assert (LF : length FR = bs) by (unfold FR; rewrite skipn_length, app_length; lia).
      rewrite Hc by easy. cbn [bind]. rewrite xor_strings_xor, prefix_firstn, Nnat.Nat2N.id.
      destruct (Nat.le_gt_cases (length data) bs) as [S|S].
      + rewrite ocfb_loop_stop by (unfold len; lia). rewrite cfb_short by easy.
        rewrite (firstn_all2 data) by easy. reflexivity.
      + rewrite (cfb_step FR data) by (destruct data; [cbn in S; lia|easy]).
        set (x := xor (E FR) (firstn bs data)).
        rewrite <- (firstn_skipn bs data) at 2.
        replace (N.of_nat bs) with (len (firstn bs data)) by (rewrite len_firstn; unfold len; lia).
        rewrite ocfb_loop_ok.
        * now rewrite <- !app_assoc.
        * rewrite skipn_length. lia.
        * rewrite app_length, firstn_length. lia.
        * unfold x. rewrite xor_length, firstn_length, HE by easy. lia.
    - rewrite cfb_block by easy. fold c1. rewrite sub64_bs by easy.
      rewrite xor_strings_xor, prefix_firstn, Nnat.Nat2N.id.
      destruct (Nat.le_gt_cases (length data) (bs - 2)) as [S|S].
      + rewrite ocfb_loop_stop by (unfold len; lia).
        rewrite cfb_short by (rewrite app_length; lia). rewrite (firstn_all2 data) by easy. reflexivity.
      + rewrite (cfb_step c1) by (destruct (last_two pre); [cbn in L2; lia|easy]).
        rewrite firstn_app, skipn_app, L2, (firstn_all2 (last_two pre)), (skipn_all2 (last_two pre)) by lia.
        cbn [app]. set (x := xor (E c1) (last_two pre ++ firstn (bs - 2) data)).
        rewrite <- (firstn_skipn (bs - 2) data) at 2.
        replace (N.of_nat (bs - 2)) with (len (firstn (bs - 2) data)) by (rewrite len_firstn; unfold len; lia).
        rewrite ocfb_loop_ok; [reflexivity| | |].
        * rewrite skipn_length. lia.
        * rewrite firstn_length. lia.
        * unfold x. rewrite xor_length, app_length, firstn_length. lia.
  Qed.

  Lemma unloop_ok n : forall d1 d2 P fr, (length d2 < n)%nat -> d2 <> [] ->
    exists P' F' x' d', ocfb_unloop c n (d1 ++ d2) P (E fr) (len d1) = Ok (P', F', x') /\
      substr (d1 ++ d2) x' (N.of_nat bs) = Ok d' /\ P' ++ xor_strings F' d' = P ++ uncfb fr d2.
  Proof.
    induction n as [|n IH]; intros d1 d2 P fr Hn HD; [lia|]. cbn [ocfb_unloop].
    rewrite len_app, Hb. destruct (len d1 + N.of_nat bs <? len d1 + len d2) eqn:B.
    - assert (S : (bs < length d2)%nat) by (unfold len in B; lia).
      rewrite substr_skip by (rewrite len_app; lia). cbn [bind].
      rewrite Nnat.Nat2N.id, len_nat, skipn_len_app by easy.
      assert (LF : length (firstn bs d2) = bs) by (rewrite firstn_length; lia).
      rewrite Hc by easy. cbn [bind].
      destruct (IH (d1 ++ firstn bs d2) (skipn bs d2) (P ++ xor_strings (E fr) (firstn bs d2)) (firstn bs d2))
        as (P' & F' & x' & d' & R & Q & W).
      + rewrite skipn_length; lia.
      + intros Q. apply (f_equal (@length N)) in Q. rewrite skipn_length in Q. cbn in Q. lia.
      + rewrite <- app_assoc, firstn_skipn in R, Q.
        rewrite len_app, len_firstn in R. replace (N.min (N.of_nat bs) (len d2)) with (N.of_nat bs) in R by (unfold len; lia).
        exists P', F', x', d'. split; [exact R|]. split; [exact Q|].
        rewrite W, (uncfb_step fr d2) by easy. rewrite xor_strings_xor, app_assoc. reflexivity.
    - exists P, (E fr), (len d1), d2. split; [reflexivity|]. split.
      + apply substr_app_end; [reflexivity|unfold len in *; lia].
      + rewrite xor_strings_xor, uncfb_short; [easy|unfold len in *; lia].
  Qed.

  (** Decryption: the quick check and the result. *)
  Definition checks (c1 t : bytes) : bool := beq (last_two (xor (E (repeat 0 bs)) c1)) (xor (E c1) t).
  Lemma ocfb_decrypt_ok tag c1 t rest : length c1 = bs -> length t = 2%nat -> len (c1 ++ t ++ rest) < two64 ->
    ocfb_decrypt c tag (c1 ++ t ++ rest) =
    if checks c1 t then
      Ok (xor (E (repeat 0 bs)) c1 ++
          (if tag =? 9 then last_two (xor (E (repeat 0 bs)) c1) ++ uncfb (skipn 2 (c1 ++ t)) rest
           else uncfb c1 (t ++ rest)))
    else Throw ERuntime.
  Proof.
    intros H1 H2 H3. unfold ocfb_decrypt. rewrite Hb, Nnat.Nat2N.id, Hc by apply repeat_length. cbn [bind].
    rewrite prefix_app by (unfold len; lia). rewrite Hc by easy. cbn [bind].
    set (Z := repeat 0 bs). rewrite !xor_strings_xor. set (p := xor (E Z) c1).
    assert (LZ : length Z = bs) by apply repeat_length.
    assert (Lp : length p = bs) by (unfold p; rewrite xor_length, HE by easy; lia).
    pose proof (rep_substr p [] Lp) as R. rewrite app_nil_r in R. rewrite R. cbn [bind].
    rewrite (substr_app c1 t rest) by (unfold len; lia). cbn [bind].
    rewrite prefix_firstn, xor_strings_xor, xor_cut_l by lia.
    unfold checks. fold Z p. destruct (beq (last_two p) (xor (E c1) t)); cbn [negb]; [|reflexivity].
    assert (G : forall d1 d2 fin, c1 ++ t ++ rest = d1 ++ d2 -> (bs <= length d2)%nat ->
      (' (P, FRE, x) <- ocfb_unloop c (S (length (c1 ++ t ++ rest))) (c1 ++ t ++ rest) [] (E c1) (len d1) ;;
       d <- substr (c1 ++ t ++ rest) x (N.of_nat bs) ;;
       P0 <- substr (P ++ xor_strings FRE d) (N.of_nat bs) (sub64 (len (P ++ xor_strings FRE d)) (N.of_nat bs)) ;;
       Ok (p ++ fin ++ P0)) = Ok (p ++ fin ++ uncfb (firstn bs d2) (skipn bs d2))).
    { intros d1 d2 fin D L. rewrite D in *.
      destruct (unloop_ok (S (length (d1 ++ d2))) d1 d2 [] c1) as (P & F & x & d & A & B & W).
      - rewrite app_length; lia.
      - destruct d2; [cbn in L; lia|easy].
      - rewrite A. cbn [bind]. rewrite B. cbn [bind]. rewrite W. cbn [app].
        rewrite uncfb_step by (destruct d2; [cbn in L; lia|easy]).
        assert (LX : len (xor (E c1) (firstn bs d2)) = N.of_nat bs)
          by (rewrite len_xor, len_firstn; unfold len; rewrite HE by easy; lia).
        assert (LU : len (uncfb (firstn bs d2) (skipn bs d2)) = len d2 - N.of_nat bs).
        { unfold len at 1. rewrite uncfb_length by (rewrite firstn_length; lia). rewrite skipn_length. unfold len. lia. }
        rewrite len_app in H3.
        rewrite substr_app_end; [reflexivity|now rewrite LX|].
        rewrite len_app, LX. rewrite sub64_small by (rewrite ?LU; unfold len in *; lia). lia. }
    destruct (tag =? 9) eqn:T.
    - specialize (G (firstn 2 (c1 ++ t)) (skipn 2 (c1 ++ t) ++ rest) (last_two p)).
      assert (LS : length (skipn 2 (c1 ++ t)) = bs) by (rewrite skipn_length, app_length; lia).
      replace (len (firstn 2 (c1 ++ t))) with 2 in G by (rewrite len_firstn, len_app; unfold len; lia).
      rewrite G.
      + rewrite (firstn_len_app (skipn 2 (c1 ++ t)) rest bs), (skipn_len_app (skipn 2 (c1 ++ t)) rest bs) by lia. reflexivity.
      + rewrite (app_assoc (firstn 2 (c1 ++ t))), firstn_skipn, app_assoc. reflexivity.
      + rewrite app_length. lia.
    - specialize (G [] (c1 ++ t ++ rest) []). rewrite len_nil in G. rewrite G.
      + rewrite firstn_len_app, skipn_len_app by lia. reflexivity.
      + reflexivity.
      + rewrite app_length. lia.
  Qed.

  Lemma openpgp_cfb_split resync pre data : length pre = bs -> exists c1 t rest,
    openpgp_cfb E bs resync pre data = c1 ++ t ++ rest /\ length c1 = bs /\ length t = 2%nat /\
    c1 = xor (E (repeat 0 bs)) pre /\ t = xor (E c1) (last_two pre) /\
    (if resync then rest = cfb_mode E bs (skipn 2 (c1 ++ t)) data
     else t ++ rest = cfb_mode E bs c1 (last_two pre ++ data)).
  Proof.
    intros Hp. assert (LZ : length (repeat 0 bs) = bs) by apply repeat_length.
    set (c1 := xor (E (repeat 0 bs)) pre).
    assert (L1 : length c1 = bs) by (unfold c1; rewrite xor_length, HE by easy; lia).
    assert (L2 : length (last_two pre) = 2%nat) by now apply last_two_length.
    assert (LE1 : length (E c1) = bs) by now apply HE.
    exists c1, (xor (E c1) (last_two pre)).
    assert (L3 : length (xor (E c1) (last_two pre)) = 2%nat) by (rewrite xor_length; lia).
    unfold openpgp_cfb. destruct resync.
    - eexists. rewrite cfb_block by easy. fold c1. rewrite cfb_short by lia. rewrite <- app_assoc. repeat split; easy.
    - exists (skipn 2 (cfb_mode E bs c1 (last_two pre ++ data))). rewrite cfb_block by easy. fold c1.
      assert (Q : xor (E c1) (last_two pre) ++ skipn 2 (cfb_mode E bs c1 (last_two pre ++ data)) =
                  cfb_mode E bs c1 (last_two pre ++ data)).
      { rewrite <- (firstn_skipn 2 (cfb_mode E bs c1 (last_two pre ++ data))) at 2. f_equal.
        rewrite cfb_step by (destruct (last_two pre); [cbn in L2; lia|easy]).
        rewrite firstn_app, xor_length, firstn_length, app_length, LE1, L2.
        replace (2 - Nat.min bs (Nat.min bs (2 + length data)))%nat with 0%nat by lia.
        rewrite firstn_O, app_nil_r, <- xor_firstn_r, firstn_firstn, Nat.min_l by lia.
        now rewrite firstn_len_app by lia. }
      rewrite Q. repeat (split; [first [exact L1|exact L3|reflexivity]|]). reflexivity.
  Qed.

  Lemma ocfb_roundtrip tag data pre ex : tag = 9 \/ tag = 18 -> length pre = bs -> (2 <= length ex)%nat ->
    len data + N.of_nat bs + 2 < two64 ->
    exists y, ocfb_encrypt c tag data (pre ++ ex) = Ok y /\ ocfb_decrypt c tag y = Ok (pre ++ last_two pre ++ data).
  Proof.
    intros Ht Hp Hx Hl. exists (openpgp_cfb E bs (tag =? 9) pre data). split; [now apply ocfb_encrypt_ok|].
    destruct (openpgp_cfb_split (tag =? 9) pre data Hp) as (c1 & t & rest & Q & L1 & L2 & Q1 & Q2 & Q3).
    assert (LZ : length (repeat 0 bs) = bs) by apply repeat_length.
    assert (LE1 : length (E c1) = bs) by now apply HE.
    assert (LP : length (last_two pre) = 2%nat) by now apply last_two_length.
    rewrite Q, ocfb_decrypt_ok; try easy.
    - unfold checks. assert (P : xor (E (repeat 0 bs)) c1 = pre) by (rewrite Q1; apply xor_twice; rewrite HE by easy; lia).
      rewrite P. assert (T : xor (E c1) t = last_two pre) by (rewrite Q2; apply xor_twice; lia).
      rewrite T, beq_refl. destruct (tag =? 9).
      + rewrite Q3, uncfb_cfb by (rewrite skipn_length, app_length; lia). reflexivity.
      + rewrite Q3, uncfb_cfb by easy. reflexivity.
    - assert (LR : len rest = len data).
      { destruct (tag =? 9).
        - unfold len. rewrite Q3, cfb_length; [easy|rewrite skipn_length, app_length; lia].
        - apply (f_equal (@length N)) in Q3. rewrite cfb_length, !app_length in Q3 by easy. unfold len. lia. }
      rewrite !len_app, LR. unfold len at 1 2. lia.
  Qed.

  (** Plain CFB. *)
  Lemma ncfb_loop_ok n : forall d1 d2 out fr, (length d2 < n)%nat -> length out = length d1 -> length fr = bs ->
    ncfb_loop c n (d1 ++ d2) out fr (len d1) = Ok (out ++ cfb_mode E bs fr d2).
  Proof.
    induction n as [|n IH]; intros d1 d2 out fr Hn HO HF; [lia|]. cbn [ncfb_loop].
    rewrite len_app. replace (len out) with (len d1) by (unfold len; lia).
    destruct d2 as [|y d2].
    - rewrite len_nil, cfb_nil, app_nil_r. replace (len d1 <? len d1 + 0) with false by lia. now rewrite app_nil_r.
    - replace (len d1 <? len d1 + len (y :: d2)) with true by (rewrite len_cons; lia).
      rewrite Hc by easy. cbn [bind]. rewrite substr_skip by (rewrite len_app; lia). cbn [bind].
      rewrite Hb, Nnat.Nat2N.id, len_nat, skipn_len_app, xor_strings_xor by easy.
      set (d := y :: d2) in *. rewrite (cfb_step fr d) by easy. set (x := xor (E fr) (firstn bs d)).
      assert (LX : length x = length (firstn bs d)) by (unfold x; rewrite xor_length, firstn_length, HE by easy; lia).
      destruct (Nat.le_gt_cases (length d) bs) as [S|S].
      + rewrite skipn_all2, cfb_nil, app_nil_r by lia.
        destruct n; [unfold d in Hn; cbn [length] in Hn; lia|]. cbn [ncfb_loop].
        rewrite firstn_all2 in LX by easy.
        rewrite !len_app. replace (len out + len x <? len d1 + len d) with false by (unfold len; lia). reflexivity.
      + specialize (IH (d1 ++ firstn bs d) (skipn bs d) (out ++ x) x).
        rewrite <- app_assoc, firstn_skipn in IH.
        rewrite len_app, len_firstn in IH. replace (N.min (N.of_nat bs) (len d)) with (N.of_nat bs) in IH by (unfold len; lia).
        rewrite firstn_length in LX.
        rewrite IH.
        * now rewrite <- app_assoc.
        * rewrite skipn_length. lia.
        * rewrite !app_length, firstn_length. lia.
        * lia.
  Qed.
  Lemma ncfb_encrypt_ok data iv : length iv = bs -> ncfb_encrypt c data iv = Ok (cfb_mode E bs iv data).
  Proof. intros H. unfold ncfb_encrypt. apply (ncfb_loop_ok _ [] data []); try easy. lia. Qed.

  Lemma ncfb_unloop_ok n : forall d1 d2 out fr, (length d2 < n)%nat -> length fr = bs ->
    ncfb_unloop c n (d1 ++ d2) out fr (len d1) = Ok (out ++ uncfb fr d2).
  Proof.
    induction n as [|n IH]; intros d1 d2 out fr Hn HF; [lia|]. cbn [ncfb_unloop].
    rewrite len_app. destruct d2 as [|y d2].
    - rewrite len_nil. replace (len d1 <? len d1 + 0) with false by lia. unfold uncfb. cbn [length uncfb_f]. now rewrite app_nil_r.
    - replace (len d1 <? len d1 + len (y :: d2)) with true by (rewrite len_cons; lia).
      rewrite Hc by easy. cbn [bind]. rewrite substr_skip by (rewrite len_app; lia). cbn [bind].
      rewrite Hb, Nnat.Nat2N.id, len_nat, skipn_len_app, xor_strings_xor by easy.
      set (d := y :: d2) in *. rewrite (uncfb_step fr d) by easy. set (x := xor (E fr) (firstn bs d)).
      destruct (Nat.le_gt_cases (length d) bs) as [S|S].
      + rewrite skipn_all2 by lia. unfold uncfb. cbn [length uncfb_f]. rewrite app_nil_r.
        destruct n; [unfold d in Hn; cbn [length] in Hn; lia|]. cbn [ncfb_unloop].
        rewrite !len_app. replace (len d1 + N.of_nat bs <? len d1 + len d) with false by (unfold len; lia). reflexivity.
      + specialize (IH (d1 ++ firstn bs d) (skipn bs d) (out ++ x) (firstn bs d)).
        rewrite <- app_assoc, firstn_skipn in IH.
        rewrite len_app, len_firstn in IH. replace (N.min (N.of_nat bs) (len d)) with (N.of_nat bs) in IH by (unfold len; lia).
        rewrite IH.
        * now rewrite <- app_assoc.
        * rewrite skipn_length. lia.
        * rewrite firstn_length. lia.
  Qed.
  Lemma ncfb_decrypt_ok data iv : length iv = bs -> ncfb_decrypt c data iv = Ok (uncfb iv data).
  Proof. intros H. unfold ncfb_decrypt. apply (ncfb_unloop_ok _ [] data []); try easy. lia. Qed.

  Lemma cfb_uncfb fr p : length fr = bs -> cfb_mode E bs fr (uncfb fr p) = p.
  Proof.
    remember (length p) as n eqn:L. revert fr p L.
    induction n as [n IH] using lt_wf_ind; intros fr p L F.
    destruct (Nat.le_gt_cases (length p) bs) as [S|S].
    - rewrite uncfb_short by easy. rewrite cfb_short by (rewrite xor_length; lia).
      apply xor_twice. rewrite (HE fr F). lia.
    - rewrite uncfb_step by (destruct p; [cbn in S; lia|easy]).
      rewrite cfb_block by (rewrite xor_length, firstn_length, (HE fr F); lia).
      rewrite xor_twice by (rewrite firstn_length, (HE fr F); lia).
      rewrite (IH (length p - bs)%nat); [apply firstn_skipn|lia|rewrite skipn_length; lia|rewrite firstn_length; lia].
  Qed.

  Lemma ocfb_check tag data : refuses_others c bs -> len data < two64 ->
    if Nat.leb (bs + 2) (length data) &&
       beq (last_two (opened_prefix E bs data)) (opened_repeat E bs data)
    then exists p, ocfb_decrypt c tag data = Ok (opened_prefix E bs data ++ opened_repeat E bs data ++ p)
         /\ len p = len data - N.of_nat bs - 2
    else exists e, ocfb_decrypt c tag data = Throw e.
  Proof.
    intros Hr Hl. destruct (Nat.leb (bs + 2) (length data)) eqn:L; cbn [andb].
    - apply Nat.leb_le in L.
      set (c1 := firstn bs data). set (t := firstn 2 (skipn bs data)). set (rest := skipn 2 (skipn bs data)).
      assert (D : data = c1 ++ t ++ rest) by (unfold c1, t, rest; now rewrite !firstn_skipn).
      assert (L1 : length c1 = bs) by (unfold c1; rewrite firstn_length; lia).
      assert (L2 : length t = 2%nat) by (unfold t; rewrite firstn_length, skipn_length; lia).
      assert (LZ : length (repeat 0 bs) = bs) by apply repeat_length.
      assert (LE1 : length (E c1) = bs) by now apply HE.
      unfold opened_prefix, opened_repeat. fold c1 t.
      pose proof (ocfb_decrypt_ok tag c1 t rest L1 L2) as R. rewrite <- D in R. specialize (R Hl).
      unfold checks in R. fold (repeat 0 bs) in *. destruct (beq _ _) eqn:B.
      + apply beq_eq in B. rewrite R, B.
        assert (Lr : len rest = len data - N.of_nat bs - 2) by (rewrite D, !len_app; unfold len at 2 3; lia).
        destruct (tag =? 9).
        * eexists. split; [reflexivity|]. unfold len at 1. rewrite uncfb_length; [exact Lr|rewrite skipn_length, app_length; lia].
        * assert (U : uncfb c1 (t ++ rest) = xor (E c1) t ++ skipn 2 (uncfb c1 (t ++ rest))).
          { rewrite <- (firstn_skipn 2 (uncfb c1 (t ++ rest))) at 1. f_equal.
            rewrite uncfb_step by (destruct t; [cbn in L2; lia|easy]).
            rewrite firstn_app, xor_length, firstn_length, app_length, LE1, L2.
            replace (2 - Nat.min bs (Nat.min bs (2 + length rest)))%nat with 0%nat by lia.
            rewrite firstn_O, app_nil_r, <- xor_firstn_r, firstn_firstn, Nat.min_l by lia.
            now rewrite firstn_len_app by lia. }
          exists (skipn 2 (uncfb c1 (t ++ rest))). split; [now rewrite U at 1|].
          rewrite len_skipn. unfold len at 1. rewrite uncfb_length by easy. rewrite app_length, L2. unfold len in Lr |- *. lia.
      + exists ERuntime. exact R.
    - apply Nat.leb_gt in L. unfold ocfb_decrypt. rewrite Hb, Nnat.Nat2N.id, Hc by apply repeat_length. cbn [bind].
      rewrite prefix_firstn, Nnat.Nat2N.id.
      destruct (Nat.eq_dec (length (firstn bs data)) bs) as [K|K].
      + rewrite Hc by easy. cbn [bind]. rewrite xor_strings_xor. set (p := xor (E (repeat 0 bs)) (firstn bs data)).
        assert (Lp : length p = bs) by (unfold p; rewrite xor_length, HE by apply repeat_length; lia).
        pose proof (rep_substr p [] Lp) as R. rewrite app_nil_r in R. rewrite R. cbn [bind].
        rewrite firstn_length in K.
        rewrite substr_skip by (unfold len; lia). cbn [bind].
        destruct (beq _ _) eqn:B; cbn [negb]; [|now exists ERuntime].
        apply beq_eq in B. apply (f_equal (@length N)) in B.
        rewrite last_two_length, xor_strings_xor, xor_length, firstn_length, skipn_length in B by easy.
        rewrite Nnat.Nat2N.id in B. lia.
      + rewrite Hr by easy. now exists ERuntime.
  Qed.
End cfb.
