(** Blowfish computes the function of its definition. *)
From Verif Require Import Proofs.CipherLib Proofs.FeistelP Proofs.HashStdP.
From Verif Require Spec.Blowfish Proofs.DesStdP.
From Verif Require Import Proofs.Lib.

Definition w32 (x : N) : Prop := x < two32.
Definition rel (T p : list N) (s : list (list N)) : Prop :=
  T = p ++ concat s /\ length p = 18%nat /\ length s = 4%nat /\ Forall (fun b => length b = 256%nat) s /\ Forall w32 T.
Lemma nth_concat (s : list (list N)) : Forall (fun b => length b = 256%nat) s -> forall j a, (j < length s)%nat -> (a < 256)%nat ->
  nth (256 * j + a) (concat s) 0 = nth a (nth j s []) 0.
Proof.
  induction 1 as [|b s B F IH]; intros j a J A; [cbn in J; lia|]. cbn [concat length] in *. destruct j as [|j].
  - rewrite Nat.mul_0_r. cbn [nth Nat.add]. apply app_nth1. lia.
  - rewrite app_nth2 by lia. cbn [nth]. rewrite <- IH by lia. f_equal. lia.
Qed.
Lemma box_at T p s j a : rel T p s -> (j < 4)%nat -> a < 256 -> Blowfish.S T (S j) a = tab (row s j) a.
Proof.
  intros (-> & Lp & Ls & F & _) J A. unfold Blowfish.S, tab, row, idx. rewrite app_nth2 by lia. rewrite <- nth_concat by (auto; lia). f_equal. lia.
Qed.
Lemma p_at T p s i : rel T p s -> (1 <= i <= 18)%nat -> Blowfish.P T i = idx p (i - 1).
Proof. intros (-> & Lp & _) I. unfold Blowfish.P, idx. apply app_nth1. lia. Qed.
Lemma T_w32 T i : Forall w32 T -> w32 (nth i T 0).
Proof.
  intros F. destruct (Nat.lt_ge_cases i (length T)) as [C|C]; [rewrite Forall_forall in F; apply F, nth_In, C|]. rewrite nth_overflow by exact C. reflexivity.
Qed.
Lemma xor_w32 a b : w32 a -> w32 b -> w32 (N.lxor a b).
Proof. apply (lxor_fits a b 32). Qed.
Lemma x32_xor a b : w32 a -> w32 b -> x32 a b = N.lxor a b.
Proof. intros A B. unfold x32. apply u32_small. now apply xor_w32. Qed.
Lemma byte_mod x n : byte x n = x / 2 ^ (8 * n) mod 256.
Proof. unfold byte. rewrite N.shiftr_div_pow2. change 255 with (N.ones 8). now rewrite N.land_ones. Qed.
Lemma f_std T p s x : rel T p s -> w32 x -> bf_f s x = Blowfish.F T x /\ w32 (Blowfish.F T x).
Proof.
  intros R X. split; [|apply u32_lt]. unfold bf_f, Blowfish.F. cbv zeta. rewrite !byte_mod, N.shiftr_div_pow2.
  change (2 ^ (8 * 2)) with (2 ^ 16). change (2 ^ (8 * 1)) with (2 ^ 8). change (x / 2 ^ (8 * 0)) with (x / 1). rewrite N.div_1_r.
  assert (H : forall y, y mod 256 < 256) by (intros y; apply N.mod_lt; discriminate).
  assert (H3 : x / 2 ^ 24 < 256) by (apply N.div_lt_upper_bound; [discriminate|]; exact X).
  rewrite !(box_at T p s) by (auto; lia). reflexivity.
Qed.
Lemma rounds_std T p s : rel T p s -> forall n k x, (k + n <= 19)%nat -> (1 <= k)%nat -> ok2 x ->
  fold_left (bf_round s) (map (fun i => idx p (i - 1)) (seq k n)) x = fold_left (Blowfish.bf_step T) (seq k n) x /\ ok2 (fold_left (Blowfish.bf_step T) (seq k n) x).
Proof.
  intros R. induction n as [|n IH]; intros k x K K1 O; [auto|]. cbn [seq map fold_left].
  assert (E : bf_round s x (idx p (k - 1)) = Blowfish.bf_step T x k /\ ok2 (Blowfish.bf_step T x k)).
  { destruct x as [l r], O as [Hl Hr]. cbn [fst snd] in *. rewrite bf_round_eq. unfold Blowfish.bf_step. cbn [fst snd]. rewrite (p_at T p s k R) by lia.
    assert (W : w32 (idx p (k - 1))) by (rewrite <- (p_at T p s k R) by lia; apply T_w32, R).
    rewrite (x32_xor l) by assumption. pose proof (xor_w32 _ _ Hl W) as W1. destruct (f_std T p s _ R W1) as [F1 F2]. rewrite F1.
    rewrite x32_xor by assumption. rewrite N.lxor_comm. split; [reflexivity|]. split; cbn [fst snd]; [|exact W1]. now apply xor_w32. }
  destruct E as [-> O']. apply IH; [lia|lia|exact O'].
Qed.
Lemma first_16 p : length p = 18%nat -> firstn 16 p = map (fun i => idx p (i - 1)) (seq 1 16).
Proof. intros L. do 18 (destruct p as [|? p]; [discriminate|]). reflexivity. Qed.
Lemma run_std T p s x : rel T p s -> ok2 x ->
  let y := Blowfish.encrypt T x in bf_run p s (be 4 (fst x) ++ be 4 (snd x)) = Ok (be 4 (fst y) ++ be 4 (snd y)) /\ ok2 y.
Proof.
  intros R O. unfold bf_run. destruct (block8_in (fst x) (snd x)) as [-> ->]. destruct O as [A B]. rewrite (u32_small (fst x)), (u32_small (snd x)) by assumption. rewrite <- surjective_pairing.
  rewrite first_16 by apply R. destruct (rounds_std T p s R 16 1 x ltac:(lia) ltac:(lia) (conj A B)) as [-> [C D]].
  unfold Blowfish.encrypt. set (y := fold_left (Blowfish.bf_step T) (seq 1 16) x) in *. clearbody y. cbv zeta. cbn [fst snd].
  rewrite words_out_be. cbn [flat_map]. rewrite app_nil_r. rewrite !(p_at T p s) by (auto; lia). 
  assert (W : forall i, (1 <= i <= 18)%nat -> w32 (idx p (i - 1))) by (intros i I; rewrite <- (p_at T p s i R I); apply T_w32, R).
  rewrite (u32_small (N.lxor (snd y) (idx p 17))) by (apply xor_w32; [exact D|apply (W 18%nat); lia]).
  rewrite (u32_small (N.lxor (fst y) (idx p 16))) by (apply xor_w32; [exact C|apply (W 17%nat); lia]).
  split; [reflexivity|]. split; cbn [fst snd]; apply xor_w32; auto; apply W; lia.
Qed.
(** Replacing subkeys. *)
Lemma set_idx_at l : forall i v, (i < length l)%nat -> set_idx l i v = firstn i l ++ v :: skipn (S i) l.
Proof. induction l as [|x l IH]; intros [|i] v H; cbn [length] in H; try lia; [reflexivity|]. cbn [set_idx firstn skipn app]. f_equal. apply IH. lia. Qed.
Lemma set_two pre l post y a b : (2 * y + 2 <= length l)%nat ->
  firstn (length pre + 2 * y) (pre ++ l ++ post) ++ [a; b] ++ skipn (length pre + 2 * y + 2) (pre ++ l ++ post)
  = pre ++ set_idx (set_idx l (2 * y) a) (2 * y + 1) b ++ post.
Proof.
  intros H. rewrite (set_idx_at (set_idx l (2 * y) a)) by (rewrite set_idx_length; lia). rewrite (set_idx_at l) by lia.
  rewrite firstn_app. replace (length pre + 2 * y - length pre)%nat with (2 * y)%nat by lia. rewrite firstn_all2 by lia. rewrite <- app_assoc. f_equal.
  rewrite firstn_app. replace (2 * y - length l)%nat with 0%nat by lia. rewrite firstn_O, app_nil_r.
  rewrite skipn_app. replace (length pre + 2 * y + 2 - length pre)%nat with (2 * y + 2)%nat by lia. rewrite skipn_all2 by lia. cbn [app].
  rewrite skipn_app. replace (2 * y + 2 - length l)%nat with 0%nat by lia. rewrite skipn_O.
  set (n := (2 * y)%nat) in *. assert (LF : length (firstn n l) = n) by (rewrite firstn_length; lia).
  rewrite firstn_app, LF. replace (n + 1 - n)%nat with 1%nat by lia. rewrite (firstn_all2 (n := n + 1)) by lia. cbn [firstn].
  rewrite (skipn_app (S (n + 1))), LF. rewrite (skipn_all2 (n := S (n + 1))) by lia. replace (S (n + 1) - n)%nat with 2%nat by lia. cbn [app].
  change (skipn 2 (a :: skipn (S n) l)) with (skipn 1 (skipn (S n) l)). rewrite DesStdP.skipn_twice. 
  rewrite <- !app_assoc. cbn [app]. replace (S n + 1)%nat with (n + 2)%nat by lia. reflexivity.
Qed.
Lemma replace_w32 T k y : Forall w32 T -> ok2 y -> Forall w32 (Blowfish.replace_pair T k y).
Proof.
  intros F [A B]. unfold Blowfish.replace_pair. apply Forall_app. split; [|apply Forall_app; split; [repeat constructor; assumption|]].
  - rewrite <- (firstn_skipn (2 * k) T) in F. now apply Forall_app in F.
  - rewrite <- (firstn_skipn (2 * k + 2) T) in F. now apply Forall_app in F.
Qed.
Lemma fill_p_std s : forall m k T p x, (k + m <= 9)%nat -> rel T p s -> ok2 x ->
  let e := fold_left Blowfish.expand_step (seq k m) (T, x) in
  exists p', bf_fill_p (seq k m) s p (be 4 (fst x) ++ be 4 (snd x)) = Ok (p', be 4 (fst (snd e)) ++ be 4 (snd (snd e))) /\ rel (fst e) p' s /\ ok2 (snd e).
Proof.
  induction m as [|m IH]; intros k T p x K R O; [cbn; eauto|]. cbn [seq bf_fill_p fold_left].
  destruct (run_std T p s x R O) as [-> Oy]. cbn [bind]. set (y := Blowfish.encrypt T x) in *.
  destruct (block8_in (fst y) (snd y)) as [-> ->]. rewrite (u32_small (fst y)), (u32_small (snd y)) by apply Oy.
  change (Blowfish.expand_step (T, x) k) with (Blowfish.replace_pair T k y, y). apply IH; [lia| |exact Oy].
  destruct R as (-> & Lp & Ls & F & W). split; [|split; [now rewrite !set_idx_length|split; [exact Ls|split; [exact F|now apply replace_w32]]]].
  apply (set_two [] p (concat s) k (fst y) (snd y)). lia.
Qed.
Lemma set_row_split s j v : (j < length s)%nat -> set_row s j v = firstn j s ++ v :: skipn (S j) s.
Proof. revert j. induction s as [|x s IH]; intros [|j] H; cbn [length] in H; try lia; [reflexivity|]. cbn [set_row firstn skipn app]. f_equal. apply IH. lia. Qed.
Lemma row_split s j : (j < length s)%nat -> s = firstn j s ++ row s j :: skipn (S j) s.
Proof. unfold row. revert j. induction s as [|x s IH]; intros [|j] H; cbn [length] in H; try lia; [reflexivity|]. cbn [nth firstn skipn app]. f_equal. apply IH. lia. Qed.
Lemma concat_length256 s : Forall (fun b : list N => length b = 256%nat) s -> length (concat s) = (256 * length s)%nat.
Proof. induction 1 as [|b s B F IH]; [reflexivity|]. cbn [concat length]. rewrite app_length, IH. lia. Qed.
Lemma fill_s_std p : forall m k T s x, (k + m <= 512)%nat -> rel T p s -> ok2 x ->
  let e := fold_left Blowfish.expand_step (seq (9 + k) m) (T, x) in
  exists s', bf_fill_s (map (fun k => (k / 128, k mod 128)%nat) (seq k m)) s p (be 4 (fst x) ++ be 4 (snd x)) = Ok s' /\ rel (fst e) p s'.
Proof.
  induction m as [|m IH]; intros k T s x K R O; [cbn; eauto|]. cbn [seq map bf_fill_s fold_left].
  destruct (run_std T p s x R O) as [-> Oy]. cbn [bind]. set (y := Blowfish.encrypt T x) in *.
  destruct (block8_in (fst y) (snd y)) as [-> ->]. rewrite (u32_small (fst y)), (u32_small (snd y)) by apply Oy.
  change (Blowfish.expand_step (T, x) (9 + k)) with (Blowfish.replace_pair T (9 + k) y, y). replace (S (9 + k)) with (9 + S k)%nat by lia. apply IH; [lia| |exact Oy].
  destruct R as (-> & Lp & Ls & F & W). set (j := (k / 128)%nat). set (c := (k mod 128)%nat).
  assert (J : (j < 4)%nat) by (apply Nat.div_lt_upper_bound; lia). assert (C : (c < 128)%nat) by (apply Nat.mod_upper_bound; lia).
  assert (KE : k = (128 * j + c)%nat) by (apply Nat.div_mod; lia). clearbody j c.
  set (b := set_idx _ _ _). assert (RL : length (row s j) = 256%nat) by (rewrite Forall_forall in F; apply F; apply nth_In; lia).
  assert (Lb : length b = 256%nat) by (unfold b; now rewrite !set_idx_length).
  pose proof (row_split s j ltac:(lia)) as SP.
  assert (FF : Forall (fun b => length b = 256%nat) (firstn j s)) by (rewrite <- (firstn_skipn j s) in F; now apply Forall_app in F).
  assert (FS : Forall (fun b => length b = 256%nat) (skipn (S j) s)) by (rewrite <- (firstn_skipn (S j) s) in F; now apply Forall_app in F).
  split; [|split; [exact Lp|split; [|split; [|now apply replace_w32]]]].
  - rewrite set_row_split by lia. rewrite concat_app. cbn [concat].
    assert (TS : p ++ concat s = (p ++ concat (firstn j s)) ++ row s j ++ concat (skipn (S j) s)).
    { rewrite SP at 1. rewrite concat_app. cbn [concat]. now rewrite <- app_assoc. }
    unfold Blowfish.replace_pair. rewrite TS.
    pose proof (set_two (p ++ concat (firstn j s)) (row s j) (concat (skipn (S j) s)) c (fst y) (snd y) ltac:(lia)) as ST.
    assert (LP : (length (p ++ concat (firstn j s)) + 2 * c = 2 * (9 + k))%nat).
    { rewrite app_length, Lp, concat_length256, firstn_length by exact FF. rewrite Nat.min_l by lia. lia. }
    rewrite LP in ST. rewrite ST. fold b. now rewrite <- !app_assoc.
  - rewrite set_row_split by lia. rewrite app_length. cbn [length]. rewrite firstn_length, skipn_length. lia.
  - rewrite set_row_split by lia. apply Forall_app. split; [exact FF|]. constructor; assumption.
Qed.
(** The key. *)
Lemma double_at KEY : (0 < length KEY)%nat -> forall n k, (exists m, length k = m * length KEY)%nat -> (forall i, (i < length k)%nat -> nth i k 0 = nth (i mod length KEY) KEY 0) ->
  length (bf_double n k) = (2 ^ n * length k)%nat /\ forall i, (i < 2 ^ n * length k)%nat -> nth i (bf_double n k) 0 = nth (i mod length KEY) KEY 0.
Proof.
  intros L0. induction n as [|n IH]; intros k [m M] H; cbn [bf_double].
  - split; [cbn; lia|]. intros i I. apply H. cbn in I. lia.
  - destruct (IH (k ++ k)) as [A B].
    + exists (2 * m)%nat. rewrite app_length. lia.
    + intros i I. rewrite app_length in I. destruct (Nat.lt_ge_cases i (length k)) as [C|C]; [rewrite app_nth1 by exact C; now apply H|].
      rewrite app_nth2 by exact C. rewrite H by lia. f_equal. rewrite M. replace i with (i - m * length KEY + m * length KEY)%nat at 2 by lia. now rewrite Nat.mod_add by lia.
    + rewrite app_length in A, B. cbn [Nat.pow]. split; [lia|]. intros i I. apply B. lia.
Qed.
Lemma pow_gt n : (n < 2 ^ n)%nat.
Proof. apply Nat.pow_gt_lin_r. lia. Qed.
Lemma pi_w32 : Forall w32 Blowfish.pi_words.
Proof.
  assert (E : forallb (fun v => v <? two32) Blowfish.pi_words = true) by (vm_compute; reflexivity).
  apply Forall_forall. intros x I. rewrite forallb_forall in E. specialize (E x I). apply N.ltb_lt. exact E.
Qed.
Lemma p0_std KEY : octets KEY -> 1 <= len KEY -> rel (Blowfish.keyed KEY) (bf_p0 KEY) Blowfish_SBOX.
Proof.
  intros O L. assert (LK : (0 < length KEY)%nat) by (unfold len in L; lia).
  set (n := N.to_nat (72 / len KEY + 1)). set (k := bf_double n KEY).
  destruct (double_at KEY LK n KEY) as [A B]; [exists 1%nat; lia|intros i I; now rewrite Nat.mod_small|]. fold k in A, B.
  assert (K72 : (72 <= length k)%nat).
  { rewrite A. pose proof (pow_gt n) as G. pose proof (N.div_mod 72 (len KEY) ltac:(lia)). pose proof (N.mod_lt 72 (len KEY) ltac:(lia)).
    unfold n in G |- *. set (q := 72 / len KEY) in *. set (r := 72 mod len KEY) in *. clearbody q r. unfold len in *. clear - LK G H H0.
    set (l := length KEY) in *. clearbody l. set (m := N.to_nat (q + 1)) in *. assert (Q : q = N.of_nat m - 1) by lia. assert (M : (1 <= m)%nat) by lia. clearbody m.
    enough (X : (72 <= (m + 1) * l)%nat) by (etransitivity; [exact X|]; apply Nat.mul_le_mono_r; lia). subst q.
    destruct m as [|m]; [lia|]. replace (N.of_nat (S m) - 1) with (N.of_nat m) in H by lia. rewrite <- Nat2N.inj_mul in H.
    replace ((S m + 1) * l)%nat with (l * m + 2 * l)%nat by lia. lia. }
  assert (KW : forall x, (x < 18)%nat -> word (slice (prefix k 72) (4 * N.of_nat x) 4) = Blowfish.key_word KEY x).
  { intros x X. unfold Blowfish.key_word.
    assert (E : slice (prefix k 72) (4 * N.of_nat x) 4 = map (fun j => nth ((4 * x + j) mod length KEY) KEY 0) (seq 0 4)).
    { unfold slice, prefix. replace (N.to_nat (4 * N.of_nat x)) with (4 * x)%nat by lia. change (N.to_nat 4) with 4%nat. replace (N.to_nat (N.min 72 (len k))) with 72%nat by (unfold len; lia).
      rewrite skipn_firstn_comm, firstn_firstn. replace (Nat.min 4 (72 - 4 * x)) with 4%nat by lia.
      transitivity (map (fun j => nth (4 * x + j) k 0) (seq 0 4)).
      - assert (Q : (4 * x + 4 <= length k)%nat) by lia. generalize (4 * x)%nat Q. generalize k. clear. intros k p. revert k. induction p as [|p IH]; intros k H.
        + do 4 (destruct k as [|? k]; [cbn in H; lia|]). reflexivity.
        + destruct k as [|c k]; [cbn in H; lia|]. cbn [skipn]. rewrite IH by (cbn in H; lia). reflexivity.
      - apply map_ext_in. intros j J. apply in_seq in J. apply B. rewrite <- A. lia. }
    rewrite E. set (q := map _ (seq 0 4)). 
    assert (OQ : octets q).
    { apply Forall_forall. intros v I. apply in_map_iff in I as (j & <- & _). unfold octets in O. rewrite Forall_forall in O. apply O, nth_In, Nat.mod_upper_bound. lia. }
    unfold word. rewrite toint256_be_val; [|exact OQ|change (len q) with 4; lia]. apply u32_small. apply (be_val_bound q OQ). }
  assert (PE : bf_p0 KEY = map (fun i => N.lxor (nth i Blowfish.pi_words 0) (Blowfish.key_word KEY i)) (seq 0 18)).
  { unfold bf_p0. fold n. fold k. cbv zeta. apply map_ext_in. intros x I. apply in_seq in I. rewrite KW by lia.
    assert (E : idx Blowfish_P x = nth x Blowfish.pi_words 0) by (unfold Blowfish.pi_words, idx; symmetry; apply app_nth1; change (length Blowfish_P) with 18%nat; lia).
    rewrite E. apply x32_xor.
    - apply T_w32, pi_w32.
    - rewrite <- KW by lia. apply word_lt. }
  assert (SK : skipn 18 Blowfish.pi_words = concat Blowfish_SBOX) by reflexivity.
  unfold Blowfish.keyed. rewrite SK, <- PE. split; [reflexivity|]. split; [unfold bf_p0; now rewrite map_length, seq_length|]. split; [reflexivity|].
  split; [repeat constructor|]. apply Forall_app. split.
  - unfold bf_p0. apply Forall_forall. intros v I. apply in_map_iff in I as (x & <- & _). apply u32_lt.
  - exact (proj2 (proj1 (Forall_app _ _ _) pi_w32)).
Qed.
Lemma all_boxes : list_prod (seq 0 4) (seq 0 128) = map (fun k => (k / 128, k mod 128)%nat) (seq 0 512).
Proof. vm_compute. reflexivity. Qed.
Lemma run_block T p s d : rel T p s -> octets d -> length d = 8%nat ->
  bf_run p s d = Ok (let y := Blowfish.encrypt T (be_val (firstn 4 d), be_val (skipn 4 d)) in be 4 (fst y) ++ be 4 (snd y)).
Proof.
  intros R Od L.
  assert (V4 : forall q, octets q -> length q = 4%nat -> be_val q < two32) by (intros q OQ LQ; eapply N.lt_le_trans; [apply be_val_bound, OQ|unfold len; rewrite LQ; discriminate]).
  assert (B4 : forall q, octets q -> length q = 4%nat -> be 4 (be_val q) = q) by (intros q OQ LQ; rewrite <- LQ; now apply be_be_val).
  assert (LF : length (firstn 4 d) = 4%nat) by (rewrite firstn_length; lia). assert (LS : length (skipn 4 d) = 4%nat) by (rewrite skipn_length; lia).
  assert (OF : octets (firstn 4 d)) by now apply octets_firstn. assert (OS : octets (skipn 4 d)) by now apply octets_skipn.
  pose proof (run_std _ p s (be_val (firstn 4 d), be_val (skipn 4 d)) R (conj (V4 _ OF LF) (V4 _ OS LS))) as [RR _]. cbn [fst snd] in RR.
  rewrite !B4 in RR by assumption. rewrite firstn_skipn in RR. exact RR.
Qed.
Lemma fold_seq {A} (f : A -> nat -> A) a b x : fold_left f (seq 0 (a + b)) x = fold_left f (seq (a + 0) b) (fold_left f (seq 0 a) x).
Proof. rewrite seq_app, fold_left_app. now rewrite Nat.add_comm. Qed.
Lemma fill_std T p0 s0 : rel T p0 s0 ->
  exists p ini s, bf_fill_p (seq 0 9) s0 p0 (repeat 0 8) = Ok (p, ini) /\ bf_fill_s (list_prod (seq 0 4) (seq 0 128)) s0 p ini = Ok s
    /\ rel (fst (fold_left Blowfish.expand_step (seq 0 (9 + 512)) (T, (0, 0)))) p s.
Proof.
  intros R. pose proof (fill_p_std s0 9 0 T p0 (0, 0) ltac:(lia) R ltac:(split; reflexivity)) as H. cbv zeta in H.
  rewrite fold_seq. destruct (fold_left Blowfish.expand_step (seq 0 9) (T, (0, 0))) as [T1 x1]. destruct H as (p & FP & R1 & O1). cbn [fst snd] in FP, R1, O1.
  change (be 4 0 ++ be 4 0) with (repeat 0 8) in FP.
  destruct (fill_s_std p 512 0 T1 s0 x1 ltac:(lia) R1 O1) as (s & FS & R2). rewrite all_boxes. exists p, (be 4 (fst x1) ++ be 4 (snd x1)), s. split; [exact FP|]. split; [exact FS|exact R2].
Qed.
Lemma two_steps {A B C D} (f : result (A * B)) (g : A -> B -> result C) (k : A -> C -> D) a b s c : f = Ok (a, b) -> g a b = Ok s ->
  (' (p, i) <- f ;; s <- g p i ;; Ok (k p s)) = Ok c -> c = k a s.
Proof. intros -> E H. cbn [bind] in H. rewrite E in H. cbn [bind] in H. congruence. Qed.
Theorem blowfish_std KEY c d : octets KEY -> Blowfish KEY = Ok c -> octets d -> length d = 8%nat -> c_encrypt c d = Ok (Blowfish.blowfish_cipher KEY d).
Proof.
  intros OK C Od L. unfold Blowfish in C. destruct ((len KEY <? 4) || (112 <? len KEY)) eqn:G; [discriminate|].
  pose proof (p0_std KEY OK ltac:(apply orb_false_iff in G; lia)) as R0.
  destruct (fill_std _ _ _ R0) as (p & i & s & E1 & E2 & R).
  pose proof (two_steps _ (fun p ini => bf_fill_s (list_prod (seq 0 4) (seq 0 128)) Blowfish_SBOX p ini) (fun p s => mkCipher 8 (on_block 8 (bf_run p s)) (on_block 8 (bf_run (rev p) s))) p i s c E1 E2 C) as X.
  rewrite X. cbn [c_encrypt]. clear - R Od L.
  rewrite on_block_len by exact L. unfold Blowfish.blowfish_cipher, Blowfish.subkeys. exact (run_block _ p s d R Od L).
Qed.
