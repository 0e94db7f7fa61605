(** DES and triple DES compute the functions of FIPS 46-3. *)
From Verif Require Import Proofs.CipherLib Proofs.DesP.
From Verif Require Spec.Des.
From Verif Require Import Proofs.Lib.

(** The strings of '0' and '1' of the code. *)
Definition ch (b : bool) : N := if b then 49 else 48.
Definition str (b : list bool) : bytes := map ch b.
Lemma str_length b : length (str b) = length b.
Proof. apply map_length. Qed.
Lemma str_app a b : str (a ++ b) = str a ++ str b.
Proof. apply map_app. Qed.
Lemma str_inj a : forall b, str a = str b -> a = b.
Proof.
  induction a as [|x a IH]; intros [|y b] H; try discriminate; [reflexivity|]. cbn [str map] in H.
  injection H as C D. apply IH in D. subst. f_equal. destruct x, y; cbn in C; congruence.
Qed.
Lemma str_isbit b : isbit (str b).
Proof. unfold isbit, str. apply Forall_map, Forall_forall. intros [] _; cbn; auto. Qed.
Lemma bits_length n v : length (Des.bits_of n v) = n.
Proof. unfold Des.bits_of. now rewrite map_length, seq_length. Qed.
Lemma bits_snoc n v : Des.bits_of (S n) v = Des.bits_of n (v / 2) ++ [N.testbit v 0].
Proof.
  unfold Des.bits_of. rewrite seq_S, map_app. cbn [map Nat.add]. f_equal.
  - apply map_ext_in. intros i I. apply in_seq in I. change 2 with (2 ^ 1). rewrite N.div_pow2_bits. f_equal. lia.
  - do 2 f_equal. lia.
Qed.
Lemma makebin_str n : forall v, makebin v n = str (Des.bits_of n v).
Proof.
  induction n as [|n IH]; intros v; [reflexivity|]. cbn [makebin]. rewrite bits_snoc, str_app, IH. f_equal.
  cbn [str map]. f_equal. rewrite <- N.bit0_mod. unfold ch. now destruct (N.testbit v 0).
Qed.
Lemma bits_xor n a b : Des.bits_of n (N.lxor a b) = Des.xor_bits (Des.bits_of n a) (Des.bits_of n b).
Proof.
  unfold Des.bits_of, Des.xor_bits. induction (seq 0 n) as [|i l IH]; [reflexivity|]. cbn [map combine fst snd]. now rewrite N.lxor_spec, IH.
Qed.
Lemma bv_num b : bv (str b) = Des.num_of b.
Proof.
  unfold Des.num_of. enough (H : forall v, fold_left (fun v (x : bool) => 2 * v + if x then 1 else 0) b v = v * 2 ^ N.of_nat (length b) + bv (str b)).
  { rewrite H. lia. }
  induction b as [|x b IH]; intros v; [cbn; lia|]. cbn [fold_left str map bv length]. fold (str b). rewrite IH.
  unfold len. rewrite str_length, Nat2N.inj_succ, N.pow_succ_r'. destruct x; cbn [ch]; [change (49 - 48) with 1|change (48 - 48) with 0]; ring.
Qed.
Lemma toint2_num b : (length b <= 64)%nat -> toint2 (str b) = Des.num_of b.
Proof. intros L. rewrite toint2_bv; [apply bv_num|apply str_isbit|now rewrite str_length]. Qed.
Lemma bits_num b : Des.bits_of (length b) (Des.num_of b) = b.
Proof.
  apply str_inj. rewrite <- makebin_str, <- bv_num. rewrite <- (str_length b). apply makebin_bv, str_isbit.
Qed.
Lemma bits_str d : octets d -> des_bits d = str (Des.block_bits d).
Proof.
  induction 1 as [|c d C D IH]; [reflexivity|]. unfold des_bits, Des.block_bits in *. cbn [flat_map]. rewrite str_app, IH. f_equal.
  rewrite makebin_str. unfold u8. now rewrite N.mod_small.
Qed.
Lemma block_length d : length (Des.block_bits d) = (8 * length d)%nat.
Proof. unfold Des.block_bits. induction d as [|c d IH]; [reflexivity|]. cbn [flat_map]. rewrite app_length, bits_length, IH. cbn. lia. Qed.
Lemma octet_num c : c < 256 -> Des.num_of (Des.bits_of 8 c) = c.
Proof.
  intros C. rewrite <- bv_num, <- makebin_str, bv_makebin. now apply N.mod_small.
Qed.
Lemma bits_block_bits d : octets d -> Des.bits_block (Des.block_bits d) (length d) = d.
Proof.
  unfold Des.bits_block. induction 1 as [|c d C D IH]; [reflexivity|]. cbn [length seq map]. f_equal.
  - change (8 * 0)%nat with 0%nat. cbn [skipn]. unfold Des.block_bits. cbn [flat_map].
    rewrite firstn_app, bits_length, Nat.sub_diag, firstn_O, app_nil_r, firstn_all2 by (rewrite bits_length; lia). now apply octet_num.
  - rewrite <- IH at 2. rewrite <- seq_shift, map_map. apply map_ext. intros i. do 2 f_equal. 
    unfold Des.block_bits at 1. cbn [flat_map]. rewrite skipn_app, bits_length. rewrite skipn_all2 by (rewrite bits_length; lia). cbn [app]. f_equal. lia.
Qed.
(** Tables. *)
Lemma pick_permute t b : forallb (fun i => (1 <=? i) && (i <=? N.of_nat (length b))) t = true -> pick t (str b) = str (Des.permute (map N.to_nat t) b).
Proof.
  intros F. unfold pick, Des.permute, str. rewrite !map_map. apply map_ext_in. intros i I. rewrite forallb_forall in F. specialize (F i I).
  unfold tab, idx. rewrite (nth_indep _ 0 (ch false)) by (rewrite map_length; lia). rewrite map_nth. do 2 f_equal. lia.
Qed.
Lemma permute_length t b : length (Des.permute t b) = length t.
Proof. apply map_length. Qed.
Lemma slice_str b p n : slice (str b) p n = str (firstn (N.to_nat n) (skipn (N.to_nat p) b)).
Proof. unfold slice, str. now rewrite skipn_map, firstn_map. Qed.
Lemma xor_length a b : length a = length b -> length (Des.xor_bits a b) = length a.
Proof. intros L. unfold Des.xor_bits. rewrite map_length, combine_length. lia. Qed.

Lemma select_std y six : (y < 8)%nat -> length six = 6%nat ->
  (let s := str six in makebin (tab (row DES_S_BOX (4 * y + N.to_nat (toint2 [tab s 0; tab s 5]))) (toint2 (slice s 1 4))) 4)
  = str (Des.select (nth y Des.S_boxes []) six).
Proof.
  intros Y L. do 6 (destruct six as [|? six]; [discriminate|]). destruct six; [|discriminate].
  cbv zeta. rewrite makebin_str. f_equal. unfold Des.select. f_equal.
  do 8 (destruct y as [|y]; [destruct b, b0, b1, b2, b3, b4; reflexivity|]). lia.
Qed.
Lemma box_std x y : (y < 8)%nat -> length x = 48%nat ->
  des_box (str x) y = str (Des.select (nth y Des.S_boxes []) (firstn 6 (skipn (6 * y) x))).
Proof.
  intros Y L. unfold des_box. rewrite slice_str. replace (N.to_nat (6 * N.of_nat y)) with (6 * y)%nat by lia. change (N.to_nat 6) with 6%nat.
  apply (select_std y); [exact Y|]. rewrite firstn_length, skipn_length. lia.
Qed.
Lemma f_std R K : length R = 32%nat -> length K = 48%nat -> des_f (str R) (Des.num_of K) = Des.num_of (Des.f R K) /\ length (Des.f R K) = 32%nat.
Proof.
  intros LR LK. split; [|apply permute_length]. unfold des_f.
  assert (EX : pick DES_EX (str R) = str (Des.permute Des.E R)) by (rewrite pick_permute; [reflexivity|rewrite LR; reflexivity]).
  rewrite EX, toint2_num by (rewrite permute_length; cbn; lia).
  assert (X : makebin (N.lxor (Des.num_of (Des.permute Des.E R)) (Des.num_of K)) 48 = str (Des.xor_bits (Des.permute Des.E R) K)).
  { rewrite makebin_str, bits_xor. f_equal. f_equal; [|rewrite <- LK; apply bits_num]. exact (bits_num (Des.permute Des.E R)). }
  rewrite X. cbv zeta. set (x := Des.xor_bits (Des.permute Des.E R) K).
  assert (Lx : length x = 48%nat) by (unfold x; rewrite xor_length; rewrite permute_length; [reflexivity|]; rewrite LK; reflexivity).
  assert (B : flat_map (des_box (str x)) (seq 0 8) = str (concat (map (fun i => Des.select (nth i Des.S_boxes []) (firstn 6 (skipn (6 * i) x))) (seq 0 8)))).
  { cbn [seq flat_map map concat]. rewrite !box_std by (auto; lia). now rewrite !str_app. }
  rewrite B. unfold Des.f. fold x. set (c := concat _).
  assert (Lc : length c = 32%nat) by (unfold c; cbn [seq map concat]; unfold Des.select; now rewrite !app_length, !bits_length).
  rewrite pick_permute by (rewrite Lc; reflexivity). apply toint2_num. rewrite permute_length. cbn. lia.
Qed.
Lemma round_std L R K : length L = 32%nat -> length R = 32%nat -> length K = 48%nat ->
  des_round (str (L ++ R)) (Des.num_of K) = str (R ++ Des.xor_bits L (Des.f R K)).
Proof.
  intros A B C. destruct (f_std R K B C) as [F LF]. unfold des_round. rewrite str_app. destruct (slices32 (str L) (str R)) as [-> ->]; rewrite ?str_length; auto.
  rewrite str_app. f_equal. rewrite F, toint2_num by lia. rewrite makebin_str, bits_xor. f_equal. f_equal; [rewrite <- A|rewrite <- LF]; apply bits_num.
Qed.
Lemma rounds_std KEY order : forall L R, length L = 32%nat -> length R = 32%nat ->
  let lr := fold_left (Des.iteration KEY) order (L, R) in
  fold_left des_round (map (fun n => Des.num_of (Des.KS n KEY)) order) (str (L ++ R)) = str (fst lr ++ snd lr) /\ length (fst lr) = 32%nat /\ length (snd lr) = 32%nat.
Proof.
  induction order as [|n order IH]; intros L R A B; [auto|]. cbn [map fold_left].
  assert (C : length (Des.KS n KEY) = 48%nat) by apply permute_length.
  rewrite round_std by assumption. unfold Des.iteration at 1 3 5. cbn [fst snd]. apply IH; [exact B|].
  rewrite xor_length; [exact A|]. rewrite A. symmetry. apply permute_length.
Qed.
(** The key schedule. *)
Lemma rotate_length {A} n (l : list A) : length (Des.rotate_left n l) = length l.
Proof. unfold Des.rotate_left. rewrite app_length, skipn_length, firstn_length. lia. Qed.
Lemma skipn_twice {A} a b (l : list A) : skipn b (skipn a l) = skipn (a + b) l.
Proof. revert l. induction a as [|a IH]; intros l; [reflexivity|]. destruct l; cbn [skipn Nat.add]; [now rewrite !skipn_nil|apply IH]. Qed.
Lemma rotate_rotate {A} a b (l : list A) : (a + b <= length l)%nat -> Des.rotate_left b (Des.rotate_left a l) = Des.rotate_left (a + b) l.
Proof.
  intros H. unfold Des.rotate_left. rewrite skipn_app, firstn_app, skipn_length. replace (b - (length l - a))%nat with 0%nat by lia. cbn [skipn firstn].
  rewrite app_nil_r, skipn_twice, <- app_assoc. f_equal.
  rewrite <- (firstn_skipn a (firstn (a + b) l)). rewrite firstn_firstn, skipn_firstn_comm. replace (Nat.min a (a + b)) with a by lia. now replace (a + b - a)%nat with b by lia.
Qed.
Lemma slice_rotate b n : length b = 28%nat -> n <= 28 -> slice (str b ++ str b) n 28 = str (Des.rotate_left (N.to_nat n) b).
Proof.
  intros L H. rewrite <- str_app, slice_str. f_equal. unfold Des.rotate_left. rewrite skipn_app. replace (N.to_nat n - length b)%nat with 0%nat by lia. cbn [skipn].
  rewrite firstn_app, skipn_length, firstn_all2 by (rewrite skipn_length; lia). f_equal. f_equal. lia.
Qed.
Lemma shifts_table n : (n < 16)%nat -> nth n DES_rot 0 = N.of_nat (Des.shifts (S n)).
Proof. intros H. do 16 (destruct n as [|n]; [reflexivity|]). lia. Qed.
Lemma total_28 n : (n <= 16)%nat -> (Des.total_shifts n <= 28)%nat.
Proof. intros H. do 17 (destruct n as [|n]; [cbn; lia|]). lia. Qed.
Lemma keys_std KEY : forall m n, (n + m = 16)%nat ->
  des_keys (skipn n DES_rot) (str (Des.rotate_left (Des.total_shifts n) (Des.permute Des.PC1_C KEY))) (str (Des.rotate_left (Des.total_shifts n) (Des.permute Des.PC1_D KEY)))
  = map (fun i => Des.num_of (Des.KS i KEY)) (seq (S n) m).
Proof.
  induction m as [|m IH]; intros n H.
  - replace n with 16%nat by lia. reflexivity.
  - assert (SK : skipn n DES_rot = nth n DES_rot 0 :: skipn (S n) DES_rot).
    { assert (I : (n < 16)%nat) by lia. clear - I. do 16 (destruct n as [|n]; [reflexivity|]). lia. }
    rewrite SK, shifts_table by lia. cbn [des_keys]. pose proof (total_28 (S n) ltac:(lia)) as T. cbn [Des.total_shifts] in T.
    assert (RR : forall t, length t = 28%nat -> slice (str (Des.rotate_left (Des.total_shifts n) (Des.permute t KEY)) ++ str (Des.rotate_left (Des.total_shifts n) (Des.permute t KEY))) (N.of_nat (Des.shifts (S n))) 28
                 = str (Des.rotate_left (Des.total_shifts (S n)) (Des.permute t KEY))).
    { intros t Lt. rewrite slice_rotate; [|rewrite rotate_length; now rewrite permute_length|lia]. rewrite Nat2N.id, rotate_rotate by (rewrite permute_length; lia). reflexivity. }
    rewrite !RR by reflexivity. rewrite IH by lia. cbn [seq map]. f_equal. rewrite <- str_app.
    rewrite pick_permute by (rewrite app_length, !rotate_length, !permute_length; reflexivity).
    rewrite toint2_num by (rewrite permute_length; cbn; lia). reflexivity.
Qed.
Lemma setkey_std KEY : octets KEY -> length KEY = 8%nat -> des_setkey KEY = map (fun i => Des.num_of (Des.KS i (Des.block_bits KEY))) (seq 1 16).
Proof.
  intros O L. unfold des_setkey. rewrite bits_str by exact O. assert (LB : length (Des.block_bits KEY) = 64%nat) by (rewrite block_length; lia).
  rewrite !pick_permute by (rewrite LB; reflexivity). rewrite <- (keys_std (Des.block_bits KEY) 16 0 eq_refl). cbn [skipn Des.total_shifts].
  unfold Des.rotate_left. cbn [skipn firstn]. rewrite !app_nil_r. reflexivity.
Qed.
Lemma des_std KEY order d : octets KEY -> octets d -> length d = 8%nat ->
  des_run (map (fun i => Des.num_of (Des.KS i (Des.block_bits KEY))) order) d = Ok (Des.des order KEY d).
Proof.
  intros OK Od L. destruct (des_run_eq (map (fun i => Des.num_of (Des.KS i (Des.block_bits KEY))) order) d L) as ([XB XL] & e & -> & Oe & Le & E).
  set (b := Des.permute Des.IP (Des.block_bits d)) in *.
  assert (LB : length (Des.block_bits d) = 64%nat) by (rewrite block_length; lia).
  assert (Lb : length b = 64%nat) by apply permute_length.
  rewrite (bits_str d) in E by exact Od. rewrite pick_permute in E by (rewrite LB; reflexivity). change (map N.to_nat DES_IP) with Des.IP in E. fold b in E.
  rewrite <- (firstn_skipn 32 b) in E at 1.
  destruct (rounds_std (Des.block_bits KEY) order (firstn 32 b) (skipn 32 b)) as (F & LL & LR); [rewrite firstn_length; lia|rewrite skipn_length; lia|].
  rewrite F in E. set (lr := fold_left _ _ _) in *. rewrite str_app, half_app in E by (rewrite str_length; assumption). rewrite <- str_app in E.
  rewrite pick_permute in E by (rewrite app_length, LL, LR; reflexivity). change (map N.to_nat DES_INVIP) with Des.IP_inverse in E.
  rewrite bits_str in E by exact Oe. apply str_inj in E. unfold Des.des. fold b. fold lr. cbv zeta. rewrite <- E. rewrite <- Le. now rewrite bits_block_bits.
Qed.
Theorem des_encrypt_std KEY c d : octets KEY -> DES KEY = Ok c -> octets d -> length d = 8%nat ->
  c_encrypt c d = Ok (Des.des_encipher KEY d) /\ c_decrypt c d = Ok (Des.des_decipher KEY d).
Proof.
  intros OK C Od L. unfold DES in C. destruct (N.eqb_spec (len KEY) 8) as [K|]; [|discriminate]. cbn [negb] in C. apply Ok_inj in C. subst c. cbn [c_encrypt c_decrypt].
  rewrite !on_block_len by exact L. rewrite setkey_std by (auto; unfold len in K; lia). rewrite <- map_rev. rewrite !des_std by assumption. auto.
Qed.
Lemma des_block order KEY d : octets KEY -> octets d -> length d = 8%nat -> octets (Des.des order KEY d) /\ length (Des.des order KEY d) = 8%nat.
Proof.
  intros OK Od L. pose proof (des_std KEY order d OK Od L) as E. destruct (des_run_eq (map (fun i => Des.num_of (Des.KS i (Des.block_bits KEY))) order) d L) as (_ & e & E' & Oe & Le & _).
  rewrite E in E'. apply Ok_inj in E'. now rewrite E'.
Qed.
Lemma tdes_run_std d key m : octets key -> len key = 8 -> octets d -> length d = 8%nat ->
  tdes_run d key m = Ok (if m then Des.des_decipher key d else Des.des_encipher key d).
Proof.
  intros OK K Od L. unfold tdes_run. unfold len at 1. rewrite L. cbn [N.of_nat N.eqb negb Pos.eqb Pos.of_succ_nat Pos.succ].
  destruct (des_ok key K) as (c & C & _). rewrite C. cbn [bind]. destruct (des_encrypt_std key c d OK C Od L) as [X Y]. now destruct m.
Qed.
Theorem tdes_std k1 k2 k3 c d : octets k1 -> octets k2 -> octets k3 -> TDES k1 false k2 true k3 false = Ok c -> octets d -> length d = 8%nat ->
  c_encrypt c d = Ok (Des.tdea_encipher k1 k2 k3 d).
Proof.
  intros O1 O2 O3 C Od L. unfold TDES in C. destruct (N.eqb_spec (len k1) 8), (N.eqb_spec (len k2) 8), (N.eqb_spec (len k3) 8); try discriminate.
  cbn [negb orb] in C. apply Ok_inj in C. subst c. cbn [c_encrypt]. unfold tdes_chain.
  rewrite tdes_run_std by assumption. cbn [bind]. destruct (des_block (seq 1 16) k1 d) as [A B]; auto. fold (Des.des_encipher k1 d) in A, B.
  rewrite tdes_run_std by assumption. cbn [bind]. destruct (des_block (rev (seq 1 16)) k2 (Des.des_encipher k1 d)) as [A' B']; auto.
  now rewrite tdes_run_std by assumption.
Qed.
