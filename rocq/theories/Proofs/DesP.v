(** DES: bit strings, rounds and permutations undone; triple DES. *)
From Verif Require Export Proofs.FeistelP.

Definition isbit (s : bytes) : Prop := Forall (fun c => c = 48 \/ c = 49) s.
(** The number written by a bit string. *)
Fixpoint bv (s : bytes) : N :=
  match s with [] => 0 | c :: r => (c - 48) * 2 ^ len r + bv r end.

Lemma bv_lt s : isbit s -> bv s < 2 ^ len s.
Proof.
  induction 1 as [|c r H F IH]; [reflexivity|]. cbn [bv]. rewrite len_cons.
  replace (2 ^ (1 + len r)) with (2 * 2 ^ len r) by (rewrite N.pow_add_r; reflexivity).
  destruct H as [->| ->].
  - change (48 - 48) with 0. lia.
  - change (49 - 48) with 1. lia.
Qed.
Lemma toint2_aux_bv s : forall v, isbit s -> v * 2 ^ len s + bv s < two64 ->
  toint2_aux v s = v * 2 ^ len s + bv s.
Proof.
  induction s as [|c r IH]; intros v B L; cbn [toint2_aux bv].
  - cbn [bv] in L. rewrite len_nil. lia.
  - inversion B as [|? ? Hc Br]; subst. cbn [bv] in L. rewrite len_cons in *.
    replace (2 ^ (1 + len r)) with (2 * 2 ^ len r) in * by (rewrite N.pow_add_r; reflexivity).
    assert (P : 1 <= 2 ^ len r) by (pose proof (N.pow_nonzero 2 (len r)); lia).
    assert (E : (c =? 48) || (c =? 49) = true) by (destruct Hc as [->| ->]; reflexivity).
    rewrite E. assert (C : c - 48 <= 1) by lia.
    assert (V : 2 * v + (c - 48) < two64) by nia.
    rewrite N.shiftl_mul_pow2. change (2 ^ 1) with 2.
    unfold u64 at 2. rewrite (N.mod_small (v * 2)) by lia.
    unfold u64. rewrite N.mod_small by lia.
    rewrite IH by (auto; nia). nia.
Qed.
Lemma toint2_bv s : isbit s -> (length s <= 64)%nat -> toint2 s = bv s.
Proof.
  intros B L. unfold toint2. rewrite toint2_aux_bv; auto.
  pose proof (bv_lt s B). assert (2 ^ len s <= 2 ^ 64) by (apply N.pow_le_mono_r; unfold len; lia).
  change (2 ^ 64) with two64 in *. lia.
Qed.
Lemma toint2_aux_lt s : forall v, toint2_aux v s < (v + 1) * 2 ^ len s.
Proof.
  induction s as [|c r IH]; intros v; cbn [toint2_aux].
  - rewrite len_nil. change (2 ^ 0) with 1. lia.
  - rewrite len_cons. replace (2 ^ (1 + len r)) with (2 * 2 ^ len r) by (rewrite N.pow_add_r; reflexivity).
    assert (P : 1 <= 2 ^ len r) by (pose proof (N.pow_nonzero 2 (len r)); lia).
    destruct ((c =? 48) || (c =? 49)) eqn:E; [|nia].
    eapply N.lt_le_trans; [apply IH|].
    assert (u64 (u64 (N.shiftl v 1) + (c - 48)) <= 2 * v + 1); [|nia].
    assert (C : c - 48 <= 1) by lia.
    rewrite N.shiftl_mul_pow2. change (2 ^ 1) with 2. unfold u64.
    assert (two64 <> 0) by discriminate.
    etransitivity; [apply N.mod_le; auto|].
    pose proof (N.mod_le (v * 2) two64 H). lia.
Qed.
Lemma toint2_lt s : toint2 s < 2 ^ len s.
Proof. unfold toint2. eapply N.lt_le_trans; [apply toint2_aux_lt|]. lia. Qed.

Lemma isbit_app a b : isbit (a ++ b) <-> isbit a /\ isbit b.
Proof. apply Forall_app. Qed.
Lemma makebin_isbit v n : isbit (makebin v n).
Proof.
  revert v. induction n as [|n IH]; intros v; cbn [makebin]; [constructor|].
  apply isbit_app. split; [apply IH|]. constructor; [|constructor].
  pose proof (N.mod_lt v 2). lia.
Qed.
Lemma bv_app a b : bv (a ++ b) = bv a * 2 ^ len b + bv b.
Proof.
  induction a as [|c a IH]; [reflexivity|]. cbn [app bv]. rewrite IH, len_app, N.pow_add_r. ring.
Qed.
Lemma bv_makebin v n : bv (makebin v n) = v mod 2 ^ N.of_nat n.
Proof.
  revert v. induction n as [|n IH]; intros v; cbn [makebin].
  - cbn [bv]. change (2 ^ N.of_nat 0) with 1. now rewrite N.mod_1_r.
  - rewrite bv_app, IH. cbn [bv]. rewrite len_cons, len_nil.
    change (2 ^ (1 + 0)) with 2. change (2 ^ 0) with 1.
    replace (N.of_nat (S n)) with (1 + N.of_nat n) by lia. rewrite N.pow_add_r. change (2 ^ 1) with 2.
    rewrite N.mod_mul_r by (try discriminate; apply N.pow_nonzero; discriminate).
    lia.
Qed.
Lemma makebin_bv s : isbit s -> makebin (bv s) (length s) = s.
Proof.
  induction s as [|c s IH] using rev_ind; intros B; [reflexivity|].
  apply isbit_app in B. destruct B as [B C]. inversion C as [|? ? Hc]; subst.
  rewrite app_length, Nat.add_comm. cbn [length Nat.add makebin]. rewrite bv_app. cbn [bv].
  rewrite len_cons, len_nil. change (2 ^ (1 + 0)) with 2. change (2 ^ 0) with 1.
  assert (c - 48 < 2) by (destruct Hc as [->| ->]; reflexivity).
  assert (E1 : (bv s * 2 + ((c - 48) * 1 + 0)) / 2 = bv s).
  { symmetry. apply (N.div_unique _ 2 _ (c - 48)); lia. }
  assert (E2 : (bv s * 2 + ((c - 48) * 1 + 0)) mod 2 = c - 48).
  { symmetry. apply (N.mod_unique _ 2 (bv s)); lia. }
  rewrite E1, E2, (IH B). f_equal. f_equal. destruct Hc as [->| ->]; reflexivity.
Qed.
Lemma makebin_split v a b : makebin v (a + b) = makebin (v / 2 ^ N.of_nat b) a ++ makebin v b.
Proof.
  revert v. induction b as [|b IH]; intros v.
  - rewrite Nat.add_0_r. cbn [makebin]. change (2 ^ N.of_nat 0) with 1.
    now rewrite N.div_1_r, app_nil_r.
  - rewrite Nat.add_succ_r. cbn [makebin]. rewrite IH, app_assoc. f_equal. f_equal.
    rewrite N.div_div by (try discriminate; apply N.pow_nonzero; discriminate).
    f_equal. replace (N.of_nat (S b)) with (1 + N.of_nat b) by lia. now rewrite N.pow_add_r.
Qed.
Lemma makebin_mod v n k : N.of_nat n <= k -> makebin (v mod 2 ^ k) n = makebin v n.
Proof.
  intros H. rewrite <- (makebin_bv (makebin v n)) by apply makebin_isbit.
  rewrite <- (makebin_bv (makebin (v mod 2 ^ k) n)) by apply makebin_isbit.
  rewrite !makebin_length, !bv_makebin. f_equal.
  replace k with (N.of_nat n + (k - N.of_nat n)) by lia. rewrite N.pow_add_r.
  set (p := 2 ^ N.of_nat n). set (q := 2 ^ (k - N.of_nat n)).
  assert (p <> 0) by (apply N.pow_nonzero; discriminate).
  assert (q <> 0) by (apply N.pow_nonzero; discriminate).
  rewrite N.mod_mul_r by auto. rewrite N.mul_comm, N.mod_add by auto. apply N.mod_mod. auto.
Qed.

Lemma bits_be n v : des_bits (be n v) = makebin v (8 * n).
Proof.
  revert v. induction n as [|n IH]; intros v; [reflexivity|].
  rewrite be_S_r. unfold des_bits in *. rewrite flat_map_app, IH. cbn [flat_map].
  rewrite app_nil_r. replace (8 * S n)%nat with (8 * n + 8)%nat by lia.
  rewrite makebin_split. f_equal. unfold u8.
  rewrite N.mod_mod by discriminate. apply (makebin_mod v 8 8). reflexivity.
Qed.
Lemma des_bits_length d : length (des_bits d) = (8 * length d)%nat.
Proof.
  unfold des_bits. induction d as [|c d IH]; [reflexivity|].
  cbn [flat_map length]. rewrite app_length, makebin_length, IH. lia.
Qed.
Lemma des_bits_isbit d : isbit (des_bits d).
Proof.
  unfold des_bits. induction d as [|c d IH]; [constructor|].
  cbn [flat_map]. apply isbit_app. split; [apply makebin_isbit|exact IH].
Qed.
Lemma be_bits d : octets d -> length d = 8%nat -> be 8 (bv (des_bits d)) = d.
Proof.
  intros O L. pose proof (be_be_val d O) as E. rewrite L in E.
  rewrite <- E at 1. rewrite bits_be, bv_makebin. rewrite N.mod_small; [exact E|].
  pose proof (be_val_bound d O) as B. replace (len d) with 8 in B by (unfold len; rewrite L; reflexivity).
  exact B.
Qed.

(** * The permutations *)
Lemma pick_length t s : length (pick t s) = length t.
Proof. apply map_length. Qed.
Lemma pick_isbit t s : isbit s -> Forall (fun i => 1 <= i <= len s) t -> isbit (pick t s).
Proof.
  intros B F. unfold pick. unfold isbit. apply Forall_map. eapply Forall_impl; [|exact F].
  intros i H. cbn beta. unfold tab, idx. unfold isbit in B. rewrite Forall_forall in B. apply B.
  apply nth_In. unfold len in H. lia.
Qed.
Lemma ip_inverse s : length s = 64%nat -> pick DES_INVIP (pick DES_IP s) = s.
Proof.
  intros L. do 64 (destruct s as [|? s]; [discriminate|]). destruct s; [|discriminate]. reflexivity.
Qed.
Lemma inv_ip s : length s = 64%nat -> pick DES_IP (pick DES_INVIP s) = s.
Proof.
  intros L. do 64 (destruct s as [|? s]; [discriminate|]). destruct s; [|discriminate]. reflexivity.
Qed.
Lemma table_64 t : forallb (fun i => (1 <=? i) && (i <=? 64)) t = true ->
  Forall (fun i => 1 <= i <= 64) t.
Proof. rewrite forallb_forall, Forall_forall. intros H i I. specialize (H i I). lia. Qed.

(** The accumulated output is the number written by the picked bits. *)
Lemma des_out_sum data t : forall n s o, (s + n <= 64)%nat ->
  (forall x, (s <= x < s + n)%nat -> tab data (idx t x - 1) = 48 \/ tab data (idx t x - 1) = 49) ->
  o + 2 ^ N.of_nat (64 - s) <= two64 ->
  fold_left (fun o x =>
      u64 (o + N.shiftl (if tab data (idx t x - 1) =? 49 then 1 else 0) (63 - N.of_nat x)))
    (seq s n) o
  = o + bv (map (fun x => tab data (idx t x - 1)) (seq s n)) * 2 ^ N.of_nat (64 - s - n).
Proof.
  induction n as [|n IH]; intros s o L B O; cbn [seq fold_left map bv]; [lia|].
  set (c := tab data (idx t s - 1)).
  assert (C : (if c =? 49 then 1 else 0) = c - 48).
  { subst c. destruct (B s ltac:(lia)) as [->| ->]; reflexivity. }
  rewrite C, N.shiftl_mul_pow2.
  assert (C1 : c - 48 <= 1) by (rewrite <- C; destruct (c =? 49); lia).
  replace (64 - s)%nat with (S (63 - s)) in O by lia.
  replace (N.of_nat (S (63 - s))) with (1 + N.of_nat (63 - s)) in O by lia.
  rewrite N.pow_add_r in O. change (2 ^ 1) with 2 in O.
  replace (63 - N.of_nat s) with (N.of_nat (63 - s)) by lia.
  set (p := 2 ^ N.of_nat (63 - s)) in *.
  assert (P : 1 <= p) by (subst p; pose proof (N.pow_nonzero 2 (N.of_nat (63 - s))); lia).
  unfold u64. rewrite N.mod_small by nia.
  rewrite IH; [|lia|intros; apply B; lia|replace (64 - S s)%nat with (63 - s)%nat by lia; fold p; nia].
  replace (len (map (fun x => tab data (idx t x - 1)) (seq (S s) n))) with (N.of_nat n)
    by (unfold len; now rewrite map_length, seq_length).
  replace (64 - S s - n)%nat with (64 - s - S n)%nat by lia.
  assert (PE : p = 2 ^ N.of_nat n * 2 ^ N.of_nat (64 - s - S n)).
  { subst p. rewrite <- N.pow_add_r. f_equal. lia. }
  rewrite PE. ring.
Qed.
Lemma list_seq (t : list N) : t = map (idx t) (seq 0 (length t)).
Proof.
  induction t as [|x t IH]; [reflexivity|].
  cbn [length seq map]. f_equal. rewrite <- seq_shift, map_map. exact IH.
Qed.
Lemma pick_seq t s n : length t = n -> pick t s = map (fun x => tab s (idx t x - 1)) (seq 0 n).
Proof.
  intros <-. unfold pick. rewrite (list_seq t) at 1. now rewrite map_map.
Qed.

(** * Rounds *)
Definition half (d : bytes) : bytes := slice d 32 32 ++ slice d 0 32.
Definition okd (d : bytes) : Prop := isbit d /\ length d = 64%nat.
Lemma okd_split d : okd d -> exists l r, d = l ++ r /\ isbit l /\ isbit r /\ length l = 32%nat /\ length r = 32%nat.
Proof.
  intros [B L]. exists (firstn 32 d), (skipn 32 d).
  assert (E : d = firstn 32 d ++ skipn 32 d) by now rewrite firstn_skipn.
  rewrite E in B. apply isbit_app in B. destruct B.
  repeat split; auto; [rewrite firstn_length|rewrite skipn_length]; lia.
Qed.
Lemma slices32 l r : length l = 32%nat -> length r = 32%nat ->
  slice (l ++ r) 0 32 = l /\ slice (l ++ r) 32 32 = r.
Proof.
  intros A B. split; [apply (slice_at [] l r); auto|].
  replace (l ++ r) with (l ++ r ++ []) by now rewrite app_nil_r. apply slice_at; auto.
Qed.
Lemma half_app l r : length l = 32%nat -> length r = 32%nat -> half (l ++ r) = r ++ l.
Proof. intros A B. unfold half. destruct (slices32 l r A B) as [-> ->]. reflexivity. Qed.
Lemma des_f_lt r k : des_f r k < 2 ^ 32.
Proof.
  unfold des_f. eapply N.lt_le_trans; [apply toint2_lt|]. unfold len. rewrite pick_length. reflexivity.
Qed.
Definition des_unround (d : bytes) (k : N) : bytes := half (des_round (half d) k).
Lemma lxor_lt a b n : a < 2 ^ n -> b < 2 ^ n -> N.lxor a b < 2 ^ n.
Proof.
  intros A B. destruct (N.eq_dec (N.lxor a b) 0) as [->|Z]; [apply N.neq_0_lt_0, N.pow_nonzero; discriminate|].
  apply N.log2_lt_pow2; [lia|].
  eapply N.le_lt_trans; [apply N.log2_lxor|].
  destruct (N.eq_dec a 0) as [->|Za]; destruct (N.eq_dec b 0) as [->|Zb].
  - now rewrite N.lxor_0_l in Z.
  - change (N.log2 0) with 0. rewrite N.max_0_l. apply N.log2_lt_pow2; lia.
  - change (N.log2 0) with 0. rewrite N.max_0_r. apply N.log2_lt_pow2; lia.
  - apply N.max_lub_lt; apply N.log2_lt_pow2; lia.
Qed.
Lemma des_undo d k : okd d -> okd (des_round d k) /\ des_unround (des_round d k) k = d.
Proof.
  intros K. destruct (okd_split d K) as [l [r [-> [Bl [Br [Ll Lr]]]]]].
  unfold des_unround, des_round at 1 2 3. destruct (slices32 l r Ll Lr) as [-> ->].
  set (f := des_f r k). set (m := makebin (N.lxor (toint2 l) f) 32).
  assert (Lm : length m = 32%nat) by apply makebin_length.
  split.
  - split; [apply isbit_app; split; [auto|apply makebin_isbit]|]. rewrite app_length. lia.
  - rewrite (half_app r m) by auto. destruct (slices32 m r Lm Lr) as [-> ->].
    fold f. rewrite half_app by (auto; apply makebin_length). f_equal.
    rewrite !toint2_bv by (subst m; auto using makebin_isbit; rewrite ?makebin_length; lia).
    subst m. rewrite bv_makebin. rewrite toint2_bv by (auto; lia).
    pose proof (bv_lt l Bl) as VL. replace (len l) with 32 in VL by (unfold len; rewrite Ll; reflexivity).
    rewrite N.mod_small by (apply (lxor_lt _ _ 32); [exact VL|apply des_f_lt]).
    rewrite N.lxor_assoc, N.lxor_nilpotent, N.lxor_0_r. rewrite <- Ll. now apply makebin_bv.
Qed.
Lemma half_half d : okd d -> half (half d) = d.
Proof.
  intros K. destruct (okd_split d K) as [l [r [-> [Bl [Br [Ll Lr]]]]]].
  now rewrite !half_app by auto.
Qed.
Lemma okd_half d : okd d -> okd (half d).
Proof.
  intros K. destruct (okd_split d K) as [l [r [-> [Bl [Br [Ll Lr]]]]]].
  rewrite half_app by auto. split; [now apply isbit_app|]. rewrite app_length. lia.
Qed.
Lemma des_fold_half ks d : okd d ->
  okd (fold_left des_round ks d) /\
  fold_left des_unround ks d = half (fold_left des_round ks (half d)).
Proof.
  revert d. induction ks as [|k ks IH]; intros d K; cbn [fold_left].
  - split; [auto|]. now rewrite half_half.
  - destruct (des_undo d k K) as [K1 _]. destruct (des_undo (half d) k (okd_half d K)) as [K2 _].
    split; [now apply IH|]. destruct (IH (des_unround d k)) as [_ E]; [now apply okd_half|].
    rewrite E. unfold des_unround. rewrite half_half by auto. reflexivity.
Qed.

Lemma des_run_eq ks d : length d = 8%nat ->
  let x := fold_left des_round ks (pick DES_IP (des_bits d)) in
  okd x /\ exists e, des_run ks d = Ok e /\ octets e /\ length e = 8%nat /\
  des_bits e = pick DES_INVIP (half x).
Proof.
  intros L x.
  assert (K0 : okd (pick DES_IP (des_bits d))).
  { split; [|reflexivity]. apply pick_isbit; [apply des_bits_isbit|].
    replace (len (des_bits d)) with 64 by (unfold len; rewrite des_bits_length, L; reflexivity).
    apply table_64. reflexivity. }
  assert (K : okd x) by now apply des_fold_half.
  split; [exact K|]. unfold des_run. fold x. change (slice x 32 32 ++ slice x 0 32) with (half x).
  assert (Kh : okd (half x)) by now apply okd_half.
  assert (KP : isbit (pick DES_INVIP (half x))).
  { destruct Kh as [B Lh]. apply pick_isbit; [exact B|].
    replace (len (half x)) with 64 by (unfold len; rewrite Lh; reflexivity).
    apply table_64. reflexivity. }
  rewrite (des_out_sum (half x) DES_INVIP 64 0 0).
  - rewrite <- (pick_seq DES_INVIP (half x) 64) by reflexivity.
    change (2 ^ N.of_nat (64 - 0 - 64)) with 1. rewrite N.add_0_l, N.mul_1_r.
    rewrite (unhexlify_makehex 8). eexists. split; [reflexivity|]. split; [apply be_octets|].
    split; [apply be_length|]. rewrite bits_be.
    change (8 * 8)%nat with (length (pick DES_INVIP (half x))). now apply makebin_bv.
  - lia.
  - intros i H. rewrite (pick_seq DES_INVIP (half x) 64) in KP by reflexivity.
    unfold isbit in KP. rewrite Forall_map, Forall_forall in KP. apply KP. apply in_seq. lia.
  - change (N.of_nat (64 - 0)) with 64. change (2 ^ 64) with two64. lia.
Qed.

Lemma des_inverse ks d : octets d -> length d = 8%nat ->
  exists e, des_run ks d = Ok e /\ octets e /\ length e = 8%nat /\ des_run (rev ks) e = Ok d.
Proof.
  intros O L. destruct (des_run_eq ks d L) as [K [e [E [Oe [Le Be]]]]].
  exists e. split; [exact E|]. split; [exact Oe|]. split; [exact Le|].
  destruct (des_run_eq (rev ks) e Le) as [K2 [f [E2 [Of [Lf Bf]]]]].
  rewrite E2. f_equal. rewrite <- (be_bits f Of Lf), <- (be_bits d O L). f_equal. f_equal.
  rewrite Bf. rewrite Be.
  set (x := fold_left des_round ks (pick DES_IP (des_bits d))) in *.
  assert (K0 : okd (pick DES_IP (des_bits d))).
  { split; [|reflexivity]. apply pick_isbit; [apply des_bits_isbit|].
    replace (len (des_bits d)) with 64 by (unfold len; rewrite des_bits_length, L; reflexivity).
    apply table_64. reflexivity. }
  rewrite inv_ip by apply (okd_half x K).
  destruct (des_fold_half (rev ks) x K) as [_ H]. rewrite <- H.
  destruct (fold_inverse okd des_round des_unround des_undo ks _ K0) as [_ G].
  fold x in G. rewrite G. apply ip_inverse. rewrite des_bits_length, L. reflexivity.
Qed.

Lemma des_ok KEY : len KEY = 8 -> exists c, DES KEY = Ok c /\ c_block c = 8 /\ inverts c 8 /\ whole_blocks c 8 /\
  (forall b, octets b -> length b = 8%nat ->
   exists e, c_decrypt c b = Ok e /\ octets e /\ length e = 8%nat /\ c_encrypt c e = Ok b).
Proof.
  intros L. unfold DES. rewrite L. cbn [negb N.eqb Pos.eqb]. eexists. split; [reflexivity|].
  split; [reflexivity|]. split; [|split; [apply (whole_on_block 8)|]].
  - intros b O Lb. destruct (des_inverse (des_setkey KEY) b O Lb) as [e [E [Oe [Le D]]]].
    exists e. cbn [c_encrypt c_decrypt]. rewrite !on_block_len by auto. auto.
  - intros b O Lb. destruct (des_inverse (rev (des_setkey KEY)) b O Lb) as [e [E [Oe [Le D]]]].
    exists e. cbn [c_encrypt c_decrypt]. rewrite !on_block_len by auto.
    rewrite rev_involutive in D. auto.
Qed.

(** * Triple DES *)
Lemma tdes_step k m d : len k = 8 -> octets d -> length d = 8%nat ->
  exists e, tdes_run d k m = Ok e /\ octets e /\ length e = 8%nat /\ tdes_run e k (negb m) = Ok d.
Proof.
  intros Lk O L. destruct (des_ok k Lk) as [c [C [_ [I [_ J]]]]].
  unfold tdes_run. rewrite C. cbn [bind].
  replace (len d) with 8 by (unfold len; rewrite L; reflexivity). cbn [negb N.eqb Pos.eqb].
  destruct m.
  - destruct (J d O L) as [e [E [Oe [Le D]]]]. exists e. repeat split; auto.
    replace (len e) with 8 by (unfold len; rewrite Le; reflexivity). exact D.
  - destruct (I d O L) as [e [E [Oe [Le D]]]]. exists e. repeat split; auto.
    replace (len e) with 8 by (unfold len; rewrite Le; reflexivity). exact D.
Qed.
Lemma tdes_chain_ok k1 k2 k3 m1 m2 m3 d : len k1 = 8 -> len k2 = 8 -> len k3 = 8 ->
  octets d -> length d = 8%nat ->
  exists e, tdes_chain k1 k2 k3 m1 m2 m3 d = Ok e /\ octets e /\ length e = 8%nat /\
            tdes_chain k3 k2 k1 (negb m3) (negb m2) (negb m1) e = Ok d.
Proof.
  intros L1 L2 L3 O L. unfold tdes_chain.
  destruct (tdes_step k1 m1 d L1 O L) as [e1 [E1 [O1 [N1 D1]]]]. rewrite E1. cbn [bind].
  destruct (tdes_step k2 m2 e1 L2 O1 N1) as [e2 [E2 [O2 [N2 D2]]]]. rewrite E2. cbn [bind].
  destruct (tdes_step k3 m3 e2 L3 O2 N2) as [e3 [E3 [O3 [N3 D3]]]]. rewrite E3.
  exists e3. repeat split; auto. rewrite D3. cbn [bind]. rewrite D2. exact D1.
Qed.
