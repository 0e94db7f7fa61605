(** AES: steps undone. *)
From Verif Require Export Proofs.CipherLib.

Lemma all256 (p : N -> bool) : forallb p (map N.of_nat (seq 0 256)) = true -> forall x, x < 256 -> p x = true.
Proof.
  intros H x L. rewrite forallb_forall in H. apply H. apply in_map_iff. exists (N.to_nat x).
  split; [lia|]. apply in_seq. lia.
Qed.

(** Words as four octets. *)
Definition pack (a b c d : N) : N := a * 16777216 + b * 65536 + c * 256 + d.
Definition octet (a : N) : Prop := a < 256.
Lemma pack_lt a b c d : octet a -> octet b -> octet c -> octet d -> pack a b c d < two32.
Proof. unfold octet, pack, two32. lia. Qed.
Lemma land255 x : N.land x 255 = x mod 256.
Proof. change 255 with (N.ones 8). now rewrite N.land_ones. Qed.
Lemma byte_eq w n : byte w n = w / 2 ^ (8 * n) mod 256.
Proof. unfold byte. now rewrite land255, N.shiftr_div_pow2. Qed.
Lemma byte_octet w n : octet (byte w n).
Proof. rewrite byte_eq. apply N.mod_lt. discriminate. Qed.
Lemma div_mod_unique q r n x : x = q * n + r -> r < n -> x / n = q /\ x mod n = r.
Proof.
  intros E L. split; symmetry; [apply (N.div_unique x n q r)|apply (N.mod_unique x n q r)]; lia.
Qed.
Lemma shr24 a b c d : octet b -> octet c -> octet d -> N.shiftr (pack a b c d) 24 = a.
Proof.
  unfold octet, pack. intros B C D. rewrite N.shiftr_div_pow2. change (2 ^ 24) with 16777216.
  apply (div_mod_unique a (b * 65536 + c * 256 + d)); lia.
Qed.
Lemma pack_bytes a b c d : octet a -> octet b -> octet c -> octet d ->
  byte (pack a b c d) 3 = a /\ byte (pack a b c d) 2 = b /\ byte (pack a b c d) 1 = c /\ byte (pack a b c d) 0 = d.
Proof.
  unfold octet, pack. intros A B C D. rewrite !byte_eq.
  change (2 ^ (8 * 3)) with 16777216. change (2 ^ (8 * 2)) with 65536.
  change (2 ^ (8 * 1)) with 256. change (2 ^ (8 * 0)) with 1. rewrite N.div_1_r.
  split; [|split; [|split]].
  - destruct (div_mod_unique a (b * 65536 + c * 256 + d) 16777216
      (a * 16777216 + b * 65536 + c * 256 + d)) as [-> _]; try lia; try now apply N.mod_small.
  - destruct (div_mod_unique (a * 256 + b) (c * 256 + d) 65536
      (a * 16777216 + b * 65536 + c * 256 + d)) as [-> _]; try lia; try now apply (div_mod_unique a b 256).
  - destruct (div_mod_unique (a * 65536 + b * 256 + c) d 256
      (a * 16777216 + b * 65536 + c * 256 + d)) as [-> _]; try lia; try (apply (div_mod_unique (a * 256 + b) c 256); lia).
  - apply (div_mod_unique (a * 65536 + b * 256 + c) d 256); lia.
Qed.
Lemma unpack w : w < two32 -> exists a b c d, octet a /\ octet b /\ octet c /\ octet d /\ w = pack a b c d.
Proof.
  intros L. exists (w / 16777216), (w / 65536 mod 256), (w / 256 mod 256), (w mod 256).
  unfold octet, pack, two32 in *.
  assert (E1 := N.div_mod w 256 ltac:(discriminate)).
  assert (E2 := N.div_mod (w / 256) 256 ltac:(discriminate)).
  assert (E3 := N.div_mod (w / 256 / 256) 256 ltac:(discriminate)).
  rewrite !N.div_div in * by discriminate.
  change (256 * 256) with 65536 in *. change (65536 * 256) with 16777216 in *.
  assert (M1 := N.mod_lt w 256 ltac:(discriminate)).
  assert (M2 := N.mod_lt (w / 256) 256 ltac:(discriminate)).
  assert (M3 := N.mod_lt (w / 65536) 256 ltac:(discriminate)).
  repeat split; try assumption; try lia.
Qed.
Lemma pack_shifts a b c d : octet a -> octet b -> octet c -> octet d ->
  u32 (N.shiftl a 24 + N.shiftl b 16 + N.shiftl c 8 + d) = pack a b c d.
Proof.
  intros A B C D. rewrite !N.shiftl_mul_pow2. rewrite u32_small; [reflexivity|].
  apply (pack_lt a b c d); auto.
Qed.

(** The transposition. *)
Lemma transpose_eq w0 w1 w2 w3 :
  aes_transpose [w0; w1; w2; w3] =
  map (fun n => pack (byte w0 n) (byte w1 n) (byte w2 n) (byte w3 n)) [3; 2; 1; 0].
Proof.
  assert (E : forall n, pack (byte w0 n) (byte w1 n) (byte w2 n) (byte w3 n) =
    u32 (u32 (u32 (u32 (0 + N.shiftl (byte w0 n) 24) + N.shiftl (byte w1 n) 16) + N.shiftl (byte w2 n) 8) + N.shiftl (byte w3 n) 0)).
  { intros n. pose proof (byte_octet w0 n). pose proof (byte_octet w1 n).
    pose proof (byte_octet w2 n). pose proof (byte_octet w3 n).
    unfold octet, pack in *. rewrite !N.shiftl_mul_pow2.
    change (2 ^ 24) with 16777216. change (2 ^ 16) with 65536. change (2 ^ 8) with 256. change (2 ^ 0) with 1.
    rewrite (u32_small (0 + _)) by (unfold two32; lia).
    rewrite (u32_small (0 + _ + _)) by (unfold two32; lia).
    rewrite (u32_small (0 + _ + _ + _)) by (unfold two32; lia).
    rewrite u32_small by (unfold two32; lia). lia. }
  cbn [map]. rewrite !E. reflexivity.
Qed.
Definition words4 (d : list N) : Prop :=
  exists a b c e, d = [a; b; c; e] /\ a < two32 /\ b < two32 /\ c < two32 /\ e < two32.
Lemma transpose_twice d : words4 d -> words4 (aes_transpose d) /\ aes_transpose (aes_transpose d) = d.
Proof.
  intros [w0 [w1 [w2 [w3 [-> [L0 [L1 [L2 L3]]]]]]]].
  destruct (unpack w0 L0) as [a0 [b0 [c0 [d0 [A0 [B0 [C0 [D0 ->]]]]]]]].
  destruct (unpack w1 L1) as [a1 [b1 [c1 [d1 [A1 [B1 [C1 [D1 ->]]]]]]]].
  destruct (unpack w2 L2) as [a2 [b2 [c2 [d2 [A2 [B2 [C2 [D2 ->]]]]]]]].
  destruct (unpack w3 L3) as [a3 [b3 [c3 [d3 [A3 [B3 [C3 [D3 ->]]]]]]]].
  rewrite transpose_eq. cbn [map].
  destruct (pack_bytes a0 b0 c0 d0) as [-> [-> [-> ->]]]; auto.
  destruct (pack_bytes a1 b1 c1 d1) as [-> [-> [-> ->]]]; auto.
  destruct (pack_bytes a2 b2 c2 d2) as [-> [-> [-> ->]]]; auto.
  destruct (pack_bytes a3 b3 c3 d3) as [-> [-> [-> ->]]]; auto.
  split.
  - do 4 eexists. split; [reflexivity|]. repeat split; apply pack_lt; auto.
  - rewrite transpose_eq. cbn [map].
    destruct (pack_bytes a0 a1 a2 a3) as [-> [-> [-> ->]]]; auto.
    destruct (pack_bytes b0 b1 b2 b3) as [-> [-> [-> ->]]]; auto.
    destruct (pack_bytes c0 c1 c2 c3) as [-> [-> [-> ->]]]; auto.
    destruct (pack_bytes d0 d1 d2 d3) as [-> [-> [-> ->]]]; auto.
Qed.
Lemma shiftrow_undo d : words4 d -> words4 (aes_shiftrow d) /\ aes_invshiftrow (aes_shiftrow d) = d.
Proof.
  intros W. destruct (transpose_twice d W) as [T1 T2]. unfold aes_invshiftrow, aes_shiftrow.
  destruct T1 as [w0 [w1 [w2 [w3 [E [L0 [L1 [L2 L3]]]]]]]]. rewrite E in *.
  set (R := map (fun x => rol32 (tab [w0; w1; w2; w3] x) (8 * x)) [0; 1; 2; 3]).
  assert (WR : words4 R) by (do 4 eexists; split; [reflexivity|]; repeat split; apply rol32_lt).
  destruct (transpose_twice R WR) as [S1 S2]. split; [exact S1|]. rewrite S2.
  replace (map (fun x => ror32 (tab R x) (8 * x)) [0; 1; 2; 3]) with [w0; w1; w2; w3]; [exact T2|].
  cbn [map]. unfold R, tab. cbn [map].
  change (N.to_nat 0) with 0%nat. change (N.to_nat 1) with 1%nat.
  change (N.to_nat 2) with 2%nat. change (N.to_nat 3) with 3%nat.
  cbn [idx nth]. now rewrite !ror_rol by (auto; lia).
Qed.

(** The substitution. *)
Lemma sbox_check : forallb (fun x => (tab AES_Subbytes x <? 256) &&
    (tab AES_Inv_Subbytes (tab AES_Subbytes x) =? x)) (map N.of_nat (seq 0 256)) = true.
Proof. vm_compute. reflexivity. Qed.
Lemma sbox_undo x : octet x -> octet (tab AES_Subbytes x) /\ tab AES_Inv_Subbytes (tab AES_Subbytes x) = x.
Proof.
  intros L. pose proof (all256 _ sbox_check x L) as H. apply andb_true_iff in H. destruct H as [A B].
  apply N.ltb_lt in A. apply N.eqb_eq in B. auto.
Qed.
Lemma sub_pack t a b c d : octet a -> octet b -> octet c -> octet d ->
  octet (tab t a) -> octet (tab t b) -> octet (tab t c) -> octet (tab t d) ->
  aes_sub t (pack a b c d) = pack (tab t a) (tab t b) (tab t c) (tab t d).
Proof.
  intros A B C D TA TB TC TD. unfold aes_sub. rewrite shr24 by auto.
  destruct (pack_bytes a b c d) as [_ [-> [-> ->]]]; auto. now apply pack_shifts.
Qed.
Lemma sub_undo w : w < two32 ->
  aes_sub AES_Subbytes w < two32 /\ aes_sub AES_Inv_Subbytes (aes_sub AES_Subbytes w) = w.
Proof.
  intros L. split; [apply u32_lt|]. destruct (unpack w L) as [a [b [c [d [A [B [C [D ->]]]]]]]].
  destruct (sbox_undo a A) as [A1 A2]. destruct (sbox_undo b B) as [B1 B2].
  destruct (sbox_undo c C) as [C1 C2]. destruct (sbox_undo d D) as [D1 D2].
  rewrite sub_pack by auto. rewrite sub_pack; rewrite ?A2, ?B2, ?C2, ?D2; auto.
Qed.

(** Multiplication by a fixed octet is linear. *)
Fixpoint lin (cs : list N) (i x : N) : N :=
  match cs with
  | [] => 0
  | c :: r => N.lxor (if N.testbit x i then c else 0) (lin r (i + 1) x)
  end.
Lemma lin_add cs : forall i x y, lin cs i (N.lxor x y) = N.lxor (lin cs i x) (lin cs i y).
Proof.
  induction cs as [|c r IH]; intros i x y; cbn [lin]; [reflexivity|]. rewrite IH, N.lxor_spec.
  apply N.bits_inj. intro j. rewrite !N.lxor_spec.
  destruct (N.testbit x i), (N.testbit y i); cbn [xorb]; rewrite ?N.bits_0;
    destruct (N.testbit c j), (N.testbit (lin r (i + 1) x) j), (N.testbit (lin r (i + 1) y) j); reflexivity.
Qed.
Definition coeffs (k : N) : list N := map (fun i => aes_gf k (2 ^ N.of_nat i)) (seq 0 8).
Lemma gf_check : forallb (fun k => forallb (fun x => (aes_gf k x =? lin (coeffs k) 0 x) && (aes_gf k x <? 256))
    (map N.of_nat (seq 0 256))) [2; 3; 9; 11; 13; 14] = true.
Proof. vm_compute. reflexivity. Qed.
Definition factor (k : N) : Prop := In k [2; 3; 9; 11; 13; 14].
Lemma gf_lin k x : factor k -> octet x -> aes_gf k x = lin (coeffs k) 0 x /\ octet (aes_gf k x).
Proof.
  intros K L. pose proof gf_check as H. rewrite forallb_forall in H. specialize (H k K).
  pose proof (all256 _ H x L) as G. apply andb_true_iff in G. destruct G as [A B].
  apply N.eqb_eq in A. apply N.ltb_lt in B. auto.
Qed.
Lemma xor_octet a b : octet a -> octet b -> octet (N.lxor a b).
Proof.
  intros A B. unfold octet in *. destruct (N.eq_dec (N.lxor a b) 0) as [->|Z]; [lia|].
  change 256 with (2 ^ 8). apply N.log2_lt_pow2; [lia|].
  eapply N.le_lt_trans; [apply N.log2_lxor|].
  assert (G : forall v, v < 256 -> N.log2 v < 8).
  { intros v V. destruct (N.eq_dec v 0) as [->|]; [reflexivity|]. apply N.log2_lt_pow2; [lia|exact V]. }
  apply N.max_lub_lt; auto.
Qed.
Lemma gf_add k x y : factor k -> octet x -> octet y ->
  aes_gf k (N.lxor x y) = N.lxor (aes_gf k x) (aes_gf k y).
Proof.
  intros K X Y. destruct (gf_lin k x K X) as [-> _]. destruct (gf_lin k y K Y) as [-> _].
  destruct (gf_lin k _ K (xor_octet x y X Y)) as [-> _]. apply lin_add.
Qed.
Lemma gf_octet k x : factor k -> octet x -> octet (aes_gf k x).
Proof. intros K X. now apply gf_lin. Qed.

Lemma all256_eq (f g : N -> N) : map f (map N.of_nat (seq 0 256)) = map g (map N.of_nat (seq 0 256)) ->
  forall x, octet x -> f x = g x.
Proof.
  intros H x L. unfold octet in L. rewrite !map_map in H.
  pose proof (f_equal (fun l => nth (N.to_nat x) l (f 0)) H) as E. cbn beta in E.
  rewrite (map_nth (fun i => f (N.of_nat i)) (seq 0 256) O) in E.
  rewrite (nth_indep _ (f 0) (g 0)) in E by (rewrite map_length, seq_length; lia).
  rewrite (map_nth (fun i => g (N.of_nat i)) (seq 0 256) O) in E.
  rewrite seq_nth in E by lia. cbn [Nat.add] in E. now rewrite N2Nat.id in E.
Qed.
Lemma mix_0 x : octet x ->
  N.lxor (N.lxor (aes_gf 14 (aes_gf 2 x)) (aes_gf 11 x)) (N.lxor (aes_gf 13 x) (aes_gf 9 (aes_gf 3 x))) = x.
Proof.
  revert x.
  apply (all256_eq (fun x => N.lxor (N.lxor (aes_gf 14 (aes_gf 2 x)) (aes_gf 11 x)) (N.lxor (aes_gf 13 x) (aes_gf 9 (aes_gf 3 x)))) (fun x => x)).
  vm_compute. reflexivity.
Qed.
Lemma mix_1 x : octet x ->
  N.lxor (N.lxor (aes_gf 14 (aes_gf 3 x)) (aes_gf 11 (aes_gf 2 x))) (N.lxor (aes_gf 13 x) (aes_gf 9 x)) = 0.
Proof.
  revert x.
  apply (all256_eq (fun x => N.lxor (N.lxor (aes_gf 14 (aes_gf 3 x)) (aes_gf 11 (aes_gf 2 x))) (N.lxor (aes_gf 13 x) (aes_gf 9 x))) (fun x => 0)).
  vm_compute. reflexivity.
Qed.
Lemma mix_2 x : octet x ->
  N.lxor (N.lxor (aes_gf 14 x) (aes_gf 11 (aes_gf 3 x))) (N.lxor (aes_gf 13 (aes_gf 2 x)) (aes_gf 9 x)) = 0.
Proof.
  revert x.
  apply (all256_eq (fun x => N.lxor (N.lxor (aes_gf 14 x) (aes_gf 11 (aes_gf 3 x))) (N.lxor (aes_gf 13 (aes_gf 2 x)) (aes_gf 9 x))) (fun x => 0)).
  vm_compute. reflexivity.
Qed.
Lemma mix_3 x : octet x ->
  N.lxor (N.lxor (aes_gf 14 x) (aes_gf 11 x)) (N.lxor (aes_gf 13 (aes_gf 3 x)) (aes_gf 9 (aes_gf 2 x))) = 0.
Proof.
  revert x.
  apply (all256_eq (fun x => N.lxor (N.lxor (aes_gf 14 x) (aes_gf 11 x)) (N.lxor (aes_gf 13 (aes_gf 3 x)) (aes_gf 9 (aes_gf 2 x)))) (fun x => 0)).
  vm_compute. reflexivity.
Qed.

(** One octet of mixcolumns. *)
Local Notation mixed a b c d := (N.lxor (N.lxor (N.lxor (aes_gf 2 a) (aes_gf 3 b)) c) d).
Local Notation unmixed a b c d :=
  (N.lxor (N.lxor (N.lxor (aes_gf 14 a) (aes_gf 9 d)) (aes_gf 13 c)) (aes_gf 11 b)).
Definition s4 (a b c d : N) : N := N.lxor (N.lxor (N.lxor a b) c) d.
Lemma mixed_octet a b c d : octet a -> octet b -> octet c -> octet d -> octet (mixed a b c d).
Proof.
  intros. repeat apply xor_octet; auto; apply gf_octet; auto; cbv; auto 10.
Qed.
Lemma unmixed_octet a b c d : octet a -> octet b -> octet c -> octet d -> octet (unmixed a b c d).
Proof.
  intros. repeat apply xor_octet; auto; apply gf_octet; auto; cbv; auto 10.
Qed.
Lemma s4_add a b c d a' b' c' d' : N.lxor (s4 a b c d) (s4 a' b' c' d') =
  s4 (N.lxor a a') (N.lxor b b') (N.lxor c c') (N.lxor d d').
Proof.
  assert (H : forall p q r t, N.lxor (N.lxor p q) (N.lxor r t) = N.lxor (N.lxor p r) (N.lxor q t)).
  { intros. apply N.bits_inj. intro i. rewrite !N.lxor_spec.
    now destruct (N.testbit p i), (N.testbit q i), (N.testbit r i), (N.testbit t i). }
  unfold s4. now rewrite H, (H _ c), (H a b).
Qed.
Lemma s4_turn a b c d : s4 a b c d = s4 d a b c.
Proof.
  unfold s4. apply N.bits_inj. intro i. rewrite !N.lxor_spec.
  now destruct (N.testbit a i), (N.testbit b i), (N.testbit c i), (N.testbit d i).
Qed.
Lemma regroup x a1 b1 c1 d1 b2 c2 d2 a2 c3 d3 a3 b3 d4 a4 b4 c4 :
  N.lxor (N.lxor a1 a2) (N.lxor a3 a4) = x -> N.lxor (N.lxor b1 b2) (N.lxor b3 b4) = 0 ->
  N.lxor (N.lxor c1 c2) (N.lxor c3 c4) = 0 -> N.lxor (N.lxor d1 d2) (N.lxor d3 d4) = 0 ->
  N.lxor (N.lxor (N.lxor (N.lxor (N.lxor (N.lxor a1 b1) c1) d1) (N.lxor (N.lxor (N.lxor d4 a4) b4) c4))
    (N.lxor (N.lxor (N.lxor c3 d3) a3) b3)) (N.lxor (N.lxor (N.lxor b2 c2) d2) a2) = x.
Proof.
  intros HA HB HC HD.
  change (N.lxor (N.lxor (N.lxor (s4 a1 b1 c1 d1) (s4 d4 a4 b4 c4)) (s4 c3 d3 a3 b3)) (s4 b2 c2 d2 a2) = x).
  rewrite <- (s4_turn a4 b4 c4 d4), <- (s4_turn d3 a3 b3 c3), <- (s4_turn a3 b3 c3 d3), (s4_turn b2 c2 d2 a2).
  rewrite !s4_add.
  assert (X : forall p q r t, N.lxor (N.lxor (N.lxor p t) r) q = N.lxor (N.lxor p q) (N.lxor r t)).
  { intros. apply N.bits_inj. intro i. rewrite !N.lxor_spec.
    now destruct (N.testbit p i), (N.testbit q i), (N.testbit r i), (N.testbit t i). }
  rewrite !X, HA, HB, HC, HD. unfold s4. now rewrite !N.lxor_0_r.
Qed.
Lemma mixed_undo a b c d : octet a -> octet b -> octet c -> octet d ->
  unmixed (mixed a b c d) (mixed b c d a) (mixed c d a b) (mixed d a b c) = a.
Proof.
  intros A B C D.
  assert (F2 : factor 2) by (cbv; auto 10). assert (F3 : factor 3) by (cbv; auto 10).
  assert (F9 : factor 9) by (cbv; auto 10). assert (F11 : factor 11) by (cbv; auto 10).
  assert (F13 : factor 13) by (cbv; auto 10). assert (F14 : factor 14) by (cbv; auto 10).
  repeat rewrite gf_add by (repeat apply xor_octet; auto using gf_octet).
  pose proof (mix_0 a A) as HA. pose proof (mix_1 b B) as HB.
  pose proof (mix_2 c C) as HC. pose proof (mix_3 d D) as HD.
  clear - HA HB HC HD. revert HA HB HC HD.
  repeat match goal with |- context [aes_gf ?k ?x] =>
    lazymatch k with 14 => idtac | 13 => idtac | 11 => idtac | 9 => idtac end;
    generalize (aes_gf k x); intro end.
  apply regroup.
Qed.

Lemma mix_undo w : w < two32 -> aes_mix w < two32 /\ aes_invmix (aes_mix w) = w.
Proof.
  intros L. split; [apply u32_lt|]. destruct (unpack w L) as [a [b [c [d [A [B [C [D ->]]]]]]]].
  assert (E : aes_mix (pack a b c d) =
    pack (mixed a b c d) (mixed b c d a) (mixed c d a b) (mixed d a b c)).
  { unfold aes_mix. destruct (pack_bytes a b c d) as [-> [-> [-> ->]]]; auto. cbn zeta.
    apply pack_shifts; now apply mixed_octet. }
  rewrite E. unfold aes_invmix.
  destruct (pack_bytes (mixed a b c d) (mixed b c d a) (mixed c d a b) (mixed d a b c)) as [-> [-> [-> ->]]];
    auto using mixed_octet. cbn zeta.
  transitivity (u32 (N.shiftl (unmixed (mixed a b c d) (mixed b c d a) (mixed c d a b) (mixed d a b c)) 24 +
    N.shiftl (unmixed (mixed b c d a) (mixed c d a b) (mixed d a b c) (mixed a b c d)) 16 +
    N.shiftl (unmixed (mixed c d a b) (mixed d a b c) (mixed a b c d) (mixed b c d a)) 8 +
    unmixed (mixed d a b c) (mixed a b c d) (mixed b c d a) (mixed c d a b))); [reflexivity|].
  rewrite !mixed_undo by auto. now apply pack_shifts.
Qed.

Lemma words4_map f g d : (forall w, w < two32 -> f w < two32 /\ g (f w) = w) -> words4 d ->
  words4 (map f d) /\ map g (map f d) = d.
Proof.
  intros H [a [b [c [e [-> [A [B [C E]]]]]]]]. cbn [map].
  destruct (H a A) as [A1 A2], (H b B) as [B1 B2], (H c C) as [C1 C2], (H e E) as [E1 E2]. split.
  - do 4 eexists. split; [reflexivity|]. auto.
  - now rewrite A2, B2, C2, E2.
Qed.
Lemma add_undo k d : words4 d -> words4 (aes_add k d) /\ aes_add k (aes_add k d) = d.
Proof.
  intros [a [b [c [e [-> [A [B [C E]]]]]]]]. unfold aes_add. cbn [map seq idx nth]. split.
  - do 4 eexists. split; [reflexivity|]. repeat split; apply u32_lt.
  - pose proof (x32_twice a (idx k 0) A) as XA. pose proof (x32_twice b (idx k 1) B) as XB.
    pose proof (x32_twice c (idx k 2) C) as XC. pose proof (x32_twice e (idx k 3) E) as XE.
    unfold x32, idx in *. now rewrite XA, XB, XC, XE.
Qed.

Definition subshift (d : list N) : list N := aes_shiftrow (map (aes_sub AES_Subbytes) d).
Lemma subshift_undo d : words4 d ->
  words4 (subshift d) /\ map (aes_sub AES_Inv_Subbytes) (aes_invshiftrow (subshift d)) = d.
Proof.
  intros W. destruct (words4_map _ _ d sub_undo W) as [W1 U1].
  destruct (shiftrow_undo _ W1) as [W2 U2]. split; [exact W2|]. unfold subshift. now rewrite U2.
Qed.
Lemma round_undo d k : words4 d ->
  words4 (aes_round d k) /\ aes_unround (subshift (aes_round d k)) k = subshift d.
Proof.
  intros W. destruct (subshift_undo d W) as [W1 U1].
  destruct (words4_map _ _ _ mix_undo W1) as [W2 U2].
  destruct (add_undo k _ W2) as [W3 U3].
  unfold aes_round. fold (subshift d). split; [exact W3|].
  destruct (subshift_undo _ W3) as [W4 U4]. unfold aes_unround. rewrite U4, U3. exact U2.
Qed.
Lemma rounds_undo ks : forall d, words4 d ->
  words4 (fold_left aes_round ks d) /\
  fold_left aes_unround (rev ks) (subshift (fold_left aes_round ks d)) = subshift d.
Proof.
  induction ks as [|k r IH]; intros d W; cbn [fold_left rev]; [auto|].
  destruct (round_undo d k W) as [W1 U1]. destruct (IH _ W1) as [W2 U2]. split; [exact W2|].
  rewrite fold_left_app, U2. cbn [fold_left]. exact U1.
Qed.

Lemma aes_in_words d : words4 (aes_in d).
Proof. do 4 eexists. split; [reflexivity|]. repeat split; apply word_lt. Qed.
Lemma aes_in_out d : octets d -> length d = 16%nat -> flat_map (be 4) (aes_in d) = d.
Proof.
  intros Od L. unfold aes_in. cbn [map flat_map].
  assert (S : forall p, p <= 12 -> be 4 (word (slice d p 4)) = slice d p 4).
  { intros p H. apply be_word; [now apply slice_octets|]. apply slice_length. lia. }
  rewrite !S by lia.
  do 16 (destruct d as [|? d]; [discriminate|]). destruct d; [reflexivity|discriminate].
Qed.
Lemma aes_out_in d : words4 d -> aes_in (flat_map (be 4) d) = d.
Proof.
  intros [a [b [c [e [-> [A [B [C E]]]]]]]]. cbn [flat_map]. rewrite app_nil_r. unfold aes_in. cbn [map].
  set (s := be 4 a ++ be 4 b ++ be 4 c ++ be 4 e).
  change (slice s (4 * 0) 4) with (be 4 a). change (slice s (4 * 1) 4) with (be 4 b).
  change (slice s (4 * 2) 4) with (be 4 c). change (slice s (4 * 3) 4) with (be 4 e).
  rewrite !word_be, !u32_small by auto. reflexivity.
Qed.
Lemma words4_out d : words4 d -> octets (flat_map (be 4) d) /\ length (flat_map (be 4) d) = 16%nat.
Proof.
  intros [a [b [c [e [-> _]]]]]. cbn [flat_map]. split; [|reflexivity].
  rewrite !octets_app. repeat split; try apply be_octets. constructor.
Qed.

Lemma rows_middle (k0 kl : list N) mid :
  map (row (k0 :: mid ++ [kl])) (seq 1 (length mid)) = mid.
Proof.
  rewrite <- seq_shift, map_map. cbn [row nth]. unfold row. cbn [nth].
  induction mid as [|m mid IH] using rev_ind; [reflexivity|].
  rewrite app_length. cbn [length]. rewrite Nat.add_1_r, seq_S, map_app. cbn [map Nat.add].
  f_equal.
  - etransitivity; [|exact IH]. apply map_ext_in. intros i H. apply in_seq in H.
    rewrite !app_nth1; rewrite ?app_length; cbn [length]; try lia. reflexivity.
  - rewrite <- app_assoc. rewrite app_nth2 by lia. now rewrite Nat.sub_diag.
Qed.
Lemma row_last (k0 kl : list N) mid : row (k0 :: mid ++ [kl]) (S (length mid)) = kl.
Proof. unfold row. cbn [nth]. rewrite app_nth2 by lia. now rewrite Nat.sub_diag. Qed.

Lemma aes_inverse keys d : (2 <= length keys)%nat -> octets d -> length d = 16%nat ->
  exists e, aes_encrypt keys d = Ok e /\ octets e /\ length e = 16%nat /\ aes_decrypt keys e = Ok d.
Proof.
  intros LK Od L.
  assert (K : exists k0 mid kl, keys = k0 :: mid ++ [kl]).
  { destruct keys as [|k0 r]; [cbn in LK; lia|]. exists k0.
    destruct (exists_last (l := r)) as [mid [kl ->]]; [destruct r; [cbn in LK; lia|discriminate]|]. eauto. }
  destruct K as [k0 [mid [kl ->]]]. clear LK.
  assert (LN : pred (length (k0 :: mid ++ [kl])) = S (length mid)).
  { cbn [length pred]. rewrite app_length. cbn [length]. lia. }
  assert (RV : rev (k0 :: mid ++ [kl]) = kl :: rev mid ++ [k0]).
  { cbn [rev]. rewrite rev_app_distr. reflexivity. }
  unfold aes_encrypt, aes_decrypt. rewrite LN, RV. cbn [Nat.sub]. rewrite !Nat.sub_0_r, rows_middle, row_last.
  rewrite <- (rev_length mid), rows_middle, row_last. cbn [row nth]. 
  destruct (add_undo k0 _ (aes_in_words d)) as [W0 U0].
  destruct (rounds_undo mid _ W0) as [W1 U1].
  destruct (subshift_undo _ W1) as [W2 U2].
  destruct (add_undo kl _ W2) as [W3 U3].
  destruct (words4_out _ W3) as [O3 L3].
  eexists. split; [rewrite words_out_be; reflexivity|]. split; [exact O3|]. split; [exact L3|].
  rewrite aes_out_in by exact W3. fold subshift. unfold row. cbn [nth]. 
  unfold subshift in *. rewrite U3, U1.
  destruct (subshift_undo _ W0) as [W4 U4]. unfold subshift in U4. rewrite U4, U0.
  rewrite words_out_be. now rewrite aes_in_out.
Qed.

Lemma aes_ok KEY : len KEY = 16 \/ len KEY = 24 \/ len KEY = 32 ->
  exists c, AES KEY = Ok c /\ c_block c = 16 /\ inverts c 16 /\ whole_blocks c 16.
Proof.
  intros L. unfold AES.
  replace ((u8 (len KEY) =? 16) || (u8 (len KEY) =? 24) || (u8 (len KEY) =? 32)) with true
    by (destruct L as [->|[->| ->]]; reflexivity).
  eexists. split; [reflexivity|]. split; [reflexivity|]. split; [|apply (whole_on_block 16)].
  intros b Ob Lb.
  assert (LK : (2 <= length (aes_keys KEY))%nat).
  { unfold aes_keys. rewrite map_length, seq_length. destruct L as [->|[->| ->]]; cbv; lia. }
  destruct (aes_inverse _ b LK Ob Lb) as [e [E [Oe [Le D]]]].
  exists e. cbn [c_encrypt c_decrypt]. rewrite !on_block_len by auto. auto.
Qed.
