(** The AES object enciphers as FIPS 197 says. *)
From Verif Require Export Spec.Aes Proofs.AesP.
From Verif Require Proofs.HashStdP.
Local Open Scope N_scope.

(** Words and their four octets. *)
Lemma octets4 a b c d : octet a -> octet b -> octet c -> octet d -> octets [a; b; c; d].
Proof. intros. repeat (apply Forall_cons; [assumption|]). apply Forall_nil. Qed.
Lemma be_pack a b c d : octet a -> octet b -> octet c -> octet d -> be 4 (pack a b c d) = [a; b; c; d].
Proof.
  intros A B C D. apply be_val_inj; [apply be_octets|now apply octets4|unfold len; now rewrite be_length|].
  rewrite be_val_be. change (256 ^ N.of_nat 4) with two32. rewrite N.mod_small by (now apply pack_lt).
  unfold pack, be_val. cbn. lia.
Qed.
Lemma lxor_split n a b a' b' : b < 2 ^ n -> b' < 2 ^ n -> N.lxor (a * 2 ^ n + b) (a' * 2 ^ n + b') = N.lxor a a' * 2 ^ n + N.lxor b b'.
Proof.
  intros B B'. assert (Z : 2 ^ n <> 0) by (apply N.pow_nonzero; discriminate).
  assert (H : forall x y, y < 2 ^ n -> (x * 2 ^ n + y) / 2 ^ n = x /\ (x * 2 ^ n + y) mod 2 ^ n = y) by (intros; now apply div_mod_unique).
  rewrite (N.div_mod (N.lxor (a * 2 ^ n + b) (a' * 2 ^ n + b')) (2 ^ n) Z). rewrite <- N.shiftr_div_pow2, <- N.land_ones, N.shiftr_lxor.
  rewrite !N.shiftr_div_pow2, (proj1 (H a b B)), (proj1 (H a' b' B')), N.mul_comm. f_equal.
  rewrite <- (proj2 (H a b B)) at 2. rewrite <- (proj2 (H a' b' B')) at 2. rewrite <- !N.land_ones.
  apply N.bits_inj. intros i. rewrite !N.lxor_spec, !N.land_spec, N.lxor_spec. now destruct (N.testbit (N.ones n) i), (N.testbit _ i), (N.testbit _ i).
Qed.
Lemma pack_lxor a b c d a' b' c' d' : octet a -> octet b -> octet c -> octet d -> octet a' -> octet b' -> octet c' -> octet d' ->
  N.lxor (pack a b c d) (pack a' b' c' d') = pack (N.lxor a a') (N.lxor b b') (N.lxor c c') (N.lxor d d').
Proof.
  intros A B C D A' B' C' D'.
  assert (E : forall a b c d, pack a b c d = ((a * 2 ^ 8 + b) * 2 ^ 8 + c) * 2 ^ 8 + d) by (intros; unfold pack; change (2 ^ 8) with 256; lia).
  rewrite !E, !lxor_split by assumption. reflexivity.
Qed.
Lemma xor_32 x y : x < two32 -> y < two32 -> N.lxor x y < two32 /\ be 4 (N.lxor x y) = xors (be 4 x) (be 4 y).
Proof.
  intros X Y. destruct (unpack x X) as (a & b & c & d & A & B & C & D & ->). destruct (unpack y Y) as (a' & b' & c' & d' & A' & B' & C' & D' & ->).
  rewrite pack_lxor by assumption. pose proof (xor_octet _ _ A A'). pose proof (xor_octet _ _ B B'). pose proof (xor_octet _ _ C C'). pose proof (xor_octet _ _ D D').
  split; [now apply pack_lt|]. now rewrite !be_pack by assumption.
Qed.

(** The S-box table. *)
Lemma sbox_std x : octet x -> tab AES_Subbytes x = sbox x.
Proof.
  intros X. symmetry. apply N.eqb_eq. apply (all256 (fun x => sbox x =? tab AES_Subbytes x)); [|exact X]. vm_compute. reflexivity.
Qed.
Lemma sbox_octet x : octet x -> octet (sbox x).
Proof. intros X. rewrite <- sbox_std by exact X. now apply sbox_undo. Qed.
Lemma rol32_0 x : x < two32 -> rol32 x 0 = x.
Proof.
  intros X. rewrite HashStdP.rol32_std by (exact X || lia). unfold HashStd.rotl. change (2 ^ 0) with 1. change (2 ^ (32 - 0)) with two32.
  rewrite N.mul_1_r, N.mod_small by exact X. now rewrite N.div_small, N.add_0_r.
Qed.
Lemma rol32_8 a b c d : octet a -> octet b -> octet c -> octet d -> rol32 (pack a b c d) 8 = pack b c d a.
Proof.
  intros A B C D. rewrite HashStdP.rol32_std by (lia || now apply pack_lt). unfold HashStd.rotl.
  unfold octet, pack in *. change (2 ^ 8) with 256. change (2 ^ (32 - 8)) with 16777216. change (2 ^ 32) with 4294967296.
  destruct (div_mod_unique a (b * 65536 + c * 256 + d) 16777216 (a * 16777216 + b * 65536 + c * 256 + d)) as [-> _]; [lia..|].
  destruct (div_mod_unique a (b * 16777216 + c * 65536 + d * 256) 4294967296 ((a * 16777216 + b * 65536 + c * 256 + d) * 256)) as [_ ->]; lia.
Qed.
Lemma rol32_16 a b c d : octet a -> octet b -> octet c -> octet d -> rol32 (pack a b c d) 16 = pack c d a b.
Proof.
  intros A B C D. rewrite HashStdP.rol32_std by (lia || now apply pack_lt). unfold HashStd.rotl.
  unfold octet, pack in *. change (2 ^ 16) with 65536. change (2 ^ (32 - 16)) with 65536. change (2 ^ 32) with 4294967296.
  destruct (div_mod_unique (a * 256 + b) (c * 256 + d) 65536 (a * 16777216 + b * 65536 + c * 256 + d)) as [-> _]; [lia..|].
  destruct (div_mod_unique (a * 256 + b) (c * 16777216 + d * 65536) 4294967296 ((a * 16777216 + b * 65536 + c * 256 + d) * 65536)) as [_ ->]; lia.
Qed.
Lemma rol32_24 a b c d : octet a -> octet b -> octet c -> octet d -> rol32 (pack a b c d) 24 = pack d a b c.
Proof.
  intros A B C D. rewrite HashStdP.rol32_std by (lia || now apply pack_lt). unfold HashStd.rotl.
  unfold octet, pack in *. change (2 ^ 24) with 16777216. change (2 ^ (32 - 24)) with 256. change (2 ^ 32) with 4294967296.
  destruct (div_mod_unique (a * 65536 + b * 256 + c) d 256 (a * 16777216 + b * 65536 + c * 256 + d)) as [-> _]; [lia..|].
  destruct (div_mod_unique (a * 65536 + b * 256 + c) (d * 16777216) 4294967296 ((a * 16777216 + b * 65536 + c * 256 + d) * 16777216)) as [_ ->]; lia.
Qed.

(** The state: four words, sixteen octets. *)
Definition state (d : list N) (s : bytes) : Prop := words4 d /\ s = flat_map (be 4) d.
Lemma state_16 d s : state d s -> exists a0 b0 c0 d0 a1 b1 c1 d1 a2 b2 c2 d2 a3 b3 c3 d3,
  (octet a0 /\ octet b0 /\ octet c0 /\ octet d0) /\ (octet a1 /\ octet b1 /\ octet c1 /\ octet d1) /\
  (octet a2 /\ octet b2 /\ octet c2 /\ octet d2) /\ (octet a3 /\ octet b3 /\ octet c3 /\ octet d3) /\
  d = [pack a0 b0 c0 d0; pack a1 b1 c1 d1; pack a2 b2 c2 d2; pack a3 b3 c3 d3] /\
  s = [a0; b0; c0; d0; a1; b1; c1; d1; a2; b2; c2; d2; a3; b3; c3; d3].
Proof.
  intros [(w0 & w1 & w2 & w3 & -> & L0 & L1 & L2 & L3) ->].
  destruct (unpack w0 L0) as (a0 & b0 & c0 & d0 & A0 & B0 & C0 & D0 & ->).
  destruct (unpack w1 L1) as (a1 & b1 & c1 & d1 & A1 & B1 & C1 & D1 & ->).
  destruct (unpack w2 L2) as (a2 & b2 & c2 & d2 & A2 & B2 & C2 & D2 & ->).
  destruct (unpack w3 L3) as (a3 & b3 & c3 & d3 & A3 & B3 & C3 & D3 & ->).
  exists a0, b0, c0, d0, a1, b1, c1, d1, a2, b2, c2, d2, a3, b3, c3, d3. cbn [flat_map]. rewrite !be_pack by assumption. cbn [app].
  repeat (split; [repeat (split; [assumption|]); assumption|]). split; reflexivity.
Qed.
Lemma state_of a0 b0 c0 d0 a1 b1 c1 d1 a2 b2 c2 d2 a3 b3 c3 d3 :
  (octet a0 /\ octet b0 /\ octet c0 /\ octet d0) -> (octet a1 /\ octet b1 /\ octet c1 /\ octet d1) ->
  (octet a2 /\ octet b2 /\ octet c2 /\ octet d2) -> (octet a3 /\ octet b3 /\ octet c3 /\ octet d3) ->
  state [pack a0 b0 c0 d0; pack a1 b1 c1 d1; pack a2 b2 c2 d2; pack a3 b3 c3 d3] [a0; b0; c0; d0; a1; b1; c1; d1; a2; b2; c2; d2; a3; b3; c3; d3].
Proof.
  intros (A0 & B0 & C0 & D0) (A1 & B1 & C1 & D1) (A2 & B2 & C2 & D2) (A3 & B3 & C3 & D3). split.
  - do 4 eexists. split; [reflexivity|]. repeat split; now apply pack_lt.
  - cbn [flat_map]. rewrite !be_pack by assumption. reflexivity.
Qed.
Ltac open H :=
  let E1 := fresh in let E2 := fresh in
  apply state_16 in H as (?a0 & ?b0 & ?c0 & ?d0 & ?a1 & ?b1 & ?c1 & ?d1 & ?a2 & ?b2 & ?c2 & ?d2 & ?a3 & ?b3 & ?c3 & ?d3 &
    (?A0 & ?B0 & ?C0 & ?D0) & (?A1 & ?B1 & ?C1 & ?D1) & (?A2 & ?B2 & ?C2 & ?D2) & (?A3 & ?B3 & ?C3 & ?D3) & -> & ->).
Lemma sub_state d s : state d s -> state (map (aes_sub AES_Subbytes) d) (sub_bytes s).
Proof.
  intros H. open H. unfold sub_bytes. cbn [map].
  rewrite !sub_pack by (try assumption; rewrite sbox_std by assumption; now apply sbox_octet). rewrite !sbox_std by assumption.
  apply state_of; repeat split; now apply sbox_octet.
Qed.
Lemma shift_state d s : state d s -> state (aes_shiftrow d) (shift_rows s).
Proof.
  intros H. open H. unfold aes_shiftrow. rewrite transpose_eq. cbn [map].
  destruct (pack_bytes a0 b0 c0 d0) as (-> & -> & -> & ->); [assumption..|]. destruct (pack_bytes a1 b1 c1 d1) as (-> & -> & -> & ->); [assumption..|].
  destruct (pack_bytes a2 b2 c2 d2) as (-> & -> & -> & ->); [assumption..|]. destruct (pack_bytes a3 b3 c3 d3) as (-> & -> & -> & ->); [assumption..|].
  unfold tab. change (N.to_nat 0) with 0%nat. change (N.to_nat 1) with 1%nat. change (N.to_nat 2) with 2%nat. change (N.to_nat 3) with 3%nat. cbn [idx nth].
  change (8 * 0) with 0. change (8 * 1) with 8. change (8 * 2) with 16. change (8 * 3) with 24.
  rewrite rol32_0 by now apply pack_lt. rewrite rol32_8, rol32_16, rol32_24 by assumption.
  rewrite transpose_eq. cbn [map].
  destruct (pack_bytes a0 a1 a2 a3) as (-> & -> & -> & ->); [assumption..|]. destruct (pack_bytes b1 b2 b3 b0) as (-> & -> & -> & ->); [assumption..|].
  destruct (pack_bytes c2 c3 c0 c1) as (-> & -> & -> & ->); [assumption..|]. destruct (pack_bytes d3 d0 d1 d2) as (-> & -> & -> & ->); [assumption..|].
  apply state_of; repeat split; assumption.
Qed.
Lemma gf_std x : octet x -> aes_gf 2 x = gmul 2 x /\ aes_gf 3 x = gmul 3 x.
Proof.
  intros X. assert (H : (aes_gf 2 x =? gmul 2 x) && (aes_gf 3 x =? gmul 3 x) = true).
  { apply (all256 (fun x => (aes_gf 2 x =? gmul 2 x) && (aes_gf 3 x =? gmul 3 x))); [|exact X]. vm_compute. reflexivity. }
  apply andb_prop in H as [H1 H2]. now apply N.eqb_eq in H1, H2.
Qed.
Lemma mix_state d s : state d s -> state (map aes_mix d) (mix_columns s).
Proof.
  intros H. open H. cbn [map].
  assert (M : forall a b c d, octet a -> octet b -> octet c -> octet d ->
    aes_mix (pack a b c d) = pack (N.lxor (N.lxor (gmul 2 a) (gmul 3 b)) (N.lxor c d)) (N.lxor (N.lxor (gmul 2 b) (gmul 3 c)) (N.lxor d a))
                                  (N.lxor (N.lxor (gmul 2 c) (gmul 3 d)) (N.lxor a b)) (N.lxor (N.lxor (gmul 2 d) (gmul 3 a)) (N.lxor b c)) /\
    octet (N.lxor (N.lxor (gmul 2 a) (gmul 3 b)) (N.lxor c d))).
  { intros a b c d A B C D. unfold aes_mix. destruct (pack_bytes a b c d) as (-> & -> & -> & ->); [assumption..|].
    assert (O : forall a b c d, octet a -> octet b -> octet c -> octet d -> octet (N.lxor (N.lxor (gmul 2 a) (gmul 3 b)) (N.lxor c d))).
    { clear. intros a b c d A B C D. destruct (gf_std a A) as [<- _]. destruct (gf_std b B) as [_ <-].
      repeat apply xor_octet; try assumption; apply gf_octet; try assumption; unfold factor; cbn; auto 10. }
    destruct (gf_std a A) as [-> ->]. destruct (gf_std b B) as [-> ->]. destruct (gf_std c C) as [-> ->]. destruct (gf_std d D) as [-> ->].
    rewrite !(N.lxor_assoc (N.lxor _ _)). split; [|now apply O]. apply pack_shifts; now apply O. }
  assert (M' : forall a b c d, octet a -> octet b -> octet c -> octet d -> octet (N.lxor (N.lxor (gmul 2 a) (gmul 3 b)) (N.lxor c d))) by (intros; now apply M).
  rewrite (proj1 (M a0 b0 c0 d0 A0 B0 C0 D0)), (proj1 (M a1 b1 c1 d1 A1 B1 C1 D1)), (proj1 (M a2 b2 c2 d2 A2 B2 C2 D2)), (proj1 (M a3 b3 c3 d3 A3 B3 C3 D3)).
  apply state_of; repeat split; now apply M'.
Qed.
Lemma add_state d s k t : state d s -> state k t -> state (aes_add k d) (xors s t).
Proof.
  intros [(w0 & w1 & w2 & w3 & -> & L0 & L1 & L2 & L3) ->] [(v0 & v1 & v2 & v3 & -> & M0 & M1 & M2 & M3) ->].
  unfold aes_add. cbn [map seq idx nth].
  destruct (xor_32 w0 v0 L0 M0) as [X0 Y0]. destruct (xor_32 w1 v1 L1 M1) as [X1 Y1]. destruct (xor_32 w2 v2 L2 M2) as [X2 Y2]. destruct (xor_32 w3 v3 L3 M3) as [X3 Y3].
  rewrite !u32_small by assumption. split; [do 4 eexists; split; [reflexivity|]; auto|]. cbn [flat_map]. rewrite Y0, Y1, Y2, Y3.
  unfold xors. rewrite !app_nil_r. assert (C : forall a b x y : bytes, length a = length x -> combine (a ++ b) (x ++ y) = combine a x ++ combine b y).
  { clear. induction a as [|z a IH]; intros b [|u x] y L; try discriminate; [reflexivity|]. cbn [app combine]. now rewrite IH by (cbn in L; lia). }
  rewrite !C by now rewrite !be_length. rewrite !map_app. reflexivity.
Qed.
Lemma in_state d : octets d -> length d = 16%nat -> state (aes_in d) d.
Proof. intros O L. split; [apply aes_in_words|]. symmetry. now apply aes_in_out. Qed.

(** Key expansion. *)
Lemma sub_key w : w < two32 -> aes_sub_key w < two32 /\ be 4 (aes_sub_key w) = map sbox (be 4 w).
Proof.
  intros W. destruct (unpack w W) as (a & b & c & d & A & B & C & D & ->). 
  assert (U : forall n, u8 (N.shiftr (pack a b c d) (8 * n)) = byte (pack a b c d) n) by (intros n; unfold byte; now rewrite land255).
  unfold aes_sub_key. cbn [fold_left]. rewrite !U. destruct (pack_bytes a b c d) as (-> & -> & -> & ->); [assumption..|]. rewrite !sbox_std by assumption.
  pose proof (sbox_octet a A). pose proof (sbox_octet b B). pose proof (sbox_octet c C). pose proof (sbox_octet d D).
  assert (E : u32 (u32 (u32 (u32 (0 + N.shiftl (sbox d) (8 * 0)) + N.shiftl (sbox c) (8 * 1)) + N.shiftl (sbox b) (8 * 2)) + N.shiftl (sbox a) (8 * 3)) = pack (sbox a) (sbox b) (sbox c) (sbox d)).
  { unfold octet, pack in *. rewrite !N.shiftl_mul_pow2.
    change (2 ^ (8 * 3)) with 16777216. change (2 ^ (8 * 2)) with 65536. change (2 ^ (8 * 1)) with 256. change (2 ^ (8 * 0)) with 1.
    rewrite (u32_small (0 + _)) by (unfold two32; lia). rewrite (u32_small (0 + _ + _)) by (unfold two32; lia).
    rewrite (u32_small (0 + _ + _ + _)) by (unfold two32; lia). rewrite u32_small by (unfold two32; lia). lia. }
  rewrite E. split; [now apply pack_lt|]. now rewrite !be_pack by assumption.
Qed.
Lemma rot_key w : w < two32 -> be 4 (rol32 w 8) = rot_word (be 4 w).
Proof.
  intros W. destruct (unpack w W) as (a & b & c & d & A & B & C & D & ->). rewrite rol32_8 by assumption. now rewrite !be_pack by assumption.
Qed.
Lemma rcon_std i : (1 <= i <= 10)%nat ->
  u32 (N.shiftl (N.shiftl 1 (N.of_nat i - 1) mod 229) 24) < two32 /\ be 4 (u32 (N.shiftl (N.shiftl 1 (N.of_nat i - 1) mod 229) 24)) = rcon i.
Proof.
  intros I. split; [apply u32_lt|]. assert (C : In i (seq 1 10)) by (apply in_seq; lia). cbn [seq In] in C.
  repeat destruct C as [<-|C]; try reflexivity. destruct C.
Qed.
Section expand.
  Variable g : list bytes.
  Definition rel (k : list N) (n : nat) : Prop := Forall (fun w => w < two32) k /\ map (be 4) k = key_expansion g n.
  Lemma expansion_length n : length (key_expansion g n) = n.
  Proof. induction n; [reflexivity|]. cbn [key_expansion]. rewrite app_length. cbn. lia. Qed.
  Lemma rel_length k n : rel k n -> length k = n.
  Proof. intros [_ E]. rewrite <- (map_length (be 4)), E. apply expansion_length. Qed.
  Lemma rel_at k n i : rel k n -> (i < n)%nat -> idx k i < two32 /\ be 4 (idx k i) = nth i (key_expansion g n) [].
  Proof.
    intros R I. pose proof (rel_length k n R) as L. destruct R as [F E]. split.
    - rewrite Forall_forall in F. apply F. apply nth_In. lia.
    - rewrite <- E. rewrite (nth_indep _ [] (be 4 0)) by (rewrite map_length; lia). rewrite map_nth. reflexivity.
  Qed.
  Lemma rel_snoc k n w : rel k n -> w < two32 -> be 4 w = nth n (key_expansion g (S n)) [] -> rel (k ++ [w]) (S n).
  Proof.
    intros [F E] W B. split; [apply Forall_app; auto|]. rewrite map_app, E. cbn [map]. rewrite B. cbn [key_expansion].
    f_equal. rewrite app_nth2; rewrite expansion_length; [|lia]. now rewrite Nat.sub_diag.
  Qed.
  Lemma expansion_prefix n m : (n <= m)%nat -> key_expansion g n = firstn n (key_expansion g m).
  Proof.
    intros L. induction L as [|m L IH].
    - rewrite firstn_all2; [reflexivity|]. rewrite expansion_length. lia.
    - cbn [key_expansion]. rewrite firstn_app, expansion_length. replace (n - m)%nat with 0%nat by lia. cbn [firstn]. rewrite app_nil_r. exact IH.
  Qed.
  Variable nk : nat.
  Hypothesis GL : length g = nk.
  Hypothesis NK : nk = 4%nat \/ nk = 6%nat \/ nk = 8%nat.
  Lemma next n : nth n (key_expansion g (S n)) [] =
    (if (n <? nk)%nat then nth n g [] else xors (nth (n - nk) (key_expansion g n) [])
      (if (n mod nk =? 0)%nat then xors (map sbox (rot_word (nth (n - 1) (key_expansion g n) []))) (rcon (n / nk))
       else if (6 <? nk)%nat && (n mod nk =? 4)%nat then map sbox (nth (n - 1) (key_expansion g n) []) else nth (n - 1) (key_expansion g n) [])).
  Proof. cbn [key_expansion]. rewrite app_nth2; rewrite expansion_length; [|lia]. rewrite Nat.sub_diag, GL. reflexivity. Qed.
  Lemma back_at k n i : rel k n -> back k i = idx k (n - i).
  Proof. intros R. unfold back. now rewrite (rel_length k n R). Qed.
  Lemma push_one k n : rel k n -> (nk <= n)%nat -> (n mod nk <> 0)%nat -> ((6 < nk)%nat -> (n mod nk <> 4)%nat) -> rel (k ++ [N.lxor (back k 1) (back k nk)]) (S n).
  Proof.
    intros R N Z F. rewrite !(back_at k n) by exact R.
    destruct (rel_at k n (n - 1) R ltac:(lia)) as [A1 A2]. destruct (rel_at k n (n - nk) R ltac:(lia)) as [B1 B2].
    rewrite N.lxor_comm. destruct (xor_32 _ _ B1 A1) as [X Y]. apply rel_snoc; [exact R|exact X|]. rewrite next, Y, A2, B2.
    rewrite (proj2 (Nat.ltb_ge n nk) N), (proj2 (Nat.eqb_neq _ _) Z). destruct (Nat.ltb_spec 6 nk); cbn [andb]; [|reflexivity].
    now rewrite (proj2 (Nat.eqb_neq _ _) (F H)).
  Qed.
  Lemma push_first k n i : rel k n -> n = (nk * i)%nat -> (1 <= i <= 10)%nat ->
    rel (k ++ [N.lxor (N.lxor (aes_sub_key (rol32 (back k 1) 8)) (back k nk)) (u32 (N.shiftl (N.shiftl 1 (N.of_nat i - 1) mod 229) 24))]) (S n).
  Proof.
    intros R N I. rewrite !(back_at k n) by exact R. assert (nk <= n)%nat by nia. assert (nk <> 0)%nat by lia.
    destruct (rel_at k n (n - 1) R ltac:(lia)) as [A1 A2]. destruct (rel_at k n (n - nk) R ltac:(lia)) as [B1 B2].
    destruct (sub_key (rol32 (idx k (n - 1)) 8) (rol32_lt _ _)) as [S1 S2]. rewrite rot_key in S2 by exact A1.
    destruct (rcon_std i I) as [R1 R2]. set (rc := u32 _) in *. destruct (xor_32 _ _ S1 R1) as [X1 Y1]. destruct (xor_32 _ _ B1 X1) as [X Y].
    replace (N.lxor (N.lxor (aes_sub_key (rol32 (idx k (n - 1)) 8)) (idx k (n - nk))) rc) with (N.lxor (idx k (n - nk)) (N.lxor (aes_sub_key (rol32 (idx k (n - 1)) 8)) rc))
      by (rewrite <- N.lxor_assoc; f_equal; apply N.lxor_comm).
    apply rel_snoc; [exact R|exact X|]. rewrite next, Y, Y1, B2, S2, A2, R2. rewrite (proj2 (Nat.ltb_ge n nk)) by lia.
    assert (M : (n mod nk = 0)%nat) by (rewrite N, Nat.mul_comm; apply Nat.mod_mul; lia).
    assert (D : (n / nk = i)%nat) by (rewrite N, Nat.mul_comm; apply Nat.div_mul; lia). rewrite M, D. reflexivity.
  Qed.
  Lemma push_sub k n : rel k n -> (nk <= n)%nat -> nk = 8%nat -> (n mod nk = 4)%nat -> rel (k ++ [N.lxor (aes_sub_key (back k 1)) (back k nk)]) (S n).
  Proof.
    intros R N E8 Z. rewrite !(back_at k n) by exact R.
    destruct (rel_at k n (n - 1) R ltac:(lia)) as [A1 A2]. destruct (rel_at k n (n - nk) R ltac:(lia)) as [B1 B2].
    destruct (sub_key _ A1) as [S1 S2]. rewrite N.lxor_comm. destruct (xor_32 _ _ B1 S1) as [X Y].
    apply rel_snoc; [exact R|exact X|]. rewrite next, Y, B2, S2, A2. rewrite (proj2 (Nat.ltb_ge n nk) N), Z. cbn [Nat.eqb].
    rewrite E8. reflexivity.
  Qed.
  Lemma push_many m : forall k n, rel k n -> (nk <= n)%nat -> (0 < n mod nk)%nat -> (n mod nk + m <= nk)%nat -> (nk = 8%nat -> (n mod nk + m <= 4 \/ 4 < n mod nk)%nat) -> rel (aes_push m nk k) (n + m).
  Proof.
    induction m as [|m IH]; intros k n R N Z M F; cbn [aes_push]; [now rewrite Nat.add_0_r|].
    assert (nk <> 0)%nat by lia.
    pose proof (push_one k n R N ltac:(lia) ltac:(lia)) as P. rewrite <- Nat.add_succ_comm. destruct m as [|m].
    - cbn [aes_push]. now rewrite Nat.add_0_r.
    - assert (E : (S n mod nk = S (n mod nk))%nat).
      { replace (S n) with (S (n mod nk) + (n / nk) * nk)%nat by (pose proof (Nat.div_mod n nk); lia). rewrite Nat.mod_add by lia. apply Nat.mod_small. lia. }
      apply IH; [exact P|lia|rewrite E; lia..].
  Qed.
  Lemma mod_offset i j : (j < nk)%nat -> ((nk * i + j) mod nk = j)%nat.
  Proof. intros J. replace (nk * i + j)%nat with (j + i * nk)%nat by lia. rewrite Nat.mod_add by lia. now apply Nat.mod_small. Qed.
  Lemma expand_rel : forall f i k, rel k (nk * i) -> (1 <= i <= 11)%nat -> (12 <= f + i)%nat ->
    exists m, rel (aes_expand f nk (16 * (N.of_nat nk + 7)) (N.of_nat i) k) m /\ (4 * (nk + 7) <= m)%nat.
  Proof.
    induction f as [|f IH]; intros i k R I F; [lia|]. cbn [aes_expand].
    unfold len. rewrite (rel_length _ _ R). destruct (N.ltb_spec (4 * N.of_nat (nk * i)) (16 * (N.of_nat nk + 7))) as [C|C].
    2:{ exists (nk * i)%nat. split; [exact R|lia]. }
    assert (I10 : (i <= 10)%nat) by (destruct NK as [E|[E|E]]; rewrite E in C; lia).
    pose proof (push_first k (nk * i) i R eq_refl ltac:(lia)) as P.
    match type of P with rel ?k1 _ => set (K1 := k1) in * end.
    assert (Q : rel (aes_push 3 nk K1) (nk * i + 4)).
    { replace (nk * i + 4)%nat with (S (nk * i) + 3)%nat by lia. apply push_many; [exact P|nia|..]; replace (S (nk * i)) with (nk * i + 1)%nat by lia; rewrite mod_offset by lia; lia. }
    set (K2 := aes_push 3 nk K1) in *. clearbody K2. clear P K1 C. cbv zeta.
    replace (N.of_nat i + 1) with (N.of_nat (S i)) by lia.
    assert (I' : (nk <= nk * i)%nat) by nia.
    assert (J : (nk * S i = nk * i + nk)%nat) by nia.
    pose proof NK as [E|[E|E]].
    - replace (Nat.eqb nk 8) with false by (symmetry; apply Nat.eqb_neq; lia). replace (Nat.eqb nk 6) with false by (symmetry; apply Nat.eqb_neq; lia).
      cbn [aes_push]. apply IH; [|lia..]. replace (nk * S i)%nat with (nk * i + 4)%nat by lia. exact Q.
    - replace (Nat.eqb nk 8) with false by (symmetry; apply Nat.eqb_neq; lia). replace (Nat.eqb nk 6) with true by (symmetry; apply Nat.eqb_eq; lia).
      apply IH; [|lia..]. replace (nk * S i)%nat with (nk * i + 4 + 2)%nat by lia. apply push_many; [exact Q|lia|rewrite mod_offset by lia; lia..].
    - replace (Nat.eqb nk 8) with true by (symmetry; apply Nat.eqb_eq; lia). replace (Nat.eqb nk 6) with false by (symmetry; apply Nat.eqb_neq; lia).
      pose proof (push_sub K2 (nk * i + 4) Q ltac:(lia) E ltac:(apply mod_offset; lia)) as P.
      apply IH; [|lia..]. replace (nk * S i)%nat with (S (nk * i + 4) + 3)%nat by lia. apply push_many; [exact P|lia|..];
        replace (S (nk * i + 4)) with (nk * i + 5)%nat by lia; rewrite mod_offset by lia; lia.
  Qed.
End expand.

Lemma four_at (l : list N) : forall p, (p + 4 <= length l)%nat -> firstn 4 (skipn p l) = map (fun x => idx l (p + x)) (seq 0 4).
Proof.
  unfold idx. induction l as [|a l IH]; intros p H; [cbn in H; lia|]. destruct p as [|p].
  - cbn [skipn]. cbn [length] in H. do 3 (destruct l as [|? l]; [cbn in H; lia|]). reflexivity.
  - cbn [skipn]. rewrite IH by (cbn in H; lia). reflexivity.
Qed.
Lemma round_key_state g k m n r : rel g k m -> (n <= m)%nat -> (4 * r + 4 <= n)%nat ->
  state (map (fun x => idx k (4 * r + x)) (seq 0 4)) (round_key (key_expansion g n) r).
Proof.
  intros R L H. pose proof (rel_length _ _ _ R) as LK.
  assert (B : forall i, (i < m)%nat -> idx k i < two32) by (intros i I; apply (rel_at g k m i R I)).
  split.
  - exists (idx k (4 * r + 0)), (idx k (4 * r + 1)), (idx k (4 * r + 2)), (idx k (4 * r + 3)). split; [reflexivity|]. repeat apply conj; apply B; lia.
  - unfold round_key. rewrite (expansion_prefix g n m L). rewrite <- (proj2 R). rewrite flat_map_concat_map. f_equal.
    rewrite <- four_at by lia. rewrite firstn_map, skipn_map, firstn_map. f_equal.
    rewrite skipn_firstn_comm, firstn_firstn. f_equal. lia.
Qed.
Lemma key_words KEY nk : octets KEY -> length KEY = (4 * nk)%nat ->
  let k := map (fun x => word (slice KEY (4 * N.of_nat x) 4)) (seq 0 nk) in
  length (groups 4 nk KEY) = nk /\ Forall (fun w => w < two32) k /\ map (be 4) k = groups 4 nk KEY.
Proof.
  intros O L k. unfold groups. repeat apply conj.
  - now rewrite map_length, seq_length.
  - apply Forall_forall. intros w I. apply in_map_iff in I as (x & <- & _). apply word_lt.
  - unfold k. rewrite map_map. apply map_ext_in. intros x I. apply in_seq in I.
    rewrite be_word; [|now apply slice_octets|apply slice_length; unfold len; lia].
    unfold slice. f_equal. f_equal. lia.
Qed.
Lemma key_rel KEY nk : octets KEY -> length KEY = (4 * nk)%nat ->
  rel (groups 4 nk KEY) (map (fun x => word (slice KEY (4 * N.of_nat x) 4)) (seq 0 nk)) nk.
Proof.
  intros O L. destruct (key_words KEY nk O L) as (G & F & E). split; [exact F|]. rewrite E. set (g := groups 4 nk KEY) in *. clearbody g. clear E F.
  assert (K : forall n, (n <= length g)%nat -> key_expansion g n = firstn n g).
  { induction n as [|n IH]; intros H; [reflexivity|]. cbn [key_expansion]. rewrite IH by lia. rewrite (proj2 (Nat.ltb_lt n (length g))) by lia.
    symmetry. rewrite <- (firstn_skipn n g) at 1. rewrite firstn_app, firstn_firstn, firstn_length. replace (Nat.min (S n) n) with n by lia.
    replace (S n - Nat.min n (length g))%nat with 1%nat by lia. f_equal.
    rewrite <- (firstn_skipn n g) at 2. rewrite app_nth2; rewrite firstn_length; [|lia]. replace (n - Nat.min n (length g))%nat with 0%nat by lia.
    destruct (skipn n g) eqn:Q; [|reflexivity]. exfalso. apply (f_equal (@length _)) in Q. rewrite skipn_length in Q. cbn in Q. lia. }
  rewrite K by lia. now rewrite firstn_all2 by lia.
Qed.

Lemma fold_state (w : list bytes) (ks : list (list N)) l : (forall r, In r l -> state (row ks r) (round_key w r)) ->
  forall d s, state d s -> state (fold_left aes_round (map (row ks) l) d)
                                 (fold_left (fun s r => xors (mix_columns (shift_rows (sub_bytes s))) (round_key w r)) l s).
Proof.
  induction l as [|r l IH]; intros K d s D; [exact D|]. cbn [map fold_left]. apply IH; [intros x I; apply K; now right|].
  unfold aes_round. apply add_state; [|apply K; now left]. apply mix_state, shift_state, sub_state, D.
Qed.
Lemma words_out_state d s : state d s -> words_out d = Ok s.
Proof. intros [(a & b & c & e & -> & A & B & C & E) ->]. apply words_out_be. Qed.
Theorem aes_std KEY c : octets KEY -> AES KEY = Ok c -> In (length KEY) [16; 24; 32]%nat ->
  forall d, octets d -> length d = 16%nat -> c_encrypt c d = Ok (aes_cipher KEY d).
Proof.
  intros OK A LK d Od Ld. unfold AES in A. destruct ((u8 (len KEY) =? 16) || _ || _) eqn:G; [|discriminate]. clear G.
  apply Ok_inj in A. subst c. cbn [c_encrypt]. unfold on_block. unfold len. rewrite Ld. cbn [N.of_nat N.eqb]. 
  set (nk := (length KEY / 4)%nat).
  assert (NK : nk = 4%nat \/ nk = 6%nat \/ nk = 8%nat) by (unfold nk; destruct LK as [<-|[<-|[<-|[]]]]; auto).
  assert (L4 : length KEY = (4 * nk)%nat) by (unfold nk; destruct LK as [<-|[<-|[<-|[]]]]; reflexivity).
  assert (U : u8 (len KEY) / 4 = N.of_nat nk) by (unfold len; rewrite L4; destruct NK as [->|[->| ->]]; reflexivity).
  assert (GL : length (groups 4 nk KEY) = nk) by (unfold groups; now rewrite map_length, seq_length).
  pose proof (key_rel KEY nk OK L4) as R. 
  destruct (expand_rel _ nk GL NK 60 1 _ ltac:(rewrite Nat.mul_1_r; exact R) ltac:(lia) ltac:(lia)) as (m & R' & M).
  set (w := key_expansion (groups 4 nk KEY) (4 * (nk + 6 + 1))).
  set (K := aes_expand 60 nk (16 * (N.of_nat nk + 7)) (N.of_nat 1) _) in R'.
  assert (KS : aes_keys KEY = map (fun j => map (fun x => idx K (4 * j + x)) (seq 0 4)) (seq 0 (nk + 7))).
  { unfold aes_keys. rewrite U, Nat2N.id. replace ((N.of_nat nk + 6 + 1) * 16) with (16 * (N.of_nat nk + 7)) by lia. change 1 with (N.of_nat 1). 
    change (aes_expand 60 nk _ _ _) with K. f_equal. f_equal. rewrite (N.mul_comm 16), N.div_mul by discriminate. lia. }
  rewrite KS. clear KS. set (ks := map _ (seq 0 (nk + 7))).
  assert (RS : forall r, (r < nk + 7)%nat -> state (row ks r) (round_key w r)).
  { intros r I. unfold row, ks. 
    rewrite (nth_indep _ [] ((fun j => map (fun x => idx K (4 * j + x)) (seq 0 4)) 0%nat)) by (rewrite map_length, seq_length; exact I).
    rewrite (map_nth (fun j => map (fun x => idx K (4 * j + x)) (seq 0 4))). rewrite seq_nth by exact I. cbn [Nat.add].
    apply (round_key_state _ _ m); [exact R'|lia..]. }
  assert (LKS : pred (length ks) = (nk + 6)%nat) by (unfold ks; rewrite map_length, seq_length; lia).
  unfold aes_encrypt. rewrite LKS. unfold aes_cipher. fold nk. fold w. cbv zeta.
  apply words_out_state. apply add_state; [|apply RS; lia]. apply shift_state, sub_state.
  apply fold_state; [intros r I; apply in_seq in I; apply RS; lia|].
  apply add_state; [now apply in_state|apply RS; lia].
Qed.
