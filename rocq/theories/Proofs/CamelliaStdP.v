(** Camellia computes the function of RFC 3713. *)
From Verif Require Import Proofs.CipherLib Proofs.HashStdP Proofs.DesStdP Proofs.RotP Proofs.CamelliaP.
From Verif Require Spec.Camellia Proofs.AesP.
From Verif Require Import Proofs.Lib.

(** Octet strings as numbers. *)
Lemma be_mod n v : be n (v mod 256 ^ N.of_nat n) = be n v.
Proof.
  apply be_val_inj; try apply be_octets; [unfold len; now rewrite !be_length|]. rewrite !be_val_be. apply N.mod_mod. apply N.pow_nonzero. discriminate.
Qed.
Lemma pow8 n : 256 ^ n = 2 ^ (8 * n).
Proof. change 256 with (2 ^ 8). symmetry. apply N.pow_mul_r. Qed.
Lemma zip_app f a b c d : length a = length c -> zip_strings f (a ++ b) (c ++ d) = zip_strings f a c ++ zip_strings f b d.
Proof. revert c. induction a as [|x a IH]; intros [|y c] L; try discriminate; [reflexivity|]. cbn [app zip_strings]. rewrite IH by (cbn in L; lia). reflexivity. Qed.
Lemma zip_be f n a b : (forall x y, f x y / 256 = f (x / 256) (y / 256)) -> (forall x y, f x y mod 256 = f (x mod 256) (y mod 256)) ->
  zip_strings f (be n a) (be n b) = be n (f a b).
Proof.
  intros D M. revert a b. induction n as [|n IH]; intros a b; [reflexivity|]. rewrite !be_S_r, zip_app by now rewrite !be_length.
  rewrite IH, D, M. reflexivity.
Qed.
Lemma mod256 x i : N.testbit (x mod 256) i = (i <? 8) && N.testbit x i.
Proof.
  change 256 with (2 ^ 8). destruct (N.ltb_spec i 8) as [C|C]; [now rewrite N.mod_pow2_bits_low|now rewrite N.mod_pow2_bits_high].
Qed.
Lemma div256 x i : N.testbit (x / 256) i = N.testbit x (i + 8).
Proof. change 256 with (2 ^ 8). apply N.div_pow2_bits. Qed.
Lemma xs_be n a b : xor_strings (be n a) (be n b) = be n (N.lxor a b).
Proof. apply zip_be; intros; apply N.bits_inj; intro i; rewrite ?mod256, ?div256, ?N.lxor_spec, ?mod256, ?div256, ?N.lxor_spec; [reflexivity|]. now destruct (i <? 8), (N.testbit x i), (N.testbit y i). Qed.
Lemma and_be n a b : and_strings (be n a) (be n b) = be n (N.land a b).
Proof. apply zip_be; intros; apply N.bits_inj; intro i; rewrite ?mod256, ?div256, ?N.land_spec, ?mod256, ?div256, ?N.land_spec; [reflexivity|]. now destruct (i <? 8), (N.testbit x i), (N.testbit y i). Qed.
Lemma or_be n a b : or_strings (be n a) (be n b) = be n (N.lor a b).
Proof. apply zip_be; intros; apply N.bits_inj; intro i; rewrite ?mod256, ?div256, ?N.lor_spec, ?mod256, ?div256, ?N.lor_spec; [reflexivity|]. now destruct (i <? 8), (N.testbit x i), (N.testbit y i). Qed.

(** The rotation of strings. *)
Lemma join_bits c p t : p <= 8 -> t < 2 ^ p -> u8 (N.lor (N.shiftl c p) (N.land t (N.ones p))) = (c * 2 ^ p + t) mod 256.
Proof.
  intros P T. unfold u8. f_equal. rewrite N.land_ones, N.mod_small by exact T. apply N.bits_inj. intro i. rewrite N.lor_spec.
  destruct (N.lt_ge_cases i p) as [C|C].
  - rewrite N.shiftl_spec_low, sum_low by assumption. reflexivity.
  - rewrite N.shiftl_spec_high', sum_high by assumption. rewrite (high_false p t i) by assumption. apply orb_false_r.
Qed.
Lemma rol_shift_be p t s : p < 8 -> t < 2 ^ p -> octets s -> rol_shift p t s = be (length s) (be_val s * 2 ^ p + t).
Proof.
  intros P T. induction s as [|c r IH]; intros O; [reflexivity|]. apply octets_cons in O as [C O]. cbn [rol_shift length be be_val].
  assert (Z : 256 ^ N.of_nat (length r) <> 0) by (apply N.pow_nonzero; discriminate).
  assert (B : be_val r < 256 ^ N.of_nat (length r)) by now apply be_val_bound.
  assert (NX : match r with [] => t | d :: _ => N.shiftr d (8 - p) end = (be_val r * 2 ^ p + t) / 256 ^ N.of_nat (length r)).
  { destruct r as [|d r]; [cbn [be_val length N.of_nat]; now rewrite N.pow_0_r, N.div_1_r|]. cbn [be_val length].
    apply octets_cons in O as [D O]. assert (B' : be_val r < 256 ^ N.of_nat (length r)) by now apply be_val_bound.
    rewrite N.shiftr_div_pow2. set (m := 256 ^ N.of_nat (length r)) in *.
    replace (256 ^ N.of_nat (S (length r))) with (m * 256) by (rewrite Nat2N.inj_succ, N.pow_succ_r'; unfold m; lia).
    assert (M : m <> 0) by (apply N.pow_nonzero; discriminate). clearbody m. clear IH Z B.
    rewrite <- N.div_div by (assumption || discriminate).
    assert (E8 : 256 = 2 ^ p * 2 ^ (8 - p)) by (rewrite <- N.pow_add_r; replace (p + (8 - p)) with 8 by lia; reflexivity). rewrite E8.
    rewrite <- N.div_div by (apply N.pow_nonzero; discriminate). f_equal.
    (* d = ((d m + v) 2^p + t) / m / 2^p *)
    rewrite N.div_div by (assumption || (apply N.pow_nonzero; discriminate)). symmetry. set (k := 2 ^ p) in *.
    symmetry. apply (N.div_unique _ _ _ (be_val r * k + t)); [clear - B' T; nia|lia]. }
  rewrite NX. set (w := be_val r * 2 ^ p + t) in *.
  assert (W : w / 256 ^ N.of_nat (length r) < 2 ^ p) by (apply N.div_lt_upper_bound; [exact Z|]; unfold w; nia).
  rewrite join_bits by (assumption || lia). f_equal.
  - f_equal. rewrite N.mul_add_distr_r, <- N.add_assoc. fold w. replace (c * 256 ^ N.of_nat (length r) * 2 ^ p) with (c * 2 ^ p * 256 ^ N.of_nat (length r)) by lia.
    now rewrite N.div_add_l by exact Z.
  - rewrite IH by assumption. fold w. rewrite <- (be_mod _ w). symmetry. rewrite <- be_mod. f_equal.
    replace ((c * 256 ^ N.of_nat (length r) + be_val r) * 2 ^ p + t) with (w + c * 2 ^ p * 256 ^ N.of_nat (length r)) by (unfold w; lia).
    apply N.mod_add. exact Z.
Qed.
Lemma rol_octets n q v : (q <= n)%nat -> v < 256 ^ N.of_nat n -> slice (be n v ++ be n v) (N.of_nat q) (N.of_nat n) = be n (rotl (8 * N.of_nat n) (8 * N.of_nat q) v).
Proof.
  intros Q V. unfold slice. rewrite !Nat2N.id. 
  assert (E : be n v = be q (v / 256 ^ N.of_nat (n - q)) ++ be (n - q) v) by (rewrite <- be_split; f_equal; lia).
  assert (S1 : skipn q (be n v ++ be n v) = be (n - q) v ++ be n v).
  { rewrite E at 1. rewrite <- app_assoc, skipn_app, be_length, Nat.sub_diag, skipn_all2 by (rewrite be_length; lia). reflexivity. }
  rewrite S1. rewrite E, app_assoc, firstn_app, app_length, !be_length. replace (n - (n - q + q))%nat with 0%nat by lia. rewrite firstn_O, app_nil_r, firstn_all2 by (rewrite app_length, !be_length; lia).
  unfold rotl. rewrite <- N.mul_sub_distr_l, <- !pow8, <- Nat2N.inj_sub.
  replace n with (n - q + q)%nat at 3 by lia. rewrite be_split.
  set (A := 256 ^ N.of_nat (n - q)). set (B := 256 ^ N.of_nat q).
  assert (N' : 256 ^ N.of_nat n = A * B) by (unfold A, B; rewrite <- N.pow_add_r; f_equal; lia).
  assert (A0 : A <> 0) by (apply N.pow_nonzero; discriminate). assert (B0 : B <> 0) by (apply N.pow_nonzero; discriminate).
  rewrite N' in *. rewrite N.mul_mod_distr_r by assumption.
  assert (VB : v / A < B) by (apply N.div_lt_upper_bound; lia).
  f_equal.
  - rewrite N.div_add_l, N.div_small, N.add_0_r by assumption. symmetry. apply be_mod.
  - rewrite <- (be_mod q (_ + _)). fold B. rewrite N.add_comm, N.mod_add, N.mod_small by assumption. reflexivity.
Qed.
Lemma rol_be n v b : (0 < n)%nat -> v < 256 ^ N.of_nat n -> b < 8 * N.of_nat n -> rol_string (be n v) b = be n (rotl (8 * N.of_nat n) b v).
Proof.
  intros N0 V B. unfold rol_string. unfold len. rewrite be_length.
  set (q := N.to_nat (b / 8)). assert (Q : N.shiftr b 3 = N.of_nat q) by (unfold q; rewrite N2Nat.id; apply N.shiftr_div_pow2).
  assert (QN : (q < n)%nat) by (unfold q; enough (b / 8 < N.of_nat n) by lia; apply N.div_lt_upper_bound; lia).
  rewrite Q, rol_octets by (assumption || lia). change (N.land b 7) with (N.land b (N.ones 3)). rewrite (N.land_ones b 3). change (2 ^ 3) with 8. set (r := b mod 8).
  assert (R : r < 8) by (apply N.mod_lt; discriminate). assert (BE : b = 8 * N.of_nat q + r) by (unfold q, r; rewrite N2Nat.id; apply N.div_mod; discriminate).
  clearbody q r. set (w := 8 * N.of_nat n) in *. assert (V' : v < 2 ^ w) by (unfold w; now rewrite <- pow8).
  assert (RW : rotl w (8 * N.of_nat q) v < 2 ^ w) by (apply rotl_fits; [lia|exact V']).
  set (u := rotl w (8 * N.of_nat q) v) in *.
  assert (E : rotl w b v = rotl w r u).
  { unfold u. pose proof (rotl_rotl w (8 * N.of_nat q) r v ltac:(lia) V') as H. rewrite <- BE in H. rewrite !N.mod_small in H by lia. now symmetry. }
  rewrite E. destruct (N.eqb_spec r 0) as [->|R0]; [now rewrite rotl_0|].
  destruct (be n u) as [|c l] eqn:EB; [apply (f_equal (@length N)) in EB; rewrite be_length in EB; cbn in EB; lia|]. rewrite <- EB.
  assert (C : c = u / 256 ^ N.of_nat (n - 1)).
  { destruct n as [|n]; [lia|]. cbn [be] in EB. assert (c = (u / 256 ^ N.of_nat n) mod 256) by congruence. subst c. replace (S n - 1)%nat with n by lia. apply N.mod_small.
    apply N.div_lt_upper_bound; [apply N.pow_nonzero; discriminate|]. unfold w in RW. rewrite <- pow8, Nat2N.inj_succ, N.pow_succ_r' in RW. lia. }
  assert (T : N.shiftr c (8 - r) = u / 2 ^ (w - r)).
  { rewrite C, N.shiftr_div_pow2, N.div_div by (apply N.pow_nonzero; discriminate). f_equal. rewrite pow8, <- N.pow_add_r. f_equal. unfold w. lia. }
  rewrite T. assert (TL : u / 2 ^ (w - r) < 2 ^ r) by (apply N.div_lt_upper_bound; [apply N.pow_nonzero; discriminate|]; rewrite <- N.pow_add_r; now replace (w - r + r) with w by lia).
  rewrite rol_shift_be by (assumption || apply be_octets). rewrite be_length, be_val_be. rewrite (pow8 (N.of_nat n)). fold w. rewrite (N.mod_small u) by exact RW.
  unfold rotl. rewrite <- (be_mod n (u * _ + _)). symmetry. rewrite <- be_mod. symmetry. f_equal. rewrite (pow8 (N.of_nat n)). fold w.
  rewrite N.add_mod_idemp_l by (apply N.pow_nonzero; discriminate). reflexivity.
Qed.

(** The S-boxes. *)
Lemma sbox1_std x : x < 256 -> tab Camellia_SBox x = Camellia.SBOX1 x.
Proof. intros X. symmetry. apply N.eqb_eq. apply (AesP.all256 (fun x => Camellia.SBOX1 x =? tab Camellia_SBox x)); [vm_compute; reflexivity|exact X]. Qed.
Lemma rol8_std x : x < 256 -> rol8 x 1 = rotl 8 1 x /\ rol8 x 7 = rotl 8 7 x.
Proof.
  intros X. split; symmetry; apply N.eqb_eq.
  - apply (AesP.all256 (fun x => rotl 8 1 x =? rol8 x 1)); [vm_compute; reflexivity|exact X].
  - apply (AesP.all256 (fun x => rotl 8 7 x =? rol8 x 7)); [vm_compute; reflexivity|exact X].
Qed.
Lemma sboxes_std x : x < 256 -> cam_sbox 1 x = Camellia.SBOX1 x /\ cam_sbox 2 x = Camellia.SBOX2 x /\ cam_sbox 3 x = Camellia.SBOX3 x /\ cam_sbox 4 x = Camellia.SBOX4 x.
Proof.
  intros X. unfold cam_sbox, Camellia.SBOX2, Camellia.SBOX3, Camellia.SBOX4. rewrite <- !sbox1_std; try assumption; [|apply (rotl_fits 8 1 x); [discriminate|exact X]].
  destruct (rol8_std x X) as [-> _]. assert (T : tab Camellia_SBox x < 256) by apply tab_octet, sbox_octets. destruct (rol8_std _ T) as [-> ->]. auto.
Qed.
(** The functions. *)
Lemma f_std d k : cam_f (be 8 d) (be 8 k) = be 8 (Camellia.F d k) /\ Camellia.F d k < 2 ^ 64.
Proof.
  unfold cam_f, Camellia.F. cbv zeta. rewrite xs_be. set (x := N.lxor d k).
  assert (I : forall i, (i < 8)%nat -> idx (be 8 x) i = x / 2 ^ (8 * N.of_nat (7 - i)) mod 256).
  { intros i H. do 8 (destruct i as [|i]; [reflexivity|]). lia. }
  rewrite !I by lia. clear I.
  change (8 * N.of_nat (7 - 0)) with 56. change (8 * N.of_nat (7 - 1)) with 48. change (8 * N.of_nat (7 - 2)) with 40. change (8 * N.of_nat (7 - 3)) with 32.
  change (8 * N.of_nat (7 - 4)) with 24. change (8 * N.of_nat (7 - 5)) with 16. change (8 * N.of_nat (7 - 6)) with 8. change (8 * N.of_nat (7 - 7)) with 0.
  assert (S : forall n, cam_sbox 1 (x / 2 ^ n mod 256) = Camellia.SBOX1 (x / 2 ^ n mod 256) /\ cam_sbox 2 (x / 2 ^ n mod 256) = Camellia.SBOX2 (x / 2 ^ n mod 256)
    /\ cam_sbox 3 (x / 2 ^ n mod 256) = Camellia.SBOX3 (x / 2 ^ n mod 256) /\ cam_sbox 4 (x / 2 ^ n mod 256) = Camellia.SBOX4 (x / 2 ^ n mod 256))
    by (intros n; apply sboxes_std, N.mod_lt; discriminate).
  rewrite <- (proj1 (S 56)), <- (proj1 (S 0)), <- (proj1 (proj2 (S 48))), <- (proj1 (proj2 (S 24))), <- (proj1 (proj2 (proj2 (S 40)))), <- (proj1 (proj2 (proj2 (S 16)))),
    <- (proj2 (proj2 (proj2 (S 32)))), <- (proj2 (proj2 (proj2 (S 8)))). clear S.
  pose proof (cam_sbox_octet 1 (x / 2 ^ 56 mod 256)) as O1. pose proof (cam_sbox_octet 2 (x / 2 ^ 48 mod 256)) as O2.
  pose proof (cam_sbox_octet 3 (x / 2 ^ 40 mod 256)) as O3. pose proof (cam_sbox_octet 4 (x / 2 ^ 32 mod 256)) as O4.
  pose proof (cam_sbox_octet 2 (x / 2 ^ 24 mod 256)) as O5. pose proof (cam_sbox_octet 3 (x / 2 ^ 16 mod 256)) as O6.
  pose proof (cam_sbox_octet 4 (x / 2 ^ 8 mod 256)) as O7. pose proof (cam_sbox_octet 1 (x / 2 ^ 0 mod 256)) as O8.
  revert O1 O2 O3 O4 O5 O6 O7 O8.
  generalize (cam_sbox 1 (x / 2 ^ 56 mod 256)) (cam_sbox 2 (x / 2 ^ 48 mod 256)) (cam_sbox 3 (x / 2 ^ 40 mod 256)) (cam_sbox 4 (x / 2 ^ 32 mod 256))
    (cam_sbox 2 (x / 2 ^ 24 mod 256)) (cam_sbox 3 (x / 2 ^ 16 mod 256)) (cam_sbox 4 (x / 2 ^ 8 mod 256)) (cam_sbox 1 (x / 2 ^ 0 mod 256)).
  intros t1 t2 t3 t4 t5 t6 t7 t8 O1 O2 O3 O4 O5 O6 O7 O8. cbn [fold_right]. rewrite !N.lxor_0_r, !N.lxor_assoc.
  match goal with |- ?l = be 8 (be_val ?l') /\ _ => assert (O : octets l) by (repeat (apply octets_cons; split); try constructor; repeat apply lxor_octet; assumption) end.
  split; [symmetry; exact (be_be_val _ O)|exact (be_val_bound _ O)].
Qed.
Lemma be_lo n v : be n v = be n (v mod 256 ^ N.of_nat n). Proof. symmetry. apply be_mod. Qed.
Lemma halves8 v : slice (be 8 v) 0 4 = be 4 (Camellia.hi32 v) /\ slice (be 8 v) 4 4 = be 4 (Camellia.lo32 v).
Proof.
  split.
  - exact (be_part 0 4 4 v).
  - unfold Camellia.lo32. change (2 ^ 32) with (256 ^ N.of_nat 4). rewrite be_mod. pose proof (be_part 4 4 0 v) as H. rewrite N.pow_0_r, N.div_1_r in H. exact H.
Qed.
Lemma halves16 v : slice (be 16 v) 0 8 = be 8 (Camellia.hi64 v) /\ slice (be 16 v) 8 8 = be 8 (Camellia.lo64 v).
Proof.
  split.
  - exact (be_part 0 8 8 v).
  - unfold Camellia.lo64. change (2 ^ 64) with (256 ^ N.of_nat 8). rewrite be_mod. pose proof (be_part 8 8 0 v) as H. rewrite N.pow_0_r, N.div_1_r in H. exact H.
Qed.
Lemma be_cat n m a b : b < 256 ^ N.of_nat m -> be n a ++ be m b = be (n + m) (a * 256 ^ N.of_nat m + b).
Proof.
  intros B. assert (Z : 256 ^ N.of_nat m <> 0) by (apply N.pow_nonzero; discriminate).
  rewrite be_split. rewrite N.div_add_l, N.div_small, N.add_0_r by assumption. f_equal. rewrite <- (be_mod m (_ + b)), N.add_comm, N.mod_add by exact Z. now rewrite be_mod.
Qed.
Lemma lt_bits w x : (forall i, w <= i -> N.testbit x i = false) -> x < 2 ^ w.
Proof.
  intros H. assert (E : x = x mod 2 ^ w); [|rewrite E; apply N.mod_lt, N.pow_nonzero; discriminate].
  apply N.bits_inj. intro i. destruct (N.lt_ge_cases i w) as [C|C]; [now rewrite N.mod_pow2_bits_low|rewrite N.mod_pow2_bits_high, H by exact C; reflexivity].
Qed.
Lemma lxor_w w x y : x < 2 ^ w -> y < 2 ^ w -> N.lxor x y < 2 ^ w.
Proof. intros X Y. apply lt_bits. intros i I. rewrite N.lxor_spec, (high_false w x), (high_false w y) by assumption. reflexivity. Qed.
Lemma lor_w w x y : x < 2 ^ w -> y < 2 ^ w -> N.lor x y < 2 ^ w.
Proof. intros X Y. apply lt_bits. intros i I. rewrite N.lor_spec, (high_false w x), (high_false w y) by assumption. reflexivity. Qed.
Lemma land_w w x y : x < 2 ^ w -> N.land x y < 2 ^ w.
Proof. intros X. apply lt_bits. intros i I. rewrite N.land_spec, (high_false w x) by assumption. reflexivity. Qed.
Lemma hi32_w x : x < 2 ^ 64 -> Camellia.hi32 x < 2 ^ 32. Proof. intros X. apply N.div_lt_upper_bound; [discriminate|exact X]. Qed.
Lemma lo32_w x : Camellia.lo32 x < 2 ^ 32. Proof. apply N.mod_lt. discriminate. Qed.
Lemma hi64_w x : x < 2 ^ 128 -> Camellia.hi64 x < 2 ^ 64. Proof. intros X. apply N.div_lt_upper_bound; [discriminate|exact X]. Qed.
Lemma lo64_w x : Camellia.lo64 x < 2 ^ 64. Proof. apply N.mod_lt. discriminate. Qed.
Lemma join_w n a b : a < 2 ^ n -> b < 2 ^ n -> a * 2 ^ n + b < 2 ^ (n + n).
Proof. intros A B. rewrite N.pow_add_r. nia. Qed.
Lemma fl_std d k : d < 2 ^ 64 -> k < 2 ^ 64 -> cam_fl (be 8 d) (be 8 k) = be 8 (Camellia.FL d k) /\ Camellia.FL d k < 2 ^ 64.
Proof.
  intros D K. unfold cam_fl, Camellia.FL. cbv zeta. destruct (halves8 d) as [-> ->], (halves8 k) as [-> ->].
  pose proof (hi32_w d D) as D1. pose proof (lo32_w d) as D2. pose proof (hi32_w k K) as K1. pose proof (lo32_w k) as K2. revert D1 D2 K1 K2.
  generalize (Camellia.hi32 d) (Camellia.lo32 d) (Camellia.hi32 k) (Camellia.lo32 k). clear. intros x1 x2 k1 k2 D1 D2 K1 K2.
  rewrite and_be, (rol_be 4) by (lia || now apply (land_w 32)). change (8 * N.of_nat 4) with 32. rewrite xs_be.
  assert (R : rotl 32 1 (N.land x1 k1) < 2 ^ 32) by (apply rotl_fits; [discriminate|now apply land_w]).
  pose proof (lxor_w 32 _ _ D2 R) as Y2. set (y2 := N.lxor x2 (rotl 32 1 (N.land x1 k1))) in *. clearbody y2.
  rewrite or_be, xs_be. pose proof (lxor_w 32 _ _ D1 (lor_w 32 _ _ Y2 K2)) as Y1. split; [now apply (be_cat 4 4)|now apply (join_w 32)].
Qed.
Lemma flinv_std d k : d < 2 ^ 64 -> k < 2 ^ 64 -> cam_flinv (be 8 d) (be 8 k) = be 8 (Camellia.FLINV d k) /\ Camellia.FLINV d k < 2 ^ 64.
Proof.
  intros D K. unfold cam_flinv, Camellia.FLINV. cbv zeta. destruct (halves8 d) as [-> ->], (halves8 k) as [-> ->].
  pose proof (hi32_w d D) as D1. pose proof (lo32_w d) as D2. pose proof (hi32_w k K) as K1. pose proof (lo32_w k) as K2. revert D1 D2 K1 K2.
  generalize (Camellia.hi32 d) (Camellia.lo32 d) (Camellia.hi32 k) (Camellia.lo32 k). clear. intros x1 x2 k1 k2 D1 D2 K1 K2.
  rewrite or_be, xs_be. pose proof (lxor_w 32 _ _ D1 (lor_w 32 _ _ D2 K2)) as Y1. set (y1 := N.lxor x1 (N.lor x2 k2)) in *. clearbody y1.
  rewrite and_be, (rol_be 4) by (lia || now apply (land_w 32)). change (8 * N.of_nat 4) with 32. rewrite xs_be.
  assert (R : rotl 32 1 (N.land y1 k1) < 2 ^ 32) by (apply rotl_fits; [discriminate|now apply land_w]).
  pose proof (lxor_w 32 _ _ D2 R) as Y2. split; [now apply (be_cat 4 4)|now apply (join_w 32)].
Qed.

(** Pairs of halves. *)
Definition w2 (D : N * N) : Prop := fst D < 2 ^ 64 /\ snd D < 2 ^ 64.
Definition rep (D : N * N) : bytes * bytes := (be 8 (fst D), be 8 (snd D)).
Lemma pair_std D a b : w2 D -> cam_pair (rep D) (be 8 a) (be 8 b) = rep (Camellia.two_rounds a b D) /\ w2 (Camellia.two_rounds a b D).
Proof.
  intros [D1 D2]. unfold cam_pair, Camellia.two_rounds, rep, w2. cbn [fst snd]. destruct (f_std (fst D) a) as [-> F1]. rewrite !xs_be.
  set (y := N.lxor (snd D) (Camellia.F (fst D) a)) in *. destruct (f_std y b) as [-> F2]. rewrite xs_be. repeat apply conj; [reflexivity|now apply lxor_w|now apply lxor_w].
Qed.
Lemma six_std D a b c d e f : w2 D -> cam_six (rep D) (be 8 a) (be 8 b) (be 8 c) (be 8 d) (be 8 e) (be 8 f)
    = rep (Camellia.two_rounds e f (Camellia.two_rounds c d (Camellia.two_rounds a b D)))
  /\ w2 (Camellia.two_rounds e f (Camellia.two_rounds c d (Camellia.two_rounds a b D))).
Proof.
  intros W. unfold cam_six. destruct (pair_std D a b W) as [-> W1]. destruct (pair_std _ c d W1) as [-> W2]. exact (pair_std _ e f W2).
Qed.
Lemma fls_std D a b : w2 D -> a < 2 ^ 64 -> b < 2 ^ 64 -> cam_fls (rep D) (be 8 a) (be 8 b) = rep (Camellia.FL (fst D) a, Camellia.FLINV (snd D) b)
  /\ w2 (Camellia.FL (fst D) a, Camellia.FLINV (snd D) b).
Proof.
  intros [D1 D2] A B. unfold cam_fls, rep, w2. cbn [fst snd]. destruct (fl_std _ a D1 A) as [-> F1]. destruct (flinv_std _ b D2 B) as [-> F2]. repeat apply conj; auto.
Qed.
Lemma white_std D a b : w2 D -> a < 2 ^ 64 -> b < 2 ^ 64 -> cam_white (rep D) (be 8 a) (be 8 b) = rep (N.lxor (fst D) a, N.lxor (snd D) b) /\ w2 (N.lxor (fst D) a, N.lxor (snd D) b).
Proof. intros [D1 D2] A B. unfold cam_white, rep, w2. cbn [fst snd]. rewrite !xs_be. repeat apply conj; auto; now apply lxor_w. Qed.
Lemma halves_std x : x < 2 ^ 128 -> (slice (be 16 x) 0 8, slice (be 16 x) 8 8) = rep (Camellia.halves x) /\ w2 (Camellia.halves x).
Proof. intros X. destruct (halves16 x) as [-> ->]. split; [reflexivity|]. split; [now apply hi64_w|apply lo64_w]. Qed.
Lemma join_std D : w2 D -> fst (rep D) ++ snd (rep D) = be 16 (Camellia.join D) /\ Camellia.join D < 2 ^ 128.
Proof. intros [D1 D2]. split; [now apply (be_cat 8 8)|now apply (join_w 64)]. Qed.

(** The key schedule. *)
Lemma part_std K n : K < 2 ^ 128 -> n < 128 -> slice (rol_string (be 16 K) n) 0 8 = be 8 (Camellia.hi64 (rotl 128 n K))
  /\ slice (rol_string (be 16 K) n) 8 8 = be 8 (Camellia.lo64 (rotl 128 n K)) /\ Camellia.hi64 (rotl 128 n K) < 2 ^ 64 /\ Camellia.lo64 (rotl 128 n K) < 2 ^ 64.
Proof.
  intros X H. rewrite (rol_be 16) by (assumption || lia). change (8 * N.of_nat 16) with 128. destruct (halves16 (rotl 128 n K)) as [-> ->].
  repeat apply conj; auto; [|apply lo64_w]. apply hi64_w. apply rotl_fits; [lia|exact X].
Qed.
Definition good_key (KEY : bytes) : Prop := octets KEY /\ In (length KEY) [16; 24; 32]%nat.
Lemma kl_std KEY : good_key KEY -> prefix KEY 16 = be 16 (Camellia.K_L KEY) /\ Camellia.K_L KEY < 2 ^ 128.
Proof.
  intros [O L]. assert (L16 : (16 <= length KEY)%nat) by (destruct L as [<-|[<-|[<-|[]]]]; lia).
  assert (LF : length (firstn 16 KEY) = 16%nat) by (rewrite firstn_length; lia). assert (OF : octets (firstn 16 KEY)) by now apply octets_firstn.
  unfold Camellia.K_L, prefix. replace (N.to_nat (N.min 16 (len KEY))) with 16%nat by (unfold len; lia). split.
  - rewrite <- LF at 2. symmetry. now apply be_be_val.
  - pose proof (be_val_bound _ OF) as B. unfold len in B. rewrite LF in B. exact B.
Qed.
Lemma kr_std KEY : good_key KEY ->
  (if u16 (len KEY) =? 16 then repeat 0 16 else if u16 (len KEY) =? 24 then slice KEY 16 8 ++ xor_strings (slice KEY 16 8) (repeat 255 8) else slice KEY 16 16) = be 16 (Camellia.K_R KEY)
  /\ Camellia.K_R KEY < 2 ^ 128.
Proof.
  intros [O L]. unfold Camellia.K_R, len. assert (OS : octets (skipn 16 KEY)) by now apply octets_skipn. pose proof (be_val_bound _ OS) as B. unfold len in B. rewrite skipn_length in B.
  destruct L as [L|[L|[L|[]]]]; rewrite <- L in *.
  - change (u16 (N.of_nat 16) =? 16) with true. change (16 =? 16)%nat with true. cbn iota. split; reflexivity.
  - change (u16 (N.of_nat 24) =? 16) with false. change (u16 (N.of_nat 24) =? 24) with true. change (24 =? 16)%nat with false. change (24 =? 24)%nat with true. cbn iota.
    assert (S : slice KEY 16 8 = be 8 (be_val (skipn 16 KEY))).
    { unfold slice. change (N.to_nat 16) with 16%nat. change (N.to_nat 8) with 8%nat. assert (LS : length (skipn 16 KEY) = 8%nat) by (rewrite skipn_length; lia).
      rewrite firstn_all2 by lia. rewrite <- LS at 2. symmetry. now apply be_be_val. }
    rewrite S. change (repeat 255 8) with (be 8 (2 ^ 64 - 1)). rewrite xs_be. change (256 ^ N.of_nat (24 - 16)) with (2 ^ 64) in B. set (r := be_val (skipn 16 KEY)) in *.
    assert (X : N.lxor r (2 ^ 64 - 1) = 2 ^ 64 - 1 - r).
    { change (2 ^ 64 - 1) with (N.ones 64). apply (N.lnot_sub_low r 64). destruct (N.eq_dec r 0) as [->|NZ]; [reflexivity|]. apply N.log2_lt_pow2; [lia|exact B]. }
    rewrite X. assert (RB : 2 ^ 64 - 1 - r < 2 ^ 64) by lia. split; [now apply (be_cat 8 8)|now apply (join_w 64)].
  - change (u16 (N.of_nat 32) =? 16) with false. change (u16 (N.of_nat 32) =? 24) with false. change (32 =? 16)%nat with false. change (32 =? 24)%nat with false. cbn iota.
    split; [|exact B]. unfold slice. change (N.to_nat 16) with 16%nat. assert (LS : length (skipn 16 KEY) = 16%nat) by (rewrite skipn_length; lia).
    rewrite firstn_all2 by lia. rewrite <- LS at 2. symmetry. now apply be_be_val.
Qed.
Definition keys16 (k : list N * list N * list N) : list N :=
  let '(kw, k, ke) := k in firstn 2 kw ++ firstn 9 k ++ ke ++ skipn 9 k ++ [nth 3 kw 0; nth 2 kw 0].
Definition keys32 (k : list N * list N * list N) : list N :=
  let '(kw, k, ke) := k in firstn 2 kw ++ firstn 12 k ++ ke ++ skipn 12 k ++ [nth 3 kw 0; nth 2 kw 0].
Lemma ka_std KEY : Camellia.K_L KEY < 2 ^ 128 -> Camellia.K_R KEY < 2 ^ 128 ->
  (let D := xor_strings (be 16 (Camellia.K_L KEY)) (be 16 (Camellia.K_R KEY)) in
   let D := cam_pair (slice D 0 8, slice D 8 8) (nth 0 Camellia_Sigma []) (nth 1 Camellia_Sigma []) in
   let D := cam_white D (slice (be 16 (Camellia.K_L KEY)) 0 8) (slice (be 16 (Camellia.K_L KEY)) 8 8) in
   let D := cam_pair D (nth 2 Camellia_Sigma []) (nth 3 Camellia_Sigma []) in fst D ++ snd D) = be 16 (Camellia.K_A KEY) /\ Camellia.K_A KEY < 2 ^ 128.
Proof.
  intros KL KR. cbv zeta. unfold Camellia.K_A.
  change (nth 0 Camellia_Sigma []) with (be 8 Camellia.Sigma1). change (nth 1 Camellia_Sigma []) with (be 8 Camellia.Sigma2). change (nth 2 Camellia_Sigma []) with (be 8 Camellia.Sigma3).
  change (nth 3 Camellia_Sigma []) with (be 8 Camellia.Sigma4).
  rewrite xs_be. 
  destruct (halves_std (N.lxor (Camellia.K_L KEY) (Camellia.K_R KEY)) ltac:(now apply (lxor_w 128))) as [-> W0].
  destruct (pair_std _ Camellia.Sigma1 Camellia.Sigma2 W0) as [-> W1].
  destruct (halves16 (Camellia.K_L KEY)) as [-> ->].
  destruct (white_std _ (Camellia.hi64 (Camellia.K_L KEY)) (Camellia.lo64 (Camellia.K_L KEY)) W1 ltac:(now apply hi64_w) ltac:(apply lo64_w)) as [-> W3].
  destruct (pair_std _ Camellia.Sigma3 Camellia.Sigma4 W3) as [-> W4]. exact (join_std _ W4).
Qed.
Lemma kb_std KEY : Camellia.K_A KEY < 2 ^ 128 -> Camellia.K_R KEY < 2 ^ 128 ->
  (let AR := xor_strings (be 16 (Camellia.K_A KEY)) (be 16 (Camellia.K_R KEY)) in
   let D := cam_pair (slice AR 0 8, slice AR 8 8) (nth 4 Camellia_Sigma []) (nth 5 Camellia_Sigma []) in fst D ++ snd D) = be 16 (Camellia.K_B KEY) /\ Camellia.K_B KEY < 2 ^ 128.
Proof.
  intros KA KR. cbv zeta. unfold Camellia.K_B.
  change (nth 4 Camellia_Sigma []) with (be 8 Camellia.Sigma5). change (nth 5 Camellia_Sigma []) with (be 8 Camellia.Sigma6).
  rewrite xs_be.
  destruct (halves_std (N.lxor (Camellia.K_A KEY) (Camellia.K_R KEY)) ltac:(now apply (lxor_w 128))) as [-> W5].
  destruct (pair_std _ Camellia.Sigma5 Camellia.Sigma6 W5) as [-> W6]. exact (join_std _ W6).
Qed.
Lemma setkey_std KEY : good_key KEY ->
  let ks := if (length KEY =? 16)%nat then keys16 (Camellia.subkeys128 KEY) else keys32 (Camellia.subkeys256 KEY) in
  cam_setkey KEY = map (be 8) ks /\ Forall (fun x => x < 2 ^ 64) ks.
Proof.
  intros G. unfold cam_setkey. cbv zeta. destruct (kl_std KEY G) as [-> KL]. destruct (kr_std KEY G) as [-> KR].
  assert (U : (u16 (len KEY) =? 16) = (length KEY =? 16)%nat) by (destruct G as [_ G]; unfold len; destruct G as [<-|[<-|[<-|[]]]]; reflexivity).
  rewrite U. clear U.
  destruct (ka_std KEY KL KR) as [EA KA]. destruct (kb_std KEY KA KR) as [EB KB]. cbv zeta in EA, EB. rewrite EA, EB. clear EA EB.
  unfold keys16, keys32, Camellia.subkeys128, Camellia.subkeys256, Camellia.parts. cbv zeta.
  revert KL KR KA KB. generalize (Camellia.K_L KEY) (Camellia.K_R KEY) (Camellia.K_A KEY) (Camellia.K_B KEY). intros L R A B KL KR KA KB.
  assert (P : forall K n, K < 2 ^ 128 -> n < 128 -> slice (rol_string (be 16 K) n) 0 8 = be 8 (Camellia.hi64 (rotl 128 n K))) by (intros; now apply part_std).
  assert (Q : forall K n, K < 2 ^ 128 -> n < 128 -> slice (rol_string (be 16 K) n) 8 8 = be 8 (Camellia.lo64 (rotl 128 n K))) by (intros; now apply part_std).
  assert (PW : forall K n, K < 2 ^ 128 -> n < 128 -> Camellia.hi64 (rotl 128 n K) < 2 ^ 64) by (intros; now apply part_std).
  assert (QW : forall K n, K < 2 ^ 128 -> n < 128 -> Camellia.lo64 (rotl 128 n K) < 2 ^ 64) by (intros; now apply part_std).
  destruct (length KEY =? 16)%nat; cbn [app firstn skipn nth map]; (split; [rewrite !P, !Q by (assumption || reflexivity); reflexivity|]);
    repeat (apply Forall_cons; [first [apply PW|apply QW]; [assumption|reflexivity]|]); apply Forall_nil.
Qed.

(** Encryption. *)
Lemma out_std D : w2 D -> Ok (snd (rep D) ++ fst (rep D)) = Ok (be 16 (Camellia.join (snd D, fst D))).
Proof. intros [D1 D2]. f_equal. exact (proj1 (join_std (snd D, fst D) (conj D2 D1))). Qed.
Ltac list_of l n := lazymatch n with O => destruct l as [|? ?]; [|discriminate] | S ?m => destruct l as [|? l]; [discriminate|]; list_of l m end.
Ltac heads F := repeat match type of F with Forall _ (_ :: _) => let H := fresh "B" in apply Forall_cons_iff in F; destruct F as [H F] end.
Definition tail16 (kw k ke : list N) (x : N) : bytes :=
  let D := Camellia.halves x in
  let D := (N.lxor (fst D) (Camellia.at_key kw 1), N.lxor (snd D) (Camellia.at_key kw 2)) in
  let D := Camellia.six_rounds k 1 D in let D := Camellia.fl_layer ke 1 D in
  let D := Camellia.six_rounds k 7 D in let D := Camellia.fl_layer ke 3 D in
  let D := Camellia.six_rounds k 13 D in
  be 16 (Camellia.join (N.lxor (snd D) (Camellia.at_key kw 3), N.lxor (fst D) (Camellia.at_key kw 4))).
Definition tail32 (kw k ke : list N) (x : N) : bytes :=
  let D := Camellia.halves x in
  let D := (N.lxor (fst D) (Camellia.at_key kw 1), N.lxor (snd D) (Camellia.at_key kw 2)) in
  let D := Camellia.six_rounds k 1 D in let D := Camellia.fl_layer ke 1 D in
  let D := Camellia.six_rounds k 7 D in let D := Camellia.fl_layer ke 3 D in
  let D := Camellia.six_rounds k 13 D in let D := Camellia.six_rounds k 19 (Camellia.fl_layer ke 5 D) in
  be 16 (Camellia.join (N.lxor (snd D) (Camellia.at_key kw 3), N.lxor (fst D) (Camellia.at_key kw 4))).
Definition out_of (D : bytes * bytes) : result bytes := Ok (snd D ++ fst D).
Lemma cam_run16_eq kw1 kw2 k1 k2 k3 k4 k5 k6 k7 k8 k9 ke1 ke2 ke3 ke4 k10 k11 k12 k13 k14 k15 k16 k17 k18 kw4 kw3 data : cam_run 16 [kw1; kw2; k1; k2; k3; k4; k5; k6; k7; k8; k9; ke1; ke2; ke3; ke4; k10; k11; k12; k13; k14; k15; k16; k17; k18; kw4; kw3] data = out_of (cam_white (cam_six (cam_fls (cam_six (cam_fls (cam_six (cam_white (slice data 0 8, slice data 8 8) kw1 kw2) k1 k2 k3 k4 k5 k6) ke1 ke2) k7 k8 k9 k10 k11 k12) ke3 ke4) k13 k14 k15 k16 k17 k18) kw4 kw3).
Proof. reflexivity. Qed.
Lemma cam_run32_eq n kw1 kw2 k1 k2 k3 k4 k5 k6 k7 k8 k9 k10 k11 k12 ke1 ke2 ke3 ke4 ke5 ke6 k13 k14 k15 k16 k17 k18 k19 k20 k21 k22 k23 k24 kw4 kw3 data : (n =? 16) = false -> cam_run n [kw1; kw2; k1; k2; k3; k4; k5; k6; k7; k8; k9; k10; k11; k12; ke1; ke2; ke3; ke4; ke5; ke6; k13; k14; k15; k16; k17; k18; k19; k20; k21; k22; k23; k24; kw4; kw3] data = out_of (cam_white (cam_six (cam_fls (cam_six (cam_fls (cam_six (cam_fls (cam_six (cam_white (slice data 0 8, slice data 8 8) kw1 kw2) k1 k2 k3 k4 k5 k6) ke1 ke2) k7 k8 k9 k10 k11 k12) ke3 ke4) k13 k14 k15 k16 k17 k18) ke5 ke6) k19 k20 k21 k22 k23 k24) kw4 kw3).
Proof. intros E. unfold cam_run. rewrite E. reflexivity. Qed.
Definition white2 (D : N * N) (a b : N) : N * N := (N.lxor (fst D) a, N.lxor (snd D) b).
Definition fls2 (D : N * N) (a b : N) : N * N := (Camellia.FL (fst D) a, Camellia.FLINV (snd D) b).
Definition six2 (D : N * N) (a b c d e f : N) : N * N := Camellia.two_rounds e f (Camellia.two_rounds c d (Camellia.two_rounds a b D)).
Definition out2 (D : N * N) : bytes := be 16 (Camellia.join (snd D, fst D)).
Lemma six_eq k i D : Camellia.six_rounds k i D = six2 D (Camellia.at_key k i) (Camellia.at_key k (i + 1)) (Camellia.at_key k (i + 2)) (Camellia.at_key k (i + 3)) (Camellia.at_key k (i + 4)) (Camellia.at_key k (i + 5)).
Proof. reflexivity. Qed.
Lemma fl_eq k i D : Camellia.fl_layer k i D = fls2 D (Camellia.at_key k i) (Camellia.at_key k (i + 1)).
Proof. reflexivity. Qed.
Lemma white_eq D a b : (N.lxor (fst D) a, N.lxor (snd D) b) = white2 D a b.
Proof. reflexivity. Qed.
Lemma out_eq D a b : be 16 (Camellia.join (N.lxor (snd D) a, N.lxor (fst D) b)) = out2 (white2 D b a).
Proof. reflexivity. Qed.
Lemma tail16_eq kw1 kw2 k1 k2 k3 k4 k5 k6 k7 k8 k9 ke1 ke2 ke3 ke4 k10 k11 k12 k13 k14 k15 k16 k17 k18 kw4 kw3 x : tail16 [kw1; kw2; kw3; kw4] [k1; k2; k3; k4; k5; k6; k7; k8; k9; k10; k11; k12; k13; k14; k15; k16; k17; k18] [ke1; ke2; ke3; ke4] x = out2 (white2 (six2 (fls2 (six2 (fls2 (six2 (white2 (Camellia.halves x) kw1 kw2) k1 k2 k3 k4 k5 k6) ke1 ke2) k7 k8 k9 k10 k11 k12) ke3 ke4) k13 k14 k15 k16 k17 k18) kw4 kw3).
Proof. unfold tail16. cbv zeta. rewrite !six_eq, !fl_eq, out_eq, white_eq. cbn [Nat.add]. unfold Camellia.at_key. cbn [nth Nat.sub]. reflexivity. Qed.
Lemma keys16_eq kw1 kw2 k1 k2 k3 k4 k5 k6 k7 k8 k9 ke1 ke2 ke3 ke4 k10 k11 k12 k13 k14 k15 k16 k17 k18 kw4 kw3 : keys16 ([kw1; kw2; kw3; kw4], [k1; k2; k3; k4; k5; k6; k7; k8; k9; k10; k11; k12; k13; k14; k15; k16; k17; k18], [ke1; ke2; ke3; ke4]) = [kw1; kw2; k1; k2; k3; k4; k5; k6; k7; k8; k9; ke1; ke2; ke3; ke4; k10; k11; k12; k13; k14; k15; k16; k17; k18; kw4; kw3].
Proof. reflexivity. Qed.
Lemma tail32_eq kw1 kw2 k1 k2 k3 k4 k5 k6 k7 k8 k9 k10 k11 k12 ke1 ke2 ke3 ke4 ke5 ke6 k13 k14 k15 k16 k17 k18 k19 k20 k21 k22 k23 k24 kw4 kw3 x : tail32 [kw1; kw2; kw3; kw4] [k1; k2; k3; k4; k5; k6; k7; k8; k9; k10; k11; k12; k13; k14; k15; k16; k17; k18; k19; k20; k21; k22; k23; k24] [ke1; ke2; ke3; ke4; ke5; ke6] x = out2 (white2 (six2 (fls2 (six2 (fls2 (six2 (fls2 (six2 (white2 (Camellia.halves x) kw1 kw2) k1 k2 k3 k4 k5 k6) ke1 ke2) k7 k8 k9 k10 k11 k12) ke3 ke4) k13 k14 k15 k16 k17 k18) ke5 ke6) k19 k20 k21 k22 k23 k24) kw4 kw3).
Proof. unfold tail32. cbv zeta. rewrite !six_eq, !fl_eq, out_eq, white_eq. cbn [Nat.add]. unfold Camellia.at_key. cbn [nth Nat.sub]. reflexivity. Qed.
Lemma keys32_eq kw1 kw2 k1 k2 k3 k4 k5 k6 k7 k8 k9 k10 k11 k12 ke1 ke2 ke3 ke4 ke5 ke6 k13 k14 k15 k16 k17 k18 k19 k20 k21 k22 k23 k24 kw4 kw3 : keys32 ([kw1; kw2; kw3; kw4], [k1; k2; k3; k4; k5; k6; k7; k8; k9; k10; k11; k12; k13; k14; k15; k16; k17; k18; k19; k20; k21; k22; k23; k24], [ke1; ke2; ke3; ke4; ke5; ke6]) = [kw1; kw2; k1; k2; k3; k4; k5; k6; k7; k8; k9; k10; k11; k12; ke1; ke2; ke3; ke4; ke5; ke6; k13; k14; k15; k16; k17; k18; k19; k20; k21; k22; k23; k24; kw4; kw3].
Proof. reflexivity. Qed.
Ltac white W := match goal with |- context [cam_white (rep ?D) (be 8 ?a) (be 8 ?b)] => let V := fresh in destruct (white_std D a b W ltac:(assumption) ltac:(assumption)) as [-> V]; clear W; rename V into W; fold (white2 D a b) in W |- * end.
Ltac six W := match goal with |- context [cam_six (rep ?D) (be 8 ?a) (be 8 ?b) (be 8 ?c) (be 8 ?d) (be 8 ?e) (be 8 ?f)] => let V := fresh in destruct (six_std D a b c d e f W) as [-> V]; clear W; rename V into W; fold (six2 D a b c d e f) in W |- * end.
Ltac fls W := match goal with |- context [cam_fls (rep ?D) (be 8 ?a) (be 8 ?b)] => let V := fresh in destruct (fls_std D a b W ltac:(assumption) ltac:(assumption)) as [-> V]; clear W; rename V into W; fold (fls2 D a b) in W |- * end.
Ltac name W := match type of W with w2 ?D => let d := fresh "D" in revert W; generalize D; intros d W end.
Lemma run16 kw k ke x : length kw = 4%nat -> length k = 18%nat -> length ke = 4%nat -> Forall (fun v => v < 2 ^ 64) (keys16 (kw, k, ke)) -> x < 2 ^ 128 ->
  cam_run 16 (map (be 8) (keys16 (kw, k, ke))) (be 16 x) = Ok (tail16 kw k ke x).
Proof.
  intros L1 L2 L3 F X. list_of kw 4%nat. list_of k 18%nat. list_of ke 4%nat. rewrite keys16_eq in F |- *. heads F. cbn [map].
  rewrite cam_run16_eq. rewrite tail16_eq.
  destruct (halves_std x X) as [-> W]. white W. name W. six W. name W. fls W. name W. six W. name W. fls W. name W. six W. name W. white W. name W. exact (out_std _ W).
Qed.
Lemma run32 n kw k ke x : (n =? 16) = false -> length kw = 4%nat -> length k = 24%nat -> length ke = 6%nat -> Forall (fun v => v < 2 ^ 64) (keys32 (kw, k, ke)) -> x < 2 ^ 128 ->
  cam_run n (map (be 8) (keys32 (kw, k, ke))) (be 16 x) = Ok (tail32 kw k ke x).
Proof.
  intros NE L1 L2 L3 F X. list_of kw 4%nat. list_of k 24%nat. list_of ke 6%nat. rewrite keys32_eq in F |- *. heads F. cbn [map].
  rewrite cam_run32_eq by exact NE. rewrite tail32_eq.
  destruct (halves_std x X) as [-> W]. white W. name W. six W. name W. fls W. name W. six W. name W. fls W. name W. six W. name W. fls W. name W. six W. name W. white W. name W. exact (out_std _ W).
Qed.
Theorem camellia_std KEY c d : octets KEY -> Camellia KEY = Ok c -> In (length KEY) [16; 24; 32]%nat -> octets d -> length d = 16%nat ->
  c_encrypt c d = Ok (Camellia.camellia_cipher KEY d).
Proof.
  intros O C L Od Ld. assert (G : good_key KEY) by now split. destruct (setkey_std KEY G) as [SK F]. cbv zeta in SK, F.
  unfold Camellia in C. cbv zeta in C.
  assert (U : u16 (len KEY) = len KEY /\ (u16 (len KEY) =? 16) = (length KEY =? 16)%nat /\ ((u16 (len KEY) =? 16) || (u16 (len KEY) =? 24) || (u16 (len KEY) =? 32)) = true)
    by (unfold len; destruct L as [<-|[<-|[<-|[]]]]; repeat split; reflexivity).
  destruct U as (_ & U & V). rewrite V in C. apply Ok_inj in C. rewrite <- C. cbn [c_encrypt]. rewrite on_block_len by exact Ld. rewrite SK.
  assert (DX : d = be 16 (be_val d)) by (rewrite <- Ld; symmetry; now apply be_be_val).
  assert (X : be_val d < 2 ^ 128) by (pose proof (be_val_bound d Od) as B; unfold len in B; rewrite Ld in B; exact B).
  unfold Camellia.camellia_cipher. rewrite DX at 1. clear C V SK DX. revert X. generalize (be_val d). intros x X.
  destruct (length KEY =? 16)%nat.
  - rewrite (proj1 (N.eqb_eq _ _) U).
    assert (LL : length (fst (fst (Camellia.subkeys128 KEY))) = 4%nat /\ length (snd (fst (Camellia.subkeys128 KEY))) = 18%nat /\ length (snd (Camellia.subkeys128 KEY)) = 4%nat) by (repeat apply conj; reflexivity).
    destruct (Camellia.subkeys128 KEY) as [[kw k] ke]. destruct LL as (L1 & L2 & L3). rewrite run16 by assumption. reflexivity.
  - assert (LL : length (fst (fst (Camellia.subkeys256 KEY))) = 4%nat /\ length (snd (fst (Camellia.subkeys256 KEY))) = 24%nat /\ length (snd (Camellia.subkeys256 KEY)) = 6%nat) by (repeat apply conj; reflexivity).
    destruct (Camellia.subkeys256 KEY) as [[kw k] ke]. destruct LL as (L1 & L2 & L3). rewrite run32 by assumption. reflexivity.
Qed.
