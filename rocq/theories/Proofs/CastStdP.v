(** CAST-128 computes the function of RFC 2144. *)
From Verif Require Import Proofs.CipherLib Proofs.HashStdP Proofs.FeistelP Proofs.DesStdP Proofs.RotP.
From Verif Require Proofs.AesP Proofs.CamelliaStdP.
From Verif Require Spec.Cast.
From Verif Require Import Proofs.Lib.
Local Infix "^^" := N.lxor (at level 40, left associativity).

(** The boxes hold 32-bit words. *)
Lemma boxes_w32 : forallb (fun t => forallb (fun v => v <? two32) t) [CAST_S1; CAST_S2; CAST_S3; CAST_S4; CAST128_S5; CAST128_S6; CAST128_S7; CAST128_S8] = true.
Proof. vm_compute. reflexivity. Qed.
Lemma nth_w32 t v : forallb (fun v => v <? two32) t = true -> nth v t 0 < two32.
Proof.
  intros F. destruct (Nat.lt_ge_cases v (length t)) as [C|C]; [|rewrite nth_overflow by exact C; reflexivity].
  rewrite forallb_forall in F. apply N.ltb_lt. apply F. now apply nth_In.
Qed.
Lemma box_w32 n v : Cast.box n v < two32.
Proof.
  unfold Cast.box. apply nth_w32. destruct (Nat.lt_ge_cases (n - 1) 8) as [C|C]; [|rewrite nth_overflow by (cbn; lia); reflexivity].
  pose proof boxes_w32 as B. rewrite forallb_forall in B. apply B, nth_In. cbn. lia.
Qed.
Lemma word_octets t : t < two32 -> [N.shiftr t 24; N.land (N.shiftr t 16) 255; N.land (N.shiftr t 8) 255; N.land t 255] = be 4 t.
Proof.
  intros T. cbn [be]. change (256 ^ N.of_nat 3) with (2 ^ 24). change (256 ^ N.of_nat 2) with (2 ^ 16). change (256 ^ N.of_nat 1) with (2 ^ 8). change (256 ^ N.of_nat 0) with 1.
  change 255 with (N.ones 8). rewrite !N.land_ones, !N.shiftr_div_pow2, N.div_1_r. change (2 ^ 8) with 256 at 1 3 4 5. change (N.ones 8) with 255.
  rewrite (N.mod_small (t / 2 ^ 24)); [reflexivity|]. apply N.div_lt_upper_bound; [discriminate|exact T].
Qed.
Lemma cast_word_be a b c d : a < 256 -> b < 256 -> c < 256 -> d < 256 -> cast_word a b c d = be_val [a; b; c; d] /\ cast_word a b c d < two32.
Proof.
  intros A B C D. unfold cast_word. split; [|apply u32_lt]. rewrite !N.shiftl_mul_pow2. rewrite u32_small; [cbn; lia|].
  change (2 ^ 24) with 16777216. change (2 ^ 16) with 65536. change (2 ^ 8) with 256. unfold two32. lia.
Qed.
Definition quad4 (q a b c d e : N) : N := q ^^ a ^^ b ^^ c ^^ d ^^ e.
Lemma quad4_xors q a b c d e : quad4 q a b c d e = Cast.xors [q; a; b; c; d; e].
Proof. unfold quad4, Cast.xors. cbn [fold_right]. now rewrite N.lxor_0_r, !N.lxor_assoc. Qed.
Lemma quad4_lt q a b c d e : q < two32 -> a < two32 -> b < two32 -> c < two32 -> d < two32 -> e < two32 -> quad4 q a b c d e < two32.
Proof. intros. unfold quad4. repeat apply (CamelliaStdP.lxor_w 32); assumption. Qed.
Lemma group q a b c d e : q < two32 -> a < two32 -> b < two32 -> c < two32 -> d < two32 -> e < two32 ->
  cast_octets (q ^^ a ^^ b ^^ c ^^ d ^^ e) = be 4 (Cast.xors [q; a; b; c; d; e]).
Proof.
  intros Q A B C D E. change (q ^^ a ^^ b ^^ c ^^ d ^^ e) with (quad4 q a b c d e). unfold cast_octets. rewrite word_octets by now apply quad4_lt. now rewrite quad4_xors.
Qed.
Definition row16 (s : list N) : Prop := octets s /\ length s = 16%nat.
Lemma quad_std s i : octets s -> (i + 4 <= length s)%nat ->
  cast_word (idx s i) (idx s (i + 1)) (idx s (i + 2)) (idx s (i + 3)) = Cast.quad s i /\ Cast.quad s i < two32.
Proof.
  intros O L. unfold Cast.quad.
  assert (E : firstn 4 (skipn i s) = [idx s i; idx s (i + 1); idx s (i + 2); idx s (i + 3)]).
  { assert (G : forall i s, (i + 4 <= length s)%nat -> firstn 4 (skipn i s) = [nth i s 0; nth (i + 1) s 0; nth (i + 2) s 0; nth (i + 3) s 0]).
    { clear. induction i as [|i IH]; intros s L; [do 4 (destruct s as [|? s]; [cbn in L; lia|]); reflexivity|].
      destruct s as [|c s]; [cbn in L; lia|]. cbn [skipn]. rewrite IH by (cbn in L; lia). reflexivity. }
    exact (G i s L). }
  rewrite E. assert (F : octets (firstn 4 (skipn i s))) by now apply octets_firstn, octets_skipn. rewrite E in F.
  repeat (apply octets_cons in F as [? F]). destruct (cast_word_be (idx s i) (idx s (i + 1)) (idx s (i + 2)) (idx s (i + 3))) as [A B]; auto. rewrite A in *. auto.
Qed.
Lemma box_eqs v : cast_S5 v = Cast.box 5 v /\ cast_S6 v = Cast.box 6 v /\ cast_S7 v = Cast.box 7 v /\ cast_S8 v = Cast.box 8 v.
Proof. repeat apply conj; reflexivity. Qed.
Lemma stage s i q a b c d e : octets s -> (i + 4 <= length s)%nat -> q = cast_word (idx s i) (idx s (i + 1)) (idx s (i + 2)) (idx s (i + 3)) ->
  a < two32 -> b < two32 -> c < two32 -> d < two32 -> e < two32 -> cast_octets (q ^^ a ^^ b ^^ c ^^ d ^^ e) = be 4 (Cast.xors [Cast.quad s i; a; b; c; d; e]).
Proof. intros O L -> A B C D E. destruct (quad_std s i O L) as [Q W]. rewrite Q. now apply group. Qed.
Ltac boxes := repeat match goal with
  | |- context [cast_S5 ?v] => change (cast_S5 v) with (Cast.box 5 v)
  | |- context [cast_S6 ?v] => change (cast_S6 v) with (Cast.box 6 v)
  | |- context [cast_S7 ?v] => change (cast_S7 v) with (Cast.box 7 v)
  | |- context [cast_S8 ?v] => change (cast_S8 v) with (Cast.box 8 v)
  end.
(** One group after another, the octets so far as a variable. *)
Definition mz0 (s : list N) : list N := cast_octets (cast_word (idx s 0) (idx s 1) (idx s 2) (idx s 3) ^^ cast_S5 (nth 13 s 0) ^^ cast_S6 (nth 15 s 0) ^^ cast_S7 (nth 12 s 0) ^^ cast_S8 (nth 14 s 0) ^^ cast_S7 (nth 8 s 0)).
Definition sz0 (s : list N) : list N := be 4 (Cast.xors [Cast.quad s 0; Cast.box 5 (nth 13 s 0); Cast.box 6 (nth 15 s 0); Cast.box 7 (nth 12 s 0); Cast.box 8 (nth 14 s 0); Cast.box 7 (nth 8 s 0)]).
Lemma gz0 s : row16 s -> mz0 s = sz0 s.
Proof. intros [O L]. unfold mz0, sz0. apply stage; [exact O|rewrite L; lia|reflexivity|apply box_w32..]. Qed.
Definition mz1 (s : list N) (o : list N) : list N := o ++ cast_octets (cast_word (idx s 8) (idx s 9) (idx s 10) (idx s 11) ^^ cast_S5 (nth 0 o 0) ^^ cast_S6 (nth 2 o 0) ^^ cast_S7 (nth 1 o 0) ^^ cast_S8 (nth 3 o 0) ^^ cast_S8 (nth 10 s 0)).
Definition sz1 (s : list N) (o : list N) : list N := o ++ be 4 (Cast.xors [Cast.quad s 8; Cast.box 5 (nth 0 o 0); Cast.box 6 (nth 2 o 0); Cast.box 7 (nth 1 o 0); Cast.box 8 (nth 3 o 0); Cast.box 8 (nth 10 s 0)]).
Lemma gz1 s o : row16 s -> mz1 s o = sz1 s o.
Proof. intros [O L]. unfold mz1, sz1. f_equal. apply stage; [exact O|rewrite L; lia|reflexivity|apply box_w32..]. Qed.
Definition mz2 (s : list N) (o : list N) : list N := o ++ cast_octets (cast_word (idx s 12) (idx s 13) (idx s 14) (idx s 15) ^^ cast_S5 (nth 7 o 0) ^^ cast_S6 (nth 6 o 0) ^^ cast_S7 (nth 5 o 0) ^^ cast_S8 (nth 4 o 0) ^^ cast_S5 (nth 9 s 0)).
Definition sz2 (s : list N) (o : list N) : list N := o ++ be 4 (Cast.xors [Cast.quad s 12; Cast.box 5 (nth 7 o 0); Cast.box 6 (nth 6 o 0); Cast.box 7 (nth 5 o 0); Cast.box 8 (nth 4 o 0); Cast.box 5 (nth 9 s 0)]).
Lemma gz2 s o : row16 s -> mz2 s o = sz2 s o.
Proof. intros [O L]. unfold mz2, sz2. f_equal. apply stage; [exact O|rewrite L; lia|reflexivity|apply box_w32..]. Qed.
Definition mz3 (s : list N) (o : list N) : list N := o ++ cast_octets (cast_word (idx s 4) (idx s 5) (idx s 6) (idx s 7) ^^ cast_S5 (nth 10 o 0) ^^ cast_S6 (nth 9 o 0) ^^ cast_S7 (nth 11 o 0) ^^ cast_S8 (nth 8 o 0) ^^ cast_S6 (nth 11 s 0)).
Definition sz3 (s : list N) (o : list N) : list N := o ++ be 4 (Cast.xors [Cast.quad s 4; Cast.box 5 (nth 10 o 0); Cast.box 6 (nth 9 o 0); Cast.box 7 (nth 11 o 0); Cast.box 8 (nth 8 o 0); Cast.box 6 (nth 11 s 0)]).
Lemma gz3 s o : row16 s -> mz3 s o = sz3 s o.
Proof. intros [O L]. unfold mz3, sz3. f_equal. apply stage; [exact O|rewrite L; lia|reflexivity|apply box_w32..]. Qed.
Lemma z_std s : row16 s -> cast_z s = Cast.z_of s /\ row16 (Cast.z_of s).
Proof.
  intros R. assert (A : cast_z s = mz3 s (mz2 s (mz1 s (mz0 s)))) by reflexivity. assert (B : Cast.z_of s = sz3 s (sz2 s (sz1 s (sz0 s)))) by reflexivity.
  rewrite A, B, gz0, gz1, gz2, gz3 by exact R. split; [reflexivity|]. unfold sz3, sz2, sz1, sz0. split.
  - repeat (apply octets_app; split); apply be_octets.
  - rewrite !app_length, !be_length. reflexivity.
Qed.
Definition mx0 (s : list N) : list N := cast_octets (cast_word (idx s 8) (idx s 9) (idx s 10) (idx s 11) ^^ cast_S5 (nth 5 s 0) ^^ cast_S6 (nth 7 s 0) ^^ cast_S7 (nth 4 s 0) ^^ cast_S8 (nth 6 s 0) ^^ cast_S7 (nth 0 s 0)).
Definition sx0 (s : list N) : list N := be 4 (Cast.xors [Cast.quad s 8; Cast.box 5 (nth 5 s 0); Cast.box 6 (nth 7 s 0); Cast.box 7 (nth 4 s 0); Cast.box 8 (nth 6 s 0); Cast.box 7 (nth 0 s 0)]).
Lemma gx0 s : row16 s -> mx0 s = sx0 s.
Proof. intros [O L]. unfold mx0, sx0. apply stage; [exact O|rewrite L; lia|reflexivity|apply box_w32..]. Qed.
Definition mx1 (s : list N) (o : list N) : list N := o ++ cast_octets (cast_word (idx s 0) (idx s 1) (idx s 2) (idx s 3) ^^ cast_S5 (nth 0 o 0) ^^ cast_S6 (nth 2 o 0) ^^ cast_S7 (nth 1 o 0) ^^ cast_S8 (nth 3 o 0) ^^ cast_S8 (nth 2 s 0)).
Definition sx1 (s : list N) (o : list N) : list N := o ++ be 4 (Cast.xors [Cast.quad s 0; Cast.box 5 (nth 0 o 0); Cast.box 6 (nth 2 o 0); Cast.box 7 (nth 1 o 0); Cast.box 8 (nth 3 o 0); Cast.box 8 (nth 2 s 0)]).
Lemma gx1 s o : row16 s -> mx1 s o = sx1 s o.
Proof. intros [O L]. unfold mx1, sx1. f_equal. apply stage; [exact O|rewrite L; lia|reflexivity|apply box_w32..]. Qed.
Definition mx2 (s : list N) (o : list N) : list N := o ++ cast_octets (cast_word (idx s 4) (idx s 5) (idx s 6) (idx s 7) ^^ cast_S5 (nth 7 o 0) ^^ cast_S6 (nth 6 o 0) ^^ cast_S7 (nth 5 o 0) ^^ cast_S8 (nth 4 o 0) ^^ cast_S5 (nth 1 s 0)).
Definition sx2 (s : list N) (o : list N) : list N := o ++ be 4 (Cast.xors [Cast.quad s 4; Cast.box 5 (nth 7 o 0); Cast.box 6 (nth 6 o 0); Cast.box 7 (nth 5 o 0); Cast.box 8 (nth 4 o 0); Cast.box 5 (nth 1 s 0)]).
Lemma gx2 s o : row16 s -> mx2 s o = sx2 s o.
Proof. intros [O L]. unfold mx2, sx2. f_equal. apply stage; [exact O|rewrite L; lia|reflexivity|apply box_w32..]. Qed.
Definition mx3 (s : list N) (o : list N) : list N := o ++ cast_octets (cast_word (idx s 12) (idx s 13) (idx s 14) (idx s 15) ^^ cast_S5 (nth 10 o 0) ^^ cast_S6 (nth 9 o 0) ^^ cast_S7 (nth 11 o 0) ^^ cast_S8 (nth 8 o 0) ^^ cast_S6 (nth 3 s 0)).
Definition sx3 (s : list N) (o : list N) : list N := o ++ be 4 (Cast.xors [Cast.quad s 12; Cast.box 5 (nth 10 o 0); Cast.box 6 (nth 9 o 0); Cast.box 7 (nth 11 o 0); Cast.box 8 (nth 8 o 0); Cast.box 6 (nth 3 s 0)]).
Lemma gx3 s o : row16 s -> mx3 s o = sx3 s o.
Proof. intros [O L]. unfold mx3, sx3. f_equal. apply stage; [exact O|rewrite L; lia|reflexivity|apply box_w32..]. Qed.
Lemma x_std s : row16 s -> cast_x s = Cast.x_of s /\ row16 (Cast.x_of s).
Proof.
  intros R. assert (A : cast_x s = mx3 s (mx2 s (mx1 s (mx0 s)))) by reflexivity. assert (B : Cast.x_of s = sx3 s (sx2 s (sx1 s (sx0 s)))) by reflexivity.
  rewrite A, B, gx0, gx1, gx2, gx3 by exact R. split; [reflexivity|]. unfold sx3, sx2, sx1, sx0. split.
  - repeat (apply octets_app; split); apply be_octets.
  - rewrite !app_length, !be_length. reflexivity.
Qed.
Lemma four_std t sel a b c d e a1 b1 c1 d1 e1 a2 b2 c2 d2 e2 a3 b3 c3 d3 e3 :
  sel = [[a; b; c; d; e]; [a1; b1; c1; d1; e1]; [a2; b2; c2; d2; e2]; [a3; b3; c3; d3; e3]]%nat ->
  Cast.four_keys t sel =
    [cast_S5 (idx t a) ^^ cast_S6 (idx t b) ^^ cast_S7 (idx t c) ^^ cast_S8 (idx t d) ^^ cast_S5 (idx t e);
     cast_S5 (idx t a1) ^^ cast_S6 (idx t b1) ^^ cast_S7 (idx t c1) ^^ cast_S8 (idx t d1) ^^ cast_S6 (idx t e1);
     cast_S5 (idx t a2) ^^ cast_S6 (idx t b2) ^^ cast_S7 (idx t c2) ^^ cast_S8 (idx t d2) ^^ cast_S7 (idx t e2);
     cast_S5 (idx t a3) ^^ cast_S6 (idx t b3) ^^ cast_S7 (idx t c3) ^^ cast_S8 (idx t d3) ^^ cast_S8 (idx t e3)].
Proof. intros ->. unfold Cast.four_keys, Cast.xors. cbn [combine map fold_right fst snd nth]. now rewrite !N.lxor_0_r, !N.lxor_assoc. Qed.
Lemma keys_std K : row16 K -> cast_keys K = (fst (Cast.sixteen K), map (fun k => k mod 32) (fst (Cast.sixteen (snd (Cast.sixteen K))))).
Proof.
  intros R. unfold cast_keys, Cast.sixteen. cbv zeta. cbn [fst snd].
  destruct (z_std K R) as [-> R1]. destruct (x_std _ R1) as [-> R2]. destruct (z_std _ R2) as [-> R3]. destruct (x_std _ R3) as [-> R4].
  destruct (z_std _ R4) as [-> R5]. destruct (x_std _ R5) as [-> R6]. destruct (z_std _ R6) as [-> R7]. destruct (x_std _ R7) as [-> R8].
  rewrite !(four_std _ Cast.sel1 8 9 7 6 2 10 11 5 4 6 12 13 3 2 9 14 15 1 0 12 eq_refl), !(four_std _ Cast.sel2 3 2 12 13 8 1 0 14 15 13 7 6 8 9 3 5 4 10 11 7 eq_refl), !(four_std _ Cast.sel3 3 2 12 13 9 1 0 14 15 12 7 6 8 9 2 5 4 10 11 6 eq_refl), !(four_std _ Cast.sel4 8 9 7 6 3 10 11 5 4 7 12 13 3 2 8 14 15 1 0 13 eq_refl).
  f_equal. apply map_ext. intros k. exact (N.land_ones k 5).
Qed.
(** The rounds. *)
Lemma bits8 x n : byte x n = x / 2 ^ (8 * n) mod 256.
Proof. unfold byte. change 255 with (N.ones 8). rewrite N.land_ones, N.shiftr_div_pow2. reflexivity. Qed.
Lemma sub_std a b : b < two32 -> sub32 a b = Cast.sub a b.
Proof. intros B. unfold sub32. rewrite (u32_small b) by exact B. reflexivity. Qed.
Lemma sub_w32 a b : Cast.sub a b < two32. Proof. apply N.mod_lt. discriminate. Qed.
Lemma add_w32 a b : Cast.add a b < two32. Proof. apply N.mod_lt. discriminate. Qed.
Lemma f_std i D km kr : D < two32 -> km < two32 -> kr < 32 -> cast_f (N.of_nat i) D km kr = Cast.f i D km kr /\ Cast.f i D km kr < two32.
Proof.
  intros HD HK HR. unfold cast_f, Cast.f.
  assert (E : N.of_nat i mod 3 = N.of_nat (i mod 3)) by (now rewrite Nat2N.inj_mod).
  assert (M : (i mod 3 < 3)%nat) by (apply Nat.mod_upper_bound; lia).
  assert (T : forall I, tab CAST_S1 (N.shiftr I 24) = Cast.box 1 (I / 2 ^ 24) /\ tab CAST_S2 (byte I 2) = Cast.box 2 (I / 2 ^ 16 mod 256)
    /\ tab CAST_S3 (byte I 1) = Cast.box 3 (I / 2 ^ 8 mod 256) /\ tab CAST_S4 (byte I 0) = Cast.box 4 (I mod 256)).
  { intros I. rewrite N.shiftr_div_pow2, !bits8. change (8 * 2) with 16. change (8 * 1) with 8. change (8 * 0) with 0. rewrite (N.pow_0_r 2), N.div_1_r. auto. }
  assert (X : forall a b, a < two32 -> b < two32 -> N.lxor a b < two32) by (intros a b A B; now apply (CamelliaStdP.lxor_w 32)).
  rewrite E. destruct (i mod 3)%nat as [|[|[|m]]]; [..|lia]; cbn [N.of_nat Pos.of_succ_nat Pos.succ].
  - rewrite (sub_std km D HD). rewrite rol32_std by (lia || apply sub_w32). set (I := rotl 32 kr (Cast.sub km D)). destruct (T I) as (-> & -> & -> & ->).
    rewrite sub_std by apply box_w32. split; [reflexivity|apply sub_w32].
  - change (u32 (km + D)) with (Cast.add km D). rewrite rol32_std by (lia || apply add_w32). set (I := rotl 32 kr (Cast.add km D)). destruct (T I) as (-> & -> & -> & ->).
    rewrite sub_std by apply box_w32. split; [reflexivity|apply add_w32].
  - rewrite (u32_small (N.lxor km D)) by now apply X. rewrite rol32_std by (lia || now apply X). set (I := rotl 32 kr (N.lxor km D)). destruct (T I) as (-> & -> & -> & ->).
    rewrite sub_std by apply box_w32. match goal with |- u32 (u32 (?a + ?b) ^^ ?c) = _ /\ _ => change (u32 (a + b)) with (Cast.add a b) end.
    pose proof (X _ _ (add_w32 (Cast.sub (Cast.box 1 (I / 2 ^ 24)) (Cast.box 2 (I / 2 ^ 16 mod 256))) (Cast.box 3 (I / 2 ^ 8 mod 256))) (box_w32 4 (I mod 256))) as W.
    rewrite u32_small by exact W. split; [reflexivity|exact W].
Qed.
Lemma nth_all {P : N -> Prop} l i : P 0 -> Forall P l -> P (nth i l 0).
Proof. intros Z F. destruct (Nat.lt_ge_cases i (length l)) as [C|C]; [|now rewrite nth_overflow by exact C]. rewrite Forall_forall in F. now apply F, nth_In. Qed.
Lemma rounds_std km kr is lr : Forall (fun k => k < two32) km -> Forall (fun k => k < 32) kr -> ok2 lr ->
  fold_left (cast_round km kr) is lr = fold_left (Cast.cast_step km kr) is lr.
Proof.
  intros KM KR. revert lr. induction is as [|i is IH]; intros lr [A B]; [reflexivity|]. cbn [fold_left].
  destruct (f_std i (snd lr) (nth (i - 1) km 0) (nth (i - 1) kr 0) B (nth_all km (i - 1) eq_refl KM) (nth_all kr (i - 1) eq_refl KR)) as [F W].
  assert (E : cast_round km kr lr i = Cast.cast_step km kr lr i).
  { unfold cast_round, Cast.cast_step, idx. rewrite F. f_equal. apply u32_small. apply (CamelliaStdP.lxor_w 32); [exact A|exact W]. }
  rewrite E. apply IH. split; [exact B|]. apply (CamelliaStdP.lxor_w 32); [exact A|exact W].
Qed.
Lemma four_w32 t sel : Forall (fun k => k < two32) (Cast.four_keys t sel).
Proof.
  apply Forall_forall. intros k I. unfold Cast.four_keys in I. apply in_map_iff in I as (ns & <- & _). unfold Cast.xors. cbn [fold_right].
  repeat apply (CamelliaStdP.lxor_w 32); first [apply box_w32|reflexivity].
Qed.
Lemma cast_z_eq s : cast_z s = mz3 s (mz2 s (mz1 s (mz0 s))).
Proof. reflexivity. Qed.
Lemma cast_z_ext a b : (forall i, (i < 16)%nat -> nth i a 0 = nth i b 0) -> cast_z a = cast_z b.
Proof.
  intros H. rewrite !cast_z_eq.
  assert (E0 : mz0 a = mz0 b) by (unfold mz0, idx; rewrite !(H _) by lia; reflexivity).
  assert (E1 : forall o, mz1 a o = mz1 b o) by (intros o; unfold mz1, idx; rewrite (H 8%nat), (H 9%nat), (H 10%nat), (H 11%nat) by lia; reflexivity).
  assert (E2 : forall o, mz2 a o = mz2 b o) by (intros o; unfold mz2, idx; rewrite (H 12%nat), (H 13%nat), (H 14%nat), (H 15%nat), (H 9%nat) by lia; reflexivity).
  assert (E3 : forall o, mz3 a o = mz3 b o) by (intros o; unfold mz3, idx; rewrite (H 4%nat), (H 5%nat), (H 6%nat), (H 7%nat), (H 11%nat) by lia; reflexivity).
  now rewrite E0, E1, E2, E3.
Qed.
Lemma cast_keys_ext a b : cast_z a = cast_z b -> cast_keys a = cast_keys b.
Proof. intros E. unfold cast_keys. rewrite E. reflexivity. Qed.
Lemma sixteen_eq x : fst (Cast.sixteen x) = Cast.four_keys (Cast.z_of x) Cast.sel1 ++ Cast.four_keys (Cast.x_of (Cast.z_of x)) Cast.sel2
  ++ Cast.four_keys (Cast.z_of (Cast.x_of (Cast.z_of x))) Cast.sel3 ++ Cast.four_keys (Cast.x_of (Cast.z_of (Cast.x_of (Cast.z_of x)))) Cast.sel4.
Proof. reflexivity. Qed.
Lemma masking_w32 KEY : Forall (fun k => k < two32) (Cast.masking KEY).
Proof. unfold Cast.masking. rewrite sixteen_eq. repeat (apply Forall_app; split); apply four_w32. Qed.
Lemma rotation_w KEY : Forall (fun k => k < 32) (Cast.rotation KEY).
Proof. apply Forall_forall. intros k I. unfold Cast.rotation in I. apply in_map_iff in I as (v & <- & _). apply N.mod_lt. discriminate. Qed.
Lemma padded_row KEY : octets KEY -> row16 (Cast.padded KEY).
Proof.
  intros O. unfold Cast.padded. split; [apply octets_firstn, octets_app; split; [exact O|apply octets_repeat; reflexivity]|]. rewrite firstn_length, app_length, repeat_length. lia.
Qed.
Lemma padded_nth KEY i : (i < 16)%nat -> nth i (KEY ++ repeat 0 (N.to_nat (16 - len KEY))) 0 = nth i (Cast.padded KEY) 0.
Proof.
  intros I. unfold Cast.padded. assert (FN : forall (l : list N) n i, (i < n)%nat -> nth i (firstn n l) 0 = nth i l 0).
  { clear. intros l n. revert l. induction n as [|n IH]; intros l i H; [lia|]. destruct l as [|x l]; [reflexivity|]. destruct i as [|i]; [reflexivity|]. cbn. apply IH. lia. }
  rewrite FN by exact I. destruct (Nat.lt_ge_cases i (length KEY)) as [D|D]; [now rewrite !app_nth1 by exact D|]. rewrite !app_nth2 by exact D.
  assert (Z : forall n j, nth j (repeat 0 n) 0 = 0) by (clear; induction n as [|n IH]; intros [|j]; cbn; auto). now rewrite !Z.
Qed.
Lemma padded_keys KEY : octets KEY -> cast_keys (KEY ++ repeat 0 (N.to_nat (16 - len KEY))) = (Cast.masking KEY, Cast.rotation KEY).
Proof.
  intros O. rewrite (cast_keys_ext _ (Cast.padded KEY)); [apply keys_std, padded_row, O|]. apply cast_z_ext. intros i I. now apply padded_nth.
Qed.
Lemma run_std km kr is d : Forall (fun k => k < two32) km -> Forall (fun k => k < 32) kr -> octets d -> length d = 8%nat ->
  cast_run km kr is d = Ok (let LR := fold_left (Cast.cast_step km kr) is (be_val (firstn 4 d), be_val (skipn 4 d)) in be 4 (snd LR) ++ be 4 (fst LR)).
Proof.
  intros KM KR Od L. unfold cast_run.
  assert (W : forall i, (i + 4 <= 8)%nat -> word (slice d (N.of_nat i) 4) = be_val (firstn 4 (skipn i d)) /\ be_val (firstn 4 (skipn i d)) < two32).
  { intros i I. unfold slice. rewrite Nat2N.id. change (N.to_nat 4) with 4%nat. set (q := firstn 4 (skipn i d)). assert (Oq : octets q) by now apply octets_firstn, octets_skipn.
    assert (Lq : len q = 4) by (unfold len, q; rewrite firstn_length, skipn_length, L; lia). pose proof (be_val_bound q Oq) as B. rewrite Lq in B.
    split; [|exact B]. unfold word. rewrite toint256_be_val; [|exact Oq|rewrite Lq; lia]. apply u32_small. exact B. }
  destruct (W 0%nat ltac:(lia)) as [W0 B0]. destruct (W 4%nat ltac:(lia)) as [W4 B4]. change (N.of_nat 0) with 0 in W0. change (N.of_nat 4) with 4 in W4. cbn [skipn] in W0.
  change (skipn 0 d) with d in W0, B0.
  rewrite W0, W4. assert (S4 : firstn 4 (skipn 4 d) = skipn 4 d) by (apply firstn_all2; rewrite skipn_length; lia). rewrite S4 in B4 |- *.
  rewrite rounds_std by (assumption || now split). rewrite words_out_be. cbn [flat_map]. now rewrite app_nil_r.
Qed.
Lemma cast_cipher KEY c km kr : cast_keys (KEY ++ repeat 0 (N.to_nat (16 - len KEY))) = (km, kr) -> CAST128 KEY = Ok c ->
  c_encrypt c = on_block 8 (cast_run km kr (seq 1 (if 10 <? len KEY then 16%nat else 12%nat))).
Proof. intros E C. unfold CAST128 in C. rewrite E in C. cbv zeta in C. cbn [fst snd] in C. apply Ok_inj in C. now rewrite <- C. Qed.
Theorem cast_std KEY c d : octets KEY -> CAST128 KEY = Ok c -> octets d -> length d = 8%nat -> c_encrypt c d = Ok (Cast.cast128_cipher KEY d).
Proof.
  intros O C Od L. rewrite (cast_cipher KEY c _ _ (padded_keys KEY O) C). clear C c. rewrite on_block_len by exact L.
  assert (RD : (if 10 <? len KEY then 16%nat else 12%nat) = Cast.rounds KEY).
  { unfold Cast.rounds, len. destruct (N.ltb_spec 10 (N.of_nat (length KEY))), (Nat.leb_spec (length KEY) 10); try lia; reflexivity. }
  rewrite RD. exact (run_std _ _ (seq 1 (Cast.rounds KEY)) d (masking_w32 KEY) (rotation_w KEY) Od L).
Qed.
