(** Camellia: layers undone, key sizes. *)
From Verif Require Export Proofs.CipherLib.

Lemma xs_length a b n : length a = n -> length b = n -> length (xor_strings a b) = n.
Proof. intros A B. rewrite xor_strings_xor, xor_length. lia. Qed.
Lemma xs_comm a b : xor_strings a b = xor_strings b a.
Proof.
  unfold xor_strings. revert b. induction a as [|x a IH]; intros [|y b]; cbn [zip_strings]; auto.
  now rewrite IH, N.lxor_comm.
Qed.
Lemma xs_twice a b n : length a = n -> length b = n -> xor_strings (xor_strings a b) b = a.
Proof.
  intros A B. rewrite xs_comm, (xs_comm a b), !xor_strings_xor. apply xor_twice. lia.
Qed.
Lemma zip_length f a b n : length a = n -> length b = n -> length (zip_strings f a b) = n.
Proof.
  revert b n. induction a as [|x a IH]; intros [|y b] n A B; cbn [zip_strings length] in *; try lia.
  destruct n; [discriminate|]. f_equal. apply IH; lia.
Qed.
Lemma rol_shift_length p t s : length (rol_shift p t s) = length s.
Proof. induction s; cbn [rol_shift length]; auto. Qed.
Lemma rol_string_length s bits : N.shiftr bits 3 <= len s -> length (rol_string s bits) = length s.
Proof.
  intros H. unfold rol_string.
  assert (L : length (slice (s ++ s) (N.shiftr bits 3) (len s)) = length s).
  { rewrite slice_length; unfold len in *; rewrite ?app_length; lia. }
  destruct (N.land bits 7 =? 0); [exact L|].
  destruct (slice (s ++ s) (N.shiftr bits 3) (len s)); [exact L|]. now rewrite rol_shift_length.
Qed.
Lemma rol_shift_octets p t s : octets (rol_shift p t s).
Proof.
  induction s as [|c s IH]; cbn [rol_shift]; [constructor|]. constructor; [|exact IH].
  apply N.mod_lt. discriminate.
Qed.
Lemma rol_string_octets s bits : octets s -> octets (rol_string s bits).
Proof.
  intros O. unfold rol_string.
  assert (K : octets (slice (s ++ s) (N.shiftr bits 3) (len s))) by (apply slice_octets, octets_app; auto).
  destruct (N.land bits 7 =? 0); [exact K|].
  destruct (slice (s ++ s) (N.shiftr bits 3) (len s)); [constructor|]. apply rol_shift_octets.
Qed.
Lemma lxor_octet a b : a < 256 -> b < 256 -> N.lxor a b < 256.
Proof.
  intros A B. assert (O : octets (xor [a] [b])) by (apply xor_octets; repeat constructor; auto).
  now inversion O.
Qed.
Lemma land_octet a b : a < 256 -> N.land a b < 256.
Proof.
  intros A. apply N.le_lt_trans with a; [|exact A].
  apply N.ldiff_le. apply N.bits_inj. intro i. rewrite N.ldiff_spec, N.land_spec, N.bits_0.
  destruct (N.testbit a i), (N.testbit b i); reflexivity.
Qed.
Lemma lor_octet a b : a < 256 -> b < 256 -> N.lor a b < 256.
Proof.
  intros A B.
  assert (E : N.lor a b = N.lxor (N.lxor a b) (N.land a b)).
  { apply N.bits_inj. intro i. rewrite !N.lxor_spec, N.lor_spec, N.land_spec.
    destruct (N.testbit a i), (N.testbit b i); reflexivity. }
  rewrite E. auto using lxor_octet, land_octet.
Qed.
Lemma zip_octets f a b : (forall x y, x < 256 -> y < 256 -> f x y < 256) ->
  octets a -> octets b -> octets (zip_strings f a b).
Proof.
  intros F. revert b. induction a as [|x a IH]; intros [|y b] A B; cbn [zip_strings]; try constructor.
  - apply octets_cons in A, B. now apply F.
  - apply octets_cons in A, B. now apply IH.
Qed.
Lemma xs_octets a b : octets a -> octets b -> octets (xor_strings a b).
Proof. apply zip_octets. intros. now apply lxor_octet. Qed.
Lemma tab_octet t i : octets t -> tab t i < 256.
Proof.
  intros O. unfold tab, idx. destruct (nth_in_or_default (N.to_nat i) t 0) as [H|H].
  - unfold octets in O. rewrite Forall_forall in O. now apply O.
  - rewrite H. reflexivity.
Qed.
Lemma sbox_octets : octets Camellia_SBox.
Proof. apply octetsb_spec. vm_compute. reflexivity. Qed.
Lemma cam_sbox_octet s v : cam_sbox s v < 256.
Proof.
  pose proof sbox_octets. unfold cam_sbox.
  assert (R : forall x n, rol8 x n < 256) by (intros; apply N.mod_lt; discriminate).
  destruct s as [|p]; [apply tab_octet; auto|]. destruct p as [p|p|]; [destruct p|destruct p|];
    first [apply R|apply tab_octet; auto].
Qed.
Lemma cam_f_length d k : length (cam_f d k) = 8%nat. Proof. reflexivity. Qed.
Lemma cam_f_octets d k : octets (cam_f d k).
Proof.
  unfold cam_f. cbn zeta.
  repeat (apply octets_cons; split); try constructor;
    repeat apply lxor_octet; apply cam_sbox_octet.
Qed.

(** Halves of a block: eight octets each. *)
Definition half8 (d : bytes) : Prop := octets d /\ length d = 8%nat.
Definition okp (D : bytes * bytes) : Prop := half8 (fst D) /\ half8 (snd D).
Definition flip (D : bytes * bytes) : bytes * bytes := (snd D, fst D).
Lemma half8_xor a b : half8 a -> half8 b -> half8 (xor_strings a b).
Proof. intros [A1 A2] [B1 B2]. split; [now apply xs_octets|now apply xs_length]. Qed.
Lemma half8_f d k : half8 (cam_f d k).
Proof. split; [apply cam_f_octets|reflexivity]. Qed.

Lemma cam_pair_undo D a b : okp D ->
  okp (cam_pair D a b) /\ cam_pair (flip (cam_pair D a b)) b a = flip D.
Proof.
  destruct D as [L R]. intros [HL HR]. cbn [fst snd] in *. unfold cam_pair. cbn zeta. cbn [flip fst snd].
  set (R1 := xor_strings R (cam_f L a)). set (L1 := xor_strings L (cam_f R1 b)).
  split.
  - split; cbn [fst snd]; subst L1 R1; auto using half8_xor, half8_f.
  - unfold flip. cbn [fst snd].
    assert (E1 : xor_strings L1 (cam_f R1 b) = L) by (apply (xs_twice L _ 8); [apply HL|reflexivity]).
    rewrite E1.
    assert (E2 : xor_strings R1 (cam_f L a) = R) by (apply (xs_twice R _ 8); [apply HR|reflexivity]).
    now rewrite E2.
Qed.
Lemma cam_six_undo D a b c d e f : okp D ->
  okp (cam_six D a b c d e f) /\ cam_six (flip (cam_six D a b c d e f)) f e d c b a = flip D.
Proof.
  intros K. unfold cam_six.
  destruct (cam_pair_undo D a b K) as [K1 U1].
  destruct (cam_pair_undo _ c d K1) as [K2 U2].
  destruct (cam_pair_undo _ e f K2) as [K3 U3].
  split; [exact K3|]. now rewrite U3, U2, U1.
Qed.
Lemma cam_white_undo D a b : okp D -> half8 a -> half8 b ->
  okp (cam_white D a b) /\ cam_white (flip (cam_white D a b)) b a = flip D.
Proof.
  destruct D as [L R]. intros [HL HR] Ha Hb. unfold cam_white, flip. cbn [fst snd] in *. split.
  - split; cbn [fst snd]; now apply half8_xor.
  - rewrite (xs_twice L a 8) by (apply HL || apply Ha). now rewrite (xs_twice R b 8) by (apply HR || apply Hb).
Qed.

Lemma half8_split d : half8 d -> exists a b, d = a ++ b /\ length a = 4%nat /\ length b = 4%nat /\ octets a /\ octets b.
Proof.
  intros [O L]. exists (firstn 4 d), (skipn 4 d).
  split; [symmetry; apply firstn_skipn|]. rewrite firstn_length, skipn_length.
  repeat split; try lia; [now apply octets_firstn|now apply octets_skipn].
Qed.
Lemma slices4 a b : length a = 4%nat -> length b = 4%nat ->
  slice (a ++ b) 0 4 = a /\ slice (a ++ b) 4 4 = b.
Proof.
  intros A B. split; [apply (slice_at [] a b); auto|].
  replace (a ++ b) with (a ++ b ++ []) by now rewrite app_nil_r. apply slice_at; auto.
Qed.
Lemma rol1_length s : length s = 4%nat -> length (rol_string s 1) = 4%nat.
Proof. intros L. rewrite rol_string_length; [exact L|]. change (N.shiftr 1 3) with 0. lia. Qed.
Lemma cam_fl_undo d k : half8 d -> half8 k ->
  half8 (cam_fl d k) /\ cam_flinv (cam_fl d k) k = d.
Proof.
  intros Hd Hk. destruct (half8_split d Hd) as [x1 [x2 [-> [L1 [L2 [O1 O2]]]]]].
  destruct (half8_split k Hk) as [k1 [k2 [-> [M1 [M2 [P1 P2]]]]]].
  unfold cam_fl, cam_flinv. cbn zeta.
  destruct (slices4 x1 x2 L1 L2) as [-> ->]. destruct (slices4 k1 k2 M1 M2) as [-> ->].
  set (r := rol_string (and_strings x1 k1) 1).
  assert (Lr : length r = 4%nat) by (apply rol1_length; now apply zip_length).
  assert (Or : octets r).
  { apply rol_string_octets, zip_octets; auto. intros. now apply land_octet. }
  set (y2 := xor_strings x2 r). assert (Ly2 : length y2 = 4%nat) by now apply xs_length.
  assert (Oy2 : octets y2) by now apply xs_octets.
  set (o := or_strings y2 k2). assert (Lo : length o = 4%nat) by now apply zip_length.
  assert (Oo : octets o) by (apply zip_octets; auto; intros; now apply lor_octet).
  set (y1 := xor_strings x1 o). assert (Ly1 : length y1 = 4%nat) by now apply xs_length.
  assert (Oy1 : octets y1) by now apply xs_octets.
  split.
  - split; [now apply octets_app|]. rewrite app_length. lia.
  - destruct (slices4 y1 y2 Ly1 Ly2) as [-> ->]. fold o.
    assert (E1 : xor_strings y1 o = x1) by now apply (xs_twice x1 o 4). rewrite E1. fold r.
    f_equal. now apply (xs_twice x2 r 4).
Qed.
Lemma cam_flinv_undo d k : half8 d -> half8 k ->
  half8 (cam_flinv d k) /\ cam_fl (cam_flinv d k) k = d.
Proof.
  intros Hd Hk. destruct (half8_split d Hd) as [x1 [x2 [-> [L1 [L2 [O1 O2]]]]]].
  destruct (half8_split k Hk) as [k1 [k2 [-> [M1 [M2 [P1 P2]]]]]].
  unfold cam_fl, cam_flinv. cbn zeta.
  destruct (slices4 x1 x2 L1 L2) as [-> ->]. destruct (slices4 k1 k2 M1 M2) as [-> ->].
  set (o := or_strings x2 k2). assert (Lo : length o = 4%nat) by now apply zip_length.
  assert (Oo : octets o) by (apply zip_octets; auto; intros; now apply lor_octet).
  set (y1 := xor_strings x1 o). assert (Ly1 : length y1 = 4%nat) by now apply xs_length.
  assert (Oy1 : octets y1) by now apply xs_octets.
  set (r := rol_string (and_strings y1 k1) 1).
  assert (Lr : length r = 4%nat) by (apply rol1_length; now apply zip_length).
  assert (Or : octets r).
  { apply rol_string_octets, zip_octets; auto. intros. now apply land_octet. }
  set (y2 := xor_strings x2 r). assert (Ly2 : length y2 = 4%nat) by now apply xs_length.
  assert (Oy2 : octets y2) by now apply xs_octets.
  split.
  - split; [now apply octets_app|]. rewrite app_length. lia.
  - destruct (slices4 y1 y2 Ly1 Ly2) as [-> ->]. fold r.
    assert (E1 : xor_strings y2 r = x2) by now apply (xs_twice x2 r 4). rewrite E1. fold o.
    f_equal. now apply (xs_twice x1 o 4).
Qed.
Lemma cam_fls_undo D a b : okp D -> half8 a -> half8 b ->
  okp (cam_fls D a b) /\ cam_fls (flip (cam_fls D a b)) b a = flip D.
Proof.
  destruct D as [L R]. intros [HL HR] Ha Hb. unfold cam_fls, flip. cbn [fst snd] in *.
  destruct (cam_fl_undo L a HL Ha) as [K1 U1]. destruct (cam_flinv_undo R b HR Hb) as [K2 U2].
  split; [split; auto|]. now rewrite U1, U2.
Qed.

Lemma slices8 a b : length a = 8%nat -> length b = 8%nat ->
  slice (a ++ b) 0 8 = a /\ slice (a ++ b) 8 8 = b.
Proof.
  intros A B. split; [apply (slice_at [] a b); auto|].
  replace (a ++ b) with (a ++ b ++ []) by now rewrite app_nil_r. apply slice_at; auto.
Qed.
Lemma block16 d : octets d -> length d = 16%nat ->
  okp (slice d 0 8, slice d 8 8) /\ d = slice d 0 8 ++ slice d 8 8.
Proof.
  intros O L. split.
  - split; split; cbn [fst snd]; try (now apply slice_octets); apply slice_length; rewrite L; cbn; lia.
  - symmetry. apply (slice_two d 8 8). exact L.
Qed.
Lemma okp_out D : okp D -> octets (snd D ++ fst D) /\ length (snd D ++ fst D) = 16%nat /\
  (slice (snd D ++ fst D) 0 8, slice (snd D ++ fst D) 8 8) = flip D.
Proof.
  intros [[O1 L1] [O2 L2]]. split; [now apply octets_app|]. split; [rewrite app_length; lia|].
  destruct (slices8 (snd D) (fst D) L2 L1) as [-> ->]. reflexivity.
Qed.

Lemma cam_inverse n keys d : Forall half8 keys -> length keys = (if (n =? 16)%N then 26 else 34)%nat ->
  octets d -> length d = 16%nat ->
  exists e, cam_run n keys d = Ok e /\ octets e /\ length e = 16%nat /\ cam_run n (rev keys) e = Ok d.
Proof.
  intros F LK O L. destruct (block16 d O L) as [K E].
  unfold cam_run. destruct (n =? 16).
  - do 26 (destruct keys as [|?k keys]; [discriminate|]). destruct keys; [|discriminate]. clear LK.
    repeat match goal with H : Forall half8 (_ :: _) |- _ => inversion H; clear H; subst end.
    cbn [rev app].
    set (D0 := (slice d 0 8, slice d 8 8)) in *.
    edestruct (cam_white_undo D0) as [K1 U1]; [exact K| | |]; [| |
    edestruct cam_six_undo as [K2 U2]; [exact K1|];
    edestruct cam_fls_undo as [K3 U3]; [exact K2| | |]; [| |
    edestruct cam_six_undo as [K4 U4]; [exact K3|];
    edestruct cam_fls_undo as [K5 U5]; [exact K4| | |]; [| |
    edestruct cam_six_undo as [K6 U6]; [exact K5|];
    edestruct cam_white_undo as [K7 U7]; [exact K6| | |]; [| |
    destruct (okp_out _ K7) as [Oo [Lo So]];
    eexists; split; [reflexivity|]; split; [exact Oo|]; split; [exact Lo|];
    rewrite So, U7, U6, U5, U4, U3, U2, U1; cbn [flip fst snd]; subst D0; cbn [fst snd]; now rewrite <- E]]]];
    assumption.
  - do 34 (destruct keys as [|?k keys]; [discriminate|]). destruct keys; [|discriminate]. clear LK.
    repeat match goal with H : Forall half8 (_ :: _) |- _ => inversion H; clear H; subst end.
    cbn [rev app].
    set (D0 := (slice d 0 8, slice d 8 8)) in *.
    edestruct (cam_white_undo D0) as [K1 U1]; [exact K| | |]; [| |
    edestruct cam_six_undo as [K2 U2]; [exact K1|];
    edestruct cam_fls_undo as [K3 U3]; [exact K2| | |]; [| |
    edestruct cam_six_undo as [K4 U4]; [exact K3|];
    edestruct cam_fls_undo as [K5 U5]; [exact K4| | |]; [| |
    edestruct cam_six_undo as [K6 U6]; [exact K5|];
    edestruct cam_fls_undo as [K7 U7]; [exact K6| | |]; [| |
    edestruct cam_six_undo as [K8 U8]; [exact K7|];
    edestruct cam_white_undo as [K9 U9]; [exact K8| | |]; [| |
    destruct (okp_out _ K9) as [Oo [Lo So]];
    eexists; split; [reflexivity|]; split; [exact Oo|]; split; [exact Lo|];
    rewrite So, U9, U8, U7, U6, U5, U4, U3, U2, U1; cbn [flip fst snd]; subst D0; cbn [fst snd]; now rewrite <- E]]]]];
    assumption.
Qed.

Definition block (k : bytes) : Prop := octets k /\ length k = 16%nat.
Lemma block_halves k : block k -> okp (slice k 0 8, slice k 8 8).
Proof. intros [O L]. now apply block16. Qed.
Lemma okp_block D : okp D -> block (fst D ++ snd D).
Proof. intros [[O1 L1] [O2 L2]]. split; [now apply octets_app|]. rewrite app_length. lia. Qed.
Lemma block_xor a b : block a -> block b -> block (xor_strings a b).
Proof. intros [A1 A2] [B1 B2]. split; [now apply xs_octets|now apply xs_length]. Qed.
Lemma block_rol k n : block k -> n < 128 -> block (rol_string k n).
Proof.
  intros [O L] H. split; [now apply rol_string_octets|]. rewrite rol_string_length; [exact L|].
  unfold len. rewrite L. rewrite N.shiftr_div_pow2. change (2 ^ 3) with 8.
  apply N.lt_succ_r. apply N.div_lt_upper_bound; cbn; lia.
Qed.
Lemma half_lo k n : block k -> n < 128 -> half8 (slice (rol_string k n) 0 8).
Proof. intros B H. now apply (block_halves _ (block_rol k n B H)). Qed.
Lemma half_hi k n : block k -> n < 128 -> half8 (slice (rol_string k n) 8 8).
Proof. intros B H. now apply (block_halves _ (block_rol k n B H)). Qed.
Lemma okp_white D a b : okp D -> half8 a -> half8 b -> okp (cam_white D a b).
Proof. intros. now apply cam_white_undo. Qed.
Lemma okp_pair D a b : okp D -> okp (cam_pair D a b).
Proof. intros. now apply cam_pair_undo. Qed.

Lemma cam_setkey_ok KEY : octets KEY -> len KEY = 16 \/ len KEY = 24 \/ len KEY = 32 ->
  Forall half8 (cam_setkey KEY) /\
  length (cam_setkey KEY) = (if (u16 (len KEY) =? 16)%N then 26 else 34)%nat.
Proof.
  intros O L.
  assert (LK : length KEY = 16%nat \/ length KEY = 24%nat \/ length KEY = 32%nat)
    by (unfold len in L; lia).
  unfold cam_setkey. cbn zeta.
  set (KL := prefix KEY 16).
  assert (BL : block KL).
  { subst KL. unfold prefix. split; [now apply octets_firstn|]. rewrite firstn_length.
    change (N.to_nat 16) with 16%nat. lia. }
  match goal with |- context [xor_strings KL ?r] => set (KR := r) end.
  assert (BR : block KR).
  { subst KR. destruct L as [L|[L|L]]; rewrite L; cbn [u16 N.eqb].
    - change (u16 16 =? 16) with true. cbn iota. split; [|apply repeat_length].
      apply octets_repeat. reflexivity.
    - change (u16 24 =? 16) with false. change (u16 24 =? 24) with true. cbn iota.
      assert (S8 : length (slice KEY 16 8) = 8%nat).
      { rewrite slice_length; [reflexivity|]. change (N.to_nat 16) with 16%nat.
        change (N.to_nat 8) with 8%nat. unfold len in L. lia. }
      split.
      + apply octets_app. split; [now apply slice_octets|].
        apply xs_octets; [now apply slice_octets|]. apply octets_repeat. reflexivity.
      + rewrite app_length, S8, (xs_length _ _ 8); auto. 
    - change (u16 32 =? 16) with false. change (u16 32 =? 24) with false. cbn iota.
      split; [now apply slice_octets|]. rewrite slice_length; [reflexivity|].
      change (N.to_nat 16) with 16%nat. unfold len in L. lia. }
  match goal with |- context [xor_strings (fst ?D ++ snd ?D) KR] => set (KA := fst D ++ snd D) end.
  assert (BA : block KA).
  { apply okp_block, okp_pair, okp_white; [apply okp_pair, block_halves, block_xor; auto| |];
      now apply (block_halves KL). }
  match goal with |- context [rol_string (fst ?D ++ snd ?D) 30] => set (KB := fst D ++ snd D) end.
  assert (BB : block KB) by (apply okp_block, okp_pair, block_halves, block_xor; auto).
  destruct (u16 (len KEY) =? 16); (split; [|reflexivity]);
    repeat (apply Forall_cons; [first [apply half_lo|apply half_hi]; [assumption|reflexivity]|]);
    apply Forall_nil.
Qed.

Lemma camellia_ok KEY : octets KEY -> len KEY = 16 \/ len KEY = 24 \/ len KEY = 32 ->
  exists c, Camellia KEY = Ok c /\ c_block c = 16 /\ inverts c 16 /\ whole_blocks c 16.
Proof.
  intros O L. unfold Camellia.
  replace ((u16 (len KEY) =? 16) || (u16 (len KEY) =? 24) || (u16 (len KEY) =? 32)) with true
    by (destruct L as [->|[->| ->]]; reflexivity).
  eexists. split; [reflexivity|]. split; [reflexivity|]. split; [|apply (whole_on_block 16)].
  intros b Ob Lb. destruct (cam_setkey_ok KEY O L) as [F LK].
  destruct (cam_inverse _ _ b F LK Ob Lb) as [e [E [Oe [Le D]]]].
  exists e. cbn [c_encrypt c_decrypt]. rewrite !on_block_len by auto. auto.
Qed.
