(** Twofish computes the function of its specification. *)
From Verif Require Import Proofs.CipherLib Proofs.HashStdP Proofs.AesStdP Proofs.RotP Proofs.CamelliaStdP Proofs.TwofishP.
From Verif Require Spec.Twofish Proofs.HashP.
From Verif Require Import Proofs.Lib.
Local Open Scope N_scope.
Local Infix "^^" := N.lxor (at level 40, left associativity).

Lemma oct_std x j : byte x (N.of_nat j) = Twofish.octet_of x j.
Proof. rewrite byte_eq. unfold Twofish.octet_of. now rewrite pow8. Qed.
Lemma oct_octet x j : octet (Twofish.octet_of x j).
Proof. apply N.mod_lt. discriminate. Qed.
Lemma word_pack a b c d : Twofish.word_of [a; b; c; d] = pack d c b a.
Proof. unfold Twofish.word_of, pack. cbn [fold_right]. lia. Qed.

(** The tables. *)
Definition q_ok (i : nat) (x : N) : bool := (q_tab i x =? Twofish.q i x) && (Twofish.q i x <? 256).
Lemma q_std i x : In i [0; 1]%nat -> octet x -> q_tab i x = Twofish.q i x /\ octet (Twofish.q i x).
Proof.
  intros I X. assert (H : q_ok i x = true).
  { destruct I as [<-|[<-|[]]]; (apply (all256 (q_ok _)); [vm_compute; reflexivity|exact X]). }
  apply andb_prop in H as [A B]. split; [now apply N.eqb_eq|now apply N.ltb_lt].
Qed.
Definition m_col (j : nat) (y : N) (r : nat) : N := Twofish.times 0x169 (nth j (nth r Twofish.MDS []) 0) y.
Definition m_ok (j : nat) (x : N) : bool :=
  let y := Twofish.q (Twofish.q_last j) x in
  let m := m_col j y in
  (m_tab j x =? pack (m 3%nat) (m 2%nat) (m 1%nat) (m 0%nat)) && (m 0%nat <? 256) && (m 1%nat <? 256) && (m 2%nat <? 256) && (m 3%nat <? 256).
Lemma m_std j x : In j [0; 1; 2; 3]%nat -> octet x ->
  let m := m_col j (Twofish.q (Twofish.q_last j) x) in
  m_tab j x = pack (m 3%nat) (m 2%nat) (m 1%nat) (m 0%nat) /\ octet (m 0%nat) /\ octet (m 1%nat) /\ octet (m 2%nat) /\ octet (m 3%nat).
Proof.
  intros J X. assert (H : m_ok j x = true).
  { destruct J as [<-|[<-|[<-|[<-|[]]]]]; (apply (all256 (m_ok _)); [vm_compute; reflexivity|exact X]). }
  unfold m_ok in H. repeat (apply andb_prop in H as [H ?]). cbv zeta. repeat apply conj; try (apply N.ltb_lt; assumption). now apply N.eqb_eq.
Qed.

(** The matrix applied to four octets. *)
Lemma mds_std a b c d : octet a -> octet b -> octet c -> octet d ->
  m_tab 0 a ^^ m_tab 1 b ^^ m_tab 2 c ^^ m_tab 3 d =
  Twofish.word_of (Twofish.times_matrix 0x169 Twofish.MDS
    [Twofish.q 1 a; Twofish.q 0 b; Twofish.q 1 c; Twofish.q 0 d]).
Proof.
  intros A B C D.
  destruct (m_std 0 a) as (-> & A0 & A1 & A2 & A3); [cbn; tauto|exact A|].
  destruct (m_std 1 b) as (-> & B0 & B1 & B2 & B3); [cbn; tauto|exact B|].
  destruct (m_std 2 c) as (-> & C0 & C1 & C2 & C3); [cbn; tauto|exact C|].
  destruct (m_std 3 d) as (-> & D0 & D1 & D2 & D3); [cbn; tauto|exact D|].
  change (Twofish.q_last 0) with 1%nat in *. change (Twofish.q_last 1) with 0%nat in *.
  change (Twofish.q_last 2) with 1%nat in *. change (Twofish.q_last 3) with 0%nat in *.
  rewrite !pack_lxor by (repeat first [assumption|apply xor_octet]).
  unfold Twofish.times_matrix, Twofish.MDS. cbn [map]. rewrite word_pack.
  unfold Twofish.times_row. cbn [combine map fold_right fst snd]. unfold m_col. unfold Twofish.MDS. cbn [nth].
  rewrite !N.lxor_0_r, !N.lxor_assoc. reflexivity.
Qed.

(** The function h. *)
Lemma step_std L i s j y : In i [0; 1]%nat -> Twofish.q_of s j = i -> octet y ->
  q_tab i y ^^ byte (idx L s) (N.of_nat j) = Twofish.h_step L j y s /\ octet (Twofish.h_step L j y s).
Proof.
  intros I E Y. destruct (q_std i y I Y) as [-> O]. unfold Twofish.h_step. rewrite E, oct_std. split; [reflexivity|].
  apply xor_octet; [exact O|apply oct_octet].
Qed.
Definition chain (L : list N) (j : nat) (x : N) : N := fold_left (Twofish.h_step L j) (rev (seq 0 (length L))) x.
Definition sizes (L : list N) : Prop := In (length L) [2; 3; 4]%nat.
Ltac h_steps L :=
  repeat match goal with
  | |- context [q_tab ?i ?y ^^ byte (idx L ?s) ?n] =>
    let E := fresh in let O := fresh in
    let j := eval compute in (N.to_nat n) in
    change n with (N.of_nat j) in *;
    destruct (step_std L i s j y) as [E O]; [cbn; tauto|reflexivity|assumption|];
    rewrite E; clear E; change (N.of_nat j) with n in *
  end.
Lemma chain_octet L j x : sizes L -> In j [0; 1; 2; 3]%nat -> octet x -> octet (chain L j x).
Proof.
  intros S J X. unfold chain. generalize (rev (seq 0 (length L))). intros is. revert x X.
  assert (Q : forall s, In (Twofish.q_of s j) [0; 1]%nat).
  { intros s. unfold Twofish.q_of. destruct J as [<-|[<-|[<-|[<-|[]]]]]; do 4 (destruct s as [|s]; [cbn; tauto|]); destruct s; cbn; tauto. }
  induction is as [|s is IH]; intros x X; [exact X|]. cbn [fold_left]. apply IH. now destruct (step_std L _ s j x (Q s) eq_refl X).
Qed.
Lemma list_sizes L : sizes L -> (exists a b, L = [a; b]) \/ (exists a b c, L = [a; b; c]) \/ (exists a b c d, L = [a; b; c; d]).
Proof.
  intros [E|[E|[E|[]]]].
  - left. destruct L as [|a [|b [|]]]; try discriminate. now exists a, b.
  - right. left. destruct L as [|a [|b [|c [|]]]]; try discriminate. now exists a, b, c.
  - right. right. destruct L as [|a [|b [|c [|d [|]]]]]; try discriminate. now exists a, b, c, d.
Qed.
Lemma h_std x L : sizes L -> tf_h x L = Twofish.h x L.
Proof.
  intros S. unfold Twofish.h. cbn [map seq]. unfold Twofish.h_octet.
  fold (chain L 0 (Twofish.octet_of x 0)) (chain L 1 (Twofish.octet_of x 1)) (chain L 2 (Twofish.octet_of x 2)) (chain L 3 (Twofish.octet_of x 3)).
  change (Twofish.q_last 0) with 1%nat. change (Twofish.q_last 1) with 0%nat.
  change (Twofish.q_last 2) with 1%nat. change (Twofish.q_last 3) with 0%nat.
  rewrite <- mds_std by (apply chain_octet; [exact S|cbn; tauto|apply oct_octet]).
  unfold tf_h. rewrite <- !oct_std. change (N.of_nat 0) with 0. change (N.of_nat 1) with 1. change (N.of_nat 2) with 2. change (N.of_nat 3) with 3.
  pose proof (byte_octet x 0) as X0. pose proof (byte_octet x 1) as X1. pose proof (byte_octet x 2) as X2. pose proof (byte_octet x 3) as X3.
  set (b0 := byte x 0) in *. set (b1 := byte x 1) in *. set (b2 := byte x 2) in *. set (b3 := byte x 3) in *. clearbody b0 b1 b2 b3.
  destruct (list_sizes L S) as [(a & b & E)|[(a & b & c & E)|(a & b & c & d & E)]].
  - assert (LL : length L = 2%nat) by now subst. clear E. unfold chain. rewrite LL. cbn [Nat.leb seq rev app fold_left]. h_steps L. reflexivity.
  - assert (LL : length L = 3%nat) by now subst. clear E. unfold chain. rewrite LL. cbn [Nat.leb seq rev app fold_left]. h_steps L. reflexivity.
  - assert (LL : length L = 4%nat) by now subst. clear E. unfold chain. rewrite LL. cbn [Nat.leb seq rev app fold_left]. h_steps L. reflexivity.
Qed.

(** The key dependent tables. *)
Lemma tab_map (f : nat -> N) x : octet x -> tab (map f (seq 0 256)) x = f (N.to_nat x).
Proof.
  intros X. unfold tab, idx. unfold octet in X.
  rewrite (nth_indep _ 0 (f 0%nat)) by (rewrite map_length, seq_length; lia).
  now rewrite (map_nth f), seq_nth by lia.
Qed.
Lemma mk_std s j x : sizes s -> In j [0; 1; 2; 3]%nat -> octet x ->
  tab (row (map (tf_mk s) (seq 0 4)) j) x = m_tab j (chain s j x).
Proof.
  intros S J X. assert (R : row (map (tf_mk s) (seq 0 4)) j = tf_mk s j) by (destruct J as [<-|[<-|[<-|[<-|[]]]]]; reflexivity).
  rewrite R. clear R. unfold tf_mk. rewrite tab_map, N2Nat.id by exact X. f_equal.
  destruct (list_sizes s S) as [(a & b & E)|[(a & b & c & E)|(a & b & c & d & E)]].
  - assert (LL : length s = 2%nat) by now subst. clear E. unfold chain. rewrite LL. cbn [Nat.leb seq rev app fold_left].
    destruct J as [<-|[<-|[<-|[<-|[]]]]]; cbn [N.of_nat Pos.of_succ_nat Pos.succ]; h_steps s; reflexivity.
  - assert (LL : length s = 3%nat) by now subst. clear E. unfold chain. rewrite LL. cbn [Nat.leb seq rev app fold_left].
    destruct J as [<-|[<-|[<-|[<-|[]]]]]; cbn [N.of_nat Pos.of_succ_nat Pos.succ]; h_steps s; reflexivity.
  - assert (LL : length s = 4%nat) by now subst. clear E. unfold chain. rewrite LL. cbn [Nat.leb seq rev app fold_left].
    destruct J as [<-|[<-|[<-|[<-|[]]]]]; cbn [N.of_nat Pos.of_succ_nat Pos.succ]; h_steps s; reflexivity.
Qed.
Lemma g_std s a b c d : sizes s -> octet a -> octet b -> octet c -> octet d ->
  tf_g (map (tf_mk s) (seq 0 4)) a b c d = Twofish.h (pack d c b a) s.
Proof.
  intros S A B C D. unfold tf_g. rewrite !mk_std by (assumption || (cbn; tauto)).
  rewrite mds_std by (apply chain_octet; try assumption; cbn; tauto). unfold Twofish.h. cbn [map seq].
  rewrite <- !oct_std. destruct (pack_bytes d c b a D C B A) as (E3 & E2 & E1 & E0).
  change (N.of_nat 0) with 0. change (N.of_nat 1) with 1. change (N.of_nat 2) with 2. change (N.of_nat 3) with 3.
  rewrite E0, E1, E2, E3. reflexivity.
Qed.

(** Rotations and one round. *)
Lemma rol_std x n : x < two32 -> n <= 32 -> rol32 x n = Twofish.rol x n.
Proof. intros X L. now rewrite rol32_std. Qed.
Lemma ror_std x : x < two32 -> ror32 x 1 = Twofish.ror x 1.
Proof. intros X. unfold Twofish.ror. rewrite <- rol_std by (exact X || lia). reflexivity. Qed.
Lemma t0_std s w : sizes s -> w < two32 -> tf_t0 (map (tf_mk s) (seq 0 4)) w = Twofish.h w s.
Proof.
  intros S W. unfold tf_t0. rewrite g_std by (exact S || apply byte_octet). f_equal.
  destruct (unpack w W) as (a & b & c & d & A & B & C & D & ->). destruct (pack_bytes a b c d A B C D) as (-> & -> & -> & ->). reflexivity.
Qed.
Lemma t1_std s w : sizes s -> w < two32 -> tf_t1 (map (tf_mk s) (seq 0 4)) w = Twofish.h (Twofish.rol w 8) s.
Proof.
  intros S W. unfold tf_t1. rewrite g_std by (exact S || apply byte_octet). f_equal. rewrite <- rol_std by (exact W || lia).
  destruct (unpack w W) as (a & b & c & d & A & B & C & D & ->). destruct (pack_bytes a b c d A B C D) as (-> & -> & -> & ->).
  now rewrite rol32_8.
Qed.
Lemma x32_lt a b : a < two32 -> b < two32 -> a ^^ b < two32.
Proof. intros. now apply xor_32. Qed.
Lemma round_ok l mk b i : ok4 (tf_enc_round l mk b i).
Proof. destruct b as [[[b0 b1] b2] b3]. unfold tf_enc_round. repeat apply conj; (apply ror32_lt || apply u32_lt). Qed.
Definition F0 (T0 T1 k : N) : N := u32 (T0 + T1 + k).
Definition F1 (T0 T1 k : N) : N := u32 (T0 + 2 * T1 + k).
Lemma F0_std a b c : Twofish.mod32 (a + b + c) = F0 a b c. Proof. reflexivity. Qed.
Lemma F1_std a b c : Twofish.mod32 (a + 2 * b + c) = F1 a b c. Proof. reflexivity. Qed.
Lemma round_eq key R0 R1 R2 R3 r : Twofish.round key (R0, R1, R2, R3) r =
  (Twofish.ror (R2 ^^ F0 (Twofish.h R0 (Twofish.S_key key)) (Twofish.h (Twofish.rol R1 8) (Twofish.S_key key)) (Twofish.K key (2 * r + 8))) 1,
   Twofish.rol R3 1 ^^ F1 (Twofish.h R0 (Twofish.S_key key)) (Twofish.h (Twofish.rol R1 8) (Twofish.S_key key)) (Twofish.K key (2 * r + 9)), R0, R1).
Proof. unfold Twofish.round. rewrite F0_std, F1_std. reflexivity. Qed.
Definition half0 (b2 T0 T1 k : N) : N := ror32 (u32 (b2 ^^ F0 T0 T1 k)) 1.
Definition half1 (b3 T0 T1 k : N) : N := u32 (rol32 b3 1 ^^ F1 T0 T1 k).
Lemma enc_eq l mk b0 b1 b2 b3 i : tf_enc_round l mk (b0, b1, b2, b3) i =
  let c2 := half0 b2 (tf_t0 mk b0) (tf_t1 mk b1) (idx l (4 * i + 8)) in
  let c3 := half1 b3 (tf_t0 mk b0) (tf_t1 mk b1) (idx l (4 * i + 9)) in
  (half0 b0 (tf_t0 mk c2) (tf_t1 mk c3) (idx l (4 * i + 10)), half1 b1 (tf_t0 mk c2) (tf_t1 mk c3) (idx l (4 * i + 11)), c2, c3).
Proof.
  assert (H0 : forall b a t k, ror32 (u32 (b ^^ u32 (a + t + k))) 1 = half0 b a t k) by reflexivity.
  assert (H1 : forall b a t k, u32 (rol32 b 1 ^^ u32 (a + 2 * t + k)) = half1 b a t k) by reflexivity.
  cbv beta iota zeta delta [tf_enc_round]. rewrite !H0, !H1. reflexivity.
Qed.
Lemma half0_std b T0 T1 k : b < two32 -> half0 b T0 T1 k = Twofish.ror (b ^^ F0 T0 T1 k) 1 /\ half0 b T0 T1 k < two32.
Proof.
  intros B. assert (X : b ^^ F0 T0 T1 k < two32) by (apply x32_lt; [exact B|apply u32_lt]). unfold half0. rewrite u32_small by exact X.
  split; [now apply ror_std|apply ror32_lt].
Qed.
Lemma half1_std b T0 T1 k : b < two32 -> half1 b T0 T1 k = Twofish.rol b 1 ^^ F1 T0 T1 k /\ half1 b T0 T1 k < two32.
Proof.
  intros B. assert (X : rol32 b 1 ^^ F1 T0 T1 k < two32) by (apply x32_lt; [apply rol32_lt|apply u32_lt]). unfold half1. rewrite u32_small by exact X.
  split; [|exact X]. rewrite rol_std by (exact B || lia). reflexivity.
Qed.
Lemma rounds_std key l s b i : sizes s -> s = Twofish.S_key key -> (forall n, (n < 40)%nat -> idx l n = Twofish.K key n) -> (i < 8)%nat ->
  ok4 b -> tf_enc_round l (map (tf_mk s) (seq 0 4)) b i = Twofish.round key (Twofish.round key b (2 * i)) (2 * i + 1).
Proof.
  intros S E KK I O. destruct b as [[[b0 b1] b2] b3]. destruct O as (O0 & O1 & O2 & O3).
  rewrite enc_eq, !round_eq, !KK, <- E by lia. clear KK. cbv zeta.
  replace (2 * (2 * i) + 8)%nat with (4 * i + 8)%nat by lia. replace (2 * (2 * i) + 9)%nat with (4 * i + 9)%nat by lia.
  replace (2 * (2 * i + 1) + 8)%nat with (4 * i + 10)%nat by lia. replace (2 * (2 * i + 1) + 9)%nat with (4 * i + 11)%nat by lia.
  rewrite (t0_std s b0), (t1_std s b1) by assumption.
  generalize (Twofish.K key (4 * i + 8)) (Twofish.K key (4 * i + 9)) (Twofish.K key (4 * i + 10)) (Twofish.K key (4 * i + 11)). intros k8 k9 k10 k11.
  destruct (half0_std b2 (Twofish.h b0 s) (Twofish.h (Twofish.rol b1 8) s) k8 O2) as [<- L2].
  destruct (half1_std b3 (Twofish.h b0 s) (Twofish.h (Twofish.rol b1 8) s) k9 O3) as [<- L3].
  rewrite t0_std, t1_std by assumption. set (c2 := half0 _ _ _ _) in *. set (c3 := half1 b3 _ _ _) in *. clearbody c2 c3.
  rewrite (proj1 (half0_std b0 _ _ _ O0)), (proj1 (half1_std b1 _ _ _ O1)). reflexivity.
Qed.
Lemma sixteen_rounds key l s b : sizes s -> s = Twofish.S_key key -> (forall n, (n < 40)%nat -> idx l n = Twofish.K key n) ->
  ok4 b -> fold_left (tf_enc_round l (map (tf_mk s) (seq 0 4))) (seq 0 8) b = fold_left (Twofish.round key) (seq 0 16) b.
Proof.
  intros S E KK. set (mk := map (tf_mk s) (seq 0 4)) in *.
  assert (G : forall n i b, (i + n <= 8)%nat -> ok4 b ->
    fold_left (tf_enc_round l mk) (seq i n) b = fold_left (Twofish.round key) (seq (2 * i) (2 * n)) b).
  { induction n as [|n IH]; intros i c LE O; [reflexivity|]. replace (2 * Datatypes.S n)%nat with (Datatypes.S (Datatypes.S (2 * n))) by lia. cbn [seq fold_left].
    rewrite IH by (lia || apply round_ok). unfold mk. rewrite (rounds_std key l s c i S E KK) by (assumption || lia).
    replace (2 * i + 1)%nat with (Datatypes.S (2 * i)) by lia. replace (2 * Datatypes.S i)%nat with (Datatypes.S (Datatypes.S (2 * i))) by lia. reflexivity. }
  intros O. exact (G 8%nat 0%nat b (le_n 8) O).
Qed.

(** The Reed-Solomon step, on octets. *)
Definition rs_a (t : N) : N := let u := N.shiftl t 1 in if N.land t 0x80 =? 0 then u else u ^^ 0x14d.
Definition rs_d (t : N) : N := let u := rs_a t ^^ N.shiftr t 1 in if N.land t 1 =? 0 then u else u ^^ N.shiftr 0x14d 1.
Definition rs_ok (t : N) : bool :=
  (t ^^ u32 (N.shiftl (rs_a t) 16) =? pack 0 (rs_a t) 0 t) && (rs_a t <? 256) && (rs_d t <? 256) &&
  (N.lor (u32 (N.shiftl (rs_d t) 24)) (u32 (N.shiftl (rs_d t) 8)) =? pack (rs_d t) 0 (rs_d t) 0).
Lemma rs_octets t : octet t -> t ^^ u32 (N.shiftl (rs_a t) 16) = pack 0 (rs_a t) 0 t /\ octet (rs_a t) /\ octet (rs_d t) /\
  N.lor (u32 (N.shiftl (rs_d t) 24)) (u32 (N.shiftl (rs_d t) 8)) = pack (rs_d t) 0 (rs_d t) 0.
Proof.
  intros T. assert (H : rs_ok t = true) by (apply (all256 rs_ok); [vm_compute; reflexivity|exact T]).
  unfold rs_ok in H. repeat (apply andb_prop in H as [H ?]). repeat apply conj; (apply N.eqb_eq; assumption) || (apply N.ltb_lt; assumption).
Qed.
Lemma rs_eq a b : tf_rs_step (a, b) =
  let t := N.shiftr b 24 in
  (u32 (N.shiftl a 8), u32 (N.lor (N.shiftl b 8) (N.shiftr a 24)) ^^ (t ^^ u32 (N.shiftl (rs_a t) 16)) ^^
     N.lor (u32 (N.shiftl (rs_d t) 24)) (u32 (N.shiftl (rs_d t) 8))).
Proof. reflexivity. Qed.
Lemma shift_in a3 a2 a1 a0 x : octet a3 -> octet a2 -> octet a1 -> octet a0 -> octet x ->
  u32 (N.lor (N.shiftl (pack a3 a2 a1 a0) 8) x) = pack a2 a1 a0 x.
Proof.
  intros A3 A2 A1 A0 X.
  assert (E : N.lor (N.shiftl (pack a3 a2 a1 a0) 8) x = pack a3 a2 a1 a0 * 2 ^ 8 + x).
  { apply N.bits_inj. intro i. rewrite N.lor_spec. destruct (N.lt_ge_cases i 8) as [C|C].
    - rewrite N.shiftl_spec_low, sum_low by assumption. reflexivity.
    - rewrite N.shiftl_spec_high', sum_high by assumption. rewrite (high_false 8 x i) by assumption. apply orb_false_r. }
  rewrite E. unfold u32, pack, two32 in *. unfold octet in *. change (2 ^ 8) with 256.
  destruct (div_mod_unique a3 (a2 * 16777216 + a1 * 65536 + a0 * 256 + x) 4294967296 ((a3 * 16777216 + a2 * 65536 + a1 * 256 + a0) * 256 + x)) as [_ G]; [lia..|].
  exact G.
Qed.
Lemma rs_step_std a3 a2 a1 a0 b3 b2 b1 b0 :
  octet a3 -> octet a2 -> octet a1 -> octet a0 -> octet b3 -> octet b2 -> octet b1 -> octet b0 ->
  tf_rs_step (pack a3 a2 a1 a0, pack b3 b2 b1 b0) =
  (pack a2 a1 a0 0, pack (b2 ^^ rs_d b3) (b1 ^^ rs_a b3) (b0 ^^ rs_d b3) (a3 ^^ b3)).
Proof.
  intros A3 A2 A1 A0 B3 B2 B1 B0. rewrite rs_eq. cbv zeta.
  assert (T : forall x3 x2 x1 x0, octet x3 -> octet x2 -> octet x1 -> octet x0 -> N.shiftr (pack x3 x2 x1 x0) 24 = x3).
  { intros x3 x2 x1 x0 X3 X2 X1 X0. rewrite N.shiftr_div_pow2. unfold octet, pack in *. change (2 ^ 24) with 16777216.
    destruct (div_mod_unique x3 (x2 * 65536 + x1 * 256 + x0) 16777216 (x3 * 16777216 + x2 * 65536 + x1 * 256 + x0)) as [G _]; [lia..|]. exact G. }
  rewrite !T by assumption. clear T. destruct (rs_octets b3 B3) as (-> & A & D & ->).
  rewrite shift_in by assumption. assert (Z : octet 0) by reflexivity.
  rewrite !pack_lxor by (repeat first [assumption|apply xor_octet]). rewrite !N.lxor_0_r.
  assert (E : u32 (N.shiftl (pack a3 a2 a1 a0) 8) = pack a2 a1 a0 0) by (rewrite <- (shift_in a3 a2 a1 a0 0), N.lor_0_r by assumption; reflexivity).
  rewrite E. reflexivity.
Qed.

(** The eight steps are linear, so that they are determined by their values on single
    octets. *)
Definition lin (c : list N) (x : N) : N :=
  fold_right N.lxor 0 (map (fun p => if N.testbit x (N.of_nat (fst p)) then snd p else 0) (combine (seq 0 8) c)).
Lemma lin_xor c x y : lin c (x ^^ y) = lin c x ^^ lin c y.
Proof.
  unfold lin. induction (combine (seq 0 8) c) as [|p l IH]; [reflexivity|]. cbn [map fold_right]. rewrite IH, N.lxor_spec.
  generalize (fold_right N.lxor 0 (map (fun p => if N.testbit x (N.of_nat (fst p)) then snd p else 0) l)).
  generalize (fold_right N.lxor 0 (map (fun p => if N.testbit y (N.of_nat (fst p)) then snd p else 0) l)).
  intros u v. apply N.bits_inj. intro i. rewrite !N.lxor_spec.
  destruct (N.testbit x _), (N.testbit y _); cbn [xorb]; rewrite ?N.bits_0; destruct (N.testbit (snd p) i), (N.testbit u i), (N.testbit v i); reflexivity.
Qed.
Definition coeffs (f : N -> N) : list N := map f [1; 2; 4; 8; 16; 32; 64; 128].
Lemma rs_linear t : octet t -> rs_a t = lin (coeffs rs_a) t /\ rs_d t = lin (coeffs rs_d) t.
Proof.
  intros T. split.
  - exact (all256_eq rs_a (lin (coeffs rs_a)) ltac:(vm_compute; reflexivity) t T).
  - exact (all256_eq rs_d (lin (coeffs rs_d)) ltac:(vm_compute; reflexivity) t T).
Qed.
Lemma rs_xor x y : octet x -> octet y -> rs_a (x ^^ y) = rs_a x ^^ rs_a y /\ rs_d (x ^^ y) = rs_d x ^^ rs_d y.
Proof.
  intros X Y. destruct (rs_linear x X) as [-> ->]. destruct (rs_linear y Y) as [-> ->].
  destruct (rs_linear (x ^^ y) (xor_octet x y X Y)) as [-> ->]. split; apply lin_xor.
Qed.
Definition oct8 : Type := N * N * N * N * (N * N * N * N).
Definition step8 (v : oct8) : oct8 :=
  let '(a0, a1, a2, a3, (b0, b1, b2, b3)) := v in
  (0, a0, a1, a2, (a3 ^^ b3, b0 ^^ rs_d b3, b1 ^^ rs_a b3, b2 ^^ rs_d b3)).
Definition add4 (v w : N * N * N * N) : N * N * N * N :=
  let '(a, b, c, d) := v in let '(a', b', c', d') := w in (a ^^ a', b ^^ b', c ^^ c', d ^^ d').
Definition add8 (v w : oct8) : oct8 := (add4 (fst v) (fst w), add4 (snd v) (snd w)).
Definition ok8 (v : oct8) : Prop :=
  let '(a0, a1, a2, a3, (b0, b1, b2, b3)) := v in
  octet a0 /\ octet a1 /\ octet a2 /\ octet a3 /\ octet b0 /\ octet b1 /\ octet b2 /\ octet b3.
Lemma step8_ok v : ok8 v -> ok8 (step8 v).
Proof.
  destruct v as [[[[a0 a1] a2] a3] [[[b0 b1] b2] b3]]. intros (A0 & A1 & A2 & A3 & B0 & B1 & B2 & B3).
  destruct (rs_octets b3 B3) as (_ & A & D & _). repeat apply conj; try assumption; try reflexivity; apply xor_octet; assumption.
Qed.
Lemma add8_ok v w : ok8 v -> ok8 w -> ok8 (add8 v w).
Proof.
  destruct v as [[[[a0 a1] a2] a3] [[[b0 b1] b2] b3]]. intros (A0 & A1 & A2 & A3 & B0 & B1 & B2 & B3).
  destruct w as [[[[c0 c1] c2] c3] [[[d0 d1] d2] d3]]. intros (C0 & C1 & C2 & C3 & D0 & D1 & D2 & D3).
  repeat apply conj; apply xor_octet; assumption.
Qed.
Lemma xor4 a b c d : a ^^ b ^^ (c ^^ d) = a ^^ c ^^ (b ^^ d).
Proof. apply N.bits_inj. intro i. rewrite !N.lxor_spec. destruct (N.testbit a i), (N.testbit b i), (N.testbit c i), (N.testbit d i); reflexivity. Qed.
Lemma step8_add v w : ok8 v -> ok8 w -> step8 (add8 v w) = add8 (step8 v) (step8 w).
Proof.
  destruct v as [[[[a0 a1] a2] a3] [[[b0 b1] b2] b3]]. intros (A0 & A1 & A2 & A3 & B0 & B1 & B2 & B3).
  destruct w as [[[[c0 c1] c2] c3] [[[d0 d1] d2] d3]]. intros (C0 & C1 & C2 & C3 & D0 & D1 & D2 & D3).
  destruct (rs_xor b3 d3 B3 D3) as [XA XD]. unfold add8. cbn [fst snd add4 step8]. rewrite XA, XD.
  rewrite (xor4 a3 c3 b3 d3), (xor4 b0 d0), (xor4 b1 d1), (xor4 b2 d2). reflexivity.
Qed.
Definition rs8 (v : oct8) : N * N * N * N := snd (Nat.iter 8 step8 v).
Lemma iter8_add n v w : ok8 v -> ok8 w -> Nat.iter n step8 (add8 v w) = add8 (Nat.iter n step8 v) (Nat.iter n step8 w).
Proof.
  intros V W. assert (K : forall n v, ok8 v -> ok8 (Nat.iter n step8 v)) by (intros m u U; induction m; [exact U|now apply step8_ok]).
  induction n as [|n IH]; [reflexivity|]. cbn [Nat.iter nat_rect]. change (nat_rect _ ?x (fun _ => step8) n) with (Nat.iter n step8 x).
  rewrite IH. apply step8_add; now apply K.
Qed.
Lemma rs8_add v w : ok8 v -> ok8 w -> rs8 (add8 v w) = add4 (rs8 v) (rs8 w).
Proof. intros V W. unfold rs8. now rewrite iter8_add. Qed.
Definition unit8 (i : nat) (x : N) : oct8 :=
  let u j := if Nat.eqb i j then x else 0 in (u 0%nat, u 1%nat, u 2%nat, u 3%nat, (u 4%nat, u 5%nat, u 6%nat, u 7%nat)).
Definition rs_col (i : nat) (x : N) : N * N * N * N :=
  let t r := Twofish.times 0x14d (nth i (nth r Twofish.RS []) 0) x in (t 0%nat, t 1%nat, t 2%nat, t 3%nat).
Definition same4 (v w : N * N * N * N) : bool :=
  let '(a, b, c, d) := v in let '(a', b', c', d') := w in (a =? a') && (b =? b') && (c =? c') && (d =? d').
Lemma same4_eq v w : same4 v w = true -> v = w.
Proof.
  destruct v as [[[a b] c] d], w as [[[a' b'] c'] d']. unfold same4. rewrite !andb_true_iff, !N.eqb_eq. now intros [[[-> ->] ->] ->].
Qed.
Lemma rs_unit i x : (i < 8)%nat -> octet x -> rs8 (unit8 i x) = rs_col i x.
Proof.
  intros I X. apply same4_eq. do 8 (destruct i as [|i]; [apply (all256 (fun x => same4 (rs8 (unit8 _ x)) (rs_col _ x))); [vm_compute; reflexivity|exact X]|]). lia.
Qed.
Lemma unit_ok i x : octet x -> ok8 (unit8 i x).
Proof.
  intros X. assert (G : forall j, octet (if Nat.eqb i j then x else 0)) by (intros j; destruct (Nat.eqb i j); [exact X|reflexivity]).
  repeat apply conj; apply G.
Qed.
Definition packs (v : oct8) : N * N :=
  let '(a0, a1, a2, a3, (b0, b1, b2, b3)) := v in (pack a3 a2 a1 a0, pack b3 b2 b1 b0).
Lemma step_packs v : ok8 v -> tf_rs_step (packs v) = packs (step8 v).
Proof.
  destruct v as [[[[a0 a1] a2] a3] [[[b0 b1] b2] b3]]. intros (A0 & A1 & A2 & A3 & B0 & B1 & B2 & B3).
  unfold packs, step8. now apply rs_step_std.
Qed.
Lemma iter_packs n v : ok8 v -> Nat.iter n tf_rs_step (packs v) = packs (Nat.iter n step8 v).
Proof.
  intros V. assert (K : forall n, ok8 (Nat.iter n step8 v)) by (intros m; induction m; [exact V|now apply step8_ok]).
  induction n as [|n IH]; [reflexivity|]. change (Nat.iter (S n) tf_rs_step (packs v)) with (tf_rs_step (Nat.iter n tf_rs_step (packs v))).
  rewrite IH. now apply step_packs.
Qed.
Lemma snd_packs v : snd (packs v) = let '(b0, b1, b2, b3) := snd v in pack b3 b2 b1 b0.
Proof. now destruct v as [[[[a0 a1] a2] a3] [[[b0 b1] b2] b3]]. Qed.
Definition sum8 (v : oct8) : oct8 :=
  let '(a0, a1, a2, a3, (b0, b1, b2, b3)) := v in
  add8 (unit8 0 a0) (add8 (unit8 1 a1) (add8 (unit8 2 a2) (add8 (unit8 3 a3) (add8 (unit8 4 b0) (add8 (unit8 5 b1) (add8 (unit8 6 b2) (unit8 7 b3))))))).
Lemma sum8_eq v : sum8 v = v.
Proof.
  destruct v as [[[[a0 a1] a2] a3] [[[b0 b1] b2] b3]]. unfold sum8, unit8, add8. cbn [Nat.eqb fst snd add4]. now rewrite !N.lxor_0_r, !N.lxor_0_l.
Qed.
Lemma rs8_std v : ok8 v -> rs8 v =
  let '(a0, a1, a2, a3, (b0, b1, b2, b3)) := v in
  add4 (rs_col 0 a0) (add4 (rs_col 1 a1) (add4 (rs_col 2 a2) (add4 (rs_col 3 a3) (add4 (rs_col 4 b0) (add4 (rs_col 5 b1) (add4 (rs_col 6 b2) (rs_col 7 b3))))))).
Proof.
  intros V. rewrite <- (sum8_eq v) at 1. destruct v as [[[[a0 a1] a2] a3] [[[b0 b1] b2] b3]].
  destruct V as (A0 & A1 & A2 & A3 & B0 & B1 & B2 & B3). unfold sum8.
  rewrite !rs8_add by (repeat first [now apply unit_ok|apply add8_ok]). rewrite !rs_unit by (assumption || lia). reflexivity.
Qed.
Lemma rs_std m0 m1 m2 m3 m4 m5 m6 m7 : ok8 (m0, m1, m2, m3, (m4, m5, m6, m7)) ->
  tf_rs (pack m3 m2 m1 m0) (pack m7 m6 m5 m4) = Twofish.word_of (Twofish.times_matrix 0x14d Twofish.RS [m0; m1; m2; m3; m4; m5; m6; m7]).
Proof.
  intros V. unfold tf_rs. change (pack m3 m2 m1 m0, pack m7 m6 m5 m4) with (packs (m0, m1, m2, m3, (m4, m5, m6, m7))).
  rewrite iter_packs, snd_packs by exact V. fold (rs8 (m0, m1, m2, m3, (m4, m5, m6, m7))). rewrite rs8_std by exact V. cbv beta iota.
  unfold rs_col, add4, Twofish.times_matrix, Twofish.RS. cbn [map nth]. rewrite word_pack.
  unfold Twofish.times_row. cbn [combine map fold_right fst snd]. rewrite !N.lxor_0_r. reflexivity.
Qed.

(** The key schedule. *)
Lemma four (s : bytes) i : octets s -> (4 * i + 4 <= length s)%nat ->
  exists a b c d, firstn 4 (skipn (4 * i) s) = [a; b; c; d] /\ octet a /\ octet b /\ octet c /\ octet d.
Proof.
  intros O L. assert (O' : octets (firstn 4 (skipn (4 * i) s))) by (now apply octets_firstn, octets_skipn).
  assert (L' : length (firstn 4 (skipn (4 * i) s)) = 4%nat) by (rewrite firstn_length, skipn_length; lia).
  destruct (firstn 4 (skipn (4 * i) s)) as [|a [|b [|c [|d [|]]]]]; try discriminate.
  exists a, b, c, d. repeat (apply octets_cons in O' as [? O']). now repeat apply conj.
Qed.
Lemma in_std (s : bytes) i : octets s -> (4 * i + 4 <= length s)%nat ->
  word (rev (slice s (4 * N.of_nat i) 4)) = Twofish.word_at s i /\ Twofish.word_at s i < two32.
Proof.
  intros O L. destruct (four s i O L) as (a & b & c & d & E & A & B & C & D). unfold Twofish.word_at, slice.
  replace (N.to_nat (4 * N.of_nat i)) with (4 * i)%nat by lia. change (N.to_nat 4) with 4%nat. rewrite E, word_pack. cbn [rev app].
  assert (P : pack d c b a < two32) by now apply pack_lt. split; [|exact P].
  rewrite <- (u32_small (pack d c b a)) by exact P. rewrite <- word_be. f_equal. symmetry. now apply be_pack.
Qed.
Lemma skip_more n m (s : bytes) : skipn n (skipn m s) = skipn (n + m) s.
Proof. rewrite Nat.add_comm. revert s. induction m as [|m IH]; intros s; [reflexivity|]. destruct s; [now rewrite !skipn_nil|]. cbn [skipn Nat.add]. apply IH. Qed.
Lemma s_std (s : bytes) i : octets s -> (8 * i + 8 <= length s)%nat ->
  tf_rs (Twofish.word_at s (2 * i)) (Twofish.word_at s (2 * i + 1)) = Twofish.S_i s i.
Proof.
  intros O L. destruct (four s (2 * i) O) as (a & b & c & d & E & A & B & C & D); [lia|].
  destruct (four s (2 * i + 1) O) as (a' & b' & c' & d' & E' & A' & B' & C' & D'); [lia|].
  unfold Twofish.word_at, Twofish.S_i. rewrite E, E', !word_pack.
  assert (X : firstn 8 (skipn (8 * i) s) = [a; b; c; d; a'; b'; c'; d']).
  { change [a; b; c; d; a'; b'; c'; d'] with ([a; b; c; d] ++ [a'; b'; c'; d']). rewrite <- E, <- E'.
    replace (4 * (2 * i))%nat with (8 * i)%nat by lia. replace (4 * (2 * i + 1))%nat with (4 + 8 * i)%nat by lia.
    rewrite <- skip_more. now rewrite <- (firstn_skipn 4 (firstn 8 _)), firstn_firstn, skipn_firstn_comm. }
  rewrite X. apply rs_std. now repeat apply conj.
Qed.
Lemma h_lt x L : sizes L -> Twofish.h x L < two32.
Proof.
  intros S. unfold Twofish.h. cbn [map seq]. unfold Twofish.h_octet.
  fold (chain L 0 (Twofish.octet_of x 0)) (chain L 1 (Twofish.octet_of x 1)) (chain L 2 (Twofish.octet_of x 2)) (chain L 3 (Twofish.octet_of x 3)).
  change (Twofish.q_last 0) with 1%nat. change (Twofish.q_last 1) with 0%nat.
  change (Twofish.q_last 2) with 1%nat. change (Twofish.q_last 3) with 0%nat.
  rewrite <- mds_std by (apply chain_octet; [exact S|cbn; tauto|apply oct_octet]).
  assert (M : forall j y, In j [0; 1; 2; 3]%nat -> octet y -> m_tab j y < two32).
  { intros j y J Y. destruct (m_std j y J Y) as (-> & M0 & M1 & M2 & M3). now apply pack_lt. }
  repeat apply x32_lt; apply M; try (cbn; tauto); (apply chain_octet; [exact S|cbn; tauto|apply oct_octet]).
Qed.
Lemma pairs_nth (g f : nat -> N) m : forall i n, (n < 2 * m)%nat ->
  nth n (flat_map (fun j => [g j; f j]) (seq i m)) 0 = if Nat.even n then g (i + n / 2)%nat else f (i + n / 2)%nat.
Proof.
  induction m as [|m IH]; intros i n L; [lia|]. cbn [seq flat_map app]. destruct n as [|[|n]].
  - cbn. now rewrite Nat.add_0_r.
  - cbn. now rewrite Nat.add_0_r.
  - cbn [nth]. rewrite IH by lia. cbn [Nat.even]. replace (S (S n) / 2)%nat with (S (n / 2)).
    + replace (i + S (n / 2))%nat with (S i + n / 2)%nat by lia. reflexivity.
    + replace (S (S n)) with (n + 1 * 2)%nat by lia. rewrite Nat.div_add by discriminate. lia.
Qed.
Lemma subkeys_std me mo i : sizes me -> sizes mo -> (i < 20)%nat ->
  let a := Twofish.h (2 * N.of_nat i * Twofish.rho) me in
  let b := Twofish.rol (Twofish.h ((2 * N.of_nat i + 1) * Twofish.rho) mo) 8 in
  tf_subkeys me mo (N.of_nat i) = [Twofish.mod32 (a + b); Twofish.rol (Twofish.mod32 (a + 2 * b)) 9].
Proof.
  intros SE SO I. assert (M : forall x, Twofish.mod32 x = u32 x) by reflexivity. unfold tf_subkeys. rewrite (u32_small (16843009 * _)) by (unfold two32; lia). rewrite (u32_small (_ + 16843009)) by (unfold two32; lia).
  replace (16843009 * (2 * N.of_nat i) + 16843009) with ((2 * N.of_nat i + 1) * Twofish.rho) by (unfold Twofish.rho; lia).
  replace (16843009 * (2 * N.of_nat i)) with (2 * N.of_nat i * Twofish.rho) by (unfold Twofish.rho; lia).
  rewrite !h_std by assumption. rewrite (rol_std (Twofish.h _ mo) 8) by (lia || now apply h_lt). rewrite rol_std by (lia || apply u32_lt).
  cbv zeta. exact (f_equal2 (fun x y => [x; Twofish.rol y 9]) (eq_sym (M _)) (eq_sym (M _))).
Qed.

Lemma keys_std KEY : octets KEY -> In (length KEY) [16; 24; 32]%nat ->
  sizes (Twofish.S_key KEY) /\ snd (tf_keys KEY) = map (tf_mk (Twofish.S_key KEY)) (seq 0 4) /\
  (forall n, (n < 40)%nat -> idx (fst (tf_keys KEY)) n = Twofish.K KEY n).
Proof.
  intros O L. assert (KL : N.to_nat (N.shiftr (u8 (len KEY)) 3) = (length KEY / 8)%nat /\ In (length KEY / 8)%nat [2; 3; 4]%nat /\ (8 * (length KEY / 8) = length KEY)%nat).
  { unfold len. destruct L as [<-|[<-|[<-|[]]]]; repeat apply conj; cbn; tauto. }
  destruct KL as (K1 & K2 & K3). unfold tf_keys. rewrite K1.
  assert (ME : map (fun i => word (rev (slice KEY (4 * N.of_nat (2 * i)) 4))) (seq 0 (length KEY / 8)) = Twofish.M_e KEY).
  { apply map_ext_in. intros i I. apply in_seq in I. apply in_std; [exact O|lia]. }
  assert (MO : map (fun i => word (rev (slice KEY (4 * N.of_nat (2 * i + 1)) 4))) (seq 0 (length KEY / 8)) = Twofish.M_o KEY).
  { apply map_ext_in. intros i I. apply in_seq in I. apply in_std; [exact O|lia]. }
  assert (MS : rev (map (fun i => tf_rs (word (rev (slice KEY (4 * N.of_nat (2 * i)) 4))) (word (rev (slice KEY (4 * N.of_nat (2 * i + 1)) 4)))) (seq 0 (length KEY / 8))) = Twofish.S_key KEY).
  { unfold Twofish.S_key. f_equal. apply map_ext_in. intros i I. apply in_seq in I.
    rewrite (proj1 (in_std KEY (2 * i) O ltac:(lia))), (proj1 (in_std KEY (2 * i + 1) O ltac:(lia))). apply s_std; [exact O|lia]. }
  cbv beta zeta. rewrite ME, MO, MS. cbv beta zeta delta [fst snd].
  assert (SE : sizes (Twofish.M_e KEY)) by (unfold sizes, Twofish.M_e; now rewrite map_length, seq_length).
  assert (SO : sizes (Twofish.M_o KEY)) by (unfold sizes, Twofish.M_o; now rewrite map_length, seq_length).
  assert (SS : sizes (Twofish.S_key KEY)) by (unfold sizes, Twofish.S_key; now rewrite rev_length, map_length, seq_length).
  split; [exact SS|]. split; [reflexivity|]. intros n N40. unfold idx.
  rewrite (HashP.flat_map_ext_in _ (fun i => [Twofish.mod32 (Twofish.A_i KEY i + Twofish.B_i KEY i); Twofish.rol (Twofish.mod32 (Twofish.A_i KEY i + 2 * Twofish.B_i KEY i)) 9])).
  - rewrite pairs_nth by exact N40. reflexivity.
  - intros i I. apply in_seq in I. apply subkeys_std; [exact SE|exact SO|lia].
Qed.

(** One block. *)
Lemma out_std w : w < two32 -> tf_out w = Twofish.octets_of w.
Proof.
  intros W. destruct (unpack w W) as (a & b & c & d & A & B & C & D & ->). unfold tf_out. rewrite be_pack by assumption.
  unfold Twofish.octets_of. cbn [seq map rev app]. rewrite <- !oct_std. destruct (pack_bytes a b c d A B C D) as (E3 & E2 & E1 & E0).
  change (N.of_nat 0) with 0. change (N.of_nat 1) with 1. change (N.of_nat 2) with 2. change (N.of_nat 3) with 3. now rewrite E0, E1, E2, E3.
Qed.
Lemma mod32_lt x : Twofish.mod32 x < two32. Proof. apply u32_lt. Qed.
Lemma K_lt KEY n : Twofish.K KEY n < two32.
Proof.
  assert (R : forall x k, x < two32 -> k <= 32 -> Twofish.rol x k < two32) by (intros x k X L; rewrite <- rol_std by assumption; apply rol32_lt).
  cbv beta zeta delta [Twofish.K]. destruct (Nat.even n); [apply mod32_lt|]. apply R; [apply mod32_lt|lia].
Qed.
Definition start (KEY d : bytes) : N * N * N * N :=
  let white i := Twofish.word_at d i ^^ Twofish.K KEY i in (white 0%nat, white 1%nat, white 2%nat, white 3%nat).
Definition finish (k4 k5 k6 k7 : N) (b : N * N * N * N) : bytes :=
  let '(b0, b1, b2, b3) := b in
  Twofish.octets_of (b2 ^^ k4) ++ Twofish.octets_of (b3 ^^ k5) ++ Twofish.octets_of (b0 ^^ k6) ++ Twofish.octets_of (b1 ^^ k7).
Lemma cipher_eq KEY d : Twofish.twofish_cipher KEY d =
  finish (Twofish.K KEY 4) (Twofish.K KEY 5) (Twofish.K KEY 6) (Twofish.K KEY 7) (fold_left (Twofish.round KEY) (seq 0 16) (start KEY d)).
Proof.
  cbv beta zeta delta [Twofish.twofish_cipher start]. destruct (fold_left _ _ _) as [[[b0 b1] b2] b3]. cbv beta iota delta [finish]. reflexivity.
Qed.
Definition start_m (l : list N) (d : bytes) : N * N * N * N :=
  (u32 (tf_in d 0 ^^ idx l 0), u32 (tf_in d 4 ^^ idx l 1), u32 (tf_in d 8 ^^ idx l 2), u32 (tf_in d 12 ^^ idx l 3)).
Definition finish_m (k4 k5 k6 k7 : N) (b : N * N * N * N) : bytes :=
  let '(b0, b1, b2, b3) := b in
  tf_out (u32 (b2 ^^ k4)) ++ tf_out (u32 (b3 ^^ k5)) ++ tf_out (u32 (b0 ^^ k6)) ++ tf_out (u32 (b1 ^^ k7)).
Lemma run_eq l mk d : tf_run l mk true d = Ok (finish_m (idx l 4) (idx l 5) (idx l 6) (idx l 7) (fold_left (tf_enc_round l mk) (seq 0 8) (start_m l d))).
Proof. unfold tf_run. fold (start_m l d). destruct (fold_left _ _ _) as [[[b0 b1] b2] b3]. reflexivity. Qed.
Lemma finish_eq k4 k5 k6 k7 b : k4 < two32 -> k5 < two32 -> k6 < two32 -> k7 < two32 -> ok4 b -> finish_m k4 k5 k6 k7 b = finish k4 k5 k6 k7 b.
Proof.
  intros A B C D. destruct b as [[[b0 b1] b2] b3]. intros (B0 & B1 & B2 & B3). unfold finish_m, finish.
  rewrite !u32_small by (apply x32_lt; assumption). rewrite !out_std by (apply x32_lt; assumption). reflexivity.
Qed.
Lemma start_eq KEY l d : octets d -> length d = 16%nat -> (forall n, (n < 40)%nat -> idx l n = Twofish.K KEY n) -> start_m l d = start KEY d /\ ok4 (start KEY d).
Proof.
  intros O L KK. unfold start_m, start. rewrite !KK by lia.
  assert (I : forall i, (4 * i + 4 <= 16)%nat -> tf_in d (4 * N.of_nat i) = Twofish.word_at d i /\ Twofish.word_at d i < two32).
  { intros i J. unfold tf_in. apply in_std; [exact O|lia]. }
  destruct (I 0%nat) as [I0 L0]; [lia|]. destruct (I 1%nat) as [I1 L1]; [lia|]. destruct (I 2%nat) as [I2 L2]; [lia|]. destruct (I 3%nat) as [I3 L3]; [lia|].
  change (4 * N.of_nat 0) with 0 in I0. change (4 * N.of_nat 1) with 4 in I1. change (4 * N.of_nat 2) with 8 in I2. change (4 * N.of_nat 3) with 12 in I3.
  rewrite I0, I1, I2, I3. rewrite !u32_small by (apply x32_lt; [assumption|apply K_lt]). split; [reflexivity|].
  repeat apply conj; (apply x32_lt; [assumption|apply K_lt]).
Qed.
Lemma fold_ok l mk is b : ok4 b -> ok4 (fold_left (tf_enc_round l mk) is b).
Proof. revert b. induction is as [|i is IH]; intros b B; [exact B|]. cbn [fold_left]. apply IH, round_ok. Qed.
Lemma run_std KEY l mk d : octets d -> length d = 16%nat -> sizes (Twofish.S_key KEY) -> mk = map (tf_mk (Twofish.S_key KEY)) (seq 0 4) ->
  (forall n, (n < 40)%nat -> idx l n = Twofish.K KEY n) -> tf_run l mk true d = Ok (Twofish.twofish_cipher KEY d).
Proof.
  intros O L SZ -> KK. rewrite run_eq, cipher_eq. destruct (start_eq KEY l d O L KK) as [-> S]. f_equal.
  rewrite !KK by lia. rewrite <- (sixteen_rounds KEY l (Twofish.S_key KEY) _ SZ eq_refl KK S).
  exact (finish_eq _ _ _ _ _ (K_lt KEY 4) (K_lt KEY 5) (K_lt KEY 6) (K_lt KEY 7) (fold_ok _ _ _ _ S)).
Qed.
Theorem twofish_std KEY c d : octets KEY -> Twofish KEY = Ok c -> In (length KEY) [16; 24; 32]%nat -> octets d -> length d = 16%nat ->
  c_encrypt c d = Ok (Twofish.twofish_cipher KEY d).
Proof.
  intros OK H L O LD. unfold Twofish in H. destruct (_ || _ || _); [|discriminate]. apply Ok_inj in H. subst c. cbn [c_encrypt].
  rewrite on_block_len by exact LD. destruct (keys_std KEY OK L) as (S & M & KK). exact (run_std KEY _ _ d O LD S M KK).
Qed.
