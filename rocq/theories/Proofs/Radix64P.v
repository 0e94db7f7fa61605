(** Lemmas about Model.Radix64. *)
From Verif Require Import Proofs.Lib Model.Includes Model.Radix64 Proofs.IncludesP.

Definition isbit (c : N) : Prop := c = 48 \/ c = 49.

Lemma makebin_bits v n : Forall isbit (makebin v n).
Proof.
  revert v; induction n; intros; cbn [makebin]; [constructor|].
  apply Forall_app; split; auto. constructor; [unfold isbit; lia | constructor].
Qed.

Lemma toint2_aux_bits v s : Forall isbit s -> v * 2 ^ len s + 2 ^ len s <= two64 ->
  toint2_aux v s = fold_left (fun v c => 2 * v + (c - 48)) s v.
Proof.
  revert v; induction s as [|c s IH]; intros v H L; [reflexivity|].
  inversion H as [|? ? Hc H']; subst. cbn [toint2_aux fold_left].
  rewrite len_cons, N.pow_add_r, N.pow_1_r in L.
  assert (1 <= 2 ^ len s) by (apply N.lt_pred_le, N.neq_0_lt_0, N.pow_nonzero; lia).
  replace ((c =? 48) || (c =? 49)) with true by (unfold isbit in Hc; lia).
  assert (E : u64 (u64 (N.shiftl v 1) + (c - 48)) = 2 * v + (c - 48)).
  { rewrite N.shiftl_mul_pow2, N.pow_1_r. unfold u64. destruct Hc as [-> | ->];
    rewrite !N.mod_small; try lia; try nia; rewrite ?N.mod_small; nia. }
  rewrite E. apply IH; auto. destruct Hc as [-> | ->]; nia.
Qed.

Lemma toint2_bits s : Forall isbit s -> len s <= 64 ->
  toint2 s = fold_left (fun v c => 2 * v + (c - 48)) s 0.
Proof.
  intros. apply toint2_aux_bits; auto. rewrite N.mul_0_l, N.add_0_l.
  change two64 with (2 ^ 64). apply N.pow_le_mono_r; lia.
Qed.

Lemma toint2_makebin v n : (n <= 64)%nat -> toint2 (makebin v n) = v mod 2 ^ N.of_nat n.
Proof.
  intros L. rewrite toint2_bits; [|apply makebin_bits | unfold len; rewrite makebin_length; lia].
  clear L. revert v; induction n; intros; [cbn; now rewrite N.mod_1_r|].
  cbn [makebin]. rewrite fold_left_app, IHn. cbn [fold_left].
  replace (N.of_nat (S n)) with (1 + N.of_nat n) by lia. rewrite N.pow_add_r, N.pow_1_r.
  assert (2 ^ N.of_nat n <> 0) by (apply N.pow_nonzero; lia).
  rewrite N.mod_mul_r by (lia || auto). lia.
Qed.

Lemma makebin_fold s : Forall isbit s ->
  makebin (fold_left (fun v c => 2 * v + (c - 48)) s 0) (length s) = s.
Proof.
  induction s as [|c s IH] using rev_ind; intros H; [reflexivity|].
  apply Forall_app in H as [H Hc]. inversion Hc as [|? ? Hc' _]; subst.
  rewrite fold_left_app, app_length, Nat.add_1_r. cbn [fold_left makebin].
  specialize (IH H). set (v := fold_left (fun v c => 2 * v + (c - 48)) s 0) in *. clearbody v.
  replace ((2 * v + (c - 48)) / 2) with v by (destruct Hc' as [-> | ->]; lia).
  rewrite IH. do 2 f_equal. destruct Hc' as [-> | ->]; lia.
Qed.

Lemma makebin_toint2 s : Forall isbit s -> len s <= 64 -> makebin (toint2 s) (length s) = s.
Proof. intros. rewrite toint2_bits by auto. now apply makebin_fold. Qed.

(** Chunks. *)
Lemma chunks_app k a b f : length a = k -> (0 < k)%nat -> (length b <= f)%nat ->
  chunks k (length a + f) (a ++ b) = a :: chunks k f b.
Proof.
  intros La Hk Hf. destruct a as [|x a]; [cbn in La; lia|].
  cbn [length plus chunks app]. rewrite <- La.
  change (x :: a ++ b) with ((x :: a) ++ b).
  rewrite firstn_len_app, skipn_len_app by reflexivity. f_equal.
  assert (M : forall f1 f2 s, (length s <= f1)%nat -> (length s <= f2)%nat ->
     chunks (length (x :: a)) f1 s = chunks (length (x :: a)) f2 s).
  { clear. induction f1; intros f2 s H1 H2.
    - destruct s; [|cbn in H1; lia]. destruct f2; reflexivity.
    - destruct f2; [destruct s; [reflexivity | cbn in H2; lia]|].
      cbn [chunks]. destruct s as [|y s]; auto. f_equal. apply IHf1; cbn [length skipn];
      rewrite skipn_length; cbn in *; lia. }
  apply M; lia.
Qed.

Lemma chunks_concat k (l : list bytes) f : (0 < k)%nat -> Forall (fun c => length c = k) l ->
  f = length (concat l) -> chunks k f (concat l) = l.
Proof.
  intros Hk H ->. induction l as [|a l IH]; [reflexivity|].
  inversion H; subst. cbn [concat]. rewrite app_length.
  rewrite chunks_app by auto. f_equal. now apply IH.
Qed.

Lemma concat_chunks k m : (0 < k)%nat -> forall s : bytes, length s = (k * m)%nat ->
  exists l, s = concat l /\ Forall (fun c => @length N c = k) l /\ length l = m.
Proof.
  intros Hk. induction m; intros s L.
  - exists []. destruct s; [auto | cbn in L; lia].
  - destruct (IHm (skipn k s)) as (l & E & F & Ll).
    { rewrite skipn_length. lia. }
    exists (firstn k s :: l). cbn. rewrite <- E, firstn_skipn. repeat split; auto.
    constructor; auto. rewrite firstn_length. lia.
Qed.

(** Letters. *)
Definition good62 (c62 c63 : N) : Prop :=
  c62 <> c63 /\
  (forall c, c = c62 \/ c = c63 ->
     c < 256 /\ ~ (65 <= c <= 90) /\ ~ (97 <= c <= 122) /\ ~ (48 <= c <= 57) /\ c <> 61).

Lemma unletter_letter c62 c63 i : good62 c62 c63 -> i < 64 ->
  unletter c62 c63 (letter c62 c63 i) = Ok (makebin i 6).
Proof.
  intros [Hd Hg] Hi. destruct (Hg c62 (or_introl eq_refl)) as (?&?&?&?&?).
  destruct (Hg c63 (or_intror eq_refl)) as (?&?&?&?&?).
  unfold unletter, letter.
  destruct (i <? 26) eqn:E1; [|destruct (i <? 52) eqn:E2; [|destruct (i <? 62) eqn:E3;
    [|destruct (i =? 62) eqn:E4]]].
  - replace ((65 <=? 65 + i) && (65 + i <=? 90)) with true by lia. do 2 f_equal. lia.
  - replace ((65 <=? 71 + i) && (71 + i <=? 90)) with false by lia.
    replace ((97 <=? 71 + i) && (71 + i <=? 122)) with true by lia. do 2 f_equal. lia.
  - replace ((65 <=? i - 4) && (i - 4 <=? 90)) with false by lia.
    replace ((97 <=? i - 4) && (i - 4 <=? 122)) with false by lia.
    replace ((48 <=? i - 4) && (i - 4 <=? 57)) with true by lia. do 2 f_equal. lia.
  - replace ((65 <=? c62) && (c62 <=? 90)) with false by lia.
    replace ((97 <=? c62) && (c62 <=? 122)) with false by lia.
    replace ((48 <=? c62) && (c62 <=? 57)) with false by lia.
    rewrite N.eqb_refl. assert (i = 62) as -> by lia. reflexivity.
  - replace ((65 <=? c63) && (c63 <=? 90)) with false by lia.
    replace ((97 <=? c63) && (c63 <=? 122)) with false by lia.
    replace ((48 <=? c63) && (c63 <=? 57)) with false by lia.
    replace (c63 =? c62) with false by lia. rewrite N.eqb_refl.
    assert (i = 63) as -> by lia. reflexivity.
Qed.

Lemma letter_not_pad c62 c63 i : good62 c62 c63 -> i < 64 -> letter c62 c63 i <> 61.
Proof.
  intros [Hd Hg] Hi. destruct (Hg c62 (or_introl eq_refl)) as (?&?&?&?&?).
  destruct (Hg c63 (or_intror eq_refl)) as (?&?&?&?&?).
  unfold letter. repeat match goal with |- context [if ?b then _ else _] => destruct b eqn:? end; lia.
Qed.

Lemma unletters_map c62 c63 l : good62 c62 c63 ->
  Forall (fun c => length c = 6%nat /\ Forall isbit c) l ->
  unletters c62 c63 (map (fun b => letter c62 c63 (toint2 b)) l) = Ok (concat l).
Proof.
  intros Hg H. induction l as [|c l IH]; [reflexivity|].
  inversion H as [|? ? [Lc Bc] H']; subst. cbn [map unletters concat].
  assert (len c <= 64) by (unfold len; lia).
  assert (toint2 c < 64).
  { rewrite <- (makebin_toint2 c) by auto. rewrite Lc, toint2_makebin by lia.
    change (2 ^ N.of_nat 6) with 64. apply N.mod_lt. lia. }
  rewrite unletter_letter by auto. cbn [bind].
  rewrite IH by auto. cbn [bind]. rewrite <- Lc. now rewrite makebin_toint2.
Qed.

Lemma strip_pad_repeat n u r : (forall c r', r = c :: r' -> c <> 61) -> r <> [] -> u + N.of_nat n < 256 ->
  strip_pad u (repeat 61 n ++ r) = Ok (r, u + N.of_nat n).
Proof.
  revert u; induction n; intros u Hr Hne Hu; cbn [repeat app strip_pad].
  - destruct r as [|c r']; [congruence|]. cbn.
    replace (c =? 61) with false by (specialize (Hr c r' eq_refl); lia).
    f_equal. f_equal. lia.
  - rewrite N.eqb_refl. unfold u8. rewrite N.mod_small by lia. rewrite IHn by (auto; lia).
    do 2 f_equal. lia.
Qed.

Definition bits8 (s : bytes) : bytes := flat_map (fun c => makebin c 8) s.

Lemma bits8_concat s : bits8 s = concat (map (fun c => makebin c 8) s).
Proof. apply flat_map_concat_map. Qed.
Lemma bits8_length s : length (bits8 s) = (8 * length s)%nat.
Proof.
  induction s as [|c s IH]; [reflexivity|]. cbn [bits8 flat_map length].
  rewrite app_length, makebin_length. fold (bits8 s). lia.
Qed.
Lemma bits8_isbit s : Forall isbit (bits8 s).
Proof. apply Forall_flat_map, Forall_forall. intros. apply makebin_bits. Qed.
Lemma bits8_app a b : bits8 (a ++ b) = bits8 a ++ bits8 b.
Proof. apply flat_map_app. Qed.
Lemma bits8_zero n : bits8 (repeat 0 n) = repeat 48 (8 * n).
Proof.
  induction n; [reflexivity|]. replace (8 * S n)%nat with (8 + 8 * n)%nat by lia.
  rewrite repeat_app, <- IHn. reflexivity.
Qed.

Lemma unbits8 s : octets s ->
  map (fun x => u8 (toint2 x)) (chunks 8 (length (bits8 s)) (bits8 s)) = s.
Proof.
  intros H. rewrite bits8_concat, chunks_concat; [|lia | | reflexivity].
  - rewrite map_map. rewrite <- (map_id s) at 2. apply map_ext_in. intros c Hc.
    rewrite toint2_makebin by lia. change (2 ^ N.of_nat 8) with 256.
    unfold octets in H; rewrite Forall_forall in H. specialize (H c Hc). cbn beta in H.
    unfold u8. rewrite !N.mod_small; lia.
  - apply Forall_forall. intros x Hx. apply in_map_iff in Hx as (c & <- & _). apply makebin_length.
Qed.

Lemma firstn_concat k (l : list bytes) n : Forall (fun c => length c = k) l ->
  concat (firstn n l) = firstn (k * n) (concat l).
Proof.
  revert l; induction n; intros l H; [now rewrite Nat.mul_0_r|].
  destruct l as [|c l]; [cbn; now rewrite firstn_nil|]. inversion H; subst.
  cbn [firstn concat]. rewrite IHn by auto.
  replace (length c * S n)%nat with (length c + length c * n)%nat by lia.
  now rewrite firstn_app_2.
Qed.

Section RT.
Variables c62 c63 : N.
Hypothesis good : good62 c62 c63.

Lemma enc_shape s : octets s ->
  exists p l, (p <= 2)%nat /\ (length s + p)%nat = (3 * (length l / 4))%nat /\ (length l mod 4 = 0)%nat /\
    Forall (fun c => length c = 6%nat /\ Forall isbit c) l /\
    concat l = bits8 (s ++ repeat 0 p) /\
    ascii2radix64_c s c62 c63 =
      map (fun b => letter c62 c63 (toint2 b)) (firstn (length l - p) l) ++ repeat 61 p.
Proof.
  intros H. set (p := N.to_nat ((3 - len s mod 3) mod 3)).
  assert (Hp : (p <= 2)%nat) by lia.
  assert (Hm : exists m, (length s + p = 3 * m)%nat).
  { exists ((length s + p) / 3)%nat. unfold p, len. lia. }
  destruct Hm as [m Hm].
  set (bin := bits8 (s ++ repeat 0 p)).
  assert (Lb : length bin = (6 * (4 * m))%nat).
  { unfold bin. rewrite bits8_length, app_length, repeat_length. lia. }
  destruct (concat_chunks 6 (4 * m) ltac:(lia) bin Lb) as (l & E & F & Ll).
  assert (F' : Forall (fun c => length c = 6%nat /\ Forall isbit c) l).
  { rewrite Forall_forall in *. intros c Hc. split; auto.
    pose proof (bits8_isbit (s ++ repeat 0 p)) as B. fold bin in B. rewrite E in B.
    rewrite Forall_forall in *. intros x Hx. apply B. apply in_concat. eauto. }
  exists p, l. repeat split; auto.
  - rewrite Ll. lia.
  - rewrite Ll. lia.
  - unfold ascii2radix64_c. fold p. fold (bits8 (s ++ repeat 0 p)). fold bin.
    rewrite E, chunks_concat by (lia || auto).
    rewrite map_length, firstn_map. reflexivity.
Qed.

Lemma radix64_roundtrip s : octets s -> s <> [] -> len s < two64 ->
  radix642ascii_c (ascii2radix64_c s c62 c63) c62 c63 = Ok s.
Proof.
  intros H Hne Hlen. destruct (enc_shape s H) as (p & l & Hp & Hl & Hl4 & F & E & ->).
  assert (Ls : (1 <= length s)%nat) by (destruct s; [congruence | cbn; lia]).
  set (q := firstn (length l - p) l).
  assert (Lq : length q = (length l - p)%nat) by (unfold q; rewrite firstn_length; lia).
  set (body := map (fun b => letter c62 c63 (toint2 b)) q).
  assert (Lbody : length body = (length l - p)%nat) by (unfold body; now rewrite map_length).
  assert (Fq : Forall (fun c => length c = 6%nat /\ Forall isbit c) q).
  { rewrite Forall_forall in *. intros c Hc. apply F. unfold q in Hc.
    rewrite <- (firstn_skipn (length l - p) l). apply in_or_app; auto. }
  unfold radix642ascii_c.
  replace (N.land (len (body ++ repeat 61 p)) 3 =? 0) with true.
  2:{ change 3 with (N.ones 2). rewrite land_ones_mod. change (2 ^ 2) with 4.
      symmetry. apply N.eqb_eq. autorewrite with len. unfold len. rewrite Lbody. lia. }
  cbn [negb]. rewrite rev_app_distr.
  assert (rev (repeat 61 p) = repeat 61 p) as ->.
  { clear. induction p; [reflexivity|]. cbn [repeat rev]. rewrite IHp.
    clear. induction p; [reflexivity|]. cbn. now rewrite IHp. }
  assert (Hbne : body <> []) by (intros X; rewrite X in Lbody; cbn in Lbody; lia).
  rewrite strip_pad_repeat.
  - cbn [bind]. rewrite rev_involutive. unfold body. rewrite unletters_map by auto. cbn [bind].
    rewrite N.add_0_l.
    assert (X : concat q ++ repeat 48 (N.to_nat (N.of_nat p * 6)) = bits8 (s ++ repeat 0 p)).
    { unfold q. rewrite (firstn_concat 6).
      2:{ eapply Forall_impl; [|apply F]. intros c Hc; exact (proj1 Hc). }
      rewrite E, bits8_app, bits8_zero.
      replace (6 * (length l - p))%nat with (length (bits8 s) + 2 * p)%nat
        by (rewrite bits8_length; lia).
      rewrite firstn_app_2. rewrite <- app_assoc. f_equal.
      replace (8 * p)%nat with (2 * p + 6 * p)%nat by lia. rewrite repeat_app.
      rewrite firstn_len_app by now rewrite repeat_length.
      f_equal. f_equal. lia. }
    rewrite X. rewrite unbits8.
    2:{ apply octets_app; split; auto. apply octets_repeat. lia. }
    f_equal. apply prefix_app. autorewrite with len. unfold sub64, two64 in *. lia.
  - intros c r' Er. assert (In c body).
    { apply in_rev. rewrite Er. left; auto. }
    unfold body in H0. apply in_map_iff in H0 as (b & <- & Hb).
    rewrite Forall_forall in Fq. destruct (Fq b Hb) as [Lb Bb].
    apply letter_not_pad; auto.
    rewrite <- (makebin_toint2 b) by (auto; unfold len; lia).
    rewrite Lb, toint2_makebin by lia. change (2 ^ N.of_nat 6) with 64. apply N.mod_lt. lia.
  - intros X. apply Hbne. apply (f_equal (@rev N)) in X. rewrite rev_involutive in X. auto.
  - lia.
Qed.

(** The alphabet: letters, digits, c62, c63. *)
Definition in_alphabet (c : N) : Prop :=
  (65 <= c <= 90) \/ (97 <= c <= 122) \/ (48 <= c <= 57) \/ c = c62 \/ c = c63.

Lemma letter_alphabet i : in_alphabet (letter c62 c63 i).
Proof.
  unfold letter, in_alphabet.
  repeat match goal with |- context [if ?b then _ else _] => destruct b eqn:? end; lia.
Qed.

Lemma radix64_shape s : octets s ->
  exists body p, ascii2radix64_c s c62 c63 = body ++ repeat 61 p /\ (p <= 2)%nat /\
    Forall in_alphabet body /\ len (ascii2radix64_c s c62 c63) = 4 * ((len s + 2) / 3).
Proof.
  intros H. destruct (enc_shape s H) as (p & l & Hp & Hl & Hl4 & F & E & ->).
  eexists _, p. split; [reflexivity|]. repeat split; auto.
  - apply Forall_forall. intros c Hc. apply in_map_iff in Hc as (b & <- & _). apply letter_alphabet.
  - unfold len. rewrite app_length, map_length, firstn_length, repeat_length.
    assert (length l >= p)%nat by lia.
    lia.
Qed.

End RT.

(** Decoding arbitrary text. *)
Lemma strip_pad_UB u r : strip_pad u r = UB <-> Forall (eq 61) r.
Proof.
  revert u; induction r as [|c r IH]; intros u; cbn; [split; auto; constructor|].
  destruct (c =? 61) eqn:E.
  - rewrite IH. split; intros H; [constructor; auto; lia | inversion H; auto].
  - split; [discriminate|]. intros H; inversion H; lia.
Qed.

Lemma strip_pad_cases u r :
  strip_pad u r = UB \/ exists r' u', strip_pad u r = Ok (r', u').
Proof.
  revert u; induction r as [|c r IH]; intros u; cbn; auto.
  destruct (c =? 61); eauto.
Qed.

Lemma unletters_cases c62 c63 s :
  (exists b, unletters c62 c63 s = Ok b) \/ unletters c62 c63 s = Throw ERuntime.
Proof.
  induction s as [|c s IH]; cbn [unletters]; eauto.
  assert (D : (exists b, unletter c62 c63 c = Ok b) \/ unletter c62 c63 c = Throw ERuntime).
  { unfold unletter. repeat match goal with |- context [if ?b then _ else _] => destruct b end; eauto. }
  destruct D as [[b ->] | ->]; cbn [bind]; auto.
  destruct IH as [[t ->] | ->]; cbn [bind]; eauto.
Qed.

Lemma decode_cases c62 c63 s :
  (exists t, radix642ascii_c s c62 c63 = Ok t /\ octets t) \/
  radix642ascii_c s c62 c63 = Throw ERuntime \/
  (radix642ascii_c s c62 c63 = UB).
Proof.
  unfold radix642ascii_c. destruct (negb (N.land (len s) 3 =? 0)).
  { left. eexists; split; eauto. constructor. }
  destruct (strip_pad_cases 0 (rev s)) as [-> | (r & u & ->)]; cbn [bind]; auto.
  destruct (unletters_cases c62 c63 (rev r)) as [[b ->] | ->]; cbn [bind]; auto.
  left. eexists; split; [reflexivity|]. unfold prefix. apply octets_firstn.
  apply Forall_forall. intros x Hx. apply in_map_iff in Hx as (y & <- & _). unfold u8. lia.
Qed.

Lemma decode_UB_iff c62 c63 s :
  radix642ascii_c s c62 c63 = UB <-> len s mod 4 = 0 /\ Forall (eq 61) s.
Proof.
  unfold radix642ascii_c. change 3 with (N.ones 2). rewrite land_ones_mod. change (2 ^ 2) with 4.
  destruct (len s mod 4 =? 0) eqn:E; cbn [negb].
  2:{ split; [discriminate | intros [H _]; lia]. }
  destruct (strip_pad_cases 0 (rev s)) as [H | (r & u & H)]; rewrite H; cbn [bind].
  - split; auto. intros _. split; [lia|]. apply strip_pad_UB in H.
    apply Forall_rev in H. now rewrite rev_involutive in H.
  - destruct (unletters_cases c62 c63 (rev r)) as [[b ->] | ->]; cbn [bind];
    (split; [discriminate|]); intros [_ F]; apply Forall_rev in F;
    apply (strip_pad_UB 0) in F; congruence.
Qed.

Lemma good62_default : good62 43 47.
Proof. split; [discriminate|]. intros c [-> | ->]; lia. Qed.
