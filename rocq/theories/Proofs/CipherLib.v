(** Words, blocks and folds shared by the cipher proofs. *)
From Verif Require Export Spec.Cipher Proofs.IncludesP Proofs.CfbP.

Lemma u32_lt x : u32 x < two32.
Proof. apply N.mod_lt. discriminate. Qed.
Lemma u32_small x : x < two32 -> u32 x = x.
Proof. apply N.mod_small. Qed.
Lemma u32_bits x i : N.testbit (u32 x) i = (i <? 32) && N.testbit x i.
Proof.
  unfold u32. change two32 with (2 ^ 32).
  destruct (N.ltb_spec i 32).
  - now rewrite N.mod_pow2_bits_low.
  - now rewrite N.mod_pow2_bits_high.
Qed.
Lemma bits_lt32 x i : x < two32 -> 32 <= i -> N.testbit x i = false.
Proof.
  intros L H. rewrite <- (u32_small x L), u32_bits. now rewrite (proj2 (N.ltb_ge i 32) H).
Qed.
Definition x32 (a k : N) : N := u32 (N.lxor a k).
Lemma x32_lt a k : x32 a k < two32. Proof. apply u32_lt. Qed.
Lemma x32_twice a k : a < two32 -> x32 (x32 a k) k = a.
Proof.
  intros L. apply N.bits_inj. intro i. unfold x32.
  rewrite u32_bits, N.lxor_spec, u32_bits, N.lxor_spec.
  destruct (N.ltb_spec i 32).
  - destruct (N.testbit a i), (N.testbit k i); reflexivity.
  - now rewrite (bits_lt32 a i).
Qed.

Lemma word_out_be w : word_out w = Ok (be 4 w).
Proof. apply (unhexlify_makehex 4). Qed.
Lemma words_out_be ws : words_out ws = Ok (flat_map (be 4) ws).
Proof.
  induction ws as [|w r IH]; [reflexivity|].
  cbn [words_out flat_map]. rewrite word_out_be. cbn [bind]. now rewrite IH.
Qed.
Lemma word_be w : word (be 4 w) = u32 w.
Proof.
  unfold word. rewrite toint256_be by lia. change (256 ^ N.of_nat 4) with two32.
  unfold u32. now rewrite N.mod_mod.
Qed.
Lemma be_word s : octets s -> length s = 4%nat -> be 4 (word s) = s.
Proof.
  intros O L. unfold word. rewrite toint256_be_val by (auto; unfold len; lia).
  assert (be_val s < two32).
  { eapply N.lt_le_trans; [apply be_val_bound; auto|]. unfold len. now rewrite L. }
  rewrite u32_small by auto. rewrite <- L. now apply be_be_val.
Qed.
Lemma word_lt s : word s < two32. Proof. apply u32_lt. Qed.

Lemma slice_at (a b c : bytes) p n :
  N.to_nat p = length a -> N.to_nat n = length b -> slice (a ++ b ++ c) p n = b.
Proof.
  intros P Q. unfold slice. rewrite P, Q, skipn_len_app by auto. now apply firstn_len_app.
Qed.
Lemma slice_length s p n : (N.to_nat p + N.to_nat n <= length s)%nat ->
  length (slice s p n) = N.to_nat n.
Proof. intros H. unfold slice. rewrite firstn_length, skipn_length. lia. Qed.
Lemma slice_octets s p n : octets s -> octets (slice s p n).
Proof. intros. unfold slice. now apply octets_firstn, octets_skipn. Qed.
Lemma slice_two s n m : length s = (N.to_nat n + N.to_nat m)%nat -> slice s 0 n ++ slice s n m = s.
Proof.
  intros L. unfold slice. change (N.to_nat 0) with O. rewrite skipn_O.
  rewrite (firstn_all2 (n := N.to_nat m)) by (rewrite skipn_length; lia).
  apply firstn_skipn.
Qed.

Lemma block8_split d : octets d -> length d = 8%nat ->
  d = be 4 (word (slice d 0 4)) ++ be 4 (word (slice d 4 4)).
Proof.
  intros O L.
  assert (S : forall p, p <= 4 -> be 4 (word (slice d p 4)) = slice d p 4).
  { intros p H. apply be_word; [now apply slice_octets|]. apply slice_length. lia. }
  rewrite !S by lia.
  symmetry. now apply (slice_two d 4 4).
Qed.
Lemma block8_in a b : word (slice (be 4 a ++ be 4 b) 0 4) = u32 a /\
  word (slice (be 4 a ++ be 4 b) 4 4) = u32 b.
Proof.
  split.
  - rewrite (slice_at [] (be 4 a) (be 4 b)) by now rewrite ?be_length. apply word_be.
  - replace (be 4 a ++ be 4 b) with (be 4 a ++ be 4 b ++ []) by now rewrite app_nil_r.
    rewrite slice_at by now rewrite ?be_length. apply word_be.
Qed.
Lemma block8_out a b : octets (be 4 a ++ be 4 b) /\ length (be 4 a ++ be 4 b) = 8%nat.
Proof. split; [apply octets_app; split; apply be_octets|now rewrite app_length, !be_length]. Qed.

(** Undoing a fold step by step, from the last element back. *)
Lemma fold_inverse {S I} (P : S -> Prop) (f g : S -> I -> S) :
  (forall s i, P s -> P (f s i) /\ g (f s i) i = s) ->
  forall is s, P s -> P (fold_left f is s) /\ fold_left g (rev is) (fold_left f is s) = s.
Proof.
  intros H is. induction is as [|i is IH]; intros s Ps; [split; auto|].
  cbn [fold_left rev]. destruct (H s i Ps) as [P1 G1].
  destruct (IH _ P1) as [P2 G2]. split; [auto|].
  rewrite fold_left_app, G2. exact G1.
Qed.

Lemma on_block_len n f d : length d = N.to_nat n -> on_block n f d = f d.
Proof.
  intros L. unfold on_block, len. rewrite L, N2Nat.id, N.eqb_refl. reflexivity.
Qed.
Lemma on_block_not n f d : length d <> N.to_nat n -> on_block n f d = Throw ERuntime.
Proof.
  intros L. unfold on_block, len. destruct (N.eqb_spec (N.of_nat (length d)) n); [lia|reflexivity].
Qed.
Lemma whole_on_block n f g : whole_blocks (mkCipher n (on_block n f) (on_block n g)) (N.to_nat n).
Proof. intros b L. cbn [c_encrypt c_decrypt]. now rewrite !on_block_not. Qed.

(** Rotations of 32-bit words, by bits. *)
Lemma ror32_bits x n i : x < two32 -> n <= 32 -> i < 32 ->
  N.testbit (ror32 x n) i = N.testbit x ((i + n) mod 32).
Proof.
  intros L Hn Hi. unfold ror32. rewrite u32_bits, (proj2 (N.ltb_lt i 32) Hi). cbn [andb].
  unfold ror_bits. rewrite N.lor_spec, N.shiftr_spec by lia.
  destruct (N.lt_ge_cases (i + n) 32) as [C|C].
  - rewrite (N.mod_small (i + n)) by lia.
    rewrite N.shiftl_spec_low by lia. now rewrite orb_false_r.
  - rewrite (bits_lt32 x (i + n)) by lia. cbn [orb].
    rewrite N.shiftl_spec_high by lia. rewrite N.land_spec, N.ones_spec_low by lia.
    rewrite andb_true_r. f_equal.
    replace (i + n) with (i - (32 - n) + 1 * 32) by lia.
    destruct (N.eq_dec n 32) as [->|Nn].
    + replace (i - (32 - 32)) with i by lia. rewrite N.mod_add by lia. now rewrite N.mod_small by lia.
    + rewrite N.mod_add by lia. rewrite N.mod_small by lia. reflexivity.
Qed.
Lemma ror32_lt x n : ror32 x n < two32. Proof. apply u32_lt. Qed.
Lemma rol32_lt x n : rol32 x n < two32. Proof. apply u32_lt. Qed.
Lemma u32_ext x y : x < two32 -> y < two32 ->
  (forall i, i < 32 -> N.testbit x i = N.testbit y i) -> x = y.
Proof.
  intros X Y H. apply N.bits_inj. intro i. destruct (N.lt_ge_cases i 32) as [C|C]; [auto|].
  now rewrite !bits_lt32.
Qed.
Lemma rol_ror x n : x < two32 -> n <= 32 -> rol32 (ror32 x n) n = x.
Proof.
  intros L Hn. apply u32_ext; auto using rol32_lt. intros i Hi. unfold rol32.
  rewrite !ror32_bits; try apply ror32_lt; try apply N.mod_lt; auto; try lia.
  f_equal. rewrite N.add_mod_idemp_l by lia. replace (i + (32 - n) + n) with (i + 1 * 32) by lia.
  rewrite N.mod_add by lia. now apply N.mod_small.
Qed.
Lemma ror_rol x n : x < two32 -> n <= 32 -> ror32 (rol32 x n) n = x.
Proof.
  intros L Hn. apply u32_ext; auto using ror32_lt. intros i Hi. unfold rol32.
  rewrite !ror32_bits; try apply ror32_lt; try apply N.mod_lt; auto; try lia.
  f_equal. rewrite N.add_mod_idemp_l by lia. replace (i + n + (32 - n)) with (i + 1 * 32) by lia.
  rewrite N.mod_add by lia. now apply N.mod_small.
Qed.

Lemma app_inj_len {A} (a b c d : list A) : a ++ b = c ++ d -> length a = length c -> a = c /\ b = d.
Proof.
  revert c. induction a as [|x a IH]; intros [|y c] E L; try discriminate; [auto|].
  cbn [app] in E. injection E as <- E. cbn [length] in L. destruct (IH c E) as [-> ->]; auto.
Qed.
