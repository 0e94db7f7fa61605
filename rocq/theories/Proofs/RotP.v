(** Rotations by their bits, and parts of numbers written in octets. *)
From Verif Require Import Proofs.Lib Proofs.HashStdP Proofs.DesStdP Proofs.CipherLib.
From Verif Require Spec.Des.

Lemma sum_low a b n j : b < 2 ^ n -> j < n -> N.testbit (a * 2 ^ n + b) j = N.testbit b j.
Proof.
  intros B J. rewrite <- (N.mod_pow2_bits_low (a * 2 ^ n + b) n) by exact J. rewrite N.add_comm, N.mod_add by (apply N.pow_nonzero; discriminate). now rewrite N.mod_small.
Qed.
Lemma sum_high a b n j : b < 2 ^ n -> n <= j -> N.testbit (a * 2 ^ n + b) j = N.testbit a (j - n).
Proof.
  intros B J. replace j with (j - n + n) at 1 by lia. rewrite <- N.div_pow2_bits. f_equal. rewrite N.div_add_l by (apply N.pow_nonzero; discriminate).
  rewrite N.div_small by exact B. lia.
Qed.
Lemma high_false w x j : x < 2 ^ w -> w <= j -> N.testbit x j = false.
Proof. intros X J. rewrite <- (N.mod_small x (2 ^ w)) by exact X. now apply N.mod_pow2_bits_high. Qed.
Lemma rotl_bits w n x j : n <= w -> x < 2 ^ w -> j < w -> N.testbit (rotl w n x) j = N.testbit x ((j + (w - n)) mod w).
Proof.
  intros H X J.
  assert (E : rotl w n x = (x mod 2 ^ (w - n)) * 2 ^ n + x / 2 ^ (w - n)).
  { unfold rotl. f_equal. replace (2 ^ w) with (2 ^ (w - n) * 2 ^ n) by (rewrite <- N.pow_add_r; f_equal; lia). apply N.mul_mod_distr_r; apply N.pow_nonzero; discriminate. }
  assert (B : x / 2 ^ (w - n) < 2 ^ n) by (replace n with (w - (w - n)) at 2 by lia; apply div_pow_lt; [lia|exact X]).
  rewrite E. destruct (N.lt_ge_cases j n) as [C|C].
  - rewrite sum_low by assumption. rewrite N.div_pow2_bits. f_equal. symmetry. apply N.mod_small. lia.
  - rewrite sum_high by assumption. rewrite N.mod_pow2_bits_low by lia. f_equal. 
    replace (j + (w - n)) with (j - n + 1 * w) by lia. rewrite N.mod_add by lia. symmetry. apply N.mod_small. lia.
Qed.
Lemma bits_ext w x y : x < 2 ^ w -> y < 2 ^ w -> (forall j, j < w -> N.testbit x j = N.testbit y j) -> x = y.
Proof.
  intros X Y H. apply N.bits_inj. intro j. destruct (N.lt_ge_cases j w) as [C|C]; [now apply H|]. now rewrite (high_false w x), (high_false w y).
Qed.
Lemma rotl_rotl w a b x : 0 < w -> x < 2 ^ w -> rotl w (b mod w) (rotl w (a mod w) x) = rotl w ((a + b) mod w) x.
Proof.
  intros W X. assert (A : a mod w < w) by (apply N.mod_lt; lia). assert (B : b mod w < w) by (apply N.mod_lt; lia). assert (C : (a + b) mod w < w) by (apply N.mod_lt; lia).
  assert (R : rotl w (a mod w) x < 2 ^ w) by (apply rotl_fits; [lia|exact X]).
  apply (bits_ext w); [apply rotl_fits; [lia|exact R]|apply rotl_fits; [lia|exact X]|].
  intros j J. rewrite !rotl_bits; try assumption; try lia; try (apply N.mod_lt; lia). f_equal.
  rewrite N.add_mod_idemp_l by lia. rewrite (N.add_mod a b w) by lia. 
  destruct (N.lt_ge_cases (a mod w + b mod w) w) as [D|D].
  - rewrite (N.mod_small (a mod w + b mod w)) by exact D. replace (j + (w - b mod w) + (w - a mod w)) with (j + (w - (a mod w + b mod w)) + 1 * w) by lia. apply N.mod_add. lia.
  - replace ((a mod w + b mod w) mod w) with (a mod w + b mod w - w).
    + f_equal. lia.
    + replace (a mod w + b mod w) with (a mod w + b mod w - w + 1 * w) at 2 by lia. rewrite N.mod_add by lia. symmetry. apply N.mod_small. lia.
Qed.
Lemma rotl_0 w x : x < 2 ^ w -> rotl w 0 x = x.
Proof. intros X. unfold rotl. rewrite N.mul_1_r, N.sub_0_r, N.mod_small, N.div_small by exact X. lia. Qed.

(** A number and its bits. *)
Lemma nth_bits n v i : (i < n)%nat -> nth i (Des.bits_of n v) false = N.testbit v (N.of_nat (n - 1 - i)).
Proof.
  intros I. unfold Des.bits_of. rewrite (nth_indep _ false (N.testbit v (N.of_nat (n - 1 - 0)))) by (rewrite map_length, seq_length; exact I).
  rewrite (map_nth (fun i => N.testbit v (N.of_nat (n - 1 - i)))). now rewrite seq_nth.
Qed.
Lemma nth_rotate {A} (d : A) r l i : (r <= length l)%nat -> (i < length l)%nat -> nth i (Des.rotate_left r l) d = nth ((i + r) mod length l) l d.
Proof.
  intros R I. unfold Des.rotate_left. destruct (Nat.lt_ge_cases i (length l - r)) as [C|C].
  - rewrite app_nth1 by (rewrite skipn_length; exact C). rewrite Nat.mod_small by lia.
    transitivity (nth (i + r) (firstn r l ++ skipn r l) d); [|now rewrite firstn_skipn]. rewrite app_nth2; rewrite firstn_length; [|lia]. f_equal. lia.
  - rewrite app_nth2 by (rewrite skipn_length; exact C). rewrite skipn_length.
    replace (i + r)%nat with (i + r - length l + 1 * length l)%nat by lia. rewrite Nat.mod_add by lia. rewrite Nat.mod_small by lia.
    transitivity (nth (i + r - length l) (firstn r l ++ skipn r l) d); [|now rewrite firstn_skipn]. rewrite app_nth1 by (rewrite firstn_length; lia). f_equal. lia.
Qed.
Lemma bits_rotl w r x : (r <= w)%nat -> x < 2 ^ N.of_nat w -> Des.bits_of w (rotl (N.of_nat w) (N.of_nat r) x) = Des.rotate_left r (Des.bits_of w x).
Proof.
  intros R X. apply (nth_ext _ _ false false); [now rewrite rotate_length, !bits_length|]. rewrite bits_length. intros i I.
  rewrite nth_bits by exact I. rewrite nth_rotate by (rewrite bits_length; lia). rewrite bits_length.
  rewrite nth_bits by (apply Nat.mod_upper_bound; lia). rewrite rotl_bits by (assumption || lia). f_equal.
  destruct (Nat.lt_ge_cases (i + r) w) as [C|C].
  - rewrite Nat.mod_small by exact C. replace (N.of_nat (w - 1 - i) + (N.of_nat w - N.of_nat r)) with (N.of_nat (w - 1 - (i + r)) + 1 * N.of_nat w) by lia.
    rewrite N.mod_add by lia. apply N.mod_small. lia.
  - replace ((i + r) mod w)%nat with (i + r - w)%nat.
    + rewrite N.mod_small by lia. lia.
    + replace (i + r)%nat with (i + r - w + 1 * w)%nat at 2 by lia. rewrite Nat.mod_add by lia. symmetry. apply Nat.mod_small. lia.
Qed.

(** Parts of a number written in octets. *)
Lemma be_split a b v : be (a + b) v = be a (v / 256 ^ N.of_nat b) ++ be b v.
Proof.
  revert v. induction b as [|b IH]; intros v.
  - rewrite Nat.add_0_r. cbn [be N.of_nat]. rewrite N.pow_0_r, N.div_1_r. now rewrite app_nil_r.
  - replace (a + S b)%nat with (S (a + b)) by lia. rewrite !be_S_r, IH, <- app_assoc. do 2 f_equal.
    rewrite N.div_div by (try apply N.pow_nonzero; discriminate). f_equal. rewrite Nat2N.inj_succ, N.pow_succ_r'. reflexivity.
Qed.
Lemma be_part a b c v : firstn b (skipn a (be (a + b + c) v)) = be b (v / 256 ^ N.of_nat c).
Proof.
  rewrite be_split, be_split. rewrite <- app_assoc, skipn_app, be_length, Nat.sub_diag, skipn_all2 by (rewrite be_length; lia). cbn [app skipn].
  rewrite firstn_app, be_length, Nat.sub_diag, firstn_O, app_nil_r. apply firstn_all2. rewrite be_length. lia.
Qed.
Lemma be_bits_block n v : Des.bits_block (Des.bits_of (8 * n) v) n = be n v.
Proof.
  assert (E : Des.block_bits (be n v) = Des.bits_of (8 * n) v).
  { apply str_inj. rewrite <- bits_str by apply be_octets. rewrite DesP.bits_be. apply makebin_str. }
  rewrite <- E. rewrite <- (be_length n v) at 2. apply bits_block_bits, be_octets.
Qed.
