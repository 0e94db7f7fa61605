(** IDEA computes the function of its definition. *)
From Verif Require Import Proofs.CipherLib Proofs.DesP Proofs.IdeaP Proofs.DesStdP Proofs.RotP Proofs.HashStdP.
From Verif Require Spec.Idea Spec.Des.
From Verif Require Import Proofs.Lib.

Lemma mul_std a b : ok16 a -> ok16 b -> idea_mult a b = Idea.mul16 a b.
Proof.
  intros A B. unfold idea_mult, Idea.mul16, Idea.unit16, ok16 in *. destruct (N.eqb_spec a 0) as [->|Ha], (N.eqb_spec b 0) as [->|Hb]; cbn [andb]; [reflexivity|..];
    (rewrite u32_small by (unfold two32; nia)); match goal with |- (if ?v =? 65536 then _ else _) = _ => destruct (N.eqb_spec v 65536) as [->|]; reflexivity end.
Qed.
Lemma rot_std K : K < 2 ^ 128 -> idea_rot (be 16 K) = be 16 (rotl 128 25 K).
Proof.
  intros B. unfold idea_rot. rewrite DesP.bits_be, makebin_str. change (8 * 16)%nat with 128%nat. set (b := Des.bits_of 128 K).
  assert (Lb : length b = 128%nat) by apply bits_length. rewrite !slice_str, <- str_app.
  assert (R : firstn (N.to_nat 103) (skipn (N.to_nat 25) b) ++ firstn (N.to_nat 25) (skipn (N.to_nat 0) b) = Des.bits_of 128 (rotl 128 25 K)).
  { pose proof (bits_rotl 128 25 K ltac:(lia) B) as E. cbn [N.of_nat Pos.of_succ_nat Pos.succ] in E. rewrite E. clear E. fold b. unfold Des.rotate_left.
    rewrite (firstn_all2 (skipn (N.to_nat 25) b)); [reflexivity|]. rewrite skipn_length, Lb. apply Nat.leb_le. reflexivity. }
  rewrite R. rewrite <- be_bits_block. unfold Des.bits_block. apply map_ext_in. intros y I. apply in_seq in I. rewrite slice_str.
  replace (N.to_nat (8 * N.of_nat y)) with (8 * y)%nat by lia. change (N.to_nat 8) with 8%nat. apply toint2_num. rewrite firstn_length. lia.
Qed.
Lemma words_std K : K < 2 ^ 128 -> forall m i, idea_words m (be 16 (rotl 128 (N.of_nat (25 * i) mod 128) K)) = map (Idea.subkey K) (seq (8 * i) (8 * m)).
Proof.
  intros B. induction m as [|m IH]; intros i; [now rewrite Nat.mul_0_r|]. cbn [idea_words].
  replace (8 * S m)%nat with (8 + 8 * m)%nat by lia. rewrite seq_app, map_app. f_equal.
  - replace (seq (8 * i) 8) with (map (fun y => 8 * i + y)%nat (seq 0 8)).
    2:{ generalize (8 * i)%nat as s. intros s. cbn [seq map]. repeat (apply (f_equal2 cons); [lia|]). reflexivity. }
    rewrite map_map. apply map_ext_in. intros y I. apply in_seq in I. unfold Idea.subkey.
    replace ((8 * i + y) / 8)%nat with i by (replace (8 * i + y)%nat with (y + i * 8)%nat by lia; rewrite Nat.div_add, Nat.div_small by lia; lia).
    replace ((8 * i + y) mod 8)%nat with y by (replace (8 * i + y)%nat with (y + i * 8)%nat by lia; rewrite Nat.mod_add, Nat.mod_small by lia; lia).
    cbv zeta. set (R := rotl 128 _ K). 
    assert (P : slice (be 16 R) (2 * N.of_nat y) 2 = be 2 (R / 2 ^ (112 - 16 * N.of_nat y))).
    { unfold slice. replace (N.to_nat (2 * N.of_nat y)) with (2 * y)%nat by lia. change (N.to_nat 2) with 2%nat.
      replace 16%nat with (2 * y + 2 + (14 - 2 * y))%nat by lia. rewrite be_part. do 2 f_equal. change 256 with (2 ^ 8). rewrite <- N.pow_mul_r. f_equal. lia. }
    rewrite P, toint256_be by lia. change (256 ^ N.of_nat 2) with 65536. reflexivity.
  - rewrite rot_std by (apply rotl_fits; [|exact B]; pose proof (N.mod_lt (N.of_nat (25 * i)) 128 ltac:(discriminate)); lia).
    change 25 with (25 mod 128) at 1. rewrite rotl_rotl by (assumption || reflexivity).
    replace (N.of_nat (25 * i) + 25) with (N.of_nat (25 * S i)) by lia. rewrite IH. do 2 f_equal. lia.
Qed.
Lemma setkey_idea KEY : octets KEY -> length KEY = 16%nat -> idea_setkey KEY = map (Idea.subkey (be_val KEY)) (seq 0 52).
Proof.
  intros O L. unfold idea_setkey. set (K := be_val KEY). assert (B : K < 2 ^ 128) by (unfold K; eapply N.lt_le_trans; [apply be_val_bound, O|unfold len; rewrite L; discriminate]).
  assert (E : KEY = be 16 (rotl 128 (N.of_nat (25 * 0) mod 128) K)).
  { change (N.of_nat (25 * 0) mod 128) with 0. rewrite rotl_0 by exact B. unfold K. rewrite <- L. symmetry. now apply be_be_val. }
  rewrite E, words_std by exact B. rewrite firstn_map. f_equal.
Qed.
Lemma step_std k0 k1 k2 k3 k4 k5 Z r x : okq x -> ok16 k0 -> ok16 k3 -> ok16 k4 -> ok16 k5 ->
  Z (6 * r + 0)%nat = k0 -> Z (6 * r + 1)%nat = k1 -> Z (6 * r + 2)%nat = k2 -> Z (6 * r + 3)%nat = k3 -> Z (6 * r + 4)%nat = k4 -> Z (6 * r + 5)%nat = k5 ->
  idea_round x [k0; k1; k2; k3; k4; k5] = Ok (Idea.idea_step Z x r) /\ okq (Idea.idea_step Z x r).
Proof.
  intros X A D E F <- <- <- <- <- <-.
  assert (M : Idea.idea_step Z x r = mid (ma (Z (6 * r + 4)%nat) (Z (6 * r + 5)%nat) (kx (Z (6 * r + 0)%nat) (Z (6 * r + 1)%nat) (Z (6 * r + 2)%nat) (Z (6 * r + 3)%nat) x))).
  { destruct x as [[[x1 x2] x3] x4]. destruct X as (X1 & X2 & X3 & X4). unfold mid, ma, kx, Idea.idea_step. cbv zeta.
    rewrite <- !mul_std; auto; try reflexivity; try (apply xor16); try apply u16_ok; try apply mult_ok; auto using u16_ok, xor16, mult_ok. }
  rewrite M. split; [apply round_eq|now apply step_ok].
Qed.
Theorem idea_std KEY c d : octets KEY -> IDEA KEY = Ok c -> octets d -> length d = 8%nat -> c_encrypt c d = Ok (Idea.idea_cipher KEY d).
Proof.
  intros OK C Od L. unfold IDEA in C. destruct (N.eqb_spec (len KEY) 16) as [LK|]; [|discriminate]. cbn [negb] in C. apply Ok_inj in C. subst c.
  unfold IDEA_from. cbn [c_encrypt]. rewrite on_block_len by exact L. unfold idea_encrypt.
  destruct (idea_setkey_ok KEY OK) as [F _]. rewrite setkey_idea in * by (auto; unfold len in LK; lia). unfold Idea.idea_cipher.
  set (Z := Idea.subkey (be_val KEY)) in *. 
  assert (KZ : forall i, (i < 52)%nat -> ok16 (Z i)).
  { intros i I. rewrite Forall_forall in F. apply F. apply in_map, in_seq. lia. }
  clearbody Z. clear F.
  assert (G : idea_group (map Z (seq 0 52)) = map (fun r => [Z (6 * r + 0); Z (6 * r + 1); Z (6 * r + 2); Z (6 * r + 3); Z (6 * r + 4); Z (6 * r + 5)]%nat) (seq 0 8) ++ [[Z 48; Z 49; Z 50; Z 51]%nat]) by reflexivity.
  rewrite G, idea_run_eq. clear G.
  assert (Q : q_in d = (be_val (firstn 2 (skipn (2 * 0) d)), be_val (firstn 2 (skipn (2 * 1) d)), be_val (firstn 2 (skipn (2 * 2) d)), be_val (firstn 2 (skipn (2 * 3) d)))).
  { assert (W : forall p, u16 (toint256 (slice d p 2)) = be_val (firstn 2 (skipn (N.to_nat p) d))).
    { intros p. fold (slice d p 2). change (firstn 2 (skipn (N.to_nat p) d)) with (slice d p 2).
      assert (LS : len (slice d p 2) <= 2) by (unfold len, slice; rewrite firstn_length; change (N.to_nat 2) with 2%nat; lia).
      rewrite toint256_be_val by (auto using slice_octets; lia). apply u16_small. eapply N.lt_le_trans; [apply be_val_bound; auto using slice_octets|].
      change 65536 with (256 ^ 2). now apply N.pow_le_mono_r. }
    unfold q_in. rewrite !W. reflexivity. }
  rewrite <- Q. pose proof (q_in_ok d) as QO. generalize (q_in d) QO. clear Q QO. intros q QO.
  rewrite firstn_app, map_length, seq_length. change (8 - 8)%nat with 0%nat. rewrite firstn_O, app_nil_r, firstn_all2 by (rewrite map_length, seq_length; lia).
  rewrite nth_error_app2 by (rewrite map_length, seq_length; lia). rewrite map_length, seq_length. change (8 - 8)%nat with 0%nat. cbn [nth_error].
  assert (R : forall n s q, (s + n <= 8)%nat -> okq q -> idea_rounds (map (fun r => [Z (6 * r + 0); Z (6 * r + 1); Z (6 * r + 2); Z (6 * r + 3); Z (6 * r + 4); Z (6 * r + 5)]%nat) (seq s n)) q = Ok (fold_left (Idea.idea_step Z) (seq s n) q)
              /\ okq (fold_left (Idea.idea_step Z) (seq s n) q)).
  { induction n as [|n IH]; intros s q' S QO'; [split; [reflexivity|exact QO']|]. cbn [seq map idea_rounds fold_left].
    destruct (step_std (Z (6 * s + 0)%nat) (Z (6 * s + 1)%nat) (Z (6 * s + 2)%nat) (Z (6 * s + 3)%nat) (Z (6 * s + 4)%nat) (Z (6 * s + 5)%nat) Z s q') as [E O']; auto; try (apply KZ; lia).
    rewrite E. cbn [bind]. apply IH; [lia|exact O']. }
  destruct (R 8%nat 0%nat q ltac:(lia) QO) as [E O']. rewrite E. cbn [bind]. f_equal. set (x := fold_left (Idea.idea_step Z) (seq 0 8) q) in *. clearbody x. clear E R.
  destruct x as [[[a b] c] e]. destruct O' as (A & B & C & D). unfold Idea.idea_final, mid, kx, q_out.
  rewrite !mul_std by (auto; apply KZ; lia). reflexivity.
Qed.
