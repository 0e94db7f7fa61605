(** Twofish: rounds undone. *)
From Verif Require Export Proofs.CipherLib.

Definition ok4 (b : N * N * N * N) : Prop :=
  let '(b0, b1, b2, b3) := b in b0 < two32 /\ b1 < two32 /\ b2 < two32 /\ b3 < two32.
Definition turn (b : N * N * N * N) : N * N * N * N :=
  let '(b0, b1, b2, b3) := b in (b2, b3, b0, b1).
Definition tf_unround l mk b i := turn (tf_dec_round l mk (turn b) i).

Lemma tf_half_ror b k : b < two32 -> u32 (N.lxor (rol32 (ror32 (u32 (N.lxor b k)) 1) 1) k) = b.
Proof. intros L. rewrite rol_ror by (try apply u32_lt; lia). exact (x32_twice b k L). Qed.
Lemma tf_half_rol b k : b < two32 -> ror32 (u32 (N.lxor (u32 (N.lxor (rol32 b 1) k)) k)) 1 = b.
Proof.
  intros L. pose proof (x32_twice (rol32 b 1) k (rol32_lt b 1)) as E. unfold x32 in E. rewrite E.
  apply ror_rol; lia.
Qed.

Lemma tf_undo l mk b i : ok4 b ->
  ok4 (tf_enc_round l mk b i) /\ tf_unround l mk (tf_enc_round l mk b i) i = b.
Proof.
  destruct b as [[[b0 b1] b2] b3]. intros [A0 [A1 [A2 A3]]].
  split.
  - unfold tf_enc_round. repeat split; try apply u32_lt; apply ror32_lt.
  - unfold tf_enc_round. cbn zeta.
    set (c2 := ror32 (u32 (N.lxor b2 _)) 1). set (c3 := u32 (N.lxor (rol32 b3 1) _)).
    set (c0 := ror32 (u32 (N.lxor b0 _)) 1). set (c1 := u32 (N.lxor (rol32 b1 1) _)).
    unfold tf_unround, turn, tf_dec_round. cbn zeta.
    assert (E0 : u32 (N.lxor (rol32 c0 1) (u32 (tf_t0 mk c2 + tf_t1 mk c3 + idx l (4 * i + 10)))) = b0).
    { subst c0. now apply tf_half_ror. }
    assert (E1 : ror32 (u32 (N.lxor c1 (u32 (tf_t0 mk c2 + 2 * tf_t1 mk c3 + idx l (4 * i + 11))))) 1 = b1).
    { subst c1. now apply tf_half_rol. }
    rewrite E0, E1.
    assert (E2 : u32 (N.lxor (rol32 c2 1) (u32 (tf_t0 mk b0 + tf_t1 mk b1 + idx l (4 * i + 8)))) = b2).
    { subst c2. now apply tf_half_ror. }
    assert (E3 : ror32 (u32 (N.lxor c3 (u32 (tf_t0 mk b0 + 2 * tf_t1 mk b1 + idx l (4 * i + 9))))) 1 = b3).
    { subst c3. now apply tf_half_rol. }
    now rewrite E2, E3.
Qed.
Lemma turn_turn b : turn (turn b) = b.
Proof. now destruct b as [[[b0 b1] b2] b3]. Qed.
Lemma tf_fold_turn l mk is b :
  fold_left (tf_unround l mk) is b = turn (fold_left (tf_dec_round l mk) is (turn b)).
Proof.
  revert b. induction is as [|i is IH]; intros b; cbn [fold_left]; [now rewrite turn_turn|].
  rewrite IH. unfold tf_unround. now rewrite turn_turn.
Qed.

Lemma tf_words d : octets d -> length d = 16%nat ->
  d = tf_out (tf_in d 0) ++ tf_out (tf_in d 4) ++ tf_out (tf_in d 8) ++ tf_out (tf_in d 12).
Proof.
  intros Od L.
  assert (S : forall p, p <= 12 -> tf_out (tf_in d p) = slice d p 4).
  { intros p H. unfold tf_out, tf_in. rewrite be_word.
    - apply rev_involutive.
    - now apply octets_rev, slice_octets.
    - rewrite rev_length. apply slice_length. lia. }
  rewrite !S by lia. unfold slice. change (N.to_nat 0) with 0%nat.
  change (N.to_nat 4) with 4%nat. change (N.to_nat 8) with 8%nat. change (N.to_nat 12) with 12%nat.
  do 16 (destruct d as [|? d]; [discriminate|]). destruct d; [reflexivity|discriminate].
Qed.
Lemma tf_out_length w : length (tf_out w) = 4%nat.
Proof. unfold tf_out. now rewrite rev_length, be_length. Qed.
Lemma tf_in_out a b c d :
  let e := tf_out a ++ tf_out b ++ tf_out c ++ tf_out d in
  tf_in e 0 = u32 a /\ tf_in e 4 = u32 b /\ tf_in e 8 = u32 c /\ tf_in e 12 = u32 d.
Proof.
  intros e. unfold tf_in.
  assert (S : forall x, word (rev (tf_out x)) = u32 x).
  { intros x. unfold tf_out. rewrite rev_involutive. apply word_be. }
  assert (A := tf_out_length a). assert (B := tf_out_length b).
  assert (C := tf_out_length c). assert (D := tf_out_length d).
  split; [|split; [|split]].
  - subst e. rewrite (slice_at [] (tf_out a) (tf_out b ++ tf_out c ++ tf_out d)); auto.
  - subst e. rewrite (slice_at (tf_out a) (tf_out b) (tf_out c ++ tf_out d)); auto.
  - subst e. rewrite app_assoc.
    rewrite (slice_at (tf_out a ++ tf_out b) (tf_out c) (tf_out d)); auto;
      rewrite ?app_length, ?A, ?B, ?C; reflexivity.
  - replace e with ((tf_out a ++ tf_out b ++ tf_out c) ++ tf_out d ++ []).
    + rewrite slice_at; auto; rewrite ?app_length, ?A, ?B, ?C, ?D; reflexivity.
    + subst e. rewrite app_nil_r. now rewrite <- !app_assoc.
Qed.

Lemma tf_inverse l mk d : octets d -> length d = 16%nat ->
  exists e, tf_run l mk true d = Ok e /\ octets e /\ length e = 16%nat /\ tf_run l mk false e = Ok d.
Proof.
  intros O L. unfold tf_run at 1.
  set (b := (u32 (N.lxor (tf_in d 0) (idx l 0)), u32 (N.lxor (tf_in d 4) (idx l 1)),
             u32 (N.lxor (tf_in d 8) (idx l 2)), u32 (N.lxor (tf_in d 12) (idx l 3)))).
  assert (K : ok4 b) by (repeat split; apply u32_lt).
  destruct (fold_inverse ok4 _ _ (tf_undo l mk) (seq 0 8) b K) as [KE G].
  rewrite tf_fold_turn in G. cbn iota.
  destruct (fold_left (tf_enc_round l mk) (seq 0 8) b) as [[[b0 b1] b2] b3].
  destruct KE as [A0 [A1 [A2 A3]]].
  eexists. split; [reflexivity|]. split; [|split].
  - rewrite !octets_app. unfold tf_out. repeat split; apply octets_rev, be_octets.
  - now rewrite !app_length, !tf_out_length.
  - unfold tf_run. cbn iota.
    match goal with |- context [tf_in (tf_out ?w ++ tf_out ?x ++ tf_out ?y ++ tf_out ?z) 0] =>
      destruct (tf_in_out w x y z) as [-> [-> [-> ->]]] end.
    rewrite !(u32_small (u32 _)) by apply u32_lt.
    change (u32 (N.lxor (u32 (N.lxor b2 (idx l 4))) (idx l 4))) with (x32 (x32 b2 (idx l 4)) (idx l 4)).
    change (u32 (N.lxor (u32 (N.lxor b3 (idx l 5))) (idx l 5))) with (x32 (x32 b3 (idx l 5)) (idx l 5)).
    change (u32 (N.lxor (u32 (N.lxor b0 (idx l 6))) (idx l 6))) with (x32 (x32 b0 (idx l 6)) (idx l 6)).
    change (u32 (N.lxor (u32 (N.lxor b1 (idx l 7))) (idx l 7))) with (x32 (x32 b1 (idx l 7)) (idx l 7)).
    rewrite !x32_twice by auto. cbn [turn] in G.
    destruct (fold_left (tf_dec_round l mk) (rev (seq 0 8)) (b2, b3, b0, b1)) as [[[c0 c1] c2] c3].
    cbn [turn] in G. unfold b in G. injection G as -> -> -> ->.
    rewrite (tf_words d O L) at 5.
    pose proof (x32_twice (tf_in d 0) (idx l 0) (word_lt _)) as X0.
    pose proof (x32_twice (tf_in d 4) (idx l 1) (word_lt _)) as X1.
    pose proof (x32_twice (tf_in d 8) (idx l 2) (word_lt _)) as X2.
    pose proof (x32_twice (tf_in d 12) (idx l 3) (word_lt _)) as X3.
    unfold x32 in *. now rewrite X0, X1, X2, X3.
Qed.

Lemma twofish_ok KEY : len KEY = 16 \/ len KEY = 24 \/ len KEY = 32 ->
  exists c, Twofish KEY = Ok c /\ c_block c = 16 /\ inverts c 16 /\ whole_blocks c 16.
Proof.
  intros L. unfold Twofish.
  replace ((u8 (len KEY) =? 16) || (u8 (len KEY) =? 24) || (u8 (len KEY) =? 32)) with true
    by (destruct L as [->|[->| ->]]; reflexivity).
  eexists. split; [reflexivity|]. split; [reflexivity|]. split; [|apply (whole_on_block 16)].
  intros b O Lb. set (k := tf_keys KEY).
  destruct (tf_inverse (fst k) (snd k) b O Lb) as [e [E [Oe [Le D]]]].
  exists e. cbn [c_encrypt c_decrypt]. rewrite !on_block_len by auto. auto.
Qed.
