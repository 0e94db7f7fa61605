(** Every cipher enciphers every block; what setting up each one gives. *)
From Verif Require Export Proofs.FeistelP Proofs.DesP Proofs.TwofishP Proofs.CamelliaP Proofs.IdeaP Proofs.AesP.
From Verif Require Export Proofs.CfbP.

Lemma words_out_total ws n : length ws = n -> exists e, words_out ws = Ok e /\ length e = (4 * n)%nat.
Proof.
  intros <-. rewrite words_out_be. eexists. split; [reflexivity|].
  induction ws as [|w r IH]; [reflexivity|]. cbn [flat_map length]. rewrite app_length, be_length, IH. lia.
Qed.
Lemma aes_total KEY c : AES KEY = Ok c -> enciphers_blocks c 16.
Proof.
  unfold AES. destruct (_ || _ || _); [|discriminate]. intros H. apply Ok_inj in H. subst c.
  intros b L. cbn [c_encrypt]. rewrite on_block_len by auto. unfold aes_encrypt. cbn zeta.
  now apply (words_out_total _ 4).
Qed.
Lemma blowfish_total KEY c : Blowfish KEY = Ok c -> enciphers_blocks c 8.
Proof.
  unfold Blowfish. destruct (_ || _); [discriminate|].
  destruct (bf_fill_p _ _ _ _) as [[p ini]| | |]; try discriminate. cbn [bind].
  destruct (bf_fill_s _ _ _ _) as [s| | |]; try discriminate. cbn [bind].
  intros H. apply Ok_inj in H. subst c.
  intros b L. cbn [c_encrypt]. rewrite on_block_len by auto. now apply (words_out_total _ 2).
Qed.
Lemma cast_total KEY c : CAST128 KEY = Ok c -> enciphers_blocks c 8.
Proof.
  unfold CAST128. intros H. apply Ok_inj in H. subst c.
  intros b L. cbn [c_encrypt]. rewrite on_block_len by auto. now apply (words_out_total _ 2).
Qed.
Lemma twofish_total KEY c : Twofish KEY = Ok c -> enciphers_blocks c 16.
Proof.
  unfold Twofish. destruct (_ || _ || _); [|discriminate]. intros H. apply Ok_inj in H. subst c.
  intros b L. cbn [c_encrypt]. rewrite on_block_len by auto. unfold tf_run. cbn iota.
  destruct (fold_left _ _ _) as [[[b0 b1] b2] b3]. eexists. split; [reflexivity|].
  now rewrite !app_length, !tf_out_length.
Qed.
Lemma idea_rounds_total ks : forall x, Forall (fun k => (6 <= length k)%nat) ks ->
  exists y, idea_rounds ks x = Ok y.
Proof.
  induction ks as [|k r IH]; intros x F; [eexists; reflexivity|]. inversion F as [|? ? K R]; subst.
  do 6 (destruct k as [|? k]; [cbn in K; lia|]). cbn [idea_rounds]. rewrite round_eq. cbn [bind]. now apply IH.
Qed.
Lemma idea_total KEY c : octets KEY -> IDEA KEY = Ok c -> enciphers_blocks c 8.
Proof.
  intros O. unfold IDEA. destruct (negb _); [discriminate|]. intros H. apply Ok_inj in H. subst c.
  intros b L. unfold IDEA_from. cbn [c_encrypt]. rewrite on_block_len by auto.
  destruct (idea_setkey_ok KEY O) as [_ LK]. unfold idea_encrypt. rewrite idea_run_eq.
  destruct (idea_rounds_total (firstn 8 (idea_group (idea_setkey KEY))) (q_in b)) as [y Y].
  - unfold idea_group. rewrite firstn_app. rewrite map_length, seq_length. cbn [Nat.sub].
    rewrite firstn_O, app_nil_r. rewrite firstn_all2 by (rewrite map_length, seq_length; lia).
    apply Forall_forall. intros x H. apply in_map_iff in H. destruct H as [i [<- H]]. apply in_seq in H.
    rewrite firstn_length, skipn_length, LK. lia.
  - rewrite Y. cbn [bind].
    assert (G : exists k0 k1 k2 k3, nth_error (idea_group (idea_setkey KEY)) 8 = Some [k0; k1; k2; k3]).
    { assert (T : length (firstn 4 (skipn 48 (idea_setkey KEY))) = 4%nat)
        by (rewrite firstn_length, skipn_length, LK; reflexivity).
      unfold idea_group. rewrite nth_error_app2 by (rewrite map_length, seq_length; lia).
      rewrite map_length, seq_length. cbn [Nat.sub nth_error].
      destruct (firstn 4 (skipn 48 (idea_setkey KEY))) as [|x0 [|x1 [|x2 [|x3 [|? ?]]]]]; try discriminate.
      eauto. }
    destruct G as [k0 [k1 [k2 [k3 ->]]]]. eexists. split; [reflexivity|]. apply q_out_octets.
Qed.
Lemma des_run_total ks b : length b = 8%nat -> exists e, des_run ks b = Ok e /\ length e = 8%nat.
Proof. intros L. unfold des_run. rewrite (unhexlify_makehex 8). eexists. split; [reflexivity|]. apply be_length. Qed.
Lemma tdes_run_total d k m : len k = 8 -> length d = 8%nat -> exists e, tdes_run d k m = Ok e /\ length e = 8%nat.
Proof.
  intros K L. unfold tdes_run, DES. replace (len d) with 8 by (unfold len; rewrite L; reflexivity). rewrite K.
  cbn [negb N.eqb Pos.eqb bind]. destruct m; cbn [c_encrypt c_decrypt]; rewrite on_block_len by auto;
    now apply des_run_total.
Qed.
Lemma tdes_total k1 m1 k2 m2 k3 m3 c : len k1 = 8 -> len k2 = 8 -> len k3 = 8 ->
  TDES k1 m1 k2 m2 k3 m3 = Ok c -> enciphers_blocks c 8.
Proof.
  intros L1 L2 L3. unfold TDES. destruct (_ || _ || _); [discriminate|]. intros H. apply Ok_inj in H. subst c.
  intros b L. cbn [c_encrypt]. unfold tdes_chain.
  destruct (tdes_run_total b k1 m1 L1 L) as [e1 [-> N1]]. cbn [bind].
  destruct (tdes_run_total e1 k2 m2 L2 N1) as [e2 [-> N2]]. cbn [bind].
  now apply tdes_run_total.
Qed.

Definition len8 (D : bytes * bytes) : Prop := length (fst D) = 8%nat /\ length (snd D) = 8%nat.
Lemma len8_white D a b : len8 D -> length a = 8%nat -> length b = 8%nat -> len8 (cam_white D a b).
Proof. intros [L R] A B. split; cbn [fst snd]; now apply xs_length. Qed.
Lemma len8_pair D a b : len8 D -> len8 (cam_pair D a b).
Proof. intros [L R]. split; cbn [cam_pair fst snd]; apply xs_length; auto using cam_f_length. Qed.
Lemma len8_six D a b c d e f : len8 D -> len8 (cam_six D a b c d e f).
Proof. intros. unfold cam_six. now repeat apply len8_pair. Qed.
Lemma cam_fl_length d k : length d = 8%nat -> length k = 8%nat -> length (cam_fl d k) = 8%nat.
Proof.
  intros D K. unfold cam_fl. cbn zeta.
  assert (S : forall s p, length s = 8%nat -> (p = 0 \/ p = 4)%N -> length (slice s p 4) = 4%nat).
  { intros s p H P. rewrite slice_length; [reflexivity|]. change (N.to_nat 4) with 4%nat. lia. }
  assert (X : length (xor_strings (slice d 4 4) (rol_string (and_strings (slice d 0 4) (slice k 0 4)) 1)) = 4%nat).
  { apply xs_length; auto. apply rol1_length. apply zip_length; auto. }
  rewrite app_length, X, (xs_length _ _ 4); auto. apply zip_length; auto.
Qed.
Lemma cam_flinv_length d k : length d = 8%nat -> length k = 8%nat -> length (cam_flinv d k) = 8%nat.
Proof.
  intros D K. unfold cam_flinv. cbn zeta.
  assert (S : forall s p, length s = 8%nat -> (p = 0 \/ p = 4)%N -> length (slice s p 4) = 4%nat).
  { intros s p H P. rewrite slice_length; [reflexivity|]. change (N.to_nat 4) with 4%nat. lia. }
  assert (X : length (xor_strings (slice d 0 4) (or_strings (slice d 4 4) (slice k 4 4))) = 4%nat).
  { apply xs_length; auto. apply zip_length; auto. }
  rewrite app_length, X, (xs_length _ _ 4); auto. apply rol1_length. apply zip_length; auto.
Qed.
Lemma len8_fls D a b : len8 D -> length a = 8%nat -> length b = 8%nat -> len8 (cam_fls D a b).
Proof.
  intros [L R] A B. split; cbn [cam_fls fst snd]; [now apply cam_fl_length|now apply cam_flinv_length].
Qed.
Lemma cam_run_total n keys b : Forall half8 keys -> length keys = (if (n =? 16)%N then 26 else 34)%nat ->
  length b = 16%nat -> exists e, cam_run n keys b = Ok e /\ length e = 16%nat.
Proof.
  intros F LK L. unfold cam_run.
  assert (K : len8 (slice b 0 8, slice b 8 8)) by (split; cbn [fst snd]; apply slice_length; rewrite L; cbn; lia).
  destruct (n =? 16).
  - do 26 (destruct keys as [|?k keys]; [discriminate|]). clear LK.
    repeat match goal with H : Forall half8 (_ :: _) |- _ => inversion H; clear H; subst end.
    repeat match goal with H : half8 _ |- _ => destruct H as [_ H] end.
    eexists. split; [reflexivity|].
    match goal with |- length (snd ?D ++ fst ?D) = _ => assert (G : len8 D) end.
    { repeat first [apply len8_six|apply len8_white|apply len8_fls|assumption]. }
    destruct G as [G1 G2]. rewrite app_length, G1, G2. reflexivity.
  - do 34 (destruct keys as [|?k keys]; [discriminate|]). clear LK.
    repeat match goal with H : Forall half8 (_ :: _) |- _ => inversion H; clear H; subst end.
    repeat match goal with H : half8 _ |- _ => destruct H as [_ H] end.
    eexists. split; [reflexivity|].
    match goal with |- length (snd ?D ++ fst ?D) = _ => assert (G : len8 D) end.
    { repeat first [apply len8_six|apply len8_white|apply len8_fls|assumption]. }
    destruct G as [G1 G2]. rewrite app_length, G1, G2. reflexivity.
Qed.
Lemma camellia_total KEY c : octets KEY -> len KEY = 16 \/ len KEY = 24 \/ len KEY = 32 ->
  Camellia KEY = Ok c -> enciphers_blocks c 16.
Proof.
  intros O LK. unfold Camellia. destruct (_ || _ || _); [|discriminate]. intros H. apply Ok_inj in H. subst c.
  intros b L. cbn [c_encrypt]. rewrite on_block_len by auto.
  destruct (cam_setkey_ok KEY O LK) as [F M]. now apply cam_run_total.
Qed.

(** All ciphers together. *)
Lemma setup_ok alg key : In alg offered -> alg <> 2 -> octets key -> length key = key_octets alg ->
  exists c, sym_setup alg key = Ok c /\ c_block c = N.of_nat (block_octets alg) /\
    inverts c (block_octets alg) /\ whole_blocks c (block_octets alg) /\ enciphers_blocks c (block_octets alg).
Proof.
  intros I N2 O L.
  assert (Z : len key = N.of_nat (key_octets alg)) by (unfold len; now rewrite L). clear L.
  cbn [offered In] in I.
  Ltac fin H T := destruct H as [c [C [B [Iv W]]]]; exists c; unfold sym_setup;
    split; [exact C|]; split; [exact B|]; split; [exact Iv|]; split; [exact W|]; exact (T c C).
  destruct I as [<-|[<-|[<-|[<-|[<-|[<-|[<-|[<-|[<-|[<-|[<-|[]]]]]]]]]]]]; try congruence; cbn [key_octets N.of_nat] in Z.
  - fin (idea_ok key O Z) (fun c => idea_total key c O).
  - fin (cast_ok key) (fun c => cast_total key c).
  - assert (Q : 4 <= len key <= 112) by lia. fin (blowfish_ok key Q) (fun c => blowfish_total key c).
  - assert (Q : len key = 16 \/ len key = 24 \/ len key = 32) by lia. fin (aes_ok key Q) (fun c => aes_total key c).
  - assert (Q : len key = 16 \/ len key = 24 \/ len key = 32) by lia. fin (aes_ok key Q) (fun c => aes_total key c).
  - assert (Q : len key = 16 \/ len key = 24 \/ len key = 32) by lia. fin (aes_ok key Q) (fun c => aes_total key c).
  - assert (Q : len key = 16 \/ len key = 24 \/ len key = 32) by lia. fin (twofish_ok key Q) (fun c => twofish_total key c).
  - assert (Q : len key = 16 \/ len key = 24 \/ len key = 32) by lia. fin (camellia_ok key O Q) (fun c => camellia_total key c O Q).
  - assert (Q : len key = 16 \/ len key = 24 \/ len key = 32) by lia. fin (camellia_ok key O Q) (fun c => camellia_total key c O Q).
  - assert (Q : len key = 16 \/ len key = 24 \/ len key = 32) by lia. fin (camellia_ok key O Q) (fun c => camellia_total key c O Q).
Qed.

(** Triple DES: setup, and the key parts. *)
Lemma tdes_setup key : length key = 24%nat ->
  exists k1 k2 k3, key = k1 ++ k2 ++ k3 /\ len k1 = 8 /\ len k2 = 8 /\ len k3 = 8 /\
    sym_setup 2 key = TDES k1 false k2 true k3 false.
Proof.
  intros L. exists (firstn 8 key), (firstn 8 (skipn 8 key)), (skipn 16 key).
  assert (E : key = firstn 8 key ++ firstn 8 (skipn 8 key) ++ skipn 16 key).
  { do 24 (destruct key as [|? key]; [discriminate|]). reflexivity. }
  split; [exact E|]. split; [unfold len; rewrite firstn_length, L; reflexivity|].
  split; [unfold len; rewrite firstn_length, skipn_length, L; reflexivity|].
  split; [unfold len; rewrite skipn_length, L; reflexivity|].
  unfold sym_setup. rewrite !substr_skip by (unfold len; rewrite L; cbn; lia). cbn [bind].
  rewrite prefix_firstn. change (N.to_nat 8) with 8%nat. change (N.to_nat 16) with 16%nat.
  now rewrite (firstn_all2 (skipn 16 key)) by (rewrite skipn_length, L; cbn; lia).
Qed.
Lemma tdes_setup_ok key : octets key -> length key = 24%nat ->
  exists c, sym_setup 2 key = Ok c /\ c_block c = 8 /\ enciphers_blocks c 8 /\
    (forall b, octets b -> length b = 8%nat ->
     exists e, c_encrypt c b = Ok e /\ octets e /\ length e = 8%nat).
Proof.
  intros O L. destruct (tdes_setup key L) as [k1 [k2 [k3 [_ [L1 [L2 [L3 E]]]]]]]. rewrite E.
  unfold TDES. rewrite L1, L2, L3. cbn [negb N.eqb Pos.eqb orb].
  eexists. split; [reflexivity|]. split; [reflexivity|]. split.
  - eapply (tdes_total k1 false k2 true k3 false); auto. unfold TDES. now rewrite L1, L2, L3.
  - intros b Ob Lb. cbn [c_encrypt].
    destruct (tdes_chain_ok k1 k2 k3 false true false b L1 L2 L3 Ob Lb) as [e [A [B [C _]]]]. eauto.
Qed.
(** Enough for cipher feedback, for every cipher. *)
Lemma setup_enciphers alg key : In alg offered -> octets key -> length key = key_octets alg ->
  exists c E, sym_setup alg key = Ok c /\ enciphers c (block_octets alg) E /\
    refuses_others c (block_octets alg).
Proof.
  intros I O L.
  assert (H : exists c, sym_setup alg key = Ok c /\ c_block c = N.of_nat (block_octets alg) /\
            enciphers_blocks c (block_octets alg) /\ refuses_others c (block_octets alg)).
  { destruct (N.eq_dec alg 2) as [->|N2].
    - destruct (tdes_setup_ok key O L) as [c [A [B [C _]]]]. exists c. split; [exact A|]. split; [exact B|].
      split; [exact C|]. destruct (tdes_setup key L) as [k1 [k2 [k3 [_ [L1 [L2 [L3 E]]]]]]].
      rewrite E in A. unfold TDES in A. rewrite L1, L2, L3 in A. cbn [negb N.eqb Pos.eqb orb] in A.
      apply Ok_inj in A. subst c. intros b Lb. cbn [c_encrypt]. unfold tdes_chain, tdes_run at 1.
      replace (len b =? 8) with false; [reflexivity|]. symmetry. apply N.eqb_neq. unfold len.
      intros Q. apply Lb. change (block_octets 2) with 8%nat. lia.
    - destruct (setup_ok alg key I N2 O L) as [c [A [B [_ [W C]]]]]. exists c. split; [exact A|].
      split; [exact B|]. split; [exact C|]. intros b Lb. now apply W. }
  destruct H as [c [A [B [C R]]]]. exists c.
  exists (fun b => match c_encrypt c b with Ok e => e | _ => [] end).
  split; [exact A|]. split; [|exact R]. split; [exact B|]. split.
  - intros b Lb. destruct (C b Lb) as [e [-> Le]]. exact Le.
  - intros b Lb. destruct (C b Lb) as [e [-> Le]]. reflexivity.
Qed.
