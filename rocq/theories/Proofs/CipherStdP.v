(** Every cipher offered is the standard's cipher, and so are the cipher feedback modes over
    it. *)
From Verif Require Export Spec.CipherStd Spec.Cfb Spec.Cipher.
From Verif Require Import Proofs.CfbP Proofs.CipherP Proofs.Lib.
From Verif Require Proofs.AesStdP Proofs.DesStdP Proofs.IdeaStdP Proofs.BlowfishStdP Proofs.CamelliaStdP Proofs.CastStdP Proofs.TwofishStdP.
Local Open Scope N_scope.

Lemma standard_offered alg : standard_cipher alg <> None <-> In alg offered.
Proof.
  split.
  - intros H. cbn [offered In]. unfold standard_cipher in H.
    destruct alg as [|p]; [congruence|]. do 4 (destruct p as [p|p|]; try congruence; try tauto).
  - intros I. cbn [offered In] in I. repeat destruct I as [<-|I]; try contradiction; discriminate.
Qed.
Lemma tdes_parts key : octets key -> length key = 24%nat ->
  sym_setup 2 key = TDES (firstn 8 key) false (firstn 8 (skipn 8 key)) true (skipn 16 key) false.
Proof.
  intros O L. unfold sym_setup. rewrite !substr_skip by (unfold len; rewrite L; cbn; lia). cbn [bind].
  rewrite prefix_firstn. change (N.to_nat 8) with 8%nat. change (N.to_nat 16) with 16%nat.
  now rewrite (firstn_all2 (skipn 16 key)) by (rewrite skipn_length, L; cbn; lia).
Qed.
Lemma setup_std alg f key : standard_cipher alg = Some f -> octets key -> length key = key_octets alg ->
  exists c, sym_setup alg key = Ok c /\ c_block c = N.of_nat (block_octets alg) /\
    forall b, octets b -> length b = block_octets alg ->
      c_encrypt c b = Ok (f key b) /\ octets (f key b) /\ length (f key b) = block_octets alg /\
      (alg <> 2 -> c_decrypt c (f key b) = Ok b).
Proof.
  intros S O L. assert (I : In alg offered) by (apply standard_offered; congruence).
  destruct (N.eq_dec alg 2) as [->|N2].
  - destruct (tdes_setup_ok key O L) as (c & A & B & _ & D). exists c. split; [exact A|]. split; [exact B|].
    intros b Ob Lb. destruct (D b Ob Lb) as (e & E1 & E2 & E3). injection S as <-.
    rewrite (tdes_parts key O L) in A.
    assert (H : c_encrypt c b = Ok (tdea key b)).
    { exact (DesStdP.tdes_std _ _ _ c b (octets_firstn _ _ O) (octets_firstn _ _ (octets_skipn _ _ O)) (octets_skipn _ _ O) A Ob Lb). }
    rewrite H in E1. apply Ok_inj in E1. rewrite E1 in *. repeat apply conj; auto. intros X. now destruct X.
  - destruct (setup_ok alg key I N2 O L) as (c & A & B & C & _). exists c. split; [exact A|]. split; [exact B|].
    intros b Ob Lb. destruct (C b Ob Lb) as (e & E1 & E2 & E3 & E4).
    assert (H : c_encrypt c b = Ok (f key b)).
    { assert (LL : 7 <= alg -> In (length key) [16; 24; 32]%nat).
      { rewrite L. cbn [offered In] in I. repeat destruct I as [<-|I]; try contradiction; cbn; lia || tauto. }
      cbn [offered In] in I. repeat destruct I as [<-|I]; try contradiction; try congruence;
        cbn [standard_cipher] in S; injection S as <-; unfold sym_setup in A; try specialize (LL ltac:(lia)).
      - exact (IdeaStdP.idea_std key c b O A Ob Lb).
      - exact (CastStdP.cast_std key c b O A Ob Lb).
      - exact (BlowfishStdP.blowfish_std key c b O A Ob Lb).
      - exact (AesStdP.aes_std key c O A LL b Ob Lb).
      - exact (AesStdP.aes_std key c O A LL b Ob Lb).
      - exact (AesStdP.aes_std key c O A LL b Ob Lb).
      - exact (TwofishStdP.twofish_std key c b O A LL Ob Lb).
      - exact (CamelliaStdP.camellia_std key c b O A LL Ob Lb).
      - exact (CamelliaStdP.camellia_std key c b O A LL Ob Lb).
      - exact (CamelliaStdP.camellia_std key c b O A LL Ob Lb). }
    rewrite H in E1. apply Ok_inj in E1. rewrite E1 in *. auto.
Qed.

(** Cipher feedback only looks at the values on octet blocks. *)
Lemma xor_octets a b : octets a -> octets b -> octets (xor a b).
Proof.
  revert b. induction a as [|x a IH]; intros [|y b] A B; try apply Forall_nil. apply octets_cons in A as [X A]. apply octets_cons in B as [Y B].
  cbn [xor]. apply octets_cons. split; [|now apply IH]. now apply AesP.xor_octet.
Qed.
Section same.
  Variables (E F : bytes -> bytes) (bs : nat).
  Hypothesis HB : (0 < bs)%nat.
  Hypothesis HE : block_function E bs.
  Hypothesis HEF : forall b, octets b -> length b = bs -> E b = F b /\ octets (F b) /\ length (F b) = bs.
  Lemma cfb_same fuel : forall fr p, octets fr -> length fr = bs -> octets p ->
    cfb E bs fuel fr p = cfb F bs fuel fr p /\ octets (cfb F bs fuel fr p).
  Proof.
    induction fuel as [|n IH]; intros fr p OF LF OP; [split; [reflexivity|apply Forall_nil]|].
    destruct p as [|x p]; [split; [reflexivity|apply Forall_nil]|]. cbn [cfb]. destruct (HEF fr OF LF) as (-> & O1 & L1).
    set (q := x :: p) in *. set (c := xor (F fr) (firstn bs q)).
    assert (OC : octets c) by (apply xor_octets; [exact O1|now apply octets_firstn]).
    destruct (Nat.le_gt_cases bs (length q)) as [C|C].
    - assert (LC : length c = bs) by (unfold c; rewrite xor_length, firstn_length; lia).
      destruct (IH c (skipn bs q) OC LC (octets_skipn _ _ OP)) as [-> H]. split; [reflexivity|]. now apply octets_app.
    - rewrite (skipn_all2 q) by lia. assert (Z : forall G, cfb G bs n c [] = []) by (intros G; now destruct n).
      rewrite !Z, app_nil_r. auto.
  Qed.
  Lemma cfb_mode_same fr p : octets fr -> length fr = bs -> octets p ->
    cfb_mode E bs fr p = cfb_mode F bs fr p /\ octets (cfb_mode F bs fr p).
  Proof. apply cfb_same. Qed.
  Lemma openpgp_same resync pre data : octets pre -> length pre = bs -> (2 <= bs)%nat -> octets data ->
    openpgp_cfb E bs resync pre data = openpgp_cfb F bs resync pre data.
  Proof.
    intros OP LP L2 OD. assert (OZ : octets (repeat 0 bs)) by (apply octets_repeat; reflexivity).
    assert (LZ : length (repeat 0 bs) = bs) by apply repeat_length.
    assert (OL : octets (last_two pre)) by now apply octets_skipn.
    unfold openpgp_cfb. destruct resync.
    - destruct (cfb_mode_same (repeat 0 bs) (pre ++ last_two pre)) as [-> H]; auto; [now apply octets_app|].
      f_equal. apply cfb_mode_same; auto; [now apply octets_skipn|].
      rewrite skipn_length. assert (CL : length (cfb_mode F bs (repeat 0 bs) (pre ++ last_two pre)) = (bs + 2)%nat).
      { destruct (cfb_mode_same (repeat 0 bs) (pre ++ last_two pre)) as [<- _]; auto; [now apply octets_app|].
        rewrite (cfb_length E bs) by (assumption || lia). rewrite app_length. unfold last_two. rewrite skipn_length. lia. }
      lia.
    - apply cfb_mode_same; auto. repeat (apply octets_app; split; auto).
  Qed.
End same.

Lemma ncfb_std alg f key data iv : standard_cipher alg = Some f -> octets key -> length key = key_octets alg ->
  octets data -> octets iv -> length iv = block_octets alg ->
  use_ncfb_encrypt alg data key iv = Ok (cfb_mode (f key) (block_octets alg) iv data).
Proof.
  intros S O L OD OI LI. assert (I : In alg offered) by (apply standard_offered; congruence).
  destruct (setup_enciphers alg key I O L) as (c & E & C & (A & B & D) & R). destruct (setup_std alg f key S O L) as (c' & C' & _ & H).
  rewrite C in C'. apply Ok_inj in C'. subst c'.
  assert (P : (2 <= block_octets alg)%nat) by (unfold block_octets; destruct (alg <? 7); lia).
  assert (F : N.of_nat (block_octets alg) < two64) by (unfold block_octets; destruct (alg <? 7); reflexivity).
  assert (Z : alg =? 0 = false) by (apply N.eqb_neq; intros ->; discriminate S).
  unfold use_ncfb_encrypt. rewrite Z, C. cbn [bind]. rewrite (ncfb_encrypt_ok E (block_octets alg)) by easy. f_equal.
  apply cfb_mode_same; auto; [lia|]. intros b Ob Lb. destruct (H b Ob Lb) as (H1 & H2 & H3 & _).
  rewrite D in H1 by exact Lb. apply Ok_inj in H1. auto.
Qed.
Lemma ocfb_std alg f key tag data pre extra : standard_cipher alg = Some f -> octets key -> length key = key_octets alg ->
  tag = 9 \/ tag = 18 -> octets data -> octets pre -> length pre = block_octets alg -> (2 <= length extra)%nat ->
  use_ocfb_encrypt alg tag data key (pre ++ extra) = Ok (openpgp_cfb (f key) (block_octets alg) (tag =? 9) pre data).
Proof.
  intros S O L T OD OI LI X. assert (I : In alg offered) by (apply standard_offered; congruence).
  destruct (setup_enciphers alg key I O L) as (c & E & C & (A & B & D) & R). destruct (setup_std alg f key S O L) as (c' & C' & _ & H).
  rewrite C in C'. apply Ok_inj in C'. subst c'.
  assert (P : (2 <= block_octets alg)%nat) by (unfold block_octets; destruct (alg <? 7); lia).
  assert (F : N.of_nat (block_octets alg) < two64) by (unfold block_octets; destruct (alg <? 7); reflexivity).
  assert (Z : alg =? 0 = false) by (apply N.eqb_neq; intros ->; discriminate S).
  unfold use_ocfb_encrypt. rewrite Z, C. cbn [bind]. rewrite (ocfb_encrypt_ok E (block_octets alg)) by easy. f_equal.
  apply openpgp_same; auto; [lia|]. intros b Ob Lb. destruct (H b Ob Lb) as (H1 & H2 & H3 & _).
  rewrite D in H1 by exact Lb. apply Ok_inj in H1. auto.
Qed.
