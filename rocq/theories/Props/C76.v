(** Property C76: a generated key can be used: written and read back, its public part taken, and
    what the one does undone with the other. *)
From Verif Require Import Proofs.Lib Proofs.KeyP Proofs.KeyGenP Proofs.KeyGrammarP Proofs.MadeP Proofs.CryptP Proofs.SignP Proofs.ArmorP Proofs.MessageIOP Proofs.GenWriteP Spec.Armor
  Spec.KeyUse Spec.Crypt Model.Decrypt Props.C10_C12 Props.C14_C15 Props.C21_C22 Props.C32 Props.C33_C35 Props.C41_C43_C60 Props.C44_C46 Props.C44_written Props.C47_C49_C62 Props.C73 Props.C74.
Local Open Scope N_scope.

Lemma in_block {A} (x : A) l ls : In x l -> In l ls -> In x (concat ls).
Proof. intros I J. apply in_concat. eauto. Qed.
Lemma few_packets (ok : uid_conf -> packet -> tag2 -> Prop) (ok' : sub_conf -> key -> secret -> tag2 -> Prop) k time uids us subs ss : Forall2 (fun u => uid_made (ok u) k time u) uids us -> Forall2 (fun b => sub_made (ok' b) k time b) subs ss ->
  length (concat us ++ concat ss) = (2 * (length uids + length subs))%nat.
Proof.
  intros FU FS. rewrite app_length.
  assert (A : length (concat us) = (2 * length uids)%nat).
  { clear FS. induction FU as [|u l uids us (p & q & s & -> & _) F IH]; [reflexivity|]. cbn [concat app length]. lia. }
  assert (B : length (concat ss) = (2 * length subs)%nat).
  { clear FU A. induction FS as [|u l sub ss (p & q & kk & x & s & -> & _) F IH]; [reflexivity|]. cbn [concat app length]. lia. }
  lia.
Qed.
(** Every packet is sound. *)
Lemma generated_sound fuel np test c time rnd draws g rnd' rest : sound_primes np test ->
  generate_key fuel np test c time rnd draws = Ok (g, rnd', rest) -> g_packets g <> [] ->
  time < 2 ^ 32 -> octets rnd -> Forall name_fits (c_uids c) -> values_small g -> odd_modulus g ->
  Forall sound_packet (g_packets g) /\ length (g_packets g) = (1 + 2 * (length (c_uids c) + length (c_subkeys c)))%nat /\
  exists k sec more, g_packets g = new_packet 5 (PSecret k sec) :: more /\ sane_values k /\ k_version k = 4.
Proof.
  intros [NP T] E NE TI OR NF VS OM. pose proof (generated_new _ _ _ _ _ _ _ _ _ _ E) as AN. pose proof (C74_fresh _ _ _ _ _ _ _ _ _ _ E NE) as FR.
  assert (SO : forall p, In p (g_packets g) -> octets (salt_and_iv p)) by (intros p I; exact (fresh_octets _ _ _ p FR OR I)).
  pose proof E as E'. apply generate_inv in E' as (k & sec & pri & id & us & ss & V & KE & KI & (d2 & KP) & (r2 & SK) & GE & FU & FS); [|exact NE].
  pose proof (valid_uids c V) as [NU CS].
  assert (GP : g_packets g = new_packet 5 (PSecret k sec) :: concat us ++ concat ss) by (rewrite GE; reflexivity).
  assert (I0 : In (new_packet 5 (PSecret k sec)) (g_packets g)) by (rewrite GP; now left).
  assert (KS : Forall small (k_mpi k)) by (eapply VS; [exact I0|reflexivity]).
  pose proof (pair_shape _ _ _ _ _ _ _ _ _ NP T KP) as SH.
  assert (SM : Forall moderate (k_mpi k)) by (eapply Forall_impl; [|exact KS]; apply small_moderate).
  assert (MF : Forall mpi_fits (k_mpi k)) by (eapply Forall_impl; [|exact SM]; apply moderate_fits).
  assert (PK : k_pka k = c_pka c) by (rewrite KE; reflexivity).
  assert (SV : sane_values k).
  { split; [exact MF|]. intros I. assert (N17 : k_pka k <> 17) by (intros Z; rewrite Z in I; cbn in I; lia).
    pose proof (OM _ _ _ _ GP eq_refl N17) as O. rewrite PK in I. destruct SH as (LP & _). cbn in I.
    assert (L2 : length (k_mpi k) = 2%nat) by (destruct I as [I|[I|[I|[]]]]; rewrite <- I in LP; cbn in LP; congruence).
    destruct (k_mpi k) as [|n [|e [|]]]; try discriminate. exists n, e. split; [reflexivity|exact O]. }
  destruct (C74_usable fuel np test c time rnd draws g rnd' rest _ _ k sec (conj NP T) E GP eq_refl SV) as (pri' & _ & _ & _ & MA & _).
  destruct (MA 8) as (_ & _ & D & KPR & _). cbn [a_pass] in D.
  assert (CS' : In (k_pka k) [1; 3; 17]) by (rewrite PK; exact CS).
  split.
  - rewrite GP. apply Forall_cons; [|apply Forall_app; split].
    + eapply (secret_sound false _ _ _ pri _ sec _ time (c_pka c) (k_mpi k) 5); [now left|rewrite <- KE; reflexivity|exact SK|exact (SO _ I0)|exact TI|exact SH|exact KS].
    + apply Forall_concat. assert (IU : forall l, In l us -> forall p, In p l -> as_new p).
      { intros l IL p IP. rewrite Forall_forall in AN. apply AN. rewrite GP. right. apply in_or_app. left. eapply in_block; eauto. }
      clear - FU IU NF D CS' KPR SM KI TI. induction FU as [|u l uids us (p & q & s & -> & TP & BP & TQ & BQ & _ & (digest & dr & re & DG & FI)) F IH]; [constructor|].
      apply Forall_cons_iff in NF as [(O1 & O2 & O3 & N1 & N2) NF]. constructor; [|apply IH; [exact NF|intros l IL; apply IU; now right]].
      assert (NP : as_new p) by (apply (IU [p; q]); [now left|now left]). assert (NQ : as_new q) by (apply (IU [p; q]); [now left|right; now left]).
      constructor; [|constructor; [|constructor]].
      * apply other_sound; [|unfold public_form; now rewrite BP|lia|lia]. eexists. split; [exact NP|]. split; [lia|]. rewrite TP, BP. split; [reflexivity|].
        split; [split; assumption|]. split; [cbn [fits]; split; [cbn; auto 12|discriminate]|]. split; [intros off; exact I|]. now apply name_octets.
      * apply other_sound; [|unfold public_form; now rewrite BQ|lia|lia].
        unfold to_sign_cert in DG. assert (exists x, hash_use (u_sig u) x = Ok digest) as (x & HU).
        { revert DG. repeat match goal with |- context [if ?b then _ else _] => destruct b end; intros DG; try discriminate; now apply hashed_with_use in DG. }
        eapply sig_portable with (type := 19); eauto; [|lia]. unfold as_new in NQ. rewrite TQ, BQ in NQ. exact NQ.
    + apply Forall_concat. assert (IS : forall l, In l ss -> forall p, In p l -> In p (g_packets g)).
      { intros l IL p IP. rewrite GP. right. apply in_or_app. right. eapply in_block; eauto. }
      assert (IN : forall p, In p (g_packets g) -> plain_new p) by (now apply Forall_forall).
      clear - NP T FS IS IN D CS' KPR SM KI TI VS SO.
      induction FS as [|b l sub ss (p & q & kk & x & s & -> & TP & BP & KV & KT & KK & TQ & BQ & _ & (digest & dr & re & DG & FI) & pr & r & r' & SK & d & d' & KP) F IH]; [constructor|].
      constructor; [|apply IH; intros l IL; apply IS; now right].
      assert (IP : In p (g_packets g)) by (apply (IS [p; q]); [now left|now left]). assert (IQ : In q (g_packets g)) by (apply (IS [p; q]); [now left|right; now left]).
      destruct (IN p IP) as [NP' EX]. destruct (IN q IQ) as [NQ _]. rewrite BP in EX.
      constructor; [|constructor; [|constructor]].
      * assert (EK : kk = mkKey 4 time (b_pka b) (k_mpi kk) 0) by (destruct kk; cbn in *; congruence).
        eapply (secret_sound true _ _ _ pr _ x _ time (b_pka b) (k_mpi kk) 7); [now right| |exact SK|exact (SO _ IP)|exact TI|exact (pair_shape _ _ _ _ _ _ _ _ _ NP T KP)|exact (VS p kk x IP BP)].
        rewrite <- EK. unfold as_new in NP'. rewrite TP, BP in NP'. exact NP'.
      * apply other_sound; [|unfold public_form; now rewrite BQ|lia|lia].
        unfold to_sign_18 in DG. apply hashed_with_use in DG as (y & HU).
        eapply sig_portable with (type := 24); eauto; [|lia]. unfold as_new in NQ. rewrite TQ, BQ in NQ. exact NQ.
  - split; [rewrite GP; cbn [length]; rewrite (few_packets (fun u => cert_done (c_pass c) k sec id time (u_sig u)) _ _ _ _ _ _ _ FU FS); lia|].
    exists k, sec, (concat us ++ concat ss). split; [exact GP|]. split; [exact SV|]. rewrite KE. reflexivity.
Qed.

Lemma armored_back type ps : 1 <= type <= 6 -> Forall portable ps -> ps <> [] -> N.of_nat (length ps) < 2 ^ 28 ->
  exists w text, write_packets ps = Ok w /\ read_raw w = Ok ps /\ pgp_write (mkPgp true type version_cc ps) ArmorYes = Ok text /\
    pgp_read pgp_new text = Ok (mkPgp true type version_cc ps).
Proof.
  intros T P NE FW. destruct (portable_written ps P) as (w & W & OW & LW & NW). pose proof (portable_sequence ps P 0) as SQ.
  assert (LB : len w < 2 ^ 62).
  { eapply N.le_lt_trans; [exact LW|]. change (2 ^ 62) with (2 ^ 33 * 2 ^ 29). apply N.mul_lt_mono_pos_l; [reflexivity|]. eapply N.lt_trans; [exact FW|reflexivity]. }
  destruct (C14_armor_data_partial type version_cc w T version_ok OW (NW NE) LB) as (text & AT & RT).
  exists w, text. split; [exact W|]. assert (R : read_raw w = Ok ps) by exact (C10_sequence_roundtrip_partial _ _ SQ W). split; [exact R|].
  unfold pgp_write. cbn [g_packets g_type g_keys]. rewrite W. cbn [bind]. split; [exact AT|]. rewrite RT, R. reflexivity.
Qed.

(** ** Written and read *)
(** The octets of a generated key and its armored text are read back as the same key. *)
Theorem C76_written : forall fuel nextprime prime_test c time rnd draws g rnd' rest,
  sound_primes nextprime prime_test -> generate_key fuel nextprime prime_test c time rnd draws = Ok (g, rnd', rest) -> g_packets g <> [] ->
  time < 2 ^ 32 -> octets rnd -> Forall name_fits (c_uids c) -> values_small g -> odd_modulus g ->
  N.of_nat (length (c_uids c) + length (c_subkeys c)) < 2 ^ 26 ->
  exists w text, write_packets (g_packets g) = Ok w /\ read_raw w = Ok (g_packets g) /\
    pgp_write g ArmorYes = Ok text /\ pgp_read pgp_new text = Ok g.
Proof.
  intros fuel np test c time rnd draws g rnd' rest SP E NE T OR NF VS OM FW.
  destruct (generated_sound _ _ _ _ _ _ _ _ _ _ SP E NE T OR NF VS OM) as (S & L & _).
  assert (G : g = mkPgp true 3 version_cc (g_packets g)) by (apply generate_inv in E as (k & sec & pri & id & us & ss & _ & _ & _ & _ & _ & GE & _); [rewrite GE; reflexivity|exact NE]).
  destruct (armored_back 3 (g_packets g) ltac:(lia)) as (w & text & W); [eapply Forall_impl; [|exact S]; intros p [P _]; exact P|exact NE| |rewrite <- G in W; eauto].
  rewrite L. change (2 ^ 28) with 268435456. change (2 ^ 26) with 67108864 in FW. lia.
Qed.

(** ** The public part *)
(** The public key taken from a generated key has exactly the public form of its packets; it is a
    meaningful public key and is read back from its own armored text. *)
Theorem C76_public : forall fuel nextprime prime_test c time rnd draws g rnd' rest,
  sound_primes nextprime prime_test -> generate_key fuel nextprime prime_test c time rnd draws = Ok (g, rnd', rest) -> g_packets g <> [] ->
  time < 2 ^ 32 -> octets rnd -> Forall name_fits (c_uids c) -> values_small g -> odd_modulus g ->
  N.of_nat (length (c_uids c) + length (c_subkeys c)) < 2 ^ 26 ->
  get_public_key g = Ok (public_part g) /\ public_meaningful (public_part g) = Ok true /\ revoke_check (public_part g) = Ok 0%Z /\
  exists text, pgp_write (public_part g) ArmorYes = Ok text /\ pgp_read pgp_new text = Ok (public_part g).
Proof.
  intros fuel np test c time rnd draws g rnd' rest SP E NE T OR NF VS OM FW.
  destruct (generated_sound _ _ _ _ _ _ _ _ _ _ SP E NE T OR NF VS OM) as (S & L & _).
  assert (GG : g_armored g = true /\ g_keys g = version_cc) by (apply generate_inv in E as (k & sec & pri & id & us & ss & _ & _ & _ & _ & _ & GE & _); [rewrite GE; auto|exact NE]).
  destruct (C74_contents _ _ _ _ _ _ _ _ _ _ E NE) as (p0 & k0 & sec0 & us & ss & GP & P5 & PB & _ & _ & _ & FU & FS & TY & ME).
  assert (GP' : get_public_key g = Ok (public_part g)).
  { unfold get_public_key, public_part. assert (MP : mapM to_public (g_packets g) = Ok (map public_form (g_packets g))); [|rewrite MP; reflexivity].
    clear - S. induction S as [|p ps (_ & _ & TP) S IH]; [reflexivity|]. cbn [mapM map]. now rewrite TP, IH. }
  split; [exact GP'|].
  assert (W : Forall writable (g_packets g)).
  { eapply Forall_impl; [|exact S]. intros p ((body & _ & _ & R & _ & F & _) & _). unfold writable. destruct (p_body p) eqn:B; try exact I.
    cbn [raw] in R. cbn [fits] in F. destruct F as (_ & KF & _). split; [|eauto]. destruct KF as (A1 & A2 & A3 & A4 & A5). repeat (split; [assumption|]).
    destruct (k_version k <? 4); [|exact A5]. destruct A5 as [D1 D2]. unfold days_16.
    rewrite (N.div_mod (k_expire k) 256) by discriminate. change (2 ^ 16) with 65536. lia. }
  destruct (C34_public g TY W ME) as (g' & G' & PM & _). rewrite GP' in G'. apply Ok_inj in G'. subst g'. split; [exact PM|]. split.
  - assert (M : meaningful (public_part g) = Ok true) by (unfold public_meaningful in PM; destruct (g_type (public_part g) =? 2); [exact PM|discriminate]).
    assert (NS : Forall (fun p => p_tag p = 2 -> exists s, p_body p = PSig s /\ (t2_type s = 19 \/ t2_type s = 24)) (g_packets (public_part g)) /\
                 exists p1 p2 more, g_packets (public_part g) = p1 :: p2 :: more /\ p_tag p2 = 13).
    { unfold public_part. cbn [g_packets]. rewrite GP. cbn [map]. split.
      - constructor.
        + intros X. exfalso. unfold public_form in X. rewrite PB in X. cbn [p_tag] in X. destruct (p_tag p0 =? 5); discriminate.
        + apply Forall_map, Forall_app. split; apply Forall_concat.
          * eapply Forall2_Forall_r; [|exact FU]. intros u l (p & q & s & -> & TP & BP & TQ & BQ & (_ & TS & _) & _).
            constructor; [|constructor; [|constructor]]; unfold public_form; [rewrite BP; lia|rewrite BQ]. intros _. eauto.
          * eapply Forall2_Forall_r; [|exact FS]. intros b l (p & q & kk & x & s & -> & TP & BP & _ & _ & _ & TQ & BQ & (_ & TS & _) & _).
            constructor; [|constructor; [|constructor]]; unfold public_form; [rewrite BP; cbn [p_tag]; destruct (p_tag p =? 5); discriminate|rewrite BQ]. intros _. eauto.
      - destruct (c_uids c) as [|u0 ul] eqn:CU.
        { exfalso. apply generate_inv in E as (k1 & _ & _ & _ & _ & _ & V & _); [|exact NE]. apply valid_uids in V as [V _]. congruence. }
        inversion FU as [|? l ? us' (p & q & s & -> & TP & BP & _) F]; subst. cbn [concat app map]. do 3 eexists. split; [reflexivity|].
        unfold public_form. rewrite BP. exact TP. }
    destruct NS as (NS & p1 & p2 & more & GM & T13). unfold revoke_check. rewrite M. cbn [bind].
    rewrite GM at 1. cbn [vec_at nth_error bind]. rewrite T13. change (13 =? 2) with false. cbv iota.
    clear - NS. induction NS as [|p ps H NS IH]; [reflexivity|]. cbn [any_revocation]. destruct (p_tag p =? 2) eqn:E2; [|exact IH].
    apply N.eqb_eq in E2. destruct (H E2) as (s & B & TS). unfold as_sig. rewrite B. cbn [bind].
    replace ((t2_type s =? 40) || (t2_type s =? 48)) with false by lia. exact IH.
  - destruct GG as [GA GK]. unfold public_part. rewrite GA, GK.
    destruct (armored_back 2 (map public_form (g_packets g)) ltac:(lia)) as (w & text & _ & _ & R1 & R2);
      [apply Forall_map; eapply Forall_impl; [|exact S]; intros p (_ & P & _); exact P|now destruct (g_packets g)| |eauto].
    rewrite map_length, L. change (2 ^ 28) with 268435456. change (2 ^ 26) with 67108864 in FW. lia.
Qed.

(** ** Signing and encrypting *)
(** Secret and public part belong together. *)
Lemma generated_matching fuel np test c time rnd draws g rnd' rest : sound_primes np test ->
  generate_key fuel np test c time rnd draws = Ok (g, rnd', rest) -> g_packets g <> [] ->
  time < 2 ^ 32 -> octets rnd -> Forall name_fits (c_uids c) -> values_small g -> odd_modulus g ->
  N.of_nat (length (c_uids c) + length (c_subkeys c)) < 2 ^ 26 ->
  exists k sec pri more, g_packets g = new_packet 5 (PSecret k sec) :: more /\ k_version k = 4 /\ k_pka k = c_pka c /\
    forall hash, matching (mkArgs g (c_pass c) 4 hash) k sec pri (public_part g).
Proof.
  intros SP E NE T OR NF VS OM FW. destruct (C76_public _ _ _ _ _ _ _ _ _ _ SP E NE T OR NF VS OM FW) as (_ & PM & _ & _).
  destruct (generated_sound _ _ _ _ _ _ _ _ _ _ SP E NE T OR NF VS OM) as (_ & _ & k & sec & more & GP & SV & V4).
  destruct (C74_usable _ _ _ _ _ _ _ _ _ _ _ _ _ _ SP E GP eq_refl SV) as (pri & us & ss & _ & MA & _).
  destruct (C74_contents _ _ _ _ _ _ _ _ _ _ E NE) as (p0 & k0 & sec0 & us0 & ss0 & GP0 & _ & PB & _ & _ & PK & _).
  assert (k0 = k) as -> by (rewrite GP in GP0; assert (p0 = new_packet 5 (PSecret k sec)) as -> by congruence; cbn in PB; congruence).
  exists k, sec, pri, more. split; [exact GP|]. split; [exact V4|]. split; [exact PK|]. intros hash. destruct (MA hash) as (A1 & A2 & A3 & A4 & A5 & _).
  do 5 (split; [assumption|]). split.
  - unfold public_meaningful in PM. destruct (g_type (public_part g) =? 2); [exact PM|discriminate].
  - unfold public_part, has_primary. cbn [g_packets]. rewrite GP. cbn [map]. do 2 eexists. split; [reflexivity|].
    unfold public_form. cbn [new_packet p_body p_tag]. exists k. split; [left; reflexivity|apply same_public_refl].
Qed.
(** What is signed with the generated key and its passphrase is accepted by its public part:
    detached and cleartext signatures, timestamps and signed messages. *)
Theorem C76_signed : forall fuel nextprime prime_test c time rnd draws g rnd' rest,
  sound_primes nextprime prime_test -> generate_key fuel nextprime prime_test c time rnd draws = Ok (g, rnd', rest) -> g_packets g <> [] ->
  time < 2 ^ 32 -> octets rnd -> Forall name_fits (c_uids c) -> values_small g -> odd_modulus g ->
  N.of_nat (length (c_uids c) + length (c_subkeys c)) < 2 ^ 26 ->
  forall hash draws2 left now,
  (forall data sig, sign_detached (mkArgs g (c_pass c) 4 hash) now data draws2 = Ok (sig, left) -> g_packets sig <> [] -> verify_detached (public_part g) data sig = Ok 1%Z) /\
  (forall text s, sign_cleartext (mkArgs g (c_pass c) 4 hash) now text draws2 = Ok (s, left) -> g_packets (cs_sig s) <> [] ->
     verify_cleartext (public_part g) s = Ok 1%Z /\ cs_message s = text) /\
  (forall sig, sign_timestamp (mkArgs g (c_pass c) 4 hash) now draws2 = Ok (sig, left) -> g_packets sig <> [] -> verify_timestamp (public_part g) sig = Ok 1%Z) /\
  (forall zip unzip f f' filename data now' m, sign_binary zip unzip f (mkArgs g (c_pass c) 4 hash) filename data 0 now now' draws2 = Ok (m, left) ->
     g_packets (m_pgp m) <> [] -> verify_binary (S f') unzip (public_part g) (m_pgp m) = Ok 1%Z).
Proof.
  intros fuel np test c time rnd draws g rnd' rest SP E NE T OR NF VS OM FW hash draws2 left now.
  destruct (generated_matching _ _ _ _ _ _ _ _ _ _ SP E NE T OR NF VS OM FW) as (k & sec & pri & more & _ & _ & _ & MA). specialize (MA hash). repeat apply conj.
  - intros data sig S N. exact (C44_detached_partial _ _ _ _ _ _ _ _ _ _ MA S N).
  - intros text s S N. exact (C44_cleartext_partial _ _ _ _ _ _ _ _ _ _ MA S N).
  - intros sig S N. exact (C44_timestamp_partial _ _ _ _ _ _ _ _ _ MA S N).
  - intros zip unzip f f' filename data now' m S N. exact (C44_binary_partial _ _ _ _ _ _ _ _ _ _ _ _ _ _ _ _ MA S N).
Qed.
(** An RSA key does sign, with every hash its modulus has room for. *)
Theorem C76_rsa_signs : forall fuel nextprime prime_test c time rnd draws g rnd' rest,
  sound_primes nextprime prime_test -> generate_key fuel nextprime prime_test c time rnd draws = Ok (g, rnd', rest) -> g_packets g <> [] ->
  time < 2 ^ 32 -> octets rnd -> Forall name_fits (c_uids c) -> values_small g -> odd_modulus g ->
  N.of_nat (length (c_uids c) + length (c_subkeys c)) < 2 ^ 26 -> c_pka c = 1 ->
  forall p more k sec hash now data draws2, g_packets g = p :: more -> p_body p = PSecret k sec -> hash_fits (hd 0 (k_mpi k)) hash ->
  exists sig, sign_detached (mkArgs g (c_pass c) 4 hash) now data draws2 = Ok (sig, draws2) /\ verify_detached (public_part g) data sig = Ok 1%Z.
Proof.
  intros fuel np test c time rnd draws g rnd' rest SP E NE T OR NF VS OM FW C1 p more k sec hash now data draws2 GP PB (bits & der & HL & AD & L).
  destruct (generated_matching _ _ _ _ _ _ _ _ _ _ SP E NE T OR NF VS OM FW) as (k0 & sec0 & pri & more0 & GP0 & V4 & PK & MA). specialize (MA hash).
  assert (k0 = k /\ sec0 = sec) as [-> ->] by (rewrite GP in GP0; assert (p = new_packet 5 (PSecret k0 sec0)) as -> by congruence; cbn in PB; split; congruence).
  rewrite C1 in PK. pose proof MA as (_ & _ & _ & KP & _). rewrite PK in KP. destruct KP as (n & e & d & m1 & m2 & KM & -> & RK).
  destruct (C74_contents _ _ _ _ _ _ _ _ _ _ E NE) as (p1 & k1 & sec1 & us & ss & GP1 & _ & _ & _ & _ & _ & FU & FS & TY & ME).
  assert (AV : args_valid (mkArgs g (c_pass c) 4 hash) = Ok true).
  { unfold args_valid. cbn [a_pri a_version a_hash]. rewrite ME. cbn [bind]. f_equal. apply map_at_in in HL. cbn in HL.
    repeat (destruct HL as [HL|HL]; [rewrite <- HL; reflexivity|]). destruct HL. }
  assert (RC : revoke_check g = Ok 0%Z).
  { destruct (C76_public _ _ _ _ _ _ _ _ _ _ SP E NE T OR NF VS OM FW) as (_ & PM & RC & _).
    assert (M : meaningful g = Ok true) by (unfold secret_meaningful in ME; destruct (g_type g =? 3); [exact ME|discriminate]).
    destruct (C35_check g TY M) as (z & Z & B & I). rewrite Z. f_equal. destruct B as [B|B]; [exfalso|exact B].
    apply I in B. unfold revoked in B. destruct (c_uids c) as [|u0 ul] eqn:CU.
    { apply generate_inv in E as (k2 & _ & _ & _ & _ & _ & V & _); [|exact NE]. apply valid_uids in V as [V _]. congruence. }
    assert (SG : Forall (fun q => p_tag q = 2 -> exists s, p_body q = PSig s /\ (t2_type s = 19 \/ t2_type s = 24)) (concat us ++ concat ss)).
    { apply Forall_app. split; apply Forall_concat.
      - eapply Forall2_Forall_r; [|exact FU]. intros u l (q1 & q & s & -> & TP & BP & TQ & BQ & (_ & TS & _) & _).
        constructor; [lia|constructor; [|constructor]]. eauto.
      - eapply Forall2_Forall_r; [|exact FS]. intros b l (q1 & q & kk & x & s & -> & TP & BP & _ & _ & _ & TQ & BQ & (_ & TS & _) & _).
        constructor; [lia|constructor; [|constructor]]. eauto. }
    rewrite GP1 in *. destruct B as [(k2 & s & r & EQ & S2 & _)|B].
    - inversion FU as [|? l ? us' (q1 & q & s' & -> & TP & BP & _) F]; subst. cbn [concat app] in EQ. assert (q1 = s) as -> by congruence. lia.
    - apply Exists_exists in B as (q & [ <- | I1] & T2 & s & BS & TS).
      + rewrite GP0 in GP1. assert (p_tag (new_packet 5 (PSecret k sec)) = 2) by congruence. discriminate.
      + rewrite Forall_forall in SG. destruct (SG q I1 T2) as (s' & BS' & TS'). assert (s' = s) as -> by congruence. lia. }
  rewrite KM in L. cbn [hd] in L.
  exact (C44_rsa _ k sec n e d m1 m2 (public_part g) now data draws2 bits der AV RC MA V4 PK KM HL AD L).
Qed.
(** What is encrypted to the public part of a generated RSA key comes back with the generated key
    and its passphrase. *)
Theorem C76_encrypted : forall fuel nextprime prime_test c time rnd draws g rnd' rest,
  sound_primes nextprime prime_test -> generate_key fuel nextprime prime_test c time rnd draws = Ok (g, rnd', rest) -> g_packets g <> [] ->
  time < 2 ^ 32 -> octets rnd -> Forall name_fits (c_uids c) -> values_small g -> odd_modulus g ->
  N.of_nat (length (c_uids c) + length (c_subkeys c)) < 2 ^ 26 -> c_pka c = 1 ->
  forall zip unzip unzip' f f' a now now' rnd2 draws2,
  enc_valid a = true -> In (e_sym a) offered -> e_signer a = None -> literal_fits zip unzip' a ->
  (forall p more k sec, g_packets g = p :: more -> p_body p = PSecret k sec ->
     let n := len (mpitoraw (hd 0 (k_mpi k))) in
     N.of_nat (key_octets (e_sym a)) + 14 <= n /\ n + N.of_nat (block_octets (e_sym a)) <= N.of_nat (nonzero (skipn (key_octets (e_sym a)) rnd2))) ->
  octets rnd2 -> draws2 <> [] ->
  exists m, encrypt_pka zip unzip f a (public_part g) now now' rnd2 draws2 = Ok m /\
    decrypt_pka unzip' (2 + f') g (c_pass c) m = Ok (plain_message a).
Proof.
  intros fuel np test c time rnd draws g rnd' rest SP E NE T OR NF VS OM FW C1 zip unzip unzip' f f' a now now' rnd2 draws2 EV ES SG LF BIG O2 ND.
  destruct (generated_matching _ _ _ _ _ _ _ _ _ _ SP E NE T OR NF VS OM FW) as (k & sec & pri & more & GP & V4 & PK & MA). specialize (MA 8).
  rewrite C1 in PK. pose proof MA as (_ & _ & D & KP & F & M & _). rewrite PK in KP. cbn [a_pass] in D.
  destruct (C76_public _ _ _ _ _ _ _ _ _ _ SP E NE T OR NF VS OM FW) as (_ & _ & RC & _).
  destruct (C74_contents _ _ _ _ _ _ _ _ _ _ E NE) as (_ & _ & _ & us & ss & _ & _ & _ & _ & _ & _ & _ & _ & _ & ME).
  assert (exists id, get_keyid k = Ok id) as (id & KI).
  { apply generate_inv in E as (k1 & sec1 & _ & id & us1 & ss1 & _ & _ & KI & _ & _ & GE & _); [|exact NE]. exists id. rewrite GE in GP. apply (f_equal (fun l => match l with q :: _ => p_body q | [] => PRaw [] end)) in GP. cbn in GP. congruence. }
  destruct (C47_literal_partial zip unzip unzip' f f' a (public_part g) g k sec id pri (c_pass c) now now' rnd2 draws2) as (m & EM & _ & DM); auto.
  - exists [], (public_form (new_packet 5 (PSecret k sec))), (map public_form more). unfold public_part. cbn [g_packets]. rewrite GP. split; [reflexivity|].
    split; [cbn; auto|]. split; [left; reflexivity|]. split; [rewrite PK; cbn; auto|constructor].
  - exists [], (new_packet 5 (PSecret k sec)), more. split; [exact GP|]. split; [cbn; auto|]. split; [reflexivity|]. split; [exact KI|]. split; [rewrite PK; cbn; auto|constructor].
  - rewrite PK. exact KP.
  - intros n more' KM. destruct (BIG _ _ _ _ GP eq_refl) as [B1 B2]. rewrite KM in B1, B2. cbn [hd] in B1, B2. split; [|exact B2]. split; [exact B1|].
    pose proof (VS _ _ _ ltac:(rewrite GP; now left) eq_refl) as S. rewrite KM in S. apply Forall_cons_iff in S as [S _].
    apply small_len in S. clear - S. unfold write_MPI in S. rewrite len_app, len_be in S. unfold two32. lia.
  - eauto.
Qed.

(** ** The example of C74 *)
Lemma coprime_bound f tot : forall e r, coprime_from f tot e = Ok r -> r <= e + 2 * N.of_nat f.
Proof.
  induction f as [|f IH]; intros e r E; cbn [coprime_from] in E; [discriminate|]. destruct (N.gcd tot e =? 1); [apply Ok_inj in E; lia|]. apply IH in E. lia.
Qed.
Lemma gen_values draws pri pub rest : keygen_pair 1 gen_next (fun _ => false) 1 300 draws = Ok (Some (pri, pub), rest) ->
  Forall small pub /\ N.odd (hd 0 pub) = true.
Proof.
  intros E. unfold keygen_pair in E. apply bind_ok in E as ([[[a pri'] pub'] d] & G & E). apply Ok_inj in E.
  destruct (a =? 0) eqn:A0; [congruence|]. assert (pub' = pub) as -> by congruence. clear E.
  unfold generate_keypair, generate_params in G. cbn [is_RSA mem existsb N.eqb Pos.eqb orb] in G. cbv iota in G.
  apply bind_ok in G as ([v d'] & K & G). apply Ok_inj in G. unfold rsa_keygen in K. apply bind_ok in K as ([[p q] d1] & R & K).
  assert (PQ : (p = big_p \/ p = big_q) /\ (q = big_p \/ q = big_q)).
  { clear - R. revert R. generalize (S (length draws)). intros f. revert draws. induction f as [|f IH]; intros draws R; cbn [rsa_primes] in R; [discriminate|].
    apply bind_ok in R as ([x e1] & _ & R). apply bind_ok in R as ([y e2] & _ & R). destruct (gen_next x =? gen_next y); [now apply IH in R|]. apply Ok_inj in R.
    assert (p = gen_next x) as -> by congruence. assert (q = gen_next y) as -> by congruence. unfold gen_next. destruct (x =? 1), (y =? 1); auto. }
  cbv zeta in K. destruct (if q <? p then (q, p) else (p, q)) as [p1 q1] eqn:SW. apply bind_ok in K as ([e0 d2] & RE & K). apply bind_ok in K as (e & CE & K).
  apply bind_ok in K as (dd & _ & K). apply bind_ok in K as (u & _ & K). apply Ok_inj in K.
  assert (V : v = [p * q; e; dd; p1; q1; u]) by congruence. rewrite V in G. cbn [skipn firstn] in G. assert (pub = [p * q; e]) as -> by congruence. clear G V K.
  assert (PB : p < 2 ^ 150 /\ q < 2 ^ 150) by (destruct PQ as [[ -> | -> ] [ -> | -> ]]; split; reflexivity).
  assert (NB : p * q < 2 ^ 300).
  { change (2 ^ 300) with (2 ^ 150 * 2 ^ 150). apply N.mul_lt_mono; apply PB. }
  split; [|cbn [hd]; rewrite N.odd_mul; destruct PQ as [[ -> | -> ] [ -> | -> ]]; reflexivity].
  apply Forall_cons; [unfold small; eapply N.lt_le_trans; [exact NB|]; apply N.pow_le_mono_r; lia|]. apply Forall_cons; [|constructor].
  assert (TB : (p1 - 1) * (q1 - 1) <= p * q).
  { destruct (q <? p); assert (p1 = q /\ q1 = p \/ p1 = p /\ q1 = q) as [[ -> -> ]|[ -> -> ]] by (injection SW as <- <-; auto).
    all: rewrite ?(N.mul_comm p q); rewrite ?(N.mul_comm (q - 1) (p - 1)); rewrite ?(N.mul_comm q p); apply N.mul_le_mono; lia. }
  apply coprime_bound in CE. apply random_ok in RE. change (u32 (N.shiftr 300 1)) with 150 in RE.
  unfold small. eapply N.lt_le_trans with (2 ^ 302); [|apply N.pow_le_mono_r; lia].
  set (t := (p1 - 1) * (q1 - 1)) in *. rewrite Nat2N.inj_succ, N2Nat.id in CE.
  change (2 ^ 300) with (2 ^ 150 * 2 ^ 150) in NB. change (2 ^ 302) with (4 * (2 ^ 150 * 2 ^ 150)).
  assert (Z : 2 ^ 150 < 2 ^ 150 * 2 ^ 150) by reflexivity. assert (Z4 : 4 < 2 ^ 150) by reflexivity.
  assert (E1 : (if N.even e0 then e0 + 1 else e0) <= e0 + 1) by (destruct (N.even e0); lia).
  remember (2 ^ 150) as w. remember (w * w) as w2. lia.
Qed.
(** Every hypothesis of the theorems above holds of it. *)
Example C76_ex : exists g rnd', generate_key 1 gen_next (fun _ => false) gen_conf 1234567890 (repeat 7 48) [0; 1; 3; 0; 1; 5] = Ok (g, rnd', []) /\
  g_packets g <> [] /\ octets (repeat 7 48) /\ Forall name_fits (c_uids gen_conf) /\ values_small g /\ odd_modulus g /\
  N.of_nat (length (c_uids gen_conf) + length (c_subkeys gen_conf)) < 2 ^ 26 /\
  forall p more k sec, g_packets g = p :: more -> p_body p = PSecret k sec -> hash_fits (hd 0 (k_mpi k)) 1.
Proof.
  destruct C74_ex as (g & rnd' & E & NE). exists g, rnd'. split; [exact E|]. split; [exact NE|].
  split; [apply octets_repeat; reflexivity|].
  split. { repeat (apply Forall_cons; [do 3 (split; [apply octetsb_spec; reflexivity|]); split; [reflexivity|]; vm_compute; intros [X _]; now apply X|]). constructor. }
  apply generate_inv in E as (k & sec & pri & id & us & ss & _ & KE & _ & (d' & KP) & _ & GE & FU & FS); [|exact NE].
  change (c_pka gen_conf) with 1 in KP. change (c_bits gen_conf) with 300 in KP.
  destruct (gen_values _ _ _ _ KP) as [KS KO]. assert (GP : g_packets g = new_packet 5 (PSecret k sec) :: concat us ++ concat ss) by (rewrite GE; reflexivity).
  assert (HD : forall p more k0 x, g_packets g = p :: more -> p_body p = PSecret k0 x -> k0 = k).
  { intros p more k0 x G B. rewrite GP in G. assert (p = new_packet 5 (PSecret k sec)) as -> by congruence. cbn in B. congruence. }
  split; [|split; [|split; [reflexivity|]]].
  - intros p k0 x I B. rewrite GP in I. destruct I as [ <- | I]; [cbn in B; assert (k0 = k) as -> by congruence; exact KS|].
    apply in_app_or in I as [I|I]; apply in_concat in I as (l & I1 & I2).
    + exfalso. clear - FU I1 I2 B. induction FU as [|u l' ul us (p' & q & s & -> & _ & BP & _ & BQ & _) F IH]; [destruct I1|].
      destruct I1 as [ <- |I1]; [|now apply IH]. destruct I2 as [ <- |[ <- |[]]]; congruence.
    + clear - FS I1 I2 B. change (c_subkeys gen_conf) with [mkSub 1 300 7 2 1 0] in FS. inversion FS as [|? l' ? ss' H F]; subst. inversion F; subst. clear F FS.
      destruct I1 as [ <- |[]]. destruct H as (p' & q & kk & y & s & -> & _ & BP & _ & _ & _ & _ & BQ & _ & _ & pr & r & r' & _ & d & d2 & KP).
      destruct I2 as [ <- |[ <- |[]]]; [|congruence]. assert (k0 = kk) as -> by congruence. exact (proj1 (gen_values _ _ _ _ KP)).
  - intros p more k0 x G B _. rewrite (HD _ _ _ _ G B). exact KO.
  - intros p more k0 x G B. rewrite (HD _ _ _ _ G B). destruct (gen_pair [0; 1; 5]) as (pri' & KP'). cbn [app] in KP'. rewrite KP' in KP. apply Ok_inj in KP.
    assert (k_mpi k = [big_p * big_q; 3]) as -> by congruence. do 2 eexists. split; [reflexivity|]. split; [reflexivity|]. vm_compute. discriminate.
Qed.
(** Its modulus has room for an AES-128 session key, and these random octets are enough. *)
Example C76_room : let n := len (mpitoraw (big_p * big_q)) in
  N.of_nat (key_octets 7) + 14 <= n /\ n + N.of_nat (block_octets 7) <= N.of_nat (nonzero (skipn (key_octets 7) (repeat 9 80))).
Proof. vm_compute. split; discriminate. Qed.

Print Assumptions C76_written.
Print Assumptions C76_public.
Print Assumptions C76_signed.
Print Assumptions C76_rsa_signs.
Print Assumptions C76_encrypted.
