(** C90, continued: encryption with an ElGamal subkey that generate-keypair made. *)
From Verif Require Import Proofs.Lib Proofs.CommandsP Proofs.CliP Proofs.CryptP Proofs.MessageIOP Proofs.SignP Proofs.MadeP Proofs.KeyP Proofs.PkaP Proofs.KeyGenP Proofs.GenWriteP Proofs.KeyGrammarP Proofs.PgpP Proofs.ArmorP
  Spec.Armor Spec.Sequence Spec.Crypt Spec.Cipher Spec.Keys Spec.KeyGrammar
  Props.C10_C12 Props.C21_C22 Props.C33_C35 Props.C44_C46 Props.C44_compressed Props.C47_C49_C62 Props.C48_whole Props.C73 Props.C74 Props.C76 Props.C78 Props.C80 Props.C86 Props.C90 Spec.Keypair Spec.Invocation Spec.CommandLine.
Local Open Scope N_scope.

(** The secret part of the subkey can be opened with the passphrase (not always so: C74). *)
Definition opens (g : pgp) (pass : bytes) : Prop := forall p kk x, In p (g_packets g) -> p_tag p = 7 -> p_body p = PSecret kk x -> exists vals, decrypt_secret_keys x pass = Ok vals.

Lemma elgamal_made f np test bits d pri pub d' : sound_primes np test -> keygen_pair f np test 16 bits d = Ok (Some (pri, pub), d') ->
  exists p g y x, pub = [p; g; y] /\ pri = [x] /\ elgamal_key p g y x.
Proof.
  intros [NP T] E. unfold keygen_pair in E. apply bind_ok in E as ([[[a pri'] pub'] d1] & G & E). apply Ok_inj in E.
  destruct (a =? 0) eqn:A0; [congruence|]. assert (pri' = pri) as -> by congruence. assert (pub' = pub) as -> by congruence. clear E.
  unfold generate_keypair in G. destruct (generate_params 16 (N.shiftr bits 1)) as [|b ps]; [apply Ok_inj in G; assert (a = 0) by congruence; lia|].
  change (is_RSA 16) with false in G. change (16 =? 16) with true in G. cbv iota in G. apply bind_ok in G as ([v d2] & V & G). apply Ok_inj in G.
  destruct (elgamal_keygen_ok _ _ _ _ _ _ _ NP T V) as (p & g & y & x & -> & K & _). exists p, g, y, x. cbn [skipn firstn] in G. split; [congruence|]. split; [congruence|exact K].
Qed.
(** A file encrypted to the public file of a DSA key with an ElGamal subkey is printed by decrypt-pka
    with the private file and the passphrase, if there is none or the subkey opens.  Partial: a subkey with a
    passphrase need not open. *)
Theorem C90_subkey_partial : forall w x items c g public private b, asked items c -> generates w x c g -> g_packets g <> [] -> fair w x c g ->
  c_pka c = 17 -> c_subkeys c = [b] -> b_pka b = 16 -> c_pass c = [] \/ opens g (c_pass c) ->
  public_load public = Ok (public_part g) -> secret_load private = Ok g ->
  forall w1 items1 rest1 fk f data comp sym hash unzip', calls cli_encrypt_pka items1 rest1 [fk; f] -> w_files w1 fk = Some public -> w_files w1 f = Some data ->
  In (given items1 (str "-c") (str "ZLIB"), comp) compression_names -> In (given items1 (str "--sym") (str "AES256"), sym) cipher_names ->
  In (given items1 (str "-h") (str "SHA1"), hash) hash_names -> given items1 (str "--sign") [] = [] -> flag items1 (str "-a") true = true ->
  let a := mkEnc f data sym comp (flag items1 (str "--mdc") true) None (given items1 (str "-p") []) hash in
  literal_fits (w_zip w1) unzip' a ->
  (forall y rest, to_encrypt (w_zip w1) (w_unzip w1) (w_fuel w1) a (w_now w1) (w_now' w1) (w_draws w1) = Ok (Some y, rest) -> octets y /\ readable_length NEW (encrypted_size a (len y))) ->
  (forall p k sec, In p (g_packets g) -> p_tag p = 7 -> p_body p = PSecret k sec ->
     let n := len (mpitoraw (hd 0 (k_mpi k))) in
     N.of_nat (key_octets sym) + 14 <= n /\ n + N.of_nat (block_octets sym) <= N.of_nat (nonzero (skipn (key_octets sym) (w_rnd w1)))) ->
  octets (w_rnd w1) -> w_draws w1 <> [] ->
  (forall m, encrypt_pka (w_zip w1) (w_unzip w1) (w_fuel w1) a (public_part g) (w_now w1) (w_now' w1) (w_rnd w1) (w_draws w1) = Ok m -> long_last m) ->
  exists text, prints w1 (str "encrypt-pka") items1 rest1 text /\
    forall w2 fuel items2 rest2 fs f2, w_unzip w2 = unzip' -> w_fuel w2 = (2 + fuel)%nat ->
      calls cli_decrypt_pka items2 rest2 [fs; value items "-p" ""; f2] -> given items2 (str "-s") [] = [] ->
      w_files w2 fs = Some private -> w_files w2 f2 = Some text ->
      prints w2 (str "decrypt-pka") items2 rest2 (data ++ [10; 10]).
Proof.
  intros w x items c g public private b A (rnd & dr & E) NE (SP & T & OR & NF & VS & OM) C17 CS B16 OP LP LS w1 items1 rest1 fk f data comp sym hash unzip' CA F1 F2 CN SN HN NS FA a LF TE BIG O2 ND LL.
  pose proof (asked_few _ _ A) as FW.
  assert (CP : c_pass c = value items "-p" "" /\ exists u, c_uids c = [u]) by (destruct A as (? & ? & ? & ? & ? & ? & ? & ? & ? & ? & _ & _ & _ & _ & _ & _ & _ & _ & _ & _ & _ & _ & ->); cbn; eauto). destruct CP as (CP & u & CU).
  destruct (C76_public _ _ _ _ _ _ _ _ _ _ SP E NE T OR NF VS OM FW) as (_ & PM & RC & _). destruct (proj2 (meaningful_of (public_part g)) PM) as [M2 _].
  destruct (C74_contents _ _ _ _ _ _ _ _ _ _ E NE) as (_ & _ & _ & us0 & ss0 & _ & _ & _ & _ & _ & _ & _ & _ & _ & ME).
  pose proof E as E'. apply generate_inv in E' as (k & sec & pri & id0 & us & ss & _ & KE & KI0 & _ & _ & GE & FU & FS); [|exact NE].
  rewrite CU in FU. inversion FU as [|? lu ? us' UM FU']; subst us. inversion FU'; subst us'. rewrite CS in FS. inversion FS as [|? lb ? ss' SM FS']; subst ss. inversion FS'; subst ss'. clear FU FU' FS FS'.
  destruct UM as (pu & qu & su & -> & TU & BU & TQ & BQ & _). destruct SM as (p & q & kk & y & s & -> & TP & BP & V4 & _ & PK & T2 & B2 & _ & _ & pri' & r & r' & SK & dd & dd' & KG).
  rewrite B16 in PK, KG. cbn [concat app] in GE. assert (GP : g_packets g = [new_packet 5 (PSecret k sec); pu; qu] ++ p :: [q]) by (rewrite GE; reflexivity).
  assert (IP : In p (g_packets g)) by (rewrite GP; cbn; tauto). assert (K17 : k_pka k = 17) by (rewrite KE; exact C17).
  destruct (KeyP.keyid_v4 kk V4) as (fp & id & FP & KI & _ & LI & FI).
  assert (N17 : ~ encrypting 17) by (cbn; lia).
  assert (EW : encrypts_with (public_part g) kk).
  { exists (map public_form [new_packet 5 (PSecret k sec); pu; qu]), (public_form p), (map public_form [q]). unfold public_part. cbn [g_packets]. rewrite GP, map_app. split; [reflexivity|].
    unfold public_form at 1 2. rewrite BP, TP. split; [cbn; auto|]. split; [left; reflexivity|]. split; [rewrite PK; cbn; auto|].
    cbn [map]. apply Forall_cons; [intros _; exists k; split; [left; reflexivity|now rewrite K17]|]. unfold public_form. rewrite BU, BQ. apply Forall_cons; [rewrite TU; cbn; lia|]. apply Forall_cons; [rewrite TQ; cbn; lia|apply Forall_nil]. }
  assert (DW : decrypts_with g id kk y).
  { exists [new_packet 5 (PSecret k sec); pu; qu], p, [q]. split; [exact GP|]. split; [rewrite TP; cbn; auto|]. split; [exact BP|]. split; [exact KI|]. split; [rewrite PK; cbn; auto|].
    apply Forall_cons; [intros _; exists k, sec, id0; split; [reflexivity|]; split; [exact KI0|]; right; now rewrite K17|]. apply Forall_cons; [rewrite TU; cbn; lia|]. apply Forall_cons; [rewrite TQ; cbn; lia|apply Forall_nil]. }
  pose proof (VS _ _ _ IP BP) as SM.
  assert (FM : Forall mpi_fits (k_mpi kk)) by (eapply Forall_impl; [|exact SM]; intros v L; unfold mpi_fits; eapply N.lt_le_trans; [exact L|]; apply N.pow_le_mono_r; lia).
  assert (D : exists vals, decrypt_secret_keys y (value items "-p" "") = Ok vals /\ cipher_pair (k_pka kk) vals (k_mpi kk)).
  { rewrite <- CP, PK. destruct (c_pass c) as [|c0 pw] eqn:PW.
    - destruct (elgamal_made _ _ _ _ _ _ _ _ SP KG) as (sp & sg & sy & sx & KM & KV & EK). exists pri'. split.
      + destruct SP as [NP TT]. apply keypair_ok in KG as (FPR & LPR & _); [|exact NP|exact TT|destruct FM as [|vv lv Fm _]; [cbn; reflexivity|exact Fm]]. eapply keygen_back; [exact SK|exact FPR|exact LPR|now right].
      + exists sp, sg, sy, sx, [], []. auto.
    - destruct OP as [OP|OP]; [discriminate|]. destruct (OP _ _ _ IP TP BP) as (vals & DV). exists vals. split; [exact DV|].
      destruct (C74_subkey_secret_refuted _ _ _ _ _ _ _ _ _ _ p kk y SP E) as (pri2 & d2 & d3 & bits2 & KG2 & MORE); [rewrite PW; discriminate|exact IP|exact TP|exact BP| |].
      { split; [exact FM|]. rewrite PK. cbn. lia. }
      rewrite PW in MORE. destruct (MORE _ DV) as (more & -> & _). rewrite PK in KG2. destruct (elgamal_made _ _ _ _ _ _ _ _ SP KG2) as (sp & sg & sy & sx & KM & -> & EK).
      exists sp, sg, sy, sx, [], more. auto. }
  destruct D as (vals & D & CK). destruct (elgamal_made _ _ _ _ _ _ _ _ SP KG) as (n & sg & sy & sx & KM & _).
  destruct (BIG _ _ _ IP TP BP) as [B1 B3]. rewrite KM in B1, B3. cbn [hd] in B1, B3. rewrite KM in SM. apply Forall_cons_iff in SM as [S _].
  assert (MN : moderate n) by (unfold moderate; eapply N.lt_le_trans; [exact S|]; apply N.pow_le_mono_r; lia).
  destruct (cipher_known _ _ SN) as [_ SOK]. destruct (hash_known _ _ HN) as [_ HOK]. destruct (compression_known _ _ CN) as [_ COK].
  assert (EV : enc_valid a = true) by now apply valid_known.
  destruct (C47_literal_partial (w_zip w1) (w_unzip w1) unzip' (w_fuel w1) 0 a (public_part g) g kk y id vals (value items "-p" "") (w_now w1) (w_now' w1) (w_rnd w1) (w_draws w1) EV SOK eq_refl LF M2 RC EW ME DW D CK) as (m & EM & TM & _); [|exact O2|exact ND|].
  { intros n' more' KM'. assert (n' = n) as -> by (rewrite KM in KM'; congruence). split; [|exact B3]. split; [exact B1|].
    apply small_len in S. clear - S. unfold write_MPI in S. rewrite len_app, len_be in S. unfold two32. lia. }
  assert (NM : g_packets (m_pgp m) <> []) by (intros Z; rewrite Z in TM; discriminate).
  assert (OI : octets id) by (apply (keyid_octets kk); exact KI).
  destruct (C86_pka_partial w1 items1 rest1 fk f public data (public_part g) comp sym hash m kk id y g vals n _ (value items "-p" "") unzip' private CA F1 F2 LP CN SN HN NS FA RC EW LS ME DW D CK KM MN B1 LI OI O2 LF TE EM NM (LL m EM)) as (text & _ & P & Q).
  exists (text ++ [10]). split; [exact P|]. intros w2 fuel items2 rest2 fs f2 U FFU C3 NS2 F3 F4. exact (Q w2 fuel items2 rest2 fs f2 U FFU C3 NS2 F3 F4).
Qed.

(** *** Example: the request meets the conditions; a key of the size DSA needs is not computed here. *)
Definition dsa_line : list item := [Value (str "-u") (str "A"); Value (str "--ppka") (str "DSA"); Value (str "--psig") (str "SHA256"); Value (str "--spka") (str "ELGAMAL"); Value (str "--ssig") (str "SHA256")].
Definition dsa_conf : config := mkConfig [] 17 2048 9 2 [mkUid (str "A") [] [] 8 0] [mkSub 16 2048 9 2 8 0].
Example C90_subkey_ex : calls cli_generate_keypair dsa_line None [] /\ asked dsa_line dsa_conf /\ config_valid dsa_conf = Ok true /\ generate_params 17 (N.shiftr 2048 1) = [1024; 160] /\
  c_pka dsa_conf = 17 /\ c_subkeys dsa_conf = [mkSub 16 2048 9 2 8 0] /\ c_pass dsa_conf = [].
Proof.
  split; [unfold dsa_line; call|]. split; [|repeat split; reflexivity].
  assert (D : in_decimal (str "2048") 2048) by (change (str "2048") with ((([48 + 2] ++ [48 + 0]) ++ [48 + 4]) ++ [48 + 8]); change 2048 with (10 * (10 * (10 * 2 + 0) + 4) + 8); repeat constructor).
  exists 17, 2048, 9, 2, 8, 16, 2048, 9, 2, 8.
  do 2 (split; [found|]). split; [exact D|]. split; [reflexivity|]. split; [exact D|]. split; [reflexivity|]. do 6 (split; [found|]). reflexivity.
Qed.
Print Assumptions C90_subkey_partial. Print Assumptions C90_subkey_ex.
