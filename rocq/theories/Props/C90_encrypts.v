(** C90, continued: encryption with the files generate-keypair writes. *)
From Verif Require Import Proofs.Lib Proofs.CommandsP Proofs.CliP Proofs.CryptP Proofs.MessageIOP Proofs.SignP Proofs.MadeP Proofs.KeyP Proofs.KeyGenP Proofs.GenWriteP Proofs.KeyGrammarP Proofs.PgpP Proofs.ArmorP
  Spec.Armor Spec.Sequence Spec.Crypt Spec.Cipher Spec.Keys Spec.KeyGrammar
  Props.C10_C12 Props.C21_C22 Props.C33_C35 Props.C44_C46 Props.C44_compressed Props.C47_C49_C62 Props.C48_whole Props.C73 Props.C74 Props.C76 Props.C78 Props.C80 Props.C86 Props.C90 Spec.Keypair Spec.Invocation Spec.CommandLine.
Local Open Scope N_scope.

(** A file encrypted to the public file is printed by decrypt-pka with the private file and the
    passphrase the key pair was made with. *)
Theorem C90_encrypts_partial : forall w x items c g public private, asked items c -> generates w x c g -> g_packets g <> [] -> fair w x c g -> c_pka c = 1 ->
  public_load public = Ok (public_part g) -> secret_load private = Ok g ->
  forall w1 items1 rest1 fk f data comp sym hash unzip', calls cli_encrypt_pka items1 rest1 [fk; f] -> w_files w1 fk = Some public -> w_files w1 f = Some data ->
  In (given items1 (str "-c") (str "ZLIB"), comp) compression_names -> In (given items1 (str "--sym") (str "AES256"), sym) cipher_names ->
  In (given items1 (str "-h") (str "SHA1"), hash) hash_names -> given items1 (str "--sign") [] = [] -> flag items1 (str "-a") true = true ->
  let a := mkEnc f data sym comp (flag items1 (str "--mdc") true) None (given items1 (str "-p") []) hash in
  literal_fits (w_zip w1) unzip' a ->
  (forall y rest, to_encrypt (w_zip w1) (w_unzip w1) (w_fuel w1) a (w_now w1) (w_now' w1) (w_draws w1) = Ok (Some y, rest) -> octets y /\ readable_length NEW (encrypted_size a (len y))) ->
  (forall p more k sec, g_packets g = p :: more -> p_body p = PSecret k sec ->
     let n := len (mpitoraw (hd 0 (k_mpi k))) in
     N.of_nat (key_octets sym) + 14 <= n /\ n + N.of_nat (block_octets sym) <= N.of_nat (nonzero (skipn (key_octets sym) (w_rnd w1)))) ->
  octets (w_rnd w1) -> w_draws w1 <> [] ->
  (forall m, encrypt_pka (w_zip w1) (w_unzip w1) (w_fuel w1) a (public_part g) (w_now w1) (w_now' w1) (w_rnd w1) (w_draws w1) = Ok m -> long_last m) ->
  exists text, prints w1 (str "encrypt-pka") items1 rest1 text /\
    forall w2 fuel items2 rest2 fs f2, w_unzip w2 = unzip' -> w_fuel w2 = (2 + fuel)%nat ->
      calls cli_decrypt_pka items2 rest2 [fs; value items "-p" ""; f2] -> given items2 (str "-s") [] = [] ->
      w_files w2 fs = Some private -> w_files w2 f2 = Some text ->
      prints w2 (str "decrypt-pka") items2 rest2 (data ++ [10; 10]).
Proof.
  intros w x items c g public private A (rnd & dr & E) NE (SP & T & OR & NF & VS & OM) C1 LP LS w1 items1 rest1 fk f data comp sym hash unzip' CA F1 F2 CN SN HN NS FA a LF TE BIG O2 ND LL.
  pose proof (asked_few _ _ A) as FW.
  assert (CP : c_pass c = value items "-p" "") by (destruct A as (? & ? & ? & ? & ? & ? & ? & ? & ? & ? & _ & _ & _ & _ & _ & _ & _ & _ & _ & _ & _ & _ & ->); reflexivity).
  destruct (generated_matching _ _ _ _ _ _ _ _ _ _ SP E NE T OR NF VS OM FW) as (k & sec & pri & more & GP & V4 & PK & MA). specialize (MA 8).
  rewrite C1 in PK. pose proof MA as (_ & _ & D & KP & _). rewrite PK in KP. cbn [a_pass] in D. rewrite CP in D.
  destruct (C76_public _ _ _ _ _ _ _ _ _ _ SP E NE T OR NF VS OM FW) as (_ & PM & RC & _). destruct (proj2 (meaningful_of (public_part g)) PM) as [M2 _].
  destruct (C74_contents _ _ _ _ _ _ _ _ _ _ E NE) as (_ & _ & _ & us & ss & _ & _ & _ & _ & _ & _ & _ & _ & _ & ME).
  destruct (KeyP.keyid_v4 k V4) as (fp & id & FP & KI & _ & LI & FI).
  assert (EW : encrypts_with (public_part g) k).
  { exists [], (public_form (new_packet 5 (PSecret k sec))), (map public_form more). unfold public_part. cbn [g_packets]. rewrite GP. split; [reflexivity|].
    split; [cbn; auto|]. split; [left; reflexivity|]. split; [rewrite PK; cbn; auto|constructor]. }
  assert (DW : decrypts_with g id k sec).
  { exists [], (new_packet 5 (PSecret k sec)), more. split; [exact GP|]. split; [cbn; auto|]. split; [reflexivity|]. split; [exact KI|]. split; [rewrite PK; cbn; auto|constructor]. }
  assert (CK : cipher_pair (k_pka k) pri (k_mpi k)) by (rewrite PK; exact KP).
  destruct KP as (n & e & d & m1 & m2 & KM & KV & RK). destruct (BIG _ _ _ _ GP eq_refl) as [B1 B2]. rewrite KM in B1, B2. cbn [hd] in B1, B2.
  pose proof (VS _ _ _ ltac:(rewrite GP; now left) eq_refl) as S. rewrite KM in S. apply Forall_cons_iff in S as [S _].
  assert (MN : moderate n) by (unfold moderate; eapply N.lt_le_trans; [exact S|]; apply N.pow_le_mono_r; lia).
  destruct (cipher_known _ _ SN) as [_ S2]. destruct (hash_known _ _ HN) as [_ H2]. destruct (compression_known _ _ CN) as [_ C2].
  assert (EV : enc_valid a = true) by now apply valid_known.
  destruct (C47_literal_partial (w_zip w1) (w_unzip w1) unzip' (w_fuel w1) 0 a (public_part g) g k sec id pri (value items "-p" "") (w_now w1) (w_now' w1) (w_rnd w1) (w_draws w1) EV S2 eq_refl LF M2 RC EW ME DW D CK) as (m & EM & TM & _); [|exact O2|exact ND|].
  { intros n' more' KM'. assert (n' = n) as -> by (rewrite KM in KM'; congruence). split; [|exact B2]. split; [exact B1|].
    apply small_len in S. clear - S. unfold write_MPI in S. rewrite len_app, len_be in S. unfold two32. lia. }
  assert (NM : g_packets (m_pgp m) <> []) by (intros Z; rewrite Z in TM; discriminate).
  assert (OI : octets id) by (apply (keyid_octets k); exact KI).
  destruct (C86_pka_partial w1 items1 rest1 fk f public data (public_part g) comp sym hash m k id sec g pri n _ (value items "-p" "") unzip' private CA F1 F2 LP CN SN HN NS FA RC EW LS ME DW D CK KM MN B1 LI OI O2 LF TE EM NM (LL m EM)) as (text & _ & P & Q).
  exists (text ++ [10]). split; [exact P|]. intros w2 fuel items2 rest2 fs f2 U FU C3 NS2 F3 F4. exact (Q w2 fuel items2 rest2 fs f2 U FU C3 NS2 F3 F4).
Qed.

Lemma toy_made open g : generates toy_world (toy_maker open) toy_conf g -> g_packets g <> [] ->
  exists k sec more, g_packets g = new_packet 5 (PSecret k sec) :: more /\ k_pka k = 1 /\ k_mpi k = [big_p * big_q; 3].
Proof.
  intros (rnd & dr & E) NE. apply generate_inv in E as (k & sec & pri & id & us & ss & _ & KE & _ & (d' & KP) & _ & GE & _ & _); [|exact NE].
  change (c_pka toy_conf) with 1 in KP, KE. change (c_bits toy_conf) with 300 in KP.
  destruct (gen_pair [0; 1; 5]) as (pri' & KP'). change (w_draws toy_world) with [0; 1; 3; 0; 1; 5] in KP. cbn [app] in KP'. change (k_nextprime (toy_maker open)) with gen_next in KP.
  change (k_test (toy_maker open)) with (fun _ : N => false) in KP. change (k_fuel (toy_maker open)) with 1%nat in KP. rewrite KP' in KP. apply Ok_inj in KP.
  exists k, sec, (concat us ++ concat ss). split; [rewrite GE; reflexivity|]. split; [rewrite KE; reflexivity|congruence].
Qed.
Lemma data_packet zip unzip fuel a s now now' rnd draws p : encrypt_data zip unzip fuel a s now now' rnd draws = Ok (Some p) -> forall v i pka mpi, p_body p <> PSession v i pka mpi.
Proof.
  intros E v i pka mpi. unfold encrypt_data in E. destruct (negb (enc_valid a)); [discriminate|]. apply bind_ok in E as ([o r] & _ & E). destruct o as [w|]; [|discriminate].
  apply bind_ok in E as (bits & _ & E). apply bind_ok in E as ([prefix r1] & _ & E). apply bind_ok in E as (rep & _ & E). cbv zeta in E. destruct (negb (e_mdc a)).
  - apply bind_ok in E as (c & _ & E). apply Ok_inj in E. injection E as <-. discriminate.
  - apply bind_ok in E as (h & _ & E). apply bind_ok in E as (x & _ & E). apply bind_ok in E as (c & _ & E). apply Ok_inj in E. injection E as <-. discriminate.
Qed.
Definition enc_line : list item := [Value (str "-c") (str "UNCOMPRESSED"); Value (str "--sym") (str "CAST5"); Word (str "key"); Word (str "f")].
Example C90_encrypts_ex : exists public private text,
  leaves toy_world (toy_maker (fun _ => true)) toy_line None [(str "my.public", public); (str "my.private", private)] /\
  prints (toy_machine 0 [(str "key", public); (str "f", str "hello")] [1]) (str "encrypt-pka") enc_line None text /\
  prints (toy_machine 2 [(str "pri", private); (str "g", text)] []) (str "decrypt-pka") [Word (str "pri"); Word (str "pass"); Word (str "g")] None (str "hello" ++ [10; 10]).
Proof.
  destruct C90_ex as (g & GF & NE & HF). destruct (GF (fun _ => true)) as [G F].
  destruct (C90_written toy_world (toy_maker (fun _ => true)) toy_line None toy_conf g toy_calls toy_asked G NE F eq_refl eq_refl eq_refl) as (public & private & P & L & LP & LS).
  destruct (toy_made _ g G NE) as (k & sec & more & GP & PK & KM).
  assert (KK : forall p more k0 x, g_packets g = p :: more -> p_body p = PSecret k0 x -> k0 = k).
  { intros p more0 k0 x GP' B. rewrite GP in GP'. assert (p = new_packet 5 (PSecret k sec)) as -> by congruence. cbn in B. congruence. }
  destruct (C90_encrypts_partial toy_world (toy_maker (fun _ => true)) toy_line toy_conf g public private toy_asked G NE F eq_refl LP LS
    (toy_machine 0 [(str "key", public); (str "f", str "hello")] [1]) enc_line None (str "key") (str "f") (str "hello") 0 3 2 C44_compressed.minus) as (text & P1 & Q).
  - unfold enc_line. call.
  - reflexivity.
  - reflexivity.
  - found.
  - found.
  - found.
  - reflexivity.
  - reflexivity.
  - apply toy_fits'.
  - intros x rest T. vm_compute in T. injection T as <- _. split; [repeat (apply octets_cons; split; [reflexivity|]); apply Forall_nil|].
    match goal with |- context [len ?l] => let n := eval vm_compute in (len l) in change (len l) with n end.
    unfold encrypted_size, readable_length. cbn [e_sym e_mdc]. change (block_octets 3) with 8%nat. change (flag _ _ true) with true. cbv iota. lia.
  - intros p more0 k0 x GP' B. rewrite (KK _ _ _ _ GP' B), KM. vm_compute. split; discriminate.
  - apply octets_repeat. reflexivity.
  - discriminate.
  - intros m E. cbn [toy_machine w_zip w_unzip w_fuel w_now w_now' w_rnd w_draws] in E. unfold encrypt_pka in E. set (a := mkEnc _ _ _ _ _ _ _ _) in E.
    destruct F as (SP & T & OR & NF & VS & OM). destruct G as (rnd & dr & GE). pose proof (asked_few _ _ toy_asked) as FW.
    destruct (C76_public _ _ _ _ _ _ _ _ _ _ SP GE NE T OR NF VS OM FW) as (_ & PM & RC & _). destruct (proj2 (meaningful_of (public_part g)) PM) as [M2 _].
    assert (EW : encrypts_with (public_part g) k).
    { exists [], (public_form (new_packet 5 (PSecret k sec))), (map public_form more). unfold public_part. cbn [g_packets]. rewrite GP. split; [reflexivity|].
      split; [cbn; auto|]. split; [left; reflexivity|]. split; [rewrite PK; cbn; auto|constructor]. }
    change (enc_valid a) with true in E. rewrite M2 in E. cbn [negb bind] in E. rewrite RC in E. cbn [bind] in E. change (negb (0 =? 0)%Z) with false in E. cbv iota in E.
    rewrite (encrypts_found _ _ None EW) in E. cbn [bind] in E. destruct (get_keyid k) as [id| | |]; [|discriminate..]. cbn [bind] in E.
    apply bind_ok in E as (kl & X & E). vm_compute in X. apply Ok_inj in X. subst kl.
    apply bind_ok in E as ([session r1] & RS & E). vm_compute in RS. apply Ok_inj in RS. injection RS as <- <-. rewrite KM, PK in E. cbn [vec_at] in E.
    apply bind_ok in E as (n0 & X & E). vm_compute in X. apply Ok_inj in X. subst n0.
    apply bind_ok in E as ([em r2] & X & E). vm_compute in X. apply Ok_inj in X. injection X as <- <-.
    apply bind_ok in E as (v & X & E). vm_compute in X. apply Ok_inj in X. subst v.
    apply bind_ok in E as ([mpi d'] & X & E). vm_compute in X. apply Ok_inj in X. injection X as <- <-.
    apply bind_ok in E as (o & X & E). destruct o as [p|]; apply Ok_inj in E; subst m; intros q v i pka mpi IP B; cbn [m_pgp g_packets In message_new new_packet] in IP.
    + destruct IP as [<-|[<-|[]]].
      * cbn [p_body] in B. injection B as _ _ _ <-. vm_compute. reflexivity.
      * destruct (data_packet _ _ _ _ _ _ _ _ _ _ X v i pka mpi B).
    + destruct IP.
  - exists public, private, text. split; [exact L|]. split; [exact P1|]. apply (Q _ 0%nat _ _ (str "pri") (str "g")); try reflexivity. call.
Qed.

Print Assumptions C90_encrypts_partial.
