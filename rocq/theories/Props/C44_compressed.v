(** Properties C44, C47, C48: messages that are signed and compressed, and encrypted messages
    written in armor. *)
From Verif Require Import Proofs.SignP Proofs.MadeP Proofs.CryptP Proofs.MessageIOP Model.Decrypt Spec.Crypt Spec.Sigs Spec.Armor Spec.Grammar
  Props.C10_C12 Props.C14_C15 Props.C21_C22 Props.C32 Props.C33_C35 Props.C41_C43_C60 Props.C44_C46 Props.C44_written Props.C65_C66 Props.C47_C49_C62.
Local Open Scope N_scope.

(** [d] can be compressed, decompressed again, and sent as the packet [w]: the length of the
    packet is one that can be read back (C06), and no line of it looks like the beginning of
    armor (C14), which reading it would look for first. *)
Definition compresses (zip unzip unzip' : N -> bytes -> option bytes) (alg : N) (d : bytes) : Prop :=
  In alg [1; 2; 3] /\ exists z, zip alg d = Some z /\ z <> [] /\ unzip alg z = Some d /\ unzip' alg z = Some d /\ readable_length NEW (1 + len z) /\
    forall w, write (mkPacket 8 NEW NOT_PARTIAL (PCompressed alg z)) = Ok w -> ~ line_begins armor_begin w.

Lemma codec_is f alg d z : In alg [1; 2; 3] -> d <> [] -> f alg d = Some z -> codec f alg d = Ok z.
Proof.
  intros I N F. unfold codec. replace (alg =? 0) with false by (cbn [In] in I; lia). replace (0 <? len d) with true by (destruct d; [congruence|rewrite len_cons; lia]).
  cbn [negb andb]. replace (mem [1; 2; 3] alg) with true by (cbn [In] in I; repeat destruct I as [<-|I]; tauto || reflexivity). now rewrite F.
Qed.
(** A message that reads back as [ps], compressed: the packet made, and how it reads. *)
Lemma compressed_back zip unzip unzip' alg d ps : compresses zip unzip unzip' alg d -> d <> [] ->
  (forall u f, message_read_raw u (S f) d = Ok (ps, None)) ->
  exists w, compressed_packet zip (NEW, NOT_PARTIAL, alg) d = Ok w /\ len w < 2 ^ 63 /\
    (forall f, message_read unzip (S f) w = Ok (mkMessage (mkPgp false 1 [] ps) (Some (NEW, NOT_PARTIAL, alg)))) /\
    (forall f, message_read_raw unzip' (S (S f)) w = Ok (ps, Some (NEW, NOT_PARTIAL, alg))).
Proof.
  intros (I & z & Z & ZN & U & U' & RL & NB) DN RD.
  assert (C := codec_is zip alg d z I DN Z). assert (CU := codec_is unzip alg z d I ZN U). assert (CU' := codec_is unzip' alg z d I ZN U').
  destruct (new_written 8 (PCompressed alg z) _ eq_refl) as (w & W & LW). rewrite len_cons in LW. unfold new_packet in W.
  exists w. unfold compressed_packet. rewrite C. cbn [bind]. split; [exact W|]. split; [unfold readable_length in RL; lia|].
  pose proof (compressed_read NEW alg z w RL W) as RW. split; intros f.
  - unfold message_read, pgp_read. rewrite find_begin_none by (try apply NB; try exact W; unfold readable_length in RL; lia). cbn [bind]. rewrite RW. cbn [bind g_packets map p_tag].
    rewrite compressed_ok. cbn [bind decompressed p_tag N.eqb Pos.eqb as_compressed p_body p_format p_partial]. rewrite CU. cbn [bind]. rewrite RD. reflexivity.
  - cbn [message_read_raw]. rewrite RW. cbn [bind map p_tag]. rewrite compressed_ok.
    cbn [bind decompressed p_tag N.eqb Pos.eqb as_compressed p_body p_format p_partial]. rewrite CU'. cbn [bind].
    pose proof (RD unzip' f) as R. cbn [message_read_raw] in R. rewrite R. reflexivity.
Qed.
(** Signing with compression is signing without, then compressing. *)
Lemma sign_compressed zip unzip fuel a filename data comp now now' draws m0 rest d w m : comp <> 0 ->
  sign_binary zip unzip fuel a filename data 0 now now' draws = Ok (m0, rest) -> g_packets (m_pgp m0) <> [] ->
  message_raw zip m0 = Ok d -> compressed_packet zip (NEW, NOT_PARTIAL, comp) d = Ok w -> message_read unzip fuel w = Ok m ->
  sign_binary zip unzip fuel a filename data comp now now' draws = Ok (m, rest).
Proof.
  intros C E NE R W RD. unfold sign_binary in *. apply bind_ok in E as (v & AV & E). rewrite AV. cbn [bind].
  destruct v; [|apply Ok_inj in E; injection E as <- <-; now destruct NE]. cbn [negb] in *.
  apply bind_ok in E as (o & FS & E). rewrite FS. cbn [bind]. destruct o as [p|]; [|apply Ok_inj in E; injection E as <- <-; now destruct NE].
  apply bind_ok in E as ((k & sec) & A & E). rewrite A. cbn [bind]. apply bind_ok in E as (id & KI & E). rewrite KI. cbn [bind]. cbv zeta in *.
  apply bind_ok in E as (digest & I & E). rewrite I. cbn [bind]. apply bind_ok in E as ((r & d') & FI & E). rewrite FI. cbn [bind].
  destruct r as [s|]; [|apply Ok_inj in E; injection E as <- <-; now destruct NE].
  change (0 =? 0) with true in E. cbv iota in E. apply Ok_inj in E. injection E as <- <-. replace (comp =? 0) with false by lia.
  rewrite R. cbn [bind]. rewrite W. cbn [bind]. rewrite RD. reflexivity.
Qed.
Lemma compressed_signed zip unzip fuel a filename data comp now now' draws m rest : comp <> 0 ->
  sign_binary zip unzip fuel a filename data comp now now' draws = Ok (m, rest) -> g_packets (m_pgp m) <> [] ->
  exists m0, sign_binary zip unzip fuel a filename data 0 now now' draws = Ok (m0, rest) /\ g_packets (m_pgp m0) <> [].
Proof.
  intros C E NE. unfold sign_binary in *. apply bind_ok in E as (v & AV & E). rewrite AV. cbn [bind].
  destruct v; [|apply Ok_inj in E; injection E as <- <-; now destruct NE]. cbn [negb] in *.
  apply bind_ok in E as (o & FS & E). rewrite FS. cbn [bind]. destruct o as [p|]; [|apply Ok_inj in E; injection E as <- <-; now destruct NE].
  apply bind_ok in E as ((k & sec) & A & E). rewrite A. cbn [bind]. apply bind_ok in E as (id & KI & E). rewrite KI. cbn [bind]. cbv zeta in *.
  apply bind_ok in E as (digest & I & E). rewrite I. cbn [bind]. apply bind_ok in E as ((r & d') & FI & E). rewrite FI. cbn [bind].
  destruct r as [s|]; [|apply Ok_inj in E; injection E as <- <-; now destruct NE].
  change (0 =? 0) with true. cbv iota. replace (comp =? 0) with false in E by lia.
  apply bind_ok in E as (d & _ & E). apply bind_ok in E as (w & _ & E). apply bind_ok in E as (m' & _ & E). apply Ok_inj in E. injection E as <- <-.
  eexists. split; [reflexivity|discriminate].
Qed.

(** ** C44: a signed message, compressed *)

(** Whatever is signed without compression can be signed with it, if it [compresses]: the
    message has the same packets, its octets read back as those packets, and it verifies. *)
Theorem C44_compressed_partial : forall zip unzip unzip' fuel fuel' a k sec pri g filename data comp now now' draws m0 rest,
  matching a k sec pri g -> Forall moderate (k_mpi k) -> now < 2 ^ 32 -> now' < 2 ^ 32 -> len filename < 256 ->
  readable_length NEW (6 + len filename + len data) ->
  sign_binary zip unzip (S fuel) a filename data 0 now now' draws = Ok (m0, rest) -> g_packets (m_pgp m0) <> [] ->
  (forall d, message_raw zip m0 = Ok d -> compresses zip unzip unzip' comp d) ->
  exists m w, sign_binary zip unzip (S fuel) a filename data comp now now' draws = Ok (m, rest) /\
    g_packets (m_pgp m) = g_packets (m_pgp m0) /\ m_comp m = Some (NEW, NOT_PARTIAL, comp) /\
    message_raw zip m = Ok w /\ len w < 2 ^ 63 /\
    message_read_raw unzip' (2 + fuel') w = Ok (g_packets (m_pgp m0), Some (NEW, NOT_PARTIAL, comp)) /\
    verify_binary (S fuel') unzip' g (m_pgp m) = Ok 1%Z.
Proof.
  intros zip unzip unzip' fuel fuel' a k sec pri g filename data comp now now' draws m0 rest M MO T T' LF RL E NE CO.
  destruct (C44_binary_written_partial zip unzip unzip' (S fuel) fuel' a k sec pri g _ _ _ _ _ _ _ M MO T T' LF RL E NE) as (d & W & LD & R & V).
  destruct (binary_shape _ _ _ _ _ _ _ _ _ _ _ _ _ _ _ M MO T T' LF RL E NE) as (id & s & -> & SQ & _).
  cbn [m_pgp g_packets] in *. set (ps := [new_packet 4 _; _; _]) in *.
  assert (WP : write_packets ps = Ok d) by (unfold message_raw in W; cbn [m_pgp m_comp g_packets] in W; apply bind_ok in W as (x & X & W); apply Ok_inj in W; congruence).
  assert (RD : forall u f, message_read_raw u (S f) d = Ok (ps, None)).
  { intros u f. destruct (C44_binary_written_partial zip unzip u (S fuel) f a k sec pri g _ _ _ _ _ _ _ M MO T T' LF RL E NE) as (d2 & W2 & _ & R2 & _).
    cbn [m_pgp g_packets] in R2. assert (d2 = d) as -> by congruence. exact R2. }
  assert (DN : d <> []) by (intros ->; specialize (RD unzip 0%nat); vm_compute in RD; discriminate).
  pose proof (CO d W) as CD. destruct (compressed_back zip unzip unzip' comp d ps CD DN RD) as (w & CP & LW & MR & MRR).
  eexists. exists w. split.
  { eapply sign_compressed; [|exact E|exact NE|exact W|exact CP|apply MR]. destruct CD as (I & _). cbn [In] in I. lia. }
  cbn [m_pgp m_comp g_packets]. split; [reflexivity|]. split; [reflexivity|]. split; [unfold message_raw; cbn [m_pgp m_comp g_packets]; rewrite WP; exact CP|].
  split; [exact LW|]. split; [apply MRR|]. cbn [verify_binary g_type g_packets] in V |- *. exact V.
Qed.

(** ** C47, C48: signed, compressed and encrypted *)
(** What is signed compresses, for the random numbers left to it: encryption to an ElGamal
    key takes one of [draws]. *)
Definition signed_compresses zip unzip unzip' fuel (a : enc_args) pri now now' (draws : list N) : Prop :=
  forall ds m0 rest d, ds = draws \/ (exists x, draws = x :: ds) ->
    sign_binary zip unzip fuel (mkArgs pri (e_pass a) 4 (e_hash a)) (e_filename a) (e_data a) 0 now now' ds = Ok (m0, rest) ->
    message_raw zip m0 = Ok d -> compresses zip unzip unzip' (e_comp a) d.
Lemma signed_back' zip unzip fuel a pri k sec vals g now now' draws ds w rest unzip' fuel' :
  e_signer a = Some pri -> ds = draws \/ (exists x, draws = x :: ds) -> signed_compresses zip unzip unzip' (S fuel) a pri now now' draws -> e_comp a <> 0 ->
  matching (mkArgs pri (e_pass a) 4 (e_hash a)) k sec vals g -> Forall moderate (k_mpi k) ->
  now < 2 ^ 32 -> now' < 2 ^ 32 -> len (e_filename a) < 256 -> readable_length NEW (6 + len (e_filename a) + len (e_data a)) ->
  to_encrypt zip unzip (S fuel) a now now' ds = Ok (Some w, rest) ->
  exists id s, let ps := [new_packet 4 (POnePass 3 0 (e_hash a) (k_pka k) id 1); new_packet 11 (PLiteral 98 (e_filename a) now (e_data a)); new_packet 2 (PSig s)] in
    len w < 2 ^ 63 /\ message_read_raw unzip' (2 + fuel') w = Ok (ps, Some (NEW, NOT_PARTIAL, e_comp a)) /\
    verify_binary (S fuel') unzip' g (mkPgp false 1 [] ps) = Ok 1%Z.
Proof.
  intros S DS SC C M MO T T' LF RL E. unfold to_encrypt in E. rewrite S in E. apply bind_ok in E as ([m d] & SB & E).
  apply bind_ok in E as (ok & MM & E). destruct ok; [|discriminate]. apply bind_ok in E as (w' & W & E). apply Ok_inj in E. injection E as <- <-.
  assert (NE : g_packets (m_pgp m) <> []).
  { intros Z. unfold message_meaningful in MM. rewrite Z in MM. cbn in MM. destruct (g_type (m_pgp m)) as [|p]; try discriminate. destruct p; discriminate. }
  destruct (compressed_signed _ _ _ _ _ _ _ _ _ _ _ _ C SB NE) as (m0 & SB0 & NE0).
  destruct (C44_compressed_partial zip unzip unzip' fuel fuel' _ k sec vals g _ _ (e_comp a) _ _ _ _ _ M MO T T' LF RL SB0 NE0) as (m1 & w1 & SB1 & P1 & C1 & W1 & L1 & R1 & V1).
  { intros x X. eapply SC; eauto. }
  assert (m1 = m) as -> by congruence. assert (w1 = w') as -> by congruence.
  destruct (binary_shape _ _ _ _ _ _ _ _ _ _ _ _ _ _ _ M MO T T' LF RL SB0 NE0) as (id & s & -> & _).
  exists id, s. cbv zeta. cbn [m_pgp g_packets a_hash] in *. split; [exact L1|]. split; [exact R1|].
  destruct (C44_binary_written_partial zip unzip unzip' (Datatypes.S fuel) fuel' _ k sec vals g _ _ _ _ _ _ _ M MO T T' LF RL SB0 NE0) as (_ & _ & _ & _ & V2).
  cbn [verify_binary m_pgp g_type g_packets a_hash] in V2 |- *. exact V2.
Qed.
Theorem C48_signed_compressed_partial : forall zip unzip unzip' fuel fuel' a pass kh pri k sec vals g now now' rnd draws w rest,
  enc_valid a = true -> In (e_sym a) offered -> In kh hashes -> 8 + N.of_nat (block_octets (e_sym a)) <= len rnd ->
  e_signer a = Some pri -> signed_compresses zip unzip unzip' (S fuel) a pri now now' draws -> e_comp a <> 0 ->
  matching (mkArgs pri (e_pass a) 4 (e_hash a)) k sec vals g -> Forall moderate (k_mpi k) ->
  now < 2 ^ 32 -> now' < 2 ^ 32 -> len (e_filename a) < 256 -> readable_length NEW (6 + len (e_filename a) + len (e_data a)) ->
  to_encrypt zip unzip (S fuel) a now now' draws = Ok (Some w, rest) ->
  exists m one_pass s m', encrypt_sym zip unzip (S fuel) a pass kh now now' rnd draws = Ok m /\
    decrypt_sym unzip' (2 + fuel') m pass = Ok m' /\
    g_packets (m_pgp m') = [one_pass; mkPacket 11 NEW NOT_PARTIAL (PLiteral 98 (e_filename a) now (e_data a)); mkPacket 2 NEW NOT_PARTIAL (PSig s)] /\
    m_comp m' = Some (NEW, NOT_PARTIAL, e_comp a) /\
    verify_binary (S fuel') unzip' g (m_pgp m') = Ok 1%Z.
Proof.
  intros zip unzip unzip' fuel fuel' a pass kh pri k sec vals g now now' rnd draws w rest V I KH R S SC C M MO T T' LF RL TE.
  destruct (signed_back' _ _ _ _ _ _ _ _ _ _ _ draws draws _ _ unzip' fuel' S (or_introl eq_refl) SC C M MO T T' LF RL TE) as (id & s & L & RR & VB).
  destruct (sym_back zip unzip (Datatypes.S fuel) a pass kh now now' rnd draws unzip' (2 + fuel') w rest V I KH R TE L) as (m & E & _ & D).
  exists m. do 3 eexists. split; [exact E|]. split; [rewrite D, RR; reflexivity|]. split; [reflexivity|]. split; [reflexivity|exact VB].
Qed.
Theorem C47_signed_compressed_partial : forall zip unzip unzip' fuel fuel' a pub pri k sec id vals pass now now' rnd draws m spri sk ssec svals g,
  enc_valid a = true -> In (e_sym a) offered ->
  meaningful pub = Ok true -> revoke_check pub = Ok 0%Z -> encrypts_with pub k ->
  secret_meaningful pri = Ok true -> decrypts_with pri id k sec -> decrypt_secret_keys sec pass = Ok vals -> cipher_pair (k_pka k) vals (k_mpi k) ->
  (forall n more, k_mpi k = n :: more -> N.of_nat (key_octets (e_sym a)) + 14 <= len (mpitoraw n) < two32) -> octets rnd ->
  e_signer a = Some spri -> signed_compresses zip unzip unzip' (S fuel) a spri now now' draws -> e_comp a <> 0 ->
  matching (mkArgs spri (e_pass a) 4 (e_hash a)) sk ssec svals g -> Forall moderate (k_mpi sk) ->
  now < 2 ^ 32 -> now' < 2 ^ 32 -> len (e_filename a) < 256 -> readable_length NEW (6 + len (e_filename a) + len (e_data a)) ->
  encrypt_pka zip unzip (S fuel) a pub now now' rnd draws = Ok m -> g_packets (m_pgp m) <> [] ->
  exists one_pass s m', decrypt_pka unzip' (2 + fuel') pri pass m = Ok m' /\
    g_packets (m_pgp m') = [one_pass; mkPacket 11 NEW NOT_PARTIAL (PLiteral 98 (e_filename a) now (e_data a)); mkPacket 2 NEW NOT_PARTIAL (PSig s)] /\
    m_comp m' = Some (NEW, NOT_PARTIAL, e_comp a) /\
    verify_binary (S fuel') unzip' g (m_pgp m') = Ok 1%Z.
Proof.
  intros zip unzip unzip' fuel fuel' a pub pri k sec id vals pass now now' rnd draws m spri sk ssec svals g V I M RC EW SM DW DS CP BIG OR S SC C MA MO T T' LF RL E NE.
  destruct (pka_back zip unzip (Datatypes.S fuel) a pub pri k sec id vals pass now now' rnd draws unzip' (2 + fuel') m V I M RC EW SM DW DS CP BIG OR E NE) as (w & d & r & DR & TE & D).
  destruct (signed_back' _ _ _ _ _ _ _ _ _ _ _ draws d _ _ unzip' fuel' S DR SC C MA MO T T' LF RL TE) as (i & s & L & RR & VB).
  specialize (D L). rewrite RR in D. cbn [bind] in D.
  do 3 eexists. split; [exact D|]. split; [reflexivity|]. split; [reflexivity|exact VB].
Qed.

(** ** Through armor *)

(** As C48_written_partial and C47_written_partial, for the armored form, which has no
    condition on lines.  (A string holds octets, and the whole is shorter than 2^62.) *)
Lemma armored_back zip m a y first w unzip' fuel' : m_comp m = None -> sequence 0 (g_packets (m_pgp m)) ->
  g_packets (m_pgp m) = [first; if e_mdc a then new_packet 18 (PProtected 1 y) else new_packet 9 (PRaw y)] -> p_tag first = 1 \/ p_tag first = 3 ->
  g_keys (m_pgp m) = version_cc ->
  (forall body, write_packets (g_packets (m_pgp m)) = Ok body -> octets body /\ len body < 2 ^ 62) ->
  message_write zip m ArmorYes = Ok w ->
  message_read unzip' fuel' w = Ok (mkMessage (mkPgp true 1 (g_keys (m_pgp m)) (g_packets (m_pgp m))) None).
Proof.
  intros MC SQ GP FT GK B W.
  assert (TG : map p_tag (g_packets (m_pgp m)) = [p_tag first; if e_mdc a then 18 else 9]) by (rewrite GP; destruct (e_mdc a); reflexivity).
  apply (C66_armored_partial zip unzip' fuel' m w MC SQ); auto.
  - rewrite TG. now apply encrypted_grammar.
  - rewrite TG. discriminate.
  - rewrite GK. exact version_ok.
  - intros body WB. destruct (B body WB) as [O L]. split; [exact O|]. split; [|exact L]. intros ->.
    pose proof (C10_sequence_roundtrip_partial _ _ SQ WB) as R. rewrite GP in R. vm_compute in R. discriminate.
Qed.
Lemma sym_keys zip unzip fuel a pass kh now now' rnd draws m :
  encrypt_sym zip unzip fuel a pass kh now now' rnd draws = Ok m -> g_packets (m_pgp m) <> [] -> g_keys (m_pgp m) = version_cc.
Proof.
  intros E NE. unfold encrypt_sym in E. destruct (enc_valid a) eqn:V; [|apply Ok_inj in E; subst m; contradiction NE; reflexivity]. cbn [negb] in E.
  apply bind_ok in E as ([salt r] & RB & E). cbv zeta in E. apply bind_ok in E as (key & _ & E). apply bind_ok in E as (session & _ & E).
  apply bind_ok in E as (o & ED & E). destruct o as [p|]; [|apply Ok_inj in E; subst m; contradiction NE; reflexivity]. apply Ok_inj in E. subst m. reflexivity.
Qed.
Theorem C48_armored_partial : forall zip unzip fuel a pass kh now now' rnd draws m w unzip' fuel',
  encrypt_sym zip unzip fuel a pass kh now now' rnd draws = Ok m -> g_packets (m_pgp m) <> [] ->
  (forall p body, In p (g_packets (m_pgp m)) -> raw (p_body p) = Ok body -> readable_length NEW (len body)) ->
  (forall body, write_packets (g_packets (m_pgp m)) = Ok body -> octets body /\ len body < 2 ^ 62) ->
  message_write zip m ArmorYes = Ok w ->
  exists m', message_read unzip' fuel' w = Ok m' /\ g_packets (m_pgp m') = g_packets (m_pgp m) /\
    forall unzip2 fuel2 pass2, decrypt_sym unzip2 fuel2 m' pass2 = decrypt_sym unzip2 fuel2 m pass2.
Proof.
  intros zip unzip fuel a pass kh now now' rnd draws m w unzip' fuel' E NE RL B W.
  destruct (sym_shape _ _ _ _ _ _ _ _ _ _ _ E NE) as (x & y & SF & MC & GT & GP).
  assert (SQ : sequence 0 (g_packets (m_pgp m))).
  { rewrite GP in *. apply encrypted_sequence; [|exact RL]. intros ps Hps.
    eapply sequence_new; [reflexivity|reflexivity|eapply RL; [now left|reflexivity]| |intros; exact I|exact Hps].
    cbn [fits]. split; [reflexivity|]. split; [eauto|discriminate]. }
  eexists. split; [eapply (armored_back zip m a y _ w unzip' fuel' MC SQ GP); [now right|eapply sym_keys; eauto|exact B|exact W]|].
  split; [reflexivity|]. intros. unfold decrypt_sym, decrypt_data, message_meaningful. cbn [m_pgp g_packets g_type]. rewrite GT. reflexivity.
Qed.
Lemma pka_keys zip unzip fuel a pub now now' rnd draws m :
  encrypt_pka zip unzip fuel a pub now now' rnd draws = Ok m -> g_packets (m_pgp m) <> [] -> g_keys (m_pgp m) = version_cc.
Proof.
  intros E NE. assert (Z : m = message_new -> g_keys (m_pgp m) = version_cc) by (intros ->; contradiction NE; reflexivity).
  unfold encrypt_pka in E. destruct (negb (enc_valid a)); [apply Z; now apply Ok_inj in E|]. apply bind_ok in E as (mm & _ & E). destruct (negb mm); [apply Z; now apply Ok_inj in E|].
  apply bind_ok in E as (rc & _ & E). destruct (negb (rc =? 0)%Z); [apply Z; now apply Ok_inj in E|]. apply bind_ok in E as (o & _ & E). destruct o as [k|]; [|apply Z; now apply Ok_inj in E].
  apply bind_ok in E as (id & _ & E). apply bind_ok in E as (bits & _ & E).
  apply bind_ok in E as ([session r1] & _ & E). apply bind_ok in E as (n & _ & E). apply bind_ok in E as ([em r2] & _ & E). apply bind_ok in E as (x & _ & E).
  apply bind_ok in E as ([mpi d'] & _ & E). apply bind_ok in E as (e & _ & E). destruct e as [p|]; apply Ok_inj in E; [|now apply Z]. subst m. reflexivity.
Qed.
Theorem C47_armored_partial : forall zip unzip fuel a pub k id now now' rnd draws m w unzip' fuel',
  enc_valid a = true -> meaningful pub = Ok true -> revoke_check pub = Ok 0%Z -> encrypts_with pub k -> get_keyid k = Ok id -> len id = 8 ->
  encrypt_pka zip unzip fuel a pub now now' rnd draws = Ok m -> g_packets (m_pgp m) <> [] ->
  (forall p body, In p (g_packets (m_pgp m)) -> raw (p_body p) = Ok body -> readable_length NEW (len body)) ->
  (forall p v i pka mpi, In p (g_packets (m_pgp m)) -> p_body p = PSession v i pka mpi ->
     Forall mpi_fits mpi /\ (mpi = [] \/ 6 + before_last write_MPI mpi < octets_of write_MPI mpi)) ->
  (forall body, write_packets (g_packets (m_pgp m)) = Ok body -> octets body /\ len body < 2 ^ 62) ->
  message_write zip m ArmorYes = Ok w ->
  exists m', message_read unzip' fuel' w = Ok m' /\ g_packets (m_pgp m') = g_packets (m_pgp m) /\
    forall unzip2 fuel2 pri pass, decrypt_pka unzip2 fuel2 pri pass m' = decrypt_pka unzip2 fuel2 pri pass m.
Proof.
  intros zip unzip fuel a pub k id now now' rnd draws m w unzip' fuel' V M RC EW KI LI E NE RL MP B W.
  destruct (pka_shape _ _ _ _ _ _ _ _ _ _ _ _ V M RC EW KI E NE) as (mpi & y & MC & GT & GP).
  assert (SQ : sequence 0 (g_packets (m_pgp m))).
  { rewrite GP in *. apply encrypted_sequence; [|exact RL]. intros ps Hps.
    destruct (MP _ _ _ _ _ (or_introl eq_refl) eq_refl) as [MF PL].
    assert (RB := RL _ _ (or_introl eq_refl) eq_refl).
    eapply sequence_new; [reflexivity|reflexivity|exact RB| | |exact Hps].
    - cbn [fits]. auto.
    - intros h LH. cbn [placed]. destruct PL as [->|PL]; [now left|right; lia]. }
  eexists. split; [eapply (armored_back zip m a y _ w unzip' fuel' MC SQ GP); [now left|eapply pka_keys; eauto|exact B|exact W]|].
  split; [reflexivity|]. intros. unfold decrypt_pka, decrypt_data, message_meaningful. cbn [m_pgp g_packets g_type]. rewrite GT. reflexivity.
Qed.

(** Examples: the DSA key of C44, a "compression" that only adds an octet, the RSA key of C47. *)
Definition plus (_ : N) (d : bytes) : option bytes := Some (0 :: d).
Definition minus (_ : N) (z : bytes) : option bytes := Some (tl z).
Lemma no_line w : existsb (N.eqb 45) w = false -> ~ line_begins armor_begin w.
Proof. intros E (a & b & -> & _). rewrite !existsb_app in E. change (existsb (N.eqb 45) armor_begin) with true in E. rewrite ?orb_true_r in E. discriminate. Qed.
Definition toy_comp (sym : N) : enc_args := mkEnc (str "f") (str "hello") sym 2 true (Some toy_pri) [] 2.
Lemma toy_compresses d z w : z = 0 :: d -> write (mkPacket 8 NEW NOT_PARTIAL (PCompressed 2 z)) = Ok w -> existsb (N.eqb 45) w = false ->
  (1 + len z <? 192) = true -> compresses plus minus minus 2 d.
Proof.
  intros -> W E L. split; [cbn; tauto|]. exists (0 :: d). split; [reflexivity|]. split; [discriminate|]. split; [reflexivity|]. split; [reflexivity|].
  split; [unfold readable_length; lia|]. intros w' W'. assert (w' = w) as -> by congruence. now apply no_line.
Qed.
Lemma toy_signed ds : ds = [3] \/ ds = [3; 3] -> exists m0 rest d, sign_binary plus minus 1 (mkArgs toy_pri [] 4 2) (str "f") (str "hello") 0 5 1234567890 ds = Ok (m0, rest) /\
  g_packets (m_pgp m0) <> [] /\ message_raw plus m0 = Ok d /\ compresses plus minus minus 2 d.
Proof.
  intros [-> | ->]; (do 3 eexists; split; [vm_compute; reflexivity|]; split; [discriminate|]; split; [vm_compute; reflexivity|]);
    (eapply toy_compresses; [reflexivity|vm_compute; reflexivity|vm_compute; reflexivity|vm_compute; reflexivity]).
Qed.
Lemma toy_signed_compresses sym : signed_compresses plus minus minus 1 (toy_comp sym) toy_pri 5 1234567890 [3; 3].
Proof.
  intros ds m0 rest d D S R. assert (D' : ds = [3] \/ ds = [3; 3]) by (destruct D as [->|(x & D)]; [now right|left; congruence]).
  destruct (toy_signed ds D') as (m1 & rest1 & d1 & S1 & _ & R1 & C). change (mkArgs toy_pri (e_pass (toy_comp sym)) 4 (e_hash (toy_comp sym))) with (mkArgs toy_pri [] 4 2) in S.
  cbn [toy_comp e_filename e_data e_comp] in *. rewrite S1 in S. apply Ok_inj in S. assert (m1 = m0) as -> by congruence. assert (d1 = d) as -> by congruence. exact C.
Qed.
Lemma toy_moderate : Forall moderate (k_mpi toy_key).
Proof. repeat (apply Forall_cons; [unfold moderate; apply N.log2_lt_pow2; reflexivity|]); constructor. Qed.
Example C44_compressed_ex : exists m w, sign_binary plus minus 1 (mkArgs toy_pri [] 4 2) (str "f") (str "hello") 2 5 1234567890 [3] = Ok m /\
  message_raw plus (fst m) = Ok w /\ verify_binary 1 minus toy_pub (m_pgp (fst m)) = Ok 1%Z.
Proof.
  destruct (toy_signed [3]) as (m0 & rest & d & S & N & R & C); [now left|].
  destruct (C44_compressed_partial plus minus minus 0 0 (mkArgs toy_pri [] 4 2) toy_key toy_sec [7] toy_pub (str "f") (str "hello") 2 5 1234567890 [3] m0 rest) as (m & w & E & _ & _ & W & _ & _ & V); auto.
  - exact toy_matching.
  - exact toy_moderate.
  - reflexivity.
  - reflexivity.
  - reflexivity.
  - unfold readable_length. change (len (str "f")) with 1. change (len (str "hello")) with 5. lia.
  - intros d' R'. assert (d' = d) as -> by congruence. exact C.
  - exists (m, rest), w. auto.
Qed.
Example C48_signed_compressed_ex : signed_compresses plus minus minus 1 (toy_comp 3) toy_pri 5 1234567890 [3; 3] /\
  exists w rest, to_encrypt plus minus 1 (toy_comp 3) 5 1234567890 [3; 3] = Ok (Some w, rest).
Proof. split; [apply toy_signed_compresses|]. do 2 eexists. vm_compute. reflexivity. Qed.
Example C47_signed_compressed_ex : exists m m', encrypt_pka plus minus 1 (toy_comp 3) big_pub 5 1234567890 (repeat 7 80) [3; 3] = Ok m /\
  decrypt_pka minus 2 big_pri [] m = Ok m' /\ verify_binary 1 minus toy_pub (m_pgp m') = Ok 1%Z.
Proof.
  destruct big_decrypts as (id & _ & KI & DW).
  assert (CP : cipher_pair (k_pka big_key) [big_d] (k_mpi big_key)).
  { unfold cipher_pair. cbn [big_key k_pka k_mpi N.eqb Pos.eqb]. do 5 eexists. split; [reflexivity|]. split; [reflexivity|]. exact big_rsa. }
  assert (BG : forall n more, k_mpi big_key = n :: more -> N.of_nat (key_octets 3) + 14 <= len (mpitoraw n) < two32 /\
     len (mpitoraw n) + N.of_nat (block_octets 3) <= N.of_nat (nonzero (skipn (key_octets 3) (repeat 7 80)))).
  { intros n more E. cbn [big_key k_mpi] in E. assert (n = big_p * big_q) as -> by congruence. vm_compute. repeat split; discriminate. }
  assert (OR : octets (repeat 7 80)) by (repeat constructor).
  destruct (pka_returns plus minus 1 (toy_comp 3) big_pub big_key id 5 1234567890 (repeat 7 80) [3; 3]) as (m & E & T); auto; try reflexivity.
  { cbn; tauto. } { exact big_encrypts. } { now left. } { now exists [big_d]. } { discriminate. }
  { intros d [->|(x & E)]; [|assert (d = [3]) as -> by congruence]; (do 2 eexists; split; [vm_compute; reflexivity|vm_compute; reflexivity]). }
  exists m.
  destruct (C47_signed_compressed_partial plus minus minus 0 0 (toy_comp 3) big_pub big_pri big_key big_sec id [big_d] [] 5 1234567890 (repeat 7 80) [3; 3] m toy_pri toy_key toy_sec [7] toy_pub)
    as (op & s & m' & D & _ & _ & V); auto; try reflexivity.
  - cbn; tauto.
  - exact big_encrypts.
  - intros n more K. exact (proj1 (BG n more K)).
  - apply toy_signed_compresses.
  - discriminate.
  - exact toy_matching.
  - exact toy_moderate.
  - cbn [toy_comp e_filename e_data]. unfold readable_length. change (len (str "f")) with 1. change (len (str "hello")) with 5. lia.
  - intros Z. rewrite Z in T. discriminate.
  - exists m'. auto.
Qed.
(** C48_armored_partial and C47_armored_partial: Props.C48_whole. *)

Print Assumptions C44_compressed_partial.
Print Assumptions C48_signed_compressed_partial.
Print Assumptions C47_signed_compressed_partial.
Print Assumptions C48_armored_partial.
Print Assumptions C47_armored_partial.
