(** Properties C47, C48, C49, C62, C67: encryption and decryption. *)
From Verif Require Import Proofs.SignP Proofs.MadeP Proofs.CryptP Proofs.MessageIOP Model.Decrypt Spec.Crypt Spec.Sigs Spec.Armor Spec.Grammar
  Props.C10_C12 Props.C14_C15 Props.C21_C22 Props.C32 Props.C33_C35 Props.C41_C43_C60 Props.C44_C46 Props.C44_written Props.C65_C66.
Local Open Scope N_scope.

(** The message a recipient should see: one literal packet, and the compression noted. *)
Definition plain_message (a : enc_args) : message :=
  mkMessage (mkPgp false 1 [] [mkPacket 11 NEW NOT_PARTIAL (PLiteral 98 (e_filename a) 0 (e_data a))])
    (if e_comp a =? 0 then None else Some (NEW, NOT_PARTIAL, e_comp a)).

(** ** C48 *)

(** Unsigned data.  The bodies of the literal and the compressed packet must not have
    8128..8383 octets (C06; refuted below), the file name at most 255, and what was
    compressed must decompress. *)
Theorem C48_literal_partial : forall zip unzip unzip' fuel fuel' a pass kh now now' rnd draws,
  enc_valid a = true -> In (e_sym a) offered -> In kh hashes -> e_signer a = None -> literal_fits zip unzip' a ->
  8 + N.of_nat (block_octets (e_sym a)) <= len rnd ->
  exists m, encrypt_sym zip unzip fuel a pass kh now now' rnd draws = Ok m /\
    map p_tag (g_packets (m_pgp m)) = [3; if e_mdc a then 18 else 9] /\
    decrypt_sym unzip' (2 + fuel') m pass = Ok (plain_message a).
Proof.
  intros zip unzip unzip' fuel fuel' a pass kh now now' rnd draws V I KH NS LF R.
  destruct (plain_back zip unzip fuel a now now' draws unzip' fuel' NS LF) as (w & TE & LW & RW).
  destruct (sym_back zip unzip fuel a pass kh now now' rnd draws unzip' (2 + fuel') w draws V I KH R TE LW) as (m & E & T & D).
  exists m. split; [exact E|]. split; [exact T|]. rewrite D, RW. reflexivity.
Qed.
(** Signed data, uncompressed: the recipient sees the one-pass signed message around the
    data, and verification with the signer's key succeeds. *)
Lemma signed_back zip unzip fuel a pri k sec vals g now now' draws w rest unzip' fuel' :
  e_signer a = Some pri -> e_comp a = 0 -> matching (mkArgs pri (e_pass a) 4 (e_hash a)) k sec vals g -> Forall moderate (k_mpi k) ->
  now < 2 ^ 32 -> now' < 2 ^ 32 -> len (e_filename a) < 256 -> readable_length NEW (6 + len (e_filename a) + len (e_data a)) ->
  to_encrypt zip unzip fuel a now now' draws = Ok (Some w, rest) ->
  exists id s, let ps := [new_packet 4 (POnePass 3 0 (e_hash a) (k_pka k) id 1); new_packet 11 (PLiteral 98 (e_filename a) now (e_data a)); new_packet 2 (PSig s)] in
    len w < 2 ^ 63 /\ message_read_raw unzip' (S fuel') w = Ok (ps, None) /\
    verify_binary (S fuel') unzip' g (mkPgp false 1 [] ps) = Ok 1%Z.
Proof.
  intros S C M MO T T' LF RL E. unfold to_encrypt in E. rewrite S, C in E. apply bind_ok in E as ([m d] & SB & E).
  apply bind_ok in E as (ok & MM & E). destruct ok; [|discriminate]. apply bind_ok in E as (w' & W & E). apply Ok_inj in E. injection E as <- <-.
  assert (NE : g_packets (m_pgp m) <> []).
  { intros Z. unfold message_meaningful in MM. rewrite Z in MM. cbn in MM. destruct (g_type (m_pgp m)) as [|p]; try discriminate. destruct p; discriminate. }
  destruct (C44_binary_written_partial zip unzip unzip' fuel fuel' _ k sec vals g _ _ _ _ _ _ _ M MO T T' LF RL SB NE) as (w2 & W2 & L2 & R2 & V2).
  destruct (binary_shape _ _ _ _ _ _ _ _ _ _ _ _ _ _ _ M MO T T' LF RL SB NE) as (id & s & -> & _).
  assert (w2 = w') as -> by congruence. exists id, s. cbv zeta. cbn [m_pgp g_packets] in *. split; [exact L2|]. split; [exact R2|].
  cbn [verify_binary g_type g_packets] in V2 |- *. exact V2.
Qed.
Theorem C48_signed_partial : forall zip unzip unzip' fuel fuel' a pass kh pri k sec vals g now now' rnd draws w rest,
  enc_valid a = true -> In (e_sym a) offered -> In kh hashes -> 8 + N.of_nat (block_octets (e_sym a)) <= len rnd ->
  e_signer a = Some pri -> e_comp a = 0 -> matching (mkArgs pri (e_pass a) 4 (e_hash a)) k sec vals g -> Forall moderate (k_mpi k) ->
  now < 2 ^ 32 -> now' < 2 ^ 32 -> len (e_filename a) < 256 -> readable_length NEW (6 + len (e_filename a) + len (e_data a)) ->
  to_encrypt zip unzip fuel a now now' draws = Ok (Some w, rest) ->
  exists m one_pass s m', encrypt_sym zip unzip fuel a pass kh now now' rnd draws = Ok m /\
    decrypt_sym unzip' (S fuel') m pass = Ok m' /\
    g_packets (m_pgp m') = [one_pass; mkPacket 11 NEW NOT_PARTIAL (PLiteral 98 (e_filename a) now (e_data a)); mkPacket 2 NEW NOT_PARTIAL (PSig s)] /\
    verify_binary (S fuel') unzip' g (m_pgp m') = Ok 1%Z.
Proof.
  intros zip unzip unzip' fuel fuel' a pass kh pri k sec vals g now now' rnd draws w rest V I KH R S C M MO T T' LF RL TE.
  destruct (signed_back _ _ _ _ _ _ _ _ _ _ _ _ _ _ unzip' fuel' S C M MO T T' LF RL TE) as (id & s & L & RR & VB).
  destruct (sym_back zip unzip fuel a pass kh now now' rnd draws unzip' (1 + fuel') w rest V I KH R TE L) as (m & E & _ & D). change (1 + fuel')%nat with (Datatypes.S fuel') in D.
  exists m. do 3 eexists. split; [exact E|]. split; [rewrite D, RR; reflexivity|]. split; [reflexivity|exact VB].
Qed.
(** Through octets: the encrypted message that is written and read decrypts like the one
    that was made. *)
Lemma data_shape zip unzip fuel a key now now' rnd draws p : encrypt_data zip unzip fuel a key now now' rnd draws = Ok (Some p) ->
  exists y, p = if e_mdc a then new_packet 18 (PProtected 1 y) else new_packet 9 (PRaw y).
Proof.
  intros ED. unfold encrypt_data in ED. destruct (enc_valid a); [|discriminate]. cbn [negb] in ED. apply bind_ok in ED as ([ow ?] & _ & ED). destruct ow as [w|]; [|discriminate].
  apply bind_ok in ED as (bits & _ & ED). apply bind_ok in ED as ([pre ?] & _ & ED). apply bind_ok in ED as (rep & _ & ED). cbv zeta in ED.
  destruct (e_mdc a); cbn [negb] in ED.
  - apply bind_ok in ED as (h & _ & ED). apply bind_ok in ED as (mdc & _ & ED). apply bind_ok in ED as (c & _ & ED). apply Ok_inj in ED. injection ED as <-. now exists c.
  - apply bind_ok in ED as (c & _ & ED). apply Ok_inj in ED. injection ED as <-. now exists c.
Qed.
Lemma sym_shape zip unzip fuel a pass kh now now' rnd draws m :
  encrypt_sym zip unzip fuel a pass kh now now' rnd draws = Ok m -> g_packets (m_pgp m) <> [] ->
  exists x y, s2k_fits x /\ m_comp m = None /\ g_type (m_pgp m) = 1 /\
    g_packets (m_pgp m) = [new_packet 3 (PSymSession 4 (e_sym a) (Some x) None); if e_mdc a then new_packet 18 (PProtected 1 y) else new_packet 9 (PRaw y)].
Proof.
  intros E NE. unfold encrypt_sym in E. destruct (enc_valid a) eqn:V; [|apply Ok_inj in E; subst m; contradiction NE; reflexivity]. cbn [negb] in E.
  apply bind_ok in E as ([salt r] & RB & E). cbv zeta in E. apply bind_ok in E as (key & _ & E). apply bind_ok in E as (session & _ & E).
  apply bind_ok in E as (o & ED & E). destruct o as [p|]; [|apply Ok_inj in E; subst m; contradiction NE; reflexivity]. apply Ok_inj in E. subst m.
  apply data_shape in ED as (y & ->). exists (mkS2k S2K3 3 kh salt 96), y.
  assert (LS : len salt = 8) by (unfold rand_bytes in RB; destruct (len rnd <? 8) eqn:L in RB; [discriminate|]; apply Ok_inj in RB; apply (f_equal fst) in RB; cbn [fst] in RB; rewrite <- RB, len_firstn; lia).
  split; [split; [reflexivity|split; [exact LS|reflexivity]]|]. split; [reflexivity|]. split; reflexivity.
Qed.
Lemma encrypted_sequence first y mdc off : (forall ps, (forall n, sequence n ps) -> sequence off (first :: ps)) ->
  (forall p body, In p [first; if mdc : bool then new_packet 18 (PProtected 1 y) else new_packet 9 (PRaw y)] -> raw (p_body p) = Ok body -> readable_length NEW (len body)) ->
  sequence off [first; if mdc then new_packet 18 (PProtected 1 y) else new_packet 9 (PRaw y)].
Proof.
  intros F RL. apply F. intros n. destruct mdc; (eapply sequence_new; [reflexivity|reflexivity|eapply RL; [right; now left|reflexivity]| |intros; exact I|intros; exact I]); cbn [fits]; [reflexivity|].
  split; [now left|discriminate].
Qed.
Lemma encrypted_grammar t mdc : t = 1 \/ t = 3 -> openpgp_message [t; if mdc : bool then 18 else 9].
Proof.
  intros T. apply om_encrypted. apply (em_esks [t] [if mdc then 18 else 9]); [apply esks_one; destruct T as [-> | ->]; constructor|destruct mdc; constructor].
Qed.
Theorem C48_written_partial : forall zip unzip fuel a pass kh now now' rnd draws m w unzip' fuel',
  encrypt_sym zip unzip fuel a pass kh now now' rnd draws = Ok m -> g_packets (m_pgp m) <> [] ->
  (forall p body, In p (g_packets (m_pgp m)) -> raw (p_body p) = Ok body -> readable_length NEW (len body)) ->
  message_write zip m ArmorNo = Ok w -> len w < 2 ^ 63 -> ~ line_begins armor_begin w ->
  exists m', message_read unzip' fuel' w = Ok m' /\ g_packets (m_pgp m') = g_packets (m_pgp m) /\
    forall unzip2 fuel2 pass2, decrypt_sym unzip2 fuel2 m' pass2 = decrypt_sym unzip2 fuel2 m pass2.
Proof.
  intros zip unzip fuel a pass kh now now' rnd draws m w unzip' fuel' E NE RL W LW NB.
  destruct (sym_shape _ _ _ _ _ _ _ _ _ _ _ E NE) as (x & y & SF & MC & GT & GP).
  assert (SQ : sequence 0 (g_packets (m_pgp m))).
  { rewrite GP in *. apply encrypted_sequence; [|exact RL]. intros ps Hps.
    eapply sequence_new; [reflexivity|reflexivity|eapply RL; [now left|reflexivity]| |intros; exact I|exact Hps].
    cbn [fits]. split; [reflexivity|]. split; [eauto|discriminate]. }
  assert (TG : map p_tag (g_packets (m_pgp m)) = [3; if e_mdc a then 18 else 9]) by (rewrite GP; destruct (e_mdc a); reflexivity).
  eexists. split.
  { apply (C66_plain_partial zip unzip' fuel' m w MC SQ); auto; rewrite TG; [apply encrypted_grammar; auto|destruct (e_mdc a); discriminate]. }
  split; [reflexivity|]. intros. unfold decrypt_sym, decrypt_data, message_meaningful. cbn [m_pgp g_packets g_type]. rewrite GT. reflexivity.
Qed.
(** Not so for a literal packet whose body has 8128 to 8383 octets (without compression):
    the message is made, and decrypting it never gives the data back. *)
Theorem C48_length_refuted : forall zip unzip unzip' fuel fuel' a pass kh now now' rnd draws,
  enc_valid a = true -> In (e_sym a) offered -> In kh hashes -> e_signer a = None -> e_comp a = 0 -> len (e_filename a) < 256 ->
  8128 <= 6 + len (e_filename a) + len (e_data a) <= 8383 -> 8 + N.of_nat (block_octets (e_sym a)) <= len rnd ->
  exists m, encrypt_sym zip unzip fuel a pass kh now now' rnd draws = Ok m /\
    map p_tag (g_packets (m_pgp m)) = [3; if e_mdc a then 18 else 9] /\
    decrypt_sym unzip' fuel' m pass <> Ok (plain_message a).
Proof.
  intros zip unzip unzip' fuel fuel' a pass kh now now' rnd draws V I KH NS C LF RL R.
  destruct (literal_body a LF) as (body & RB & LB). destruct (new_written 11 _ _ RB) as (w & W & LW). change (new_packet 11 (p_body (literal_of a))) with (literal_of a) in W.
  assert (TE : to_encrypt zip unzip fuel a now now' draws = Ok (Some w, draws)) by (unfold to_encrypt; rewrite NS, C; fold (literal_of a); rewrite W; reflexivity).
  destruct (sym_back zip unzip fuel a pass kh now now' rnd draws unzip' fuel' w draws V I KH R TE ltac:(lia)) as (m & E & T & D).
  exists m. split; [exact E|]. split; [exact T|]. rewrite D. intros X. apply bind_ok in X as ([ps c] & RR & X). apply Ok_inj in X.
  unfold plain_message in X. rewrite C in X. cbn [N.eqb] in X. injection X as -> ->.
  assert (RW : read_raw w <> Ok [literal_of a]).
  { apply (C10_length_223_refuted (literal_of a) body []); try reflexivity; [exact RB|lia|]. cbn [write_packets]. rewrite W. cbn [bind]. now rewrite app_nil_r. }
  destruct fuel' as [|f]; [discriminate|]. cbn [message_read_raw] in RR. apply bind_ok in RR as (qs & RQ & RR). apply bind_ok in RR as (mm & _ & RR).
  destruct mm; [|discriminate]. unfold decompressed in RR.
  assert (NO : forall z, RR = RR -> qs = z -> z <> [literal_of a]) by (intros z _ <- ->; contradiction).
  specialize (NO qs eq_refl eq_refl). destruct qs as [|q [|q2 qs]]; try (apply Ok_inj in RR; injection RR as ->; contradiction).
  - discriminate.
  - destruct (p_tag q =? 8); [|apply Ok_inj in RR; injection RR as ->; contradiction].
    apply bind_ok in RR as ([? ?] & _ & RR). apply bind_ok in RR as (inner & _ & RR). apply bind_ok in RR as ([ps2 c2] & _ & RR). apply Ok_inj in RR. destruct c2; discriminate.
  - apply Ok_inj in RR. discriminate.
Qed.

(** ** C47 *)
Lemma filter_len {A} (f : A -> bool) l : (length (filter f l) <= length l)%nat.
Proof. induction l as [|x l IH]; cbn; [lia|]. destruct (f x); cbn; lia. Qed.
Lemma pka_returns zip unzip fuel a pub k id now now' rnd draws :
  enc_valid a = true -> In (e_sym a) offered -> meaningful pub = Ok true -> revoke_check pub = Ok 0%Z -> encrypts_with pub k -> get_keyid k = Ok id ->
  encrypting (k_pka k) -> (exists vals, cipher_pair (k_pka k) vals (k_mpi k)) ->
  (forall n more, k_mpi k = n :: more -> N.of_nat (key_octets (e_sym a)) + 14 <= len (mpitoraw n) < two32 /\
     len (mpitoraw n) + N.of_nat (block_octets (e_sym a)) <= N.of_nat (nonzero (skipn (key_octets (e_sym a)) rnd))) ->
  octets rnd -> draws <> [] ->
  (forall d, d = draws \/ (exists x, draws = x :: d) -> exists w rest, to_encrypt zip unzip fuel a now now' d = Ok (Some w, rest) /\ len w < 2 ^ 63) ->
  exists m, encrypt_pka zip unzip fuel a pub now now' rnd draws = Ok m /\ map p_tag (g_packets (m_pgp m)) = [1; if e_mdc a then 18 else 9].
Proof.
  intros V I M RC EW KI EC (vals & CP) BIG OR ND TE. destruct (offered_tables _ I) as (TB & TK & _ & N0 & BS & KS).
  assert (NM : exists n more, k_mpi k = n :: more).
  { unfold cipher_pair in CP. destruct (k_pka k =? 16); [destruct CP as (? & ? & ? & ? & ? & ? & CP & _)|destruct CP as (? & ? & ? & ? & ? & CP & _)]; rewrite CP; eauto. }
  destruct NM as (n & more & KM). destruct (BIG n more KM) as [BG RN]. clear BIG.
  unfold encrypt_pka. rewrite V, M. cbn [negb bind]. rewrite RC. cbn [bind]. change (negb (0 =? 0)%Z) with false. cbv iota.
  rewrite (encrypts_found _ _ None EW). cbn [bind]. rewrite KI. cbn [bind]. rewrite TK. cbn [bind]. rewrite shiftr_8.
  assert (LR : N.of_nat (key_octets (e_sym a)) <= len rnd).
  { destruct (N.le_gt_cases (N.of_nat (key_octets (e_sym a))) (len rnd)) as [X|X]; [exact X|]. rewrite skipn_all2 in RN by (unfold len in X; lia). cbn in RN. lia. }
  destruct (rand_bytes_ok _ rnd LR) as (session & r1 & RS & ER & LS). rewrite RS. cbn [bind]. replace (vec_at (k_mpi k) 0) with (@Ok N n) by (rewrite KM; reflexivity). cbn [bind].
  assert (R1 : r1 = skipn (key_octets (e_sym a)) rnd).
  { rewrite ER, skipn_app. replace (key_octets (e_sym a) - length session)%nat with 0%nat by (unfold len in LS; lia). rewrite skipn_all2 by (unfold len in LS; lia). reflexivity. }
  rewrite <- R1 in RN. rewrite ER in OR. apply octets_app in OR as [OS O1].
  set (msg := e_sym a :: session ++ sum16 session) in *.
  assert (LM : len msg = 3 + N.of_nat (key_octets (e_sym a))) by (unfold msg; rewrite len_cons, len_app, sum16_len; lia).
  assert (OM : octets msg).
  { constructor; [|apply octets_app; split; [exact OS|apply be_octets]]. clear -I. cbn [offered In] in I. unfold octet. lia. }
  destruct (C21_roundtrip r1 msg (len (mpitoraw n)) ltac:(lia) ltac:(lia)) as [RT EX]. destruct EX as (em & r2 & EM); [lia|].
  rewrite EM. cbn [bind]. destruct (RT em r2 EM) as (DEC & LE & ps & EQ & NZ & LPS).
  assert (L2 : N.of_nat (block_octets (e_sym a)) <= len r2).
  { unfold eme_encode in EM. destruct (_ <? _) in EM; [apply Ok_inj in EM; injection EM as <- <-; discriminate EQ|]. apply bind_ok in EM as ([E2 r'] & EP & EM).
    apply Ok_inj in EM. injection EM as Q <-.
    assert (SZ : len [0; 2] <= sub64 (sub64 (len (mpitoraw n)) (len msg)) 1).
    { assert (two32 < two64) by reflexivity. rewrite (sub64_small (len (mpitoraw n))) by lia. rewrite sub64_small by lia. change (len [0; 2]) with 2. lia. }
    destruct (eme_pad_ok _ _ _ _ _ EP SZ) as (qs & -> & LQ & _ & used & -> & FQ).
    assert (TT : two32 < two64) by reflexivity. rewrite (sub64_small (len (mpitoraw n))) in LQ by lia. rewrite sub64_small in LQ by lia. rewrite len_app in LQ. change (len [0; 2]) with 2 in LQ.
    assert (U : nonzero used = length qs) by (unfold nonzero; now rewrite FQ).
    unfold nonzero in RN, U. rewrite filter_app, app_length, U in RN. assert (G : (length (filter (fun c : N => negb (c =? 0)%N) r') <= length r')%nat) by apply filter_len.
    unfold len in *. lia. }
  rewrite EQ. cbn [rawtompi bind].
  assert (MP : exists mpi d', (if (k_pka k =? 1) || (k_pka k =? 2) then c <- rsa_encrypt (be_val (0 :: 2 :: ps ++ 0 :: msg)) (k_mpi k) ;; Ok ([c], draws)
             else if k_pka k =? 16 then elgamal_encrypt (be_val (0 :: 2 :: ps ++ 0 :: msg)) (k_mpi k) draws else Ok ([], draws)) = Ok (mpi, d') /\ (d' = draws \/ exists x, draws = x :: d')).
  { destruct (eme_octets _ _ _ _ _ O1 OM EM) as [OE _]. rewrite EQ in OE. assert (OT : octets (2 :: ps ++ 0 :: msg)) by (now apply Forall_cons_iff in OE as [_ OE]).
    destruct (block_below n (2 :: ps ++ 0 :: msg) OT ltac:(rewrite <- EQ; exact LE) ltac:(discriminate)) as [LT _].
    unfold cipher_pair in CP. destruct (k_pka k =? 16) eqn:P16.
    - apply N.eqb_eq in P16. rewrite P16. cbn [N.eqb Pos.eqb orb]. destruct CP as (p & g & y & x & more1 & more2 & K1 & -> & EK).
      rewrite K1 in *. injection KM as <- <-. destruct draws as [|d0 draws]; [congruence|].
      destruct (C42_decrypt p g y x more1 more2 _ d0 draws EK LT) as (c & E1 & _). rewrite E1. do 2 eexists. split; [reflexivity|]. right. eauto.
    - assert (P12 : (k_pka k =? 1) || (k_pka k =? 2) = true) by (unfold encrypting in EC; cbn [In] in EC; lia). rewrite P12.
      destruct CP as (n' & e & d & more1 & more2 & K1 & -> & RK). rewrite K1 in *. injection KM as <- <-.
      destruct (C41_decrypt n' e d more1 more2 _ RK LT) as (c & E1 & _). rewrite E1. cbn [bind]. do 2 eexists. split; [reflexivity|]. now left. }
  destruct MP as (mpi & d' & MP & DD). rewrite MP. cbn [bind]. destruct (TE d' DD) as (w & rest & TE' & LW).
  destruct (data_back zip unzip fuel unzip fuel a session now now' r2 d' w rest V TE' I OS ltac:(unfold len in LS; lia) L2 LW) as (tag & y & T & E & _).
  rewrite E. cbn [bind]. eexists. split; [reflexivity|]. subst tag. reflexivity.
Qed.
(** Unsigned data, encrypted to the first encrypting key of [pub] and decrypted with the
    secret key packet of [pri] that has the same key ID; the modulus has at least 14 octets
    more than the session key, and the random octets suffice. *)
Theorem C47_literal_partial : forall zip unzip unzip' fuel fuel' a pub pri k sec id vals pass now now' rnd draws,
  enc_valid a = true -> In (e_sym a) offered -> e_signer a = None -> literal_fits zip unzip' a ->
  meaningful pub = Ok true -> revoke_check pub = Ok 0%Z -> encrypts_with pub k ->
  secret_meaningful pri = Ok true -> decrypts_with pri id k sec -> decrypt_secret_keys sec pass = Ok vals -> cipher_pair (k_pka k) vals (k_mpi k) ->
  (forall n more, k_mpi k = n :: more -> N.of_nat (key_octets (e_sym a)) + 14 <= len (mpitoraw n) < two32 /\
     len (mpitoraw n) + N.of_nat (block_octets (e_sym a)) <= N.of_nat (nonzero (skipn (key_octets (e_sym a)) rnd))) ->
  octets rnd -> draws <> [] ->
  exists m, encrypt_pka zip unzip fuel a pub now now' rnd draws = Ok m /\
    map p_tag (g_packets (m_pgp m)) = [1; if e_mdc a then 18 else 9] /\
    decrypt_pka unzip' (2 + fuel') pri pass m = Ok (plain_message a).
Proof.
  intros zip unzip unzip' fuel fuel' a pub pri k sec id vals pass now now' rnd draws V I NS LF M RC EW SM DW DS CP BIG OR ND.
  destruct (plain_back zip unzip fuel a now now' draws unzip' fuel' NS LF) as (w & TE & LW & RW).
  assert (TE' : forall d, to_encrypt zip unzip fuel a now now' d = Ok (Some w, d)).
  { intros d. destruct (plain_back zip unzip fuel a now now' d unzip' fuel' NS LF) as (w2 & TE2 & _). rewrite TE2. f_equal. f_equal. f_equal.
    clear -TE TE2 NS. unfold to_encrypt in *. rewrite NS in *. apply bind_ok in TE as (x & X & TE). apply bind_ok in TE2 as (x2 & X2 & TE2).
    assert (x2 = x) as -> by congruence. destruct (e_comp a =? 0); [apply Ok_inj in TE, TE2; congruence|].
    apply bind_ok in TE as (z & Z & TE). apply bind_ok in TE2 as (z2 & Z2 & TE2). apply Ok_inj in TE, TE2. congruence. }
  assert (KI : get_keyid k = Ok id) by (destruct DW as (? & ? & ? & _ & _ & _ & KI & _); exact KI).
  assert (EC : encrypting (k_pka k)) by (destruct DW as (? & ? & ? & _ & _ & _ & _ & EC & _); exact EC).
  destruct (pka_returns zip unzip fuel a pub k id now now' rnd draws V I M RC EW KI EC (ex_intro _ vals CP) BIG OR ND) as (m & E & T); [intros d _; exists w, d; auto|].
  exists m. split; [exact E|]. split; [exact T|].
  destruct (pka_back zip unzip fuel a pub pri k sec id vals pass now now' rnd draws unzip' (2 + fuel') m V I M RC EW SM DW DS CP) as (w2 & d2 & r2 & _ & TE2 & D); auto.
  { intros n more KM. now apply BIG in KM. } { intros Z. rewrite Z in T. discriminate. }
  rewrite TE' in TE2. apply Ok_inj in TE2. injection TE2 as <- <-. rewrite (D LW), RW. reflexivity.
Qed.
(** Signed data, uncompressed: whenever a message is returned. *)
Theorem C47_signed_partial : forall zip unzip unzip' fuel fuel' a pub pri k sec id vals pass now now' rnd draws m spri sk ssec svals g,
  enc_valid a = true -> In (e_sym a) offered ->
  meaningful pub = Ok true -> revoke_check pub = Ok 0%Z -> encrypts_with pub k ->
  secret_meaningful pri = Ok true -> decrypts_with pri id k sec -> decrypt_secret_keys sec pass = Ok vals -> cipher_pair (k_pka k) vals (k_mpi k) ->
  (forall n more, k_mpi k = n :: more -> N.of_nat (key_octets (e_sym a)) + 14 <= len (mpitoraw n) < two32) -> octets rnd ->
  e_signer a = Some spri -> e_comp a = 0 -> matching (mkArgs spri (e_pass a) 4 (e_hash a)) sk ssec svals g -> Forall moderate (k_mpi sk) ->
  now < 2 ^ 32 -> now' < 2 ^ 32 -> len (e_filename a) < 256 -> readable_length NEW (6 + len (e_filename a) + len (e_data a)) ->
  encrypt_pka zip unzip fuel a pub now now' rnd draws = Ok m -> g_packets (m_pgp m) <> [] ->
  exists one_pass s m', decrypt_pka unzip' (S fuel') pri pass m = Ok m' /\
    g_packets (m_pgp m') = [one_pass; mkPacket 11 NEW NOT_PARTIAL (PLiteral 98 (e_filename a) now (e_data a)); mkPacket 2 NEW NOT_PARTIAL (PSig s)] /\
    verify_binary (S fuel') unzip' g (m_pgp m') = Ok 1%Z.
Proof.
  intros zip unzip unzip' fuel fuel' a pub pri k sec id vals pass now now' rnd draws m spri sk ssec svals g V I M RC EW SM DW DS CP BIG OR S C MA MO T T' LF RL E NE.
  destruct (pka_back zip unzip fuel a pub pri k sec id vals pass now now' rnd draws unzip' (1 + fuel') m V I M RC EW SM DW DS CP BIG OR E NE) as (w & d & r & _ & TE & D).
  destruct (signed_back _ _ _ _ _ _ _ _ _ _ _ _ _ _ unzip' fuel' S C MA MO T T' LF RL TE) as (i & s & L & RR & VB).
  specialize (D L). change (1 + fuel')%nat with (Datatypes.S fuel') in D. rewrite RR in D. cbn [bind] in D.
  do 3 eexists. split; [exact D|]. split; [reflexivity|exact VB].
Qed.
(** Through octets. *)
Lemma pka_shape zip unzip fuel a pub k id now now' rnd draws m : enc_valid a = true -> meaningful pub = Ok true -> revoke_check pub = Ok 0%Z ->
  encrypts_with pub k -> get_keyid k = Ok id ->
  encrypt_pka zip unzip fuel a pub now now' rnd draws = Ok m -> g_packets (m_pgp m) <> [] ->
  exists mpi y, m_comp m = None /\ g_type (m_pgp m) = 1 /\
    g_packets (m_pgp m) = [new_packet 1 (PSession 3 id (k_pka k) mpi); if e_mdc a then new_packet 18 (PProtected 1 y) else new_packet 9 (PRaw y)].
Proof.
  intros V M RC EW KI E NE. unfold encrypt_pka in E. rewrite V, M in E. cbn [negb bind] in E. rewrite RC in E. cbn [bind] in E. change (negb (0 =? 0)%Z) with false in E. cbv iota in E.
  rewrite (encrypts_found _ _ None EW) in E. cbn [bind] in E. rewrite KI in E. cbn [bind] in E. apply bind_ok in E as (bits & _ & E).
  apply bind_ok in E as ([session r1] & _ & E). apply bind_ok in E as (n & _ & E). apply bind_ok in E as ([em r2] & _ & E). apply bind_ok in E as (x & _ & E).
  apply bind_ok in E as ([mpi d'] & _ & E). apply bind_ok in E as (o & ED & E). destruct o as [p|]; [|apply Ok_inj in E; subst m; contradiction NE; reflexivity].
  apply Ok_inj in E. subst m. apply data_shape in ED as (y & ->). exists mpi, y. repeat split.
Qed.
Theorem C47_written_partial : forall zip unzip fuel a pub k id now now' rnd draws m w unzip' fuel',
  enc_valid a = true -> meaningful pub = Ok true -> revoke_check pub = Ok 0%Z -> encrypts_with pub k -> get_keyid k = Ok id -> len id = 8 ->
  encrypt_pka zip unzip fuel a pub now now' rnd draws = Ok m -> g_packets (m_pgp m) <> [] ->
  (forall p body, In p (g_packets (m_pgp m)) -> raw (p_body p) = Ok body -> readable_length NEW (len body)) ->
  (forall p v i pka mpi, In p (g_packets (m_pgp m)) -> p_body p = PSession v i pka mpi ->
     Forall mpi_fits mpi /\ (mpi = [] \/ 6 + before_last write_MPI mpi < octets_of write_MPI mpi)) ->
  message_write zip m ArmorNo = Ok w -> len w < 2 ^ 63 -> ~ line_begins armor_begin w ->
  exists m', message_read unzip' fuel' w = Ok m' /\ g_packets (m_pgp m') = g_packets (m_pgp m) /\
    forall unzip2 fuel2 pri pass, decrypt_pka unzip2 fuel2 pri pass m' = decrypt_pka unzip2 fuel2 pri pass m.
Proof.
  intros zip unzip fuel a pub k id now now' rnd draws m w unzip' fuel' V M RC EW KI LI E NE RL MP W LW NB.
  destruct (pka_shape _ _ _ _ _ _ _ _ _ _ _ _ V M RC EW KI E NE) as (mpi & y & MC & GT & GP).
  assert (SQ : sequence 0 (g_packets (m_pgp m))).
  { rewrite GP in *. apply encrypted_sequence; [|exact RL]. intros ps Hps.
    destruct (MP _ _ _ _ _ (or_introl eq_refl) eq_refl) as [MF PL].
    assert (RB := RL _ _ (or_introl eq_refl) eq_refl).
    eapply sequence_new; [reflexivity|reflexivity|exact RB| | |exact Hps].
    - cbn [fits]. auto.
    - intros h LH. cbn [placed]. destruct PL as [->|PL]; [now left|right; lia]. }
  assert (TG : map p_tag (g_packets (m_pgp m)) = [1; if e_mdc a then 18 else 9]) by (rewrite GP; destruct (e_mdc a); reflexivity).
  eexists. split.
  { apply (C66_plain_partial zip unzip' fuel' m w MC SQ); auto; rewrite TG; [apply encrypted_grammar; auto|destruct (e_mdc a); discriminate]. }
  split; [reflexivity|]. intros. unfold decrypt_pka, decrypt_data, message_meaningful. cbn [m_pgp g_packets g_type]. rewrite GT. reflexivity.
Qed.

(** ** C49 *)

(** The encrypted packet of [m] is integrity-protected and holds [y]. *)
Definition protected (m : message) (y : bytes) : Prop :=
  exists before p after v, g_packets (m_pgp m) = before ++ p :: after /\ p_tag p = 18 /\ p_body p = PProtected v y /\
    Forall (fun q => p_tag q <> 9 /\ p_tag q <> 18) before.
(** Decryption of [y] ends in the SHA-1 hash of all that comes before it. *)
Definition hash_checked (sym : N) (y key : bytes) : Prop :=
  exists x h, use_ocfb_decrypt sym 18 y key = Ok (x ++ h) /\ len h = 20 /\ hash_use 2 x = Ok h.

Lemma protected_found m y : protected m y -> exists p v, p_tag p = 18 /\ p_body p = PProtected v y /\
  find (fun p => (p_tag p =? 9) || (p_tag p =? 18)) (g_packets (m_pgp m)) = Some p.
Proof.
  intros (before & p & after & v & -> & T & B & F). exists p, v. split; [exact T|]. split; [exact B|].
  induction F as [|q before [Q1 Q2] F IH]; cbn [app find]; [rewrite T; reflexivity|].
  replace ((p_tag q =? 9) || (p_tag q =? 18)) with false by lia. exact IH.
Qed.
Lemma data_checked unzip fuel sym m key r y : protected m y ->
  (forall plain, use_ocfb_decrypt sym 18 y key = Ok plain -> len plain < two64) ->
  decrypt_data unzip fuel sym m key = Ok r -> g_packets (m_pgp r) <> [] -> hash_checked sym y key.
Proof.
  intros P MEM E NE. destruct (protected_found _ _ P) as (p & v & T & B & F). unfold decrypt_data in E. apply bind_ok in E as (ok & _ & E).
  destruct ok; [|apply Ok_inj in E; subst r; contradiction NE; reflexivity]. cbn [negb] in E. rewrite F, T in E. change (18 =? 9) with false in E. cbv iota in E.
  unfold as_protected in E. rewrite B in E. cbn [bind] in E.
  destruct (protected_inv _ _ _ _ _ _ MEM E NE) as (bits & plain & h & x & _ & D & -> & L & H & _). exists x, h. auto.
Qed.
(** Whenever decryption of an integrity-protected message gives contents, some key was
    used for which the hash is right.  (No string has 2^64 octets.) *)
Theorem C49_sym_partial : forall unzip fuel m pass r y, protected m y ->
  (forall sym key plain, use_ocfb_decrypt sym 18 y key = Ok plain -> len plain < two64) ->
  decrypt_sym unzip fuel m pass = Ok r -> g_packets (m_pgp r) <> [] ->
  exists sym key, decrypt_data unzip fuel sym m key = Ok r /\ hash_checked sym y key.
Proof.
  intros unzip fuel m pass r y P MEM E NE. unfold decrypt_sym in E. apply bind_ok in E as (ok & _ & E).
  destruct ok; [|apply Ok_inj in E; subst r; contradiction NE; reflexivity]. cbn [negb] in E.
  destruct (find _ _) as [p|]; [|apply Ok_inj in E; subst r; contradiction NE; reflexivity].
  apply bind_ok in E as ([[sym s] esk] & _ & E). apply bind_ok in E as (sk & _ & E). apply bind_ok in E as (alg & _ & E). apply bind_ok in E as (key & _ & E).
  exists alg, key. split; [exact E|]. eapply data_checked; eauto.
Qed.
Theorem C49_pka_partial : forall unzip fuel pri pass m r y, protected m y ->
  (forall sym key plain, use_ocfb_decrypt sym 18 y key = Ok plain -> len plain < two64) ->
  decrypt_pka unzip fuel pri pass m = Ok r -> g_packets (m_pgp r) <> [] ->
  exists sym key, decrypt_data unzip fuel sym m key = Ok r /\ hash_checked sym y key.
Proof.
  intros unzip fuel pri pass m r y P MEM E NE. unfold decrypt_pka in E. apply bind_ok in E as (ok & _ & E).
  destruct ok; [|apply Ok_inj in E; subst r; contradiction NE; reflexivity]. cbn [negb] in E. apply bind_ok in E as (ok & _ & E).
  destruct ok; [|apply Ok_inj in E; subst r; contradiction NE; reflexivity]. cbn [negb] in E.
  destruct (find _ _) as [p|]; [|apply Ok_inj in E; subst r; contradiction NE; reflexivity].
  apply bind_ok in E as ([[id pka] mpi] & _ & E). destruct (can_encrypt pka); [|apply Ok_inj in E; subst r; contradiction NE; reflexivity]. cbn [negb] in E.
  apply bind_ok in E as (o & _ & E). destruct o as [[k sec]|]; [|apply Ok_inj in E; subst r; contradiction NE; reflexivity].
  apply bind_ok in E as (vals & _ & E). destruct vals as [|v0 vals]; [apply Ok_inj in E; subst r; contradiction NE; reflexivity|].
  apply bind_ok in E as (b & _ & E). apply bind_ok in E as (sk & _ & E). destruct (len sk =? 0); [apply Ok_inj in E; subst r; contradiction NE; reflexivity|].
  apply bind_ok in E as (o & _ & E). destruct o as [[sym key]|]; [|apply Ok_inj in E; subst r; contradiction NE; reflexivity].
  exists sym, key. split; [exact E|]. eapply data_checked; eauto.
Qed.
(** The two octets before the hash are not looked at: contents come out with any others. *)
Theorem C49_marker_refuted : forall unzip fuel sym key pre w t ps c, In sym offered -> octets key -> length key = key_octets sym ->
  length pre = block_octets sym -> len w < 2 ^ 63 -> len t = 2 -> message_read_raw unzip fuel w = Ok (ps, c) ->
  exists m y h, protected m y /\ use_ocfb_decrypt sym 18 y key = Ok ((pre ++ last_two pre ++ w ++ t) ++ h) /\ len h = 20 /\
    decrypt_data unzip fuel sym m key = Ok (mkMessage (mkPgp false 1 [] ps) c).
Proof.
  intros unzip fuel sym key pre w t ps c I O L LP LW LT R.
  destruct (hash_use_ok 2 (pre ++ last_two pre ++ w ++ t) ltac:(cbn; auto)) as (h & H).
  destruct (protected_back unzip fuel sym key pre w t h I O L LP LW LT H) as (y & _ & D & DD).
  exists (mkMessage (mkPgp true 1 [] [new_packet 18 (PProtected 1 y)]) None), y, h.
  split; [exists [], (new_packet 18 (PProtected 1 y)), [], 1; repeat split; constructor|]. split; [exact D|]. split; [exact (hash_use_len _ _ _ _ H eq_refl)|].
  unfold decrypt_data. cbn [m_pgp]. change (message_meaningful false (mkPgp true 1 [] [new_packet 18 (PProtected 1 y)])) with (@Ok bool true).
  cbn [bind negb g_packets find p_tag new_packet N.eqb Pos.eqb orb as_protected p_body]. rewrite DD, R. reflexivity.
Qed.

(** ** C62 *)
Lemma sum16_spec d : sum16 d = be 2 (fold_right N.add 0 d mod 65536).
Proof.
  unfold sum16. f_equal. assert (G : forall l a, fold_left (fun a c => u16 (a + c)) l a mod 65536 = (a + fold_right N.add 0 l) mod 65536).
  { induction l as [|x l IH]; intros a; cbn [fold_left fold_right]; [now rewrite N.add_0_r|]. rewrite IH. unfold u16.
    rewrite N.add_mod_idemp_l by discriminate. f_equal. lia. }
  assert (B : forall l a, a < 65536 -> fold_left (fun a c => u16 (a + c)) l a < 65536).
  { induction l as [|x l IH]; intros a A; cbn [fold_left]; [exact A|]. apply IH. unfold u16. now apply N.mod_lt. }
  specialize (G d 0). rewrite N.add_0_l in G. rewrite <- G. symmetry. apply N.mod_small. now apply B.
Qed.
(** (No string has 2^64 octets.)  Contents come out of a message to a public key only through a session key that was
    sent with its own checksum: algorithm, key, sum of the key's octets modulo 65536. *)
Theorem C62_checked : forall unzip fuel pri pass m r,
  decrypt_pka unzip fuel pri pass m = Ok r -> g_packets (m_pgp r) <> [] ->
  exists p version id pka mpi k sec vals block sent sym key,
    In p (g_packets (m_pgp m)) /\ p_body p = PSession version id pka mpi /\
    find_decrypting (g_packets pri) id None = Ok (Some (k, sec)) /\ decrypt_secret_keys sec pass = Ok vals /\
    (if (pka =? 1) || (pka =? 2) then exists c x, vec_at mpi 0 = Ok c /\ rsa_decrypt c vals (k_mpi k) = Ok x /\ block = mpitoraw x
     else elgamal_decrypt mpi vals (k_mpi k) = Ok block) /\
    eme_decode (0 :: block) = Ok sent /\ (len sent < two64 -> sent = sym :: key ++ be 2 (fold_right N.add 0 key mod 65536)) /\
    decrypt_data unzip fuel sym m key = Ok r.
Proof.
  intros unzip fuel pri pass m r E NE. unfold decrypt_pka in E. apply bind_ok in E as (ok & _ & E).
  destruct ok; [|apply Ok_inj in E; subst r; contradiction NE; reflexivity]. cbn [negb] in E. apply bind_ok in E as (ok & _ & E).
  destruct ok; [|apply Ok_inj in E; subst r; contradiction NE; reflexivity]. cbn [negb] in E.
  destruct (find _ _) as [p|] eqn:F; [|apply Ok_inj in E; subst r; contradiction NE; reflexivity]. apply find_some in F as [F _].
  apply bind_ok in E as ([[id pka] mpi] & AS & E). destruct (can_encrypt pka); [|apply Ok_inj in E; subst r; contradiction NE; reflexivity]. cbn [negb] in E.
  apply bind_ok in E as (o & FD & E). destruct o as [[k sec]|]; [|apply Ok_inj in E; subst r; contradiction NE; reflexivity].
  apply bind_ok in E as (vals & DS & E). destruct vals as [|v0 vals]; [apply Ok_inj in E; subst r; contradiction NE; reflexivity|].
  apply bind_ok in E as (b & BL & E). apply bind_ok in E as (sk & DE & E). destruct (len sk =? 0) eqn:Z; [apply Ok_inj in E; subst r; contradiction NE; reflexivity|].
  apply bind_ok in E as (o & OS & E). destruct o as [[sym key]|]; [|apply Ok_inj in E; subst r; contradiction NE; reflexivity].
  unfold as_session in AS. destruct (p_body p) as [v id0 pka0 mpi0| | | | | | | | | |] eqn:PB; try discriminate. apply Ok_inj in AS. injection AS as -> -> ->.
  exists p, v, id, pka, mpi, k, sec, (v0 :: vals), b, sk, sym, key.
  split; [exact F|]. split; [exact PB|]. split; [exact FD|]. split; [exact DS|]. split.
  { destruct ((pka =? 1) || (pka =? 2)); [|exact BL]. apply bind_ok in BL as (c & VC & BL). apply bind_ok in BL as (x & RD & BL). apply Ok_inj in BL. eauto. }
  split; [exact DE|]. split; [|exact E]. intros MEM. rewrite <- sum16_spec. unfold open_session in OS. apply bind_ok in OS as (sy & A0 & OS). apply bind_ok in OS as (chk & S1 & OS). apply bind_ok in OS as (ky & S2 & OS).
  destruct (beq (sum16 ky) chk) eqn:Q; [|discriminate]. apply beq_eq in Q. apply Ok_inj in OS. injection OS as -> ->. subst chk.
  destruct sk as [|a [|b0 sk]]; [discriminate Z| |].
  { vm_compute in S1. discriminate. }
  change (at_ (a :: b0 :: sk) 0) with (@Ok N a) in A0. apply Ok_inj in A0. subst a. destruct sk as [|c sk].
  { exfalso. vm_compute in S2. apply Ok_inj in S2. subst key. change (substr [sym; b0] (sub64 (len [sym; b0]) 2) 2) with (@Ok bytes [sym; b0]) in S1. apply Ok_inj in S1.
    unfold sum16 in S1. cbn [fold_left] in S1. cbn [be] in S1.
    assert (S3 := f_equal (fun l => nth 0 l 0) S1). assert (S4 := f_equal (fun l => nth 1 l 0) S1). cbn [nth] in S3, S4. clear S1.
    change (256 ^ N.of_nat 1) with 256 in S3. change (256 ^ N.of_nat 0) with 1 in S4. rewrite N.div_1_r in S4. rewrite N.add_0_l in *.
    pose proof (N.mod_lt (u16 b0) 256 ltac:(discriminate)) as B. rewrite <- S4 in B. unfold u16 in S3. rewrite (N.mod_small b0) in S3 by lia. rewrite (N.div_small b0) in S3 by exact B. change (0 mod 256) with 0 in S3. subst sym.
    unfold decrypt_data in E. apply bind_ok in E as (ok & _ & E). destruct ok; [|apply Ok_inj in E; subst r; contradiction NE; reflexivity]. cbn [negb] in E.
    destruct (find _ _) as [q|]; [|apply Ok_inj in E; subst r; contradiction NE; reflexivity]. apply bind_ok in E as (d & _ & E).
    unfold decrypt_octets in E. destruct (len d =? 0); [apply Ok_inj in E; subst r; contradiction NE; reflexivity|]. apply bind_ok in E as (x & _ & E). discriminate. }
  f_equal. assert (L : len (sym :: b0 :: c :: sk) = 3 + len sk) by (rewrite !len_cons; lia). rewrite L in *.
  rewrite !sub64_small in * by lia. apply substr_inv in S1 as [_ S1]. apply substr_inv in S2 as [_ S2].
  rewrite L in S1, S2. rewrite S1, S2. change (skipn (N.to_nat 1) (sym :: b0 :: c :: sk)) with (b0 :: c :: sk).
  replace (N.to_nat (3 + len sk - 2)) with (S (length sk)) by (unfold len; lia). cbn [skipn].
  replace (N.to_nat (N.min (3 + len sk - 3) (3 + len sk - 1))) with (length sk) by (unfold len; lia).
  rewrite (firstn_all2 (skipn (length sk) (b0 :: c :: sk))); [now rewrite firstn_skipn|]. rewrite skipn_length. cbn [length]. lia.
Qed.

(** ** C67 *)

(** A session key packet without integers, addressed to a key of the reader: 17 octets that
    read as a message, and decrypting it indexes an empty list.  Nothing but the (public)
    key ID is needed to make it. *)
Definition no_integers (id : bytes) : bytes := [193; 10; 3] ++ id ++ [1] ++ [210; 2; 1; 0].
Definition no_integers_message (id : bytes) : message :=
  mkMessage (mkPgp false 1 [] [mkPacket 1 NEW NOT_PARTIAL (PSession 3 id 1 []); mkPacket 18 NEW NOT_PARTIAL (PProtected 1 [0])]) None.
Theorem C67_no_integers_refuted : forall unzip fuel fuel' pri pass k sec id vals,
  secret_meaningful pri = Ok true -> decrypts_with pri id k sec -> len id = 8 -> decrypt_secret_keys sec pass = Ok vals -> vals <> [] ->
  exists m, message_read unzip fuel (no_integers id) = Ok m /\ decrypt_pka unzip fuel' pri pass m = UB.
Proof.
  intros unzip fuel fuel' pri pass k sec id vals SM DW LI D NE. exists (no_integers_message id). split.
  - apply (C66_plain_partial (fun _ _ => None) unzip fuel (no_integers_message id)); try reflexivity.
    + eapply sequence_new; [reflexivity|reflexivity| | | |].
      * cbn [raw]. unfold readable_length. rewrite len_cons, len_app, LI. change (len (1 :: concat (map write_MPI []))) with 1. lia.
      * cbn [fits]. auto.
      * intros h LH. cbn [placed]. now left.
      * intros n. eapply sequence_new; [reflexivity|reflexivity| | | |].
        { unfold readable_length. change (len [1; 0]) with 2. lia. }
        { cbn [fits]. auto. }
        { intros; exact I. }
        { intros; exact I. }
    + exact (encrypted_grammar 1 true (or_introl eq_refl)).
    + discriminate.
    + destruct id as [|i0 [|i1 [|i2 [|i3 [|i4 [|i5 [|i6 [|i7 [|]]]]]]]]]; try discriminate LI; [reflexivity|exfalso; rewrite ?len_cons in LI; lia].
    + unfold no_integers. rewrite !len_app, LI. reflexivity.
    + intros (b & a & E & _). unfold no_integers in E.
      destruct id as [|i0 [|i1 [|i2 [|i3 [|i4 [|i5 [|i6 [|i7 [|]]]]]]]]]; try discriminate LI; [|exfalso; rewrite ?len_cons in LI; lia].
      apply (f_equal (@rev N)) in E. rewrite !rev_app_distr in E.
      assert (L : (length (rev a) <= 2)%nat).
      { assert (L := f_equal (@length N) E). rewrite !app_length in L. change (length (rev armor_begin)) with 15%nat in L. cbn in L. lia. }
      destruct (rev a) as [|a0 [|a1 [|]]]; [discriminate E|discriminate E| |cbn in L; lia].
      discriminate E.
  - assert (F := DW). apply (decrypts_found _ _ _ _ None) in F. unfold decrypt_pka. rewrite SM. cbn [bind negb].
    change (message_meaningful false (m_pgp (no_integers_message id))) with (@Ok bool true). cbn [bind negb no_integers_message m_pgp g_packets find p_tag N.eqb Pos.eqb as_session p_body].
    cbn [can_encrypt N.eqb Pos.eqb orb negb]. rewrite F. cbn [bind]. rewrite D. cbn [bind]. destruct vals; [contradiction|]. reflexivity.
Qed.

(** Apart from that: with a key of the right size the decryption of the data itself is
    sound for every ciphertext; what remains is reading the decrypted octets (C12, C65). *)
Lemma cipher_safe c bs E b : enciphers c bs E -> refuses_others c bs -> safe (c_encrypt c b).
Proof.
  intros (_ & _ & H) R. destruct (Nat.eq_dec (length b) bs) as [D|D]; [rewrite H by exact D|rewrite R by exact D]; exact I.
Qed.
Lemma unloop_safe c bs E data : enciphers c bs E -> refuses_others c bs -> (0 < bs)%nat -> forall n P FRE x,
  len data < N.of_nat n + x -> (0 < n)%nat -> safe (ocfb_unloop c n data P FRE x).
Proof.
  intros En R B. pose proof En as [CB _]. induction n as [|n IH]; intros P FRE x L Z; [lia|]. cbn [ocfb_unloop]. rewrite CB.
  destruct (x + N.of_nat bs <? len data) eqn:Q; [|exact I].
  apply safe_bind; [apply safe_substr|]. intros s _. apply safe_bind; [eapply cipher_safe; eauto|]. intros f _. apply IH; lia.
Qed.
Lemma ocfb_decrypt_safe c bs E tag data : enciphers c bs E -> refuses_others c bs -> (0 < bs)%nat -> safe (ocfb_decrypt c tag data).
Proof.
  intros En R B. unfold ocfb_decrypt.
  apply safe_bind; [eapply cipher_safe; eauto|]. intros f _. cbv zeta. apply safe_bind; [eapply cipher_safe; eauto|]. intros f' _.
  apply safe_bind; [apply safe_substr|]. intros rep _. apply safe_bind; [apply safe_substr|]. intros two _.
  destruct (negb _); [exact I|]. apply safe_bind.
  { eapply unloop_safe; eauto; [|lia]. unfold len. destruct (tag =? 9); lia. }
  intros ((P & FRE) & x) _. apply safe_bind; [apply safe_substr|]. intros d _. apply safe_bind; [apply safe_substr|]. intros; exact I.
Qed.
Lemma substr_split s p n x : substr s p n = Ok x -> exists b a, s = b ++ x ++ a /\ len b = p.
Proof.
  intros H. apply substr_inv in H as [L ->]. exists (firstn (N.to_nat p) s), (skipn (N.to_nat (N.min n (len s - p))) (skipn (N.to_nat p) s)).
  rewrite !firstn_skipn. split; [reflexivity|]. rewrite len_firstn. lia.
Qed.
Theorem C67_data_partial : forall unzip fuel sym tag data key, In sym offered -> octets key -> length key = key_octets sym -> len data < 2 ^ 60 ->
  ~ safe (decrypt_octets unzip fuel sym tag data key) ->
  exists before w after, use_ocfb_decrypt sym tag data key = Ok (before ++ w ++ after) /\ ~ safe (message_read_raw unzip fuel w).
Proof.
  intros unzip fuel sym tag data key I O LK LD NS. unfold decrypt_octets in NS.
  destruct (len data =? 0); [contradiction NS; exact Logic.I|].
  destruct (setup_enciphers sym key I O LK) as (c & E & SE & En & R).
  assert (BP : (0 < block_octets sym)%nat).
  { cbn [offered In] in I. decompose [or] I; try contradiction; subst sym; cbn; lia. }
  assert (S : safe (use_ocfb_decrypt sym tag data key)).
  { unfold use_ocfb_decrypt. destruct (sym =? 0); [exact Logic.I|]. rewrite SE. cbn [bind]. eapply ocfb_decrypt_safe; eauto. }
  destruct (use_ocfb_decrypt sym tag data key) as [plain|e| |] eqn:U; try contradiction.
  cbn [bind] in NS. destruct (map_at block_length sym) as [bits|e| |] eqn:MB; [|contradiction NS; exact Logic.I|exfalso..].
  2,3: (revert MB; cbn [offered In] in I; decompose [or] I; try contradiction; subst sym; discriminate).
  cbn [bind] in NS.
  assert (G : forall x after, plain = x ++ after ->
    ~ safe (data <- substr x (N.shiftr bits 3 + 2) (sub64 (sub64 (len x) (N.shiftr bits 3)) 2) ;;
            ' (ps, c) <- message_read_raw unzip fuel data ;; Ok (mkMessage (mkPgp false 1 [] ps) c)) ->
    exists before w after, plain = before ++ w ++ after /\ ~ safe (message_read_raw unzip fuel w)).
  { intros x after -> NX. destruct (substr x _ _) as [w|e| |] eqn:SX; [|contradiction NX; exact Logic.I|unfold substr in SX; destruct (_ <? _); discriminate..].
    cbn [bind] in NX. apply substr_split in SX as (b & r & -> & _). exists b, w, (r ++ after). split; [now rewrite <- !app_assoc|].
    intros SR. apply NX. apply safe_bind; [exact SR|]. intros [ps c'] _. exact Logic.I. }
  assert (Q : exists before w after, plain = before ++ w ++ after /\ ~ safe (message_read_raw unzip fuel w)).
  { destruct (tag =? 18); [|apply (G plain []); [now rewrite app_nil_r|exact NS]].
    destruct (substr plain (sub64 (len plain) 20) 20) as [ck|e| |] eqn:S1; [|contradiction NS; exact Logic.I|unfold substr in S1; destruct (_ <? _); discriminate..].
    cbn [bind] in NS.
    destruct (substr plain 0 (sub64 (len plain) 20)) as [x|e| |] eqn:S2; [|contradiction NS; exact Logic.I|unfold substr in S2; destruct (_ <? _); discriminate..].
    cbn [bind] in NS. destruct (hash_use 2 x) as [h|e| |] eqn:HU; [|contradiction NS; exact Logic.I| |].
    2,3: (destruct (hash_use_ok 2 x) as (h & HU2); [cbn; tauto|congruence]).
    cbn [bind] in NS. destruct (beq h ck); [|contradiction NS; exact Logic.I].
    destruct (substr x 0 (sub64 (len x) 2)) as [x'|e| |] eqn:S3; [|contradiction NS; exact Logic.I|unfold substr in S3; destruct (_ <? _); discriminate..].
    cbn [bind] in NS. apply substr_split in S2 as (b & r & E2 & L2). apply substr_split in S3 as (b' & r' & E3 & L3).
    destruct b; [|discriminate L2]. destruct b'; [|discriminate L3]. cbn [app] in *.
    apply (G x' (r' ++ r)); [subst; now rewrite <- !app_assoc|exact NS]. }
  destruct Q as (b & w & r & -> & W). exists b, w, r. split; [reflexivity|exact W].
Qed.

(** ** Examples *)

(** Passphrase: signed and unsigned data, with every cipher, SHA-1 passphrase hash. *)
Definition toy_enc (sym : N) (signer : option pgp) : enc_args := mkEnc (str "f") (str "hello") sym 0 true signer [] 2.
Lemma toy_fits sym signer : literal_fits (fun _ _ => None) (fun _ _ => None) (toy_enc sym signer).
Proof. split; [reflexivity|]. split; [|now left]. cbn [toy_enc e_filename e_data]. unfold readable_length. change (len (str "f")) with 1. change (len (str "hello")) with 5. lia. Qed.
Lemma toy_enc_valid sym signer : In sym offered -> enc_valid (toy_enc sym signer) = true.
Proof. intros I. cbn [offered In] in I. decompose [or] I; try contradiction; subst sym; reflexivity. Qed.
Lemma small_block sym : In sym offered -> 8 + N.of_nat (block_octets sym) <= 32.
Proof. intros I. cbn [offered In] in I. decompose [or] I; try contradiction; subst sym; cbn; lia. Qed.
Example C48_literal_ex : forall sym kh, In sym offered -> In kh hashes ->
  exists m, encrypt_sym (fun _ _ => None) (fun _ _ => None) 0 (toy_enc sym None) (str "pw") kh 5 6 (repeat 7 32) [] = Ok m /\
    decrypt_sym (fun _ _ => None) 2 m (str "pw") = Ok (plain_message (toy_enc sym None)).
Proof.
  intros sym kh I KH.
  destruct (C48_literal_partial (fun _ _ => None) (fun _ _ => None) (fun _ _ => None) 0 0 (toy_enc sym None) (str "pw") kh 5 6 (repeat 7 32) []) as (m & E & _ & D); eauto.
  - now apply toy_enc_valid.
  - apply toy_fits.
  - exact (small_block sym I).
Qed.
(** Compressed data: with a "compression" that only adds an octet. *)
Example C48_compressed_ex : literal_fits (fun _ w => Some (0 :: w)) (fun _ z => Some (tl z)) (mkEnc (str "f") (str "hello") 9 2 false None [] 2).
Proof.
  split; [reflexivity|]. split; [cbn [e_filename e_data]; unfold readable_length; change (len (str "f")) with 1; change (len (str "hello")) with 5; lia|].
  right. split; [cbn; tauto|]. intros w W. exists (0 :: w). split; [reflexivity|]. split; [discriminate|]. split; [reflexivity|].
  unfold write, literal_of, new_packet in W. cbn [p_tag p_format p_partial p_body raw bind e_filename e_data] in W. vm_compute in W. apply Ok_inj in W. subst w.
  unfold readable_length. match goal with |- context [len ?l] => let n := eval vm_compute in (len l) in change (len l) with n end. lia.
Qed.
Example C48_signed_ex : matching (mkArgs toy_pri [] 4 2) toy_key toy_sec [7] toy_pub /\ Forall moderate (k_mpi toy_key) /\
  exists w rest, to_encrypt (fun _ _ => None) (fun _ _ => None) 2 (toy_enc 3 (Some toy_pri)) 5 1234567890 [3] = Ok (Some w, rest).
Proof.
  split; [exact toy_matching|]. split.
  { repeat (apply Forall_cons; [unfold moderate; apply N.log2_lt_pow2; reflexivity|]); constructor. }
  do 2 eexists. vm_compute. reflexivity.
Qed.
(** 8122 octets with an empty file name. *)
Example C48_length_ex : forall sym, In sym offered ->
  exists m, encrypt_sym (fun _ _ => None) (fun _ _ => None) 0 (mkEnc [] (repeat 0 (N.to_nat 8122)) sym 0 true None [] 2) (str "pw") 2 5 6 (repeat 7 32) [] = Ok m /\
    decrypt_sym (fun _ _ => None) 9 m (str "pw") <> Ok (plain_message (mkEnc [] (repeat 0 (N.to_nat 8122)) sym 0 true None [] 2)).
Proof.
  intros sym I.
  destruct (C48_length_refuted (fun _ _ => None) (fun _ _ => None) (fun _ _ => None) 0 9 (mkEnc [] (repeat 0 (N.to_nat 8122)) sym 0 true None [] 2) (str "pw") 2 5 6 (repeat 7 32) [])
    as (m & E & _ & D); eauto.
  - cbn [offered In] in I. decompose [or] I; try contradiction; subst sym; reflexivity.
  - cbn; tauto.
  - reflexivity.
  - cbn [e_filename e_data]. unfold len. rewrite repeat_length, Nnat.N2Nat.id. cbn [length]. lia.
  - exact (small_block sym I).
Qed.

(** Public key: the RSA key of C44 and CAST5, whose 16 octet keys fit into its modulus. *)
Lemma big_encrypts : encrypts_with big_pub big_key.
Proof. exists [], (new_packet 6 (PKey big_key)), [ex_user "a"; ex_sig 16]. split; [reflexivity|]. split; [cbn; tauto|]. split; [now left|]. split; [now left|constructor]. Qed.
Lemma big_decrypts : exists id, len id = 8 /\ get_keyid big_key = Ok id /\ decrypts_with big_pri id big_key big_sec.
Proof.
  eexists. split; [|split; [vm_compute; reflexivity|]]; [vm_compute; reflexivity|].
  exists [], (new_packet 5 (PSecret big_key big_sec)), [ex_user "a"; ex_sig 16]. split; [reflexivity|]. split; [now left|]. split; [reflexivity|].
  split; [vm_compute; reflexivity|]. split; [now left|constructor].
Qed.
Example C47_ex : exists m, encrypt_pka (fun _ _ => None) (fun _ _ => None) 0 (toy_enc 3 None) big_pub 5 6 (repeat 7 80) [1] = Ok m /\
  decrypt_pka (fun _ _ => None) 2 big_pri [] m = Ok (plain_message (toy_enc 3 None)).
Proof.
  destruct big_decrypts as (id & _ & _ & DW).
  destruct (C47_literal_partial (fun _ _ => None) (fun _ _ => None) (fun _ _ => None) 0 0 (toy_enc 3 None) big_pub big_pri big_key big_sec id [big_d] [] 5 6 (repeat 7 80) [1])
    as (m & E & _ & D); eauto; try reflexivity.
  - cbn; tauto.
  - apply toy_fits.
  - exact big_encrypts.
  - unfold cipher_pair. cbn [big_key k_pka k_mpi N.eqb Pos.eqb]. do 5 eexists. split; [reflexivity|]. split; [reflexivity|]. exact big_rsa.
  - intros n more E. cbn [big_key k_mpi] in E. assert (n = big_p * big_q) as -> by congruence. vm_compute. repeat split; discriminate.
  - repeat constructor.
  - discriminate.
Qed.
Example C47_signed_ex : exists m, encrypt_pka (fun _ _ => None) (fun _ _ => None) 2 (toy_enc 3 (Some toy_pri)) big_pub 5 1234567890 (repeat 7 80) [3; 3] = Ok m /\ g_packets (m_pgp m) <> [].
Proof.
  destruct big_decrypts as (id & _ & KI & _).
  destruct (pka_returns (fun _ _ => None) (fun _ _ => None) 2 (toy_enc 3 (Some toy_pri)) big_pub big_key id 5 1234567890 (repeat 7 80) [3; 3]) as (m & E & T); auto; try reflexivity.
  - cbn; tauto.
  - exact big_encrypts.
  - now left.
  - exists [big_d]. unfold cipher_pair. cbn [big_key k_pka k_mpi N.eqb Pos.eqb]. do 5 eexists. split; [reflexivity|]. split; [reflexivity|]. exact big_rsa.
  - intros n more E. cbn [big_key k_mpi] in E. assert (n = big_p * big_q) as -> by congruence. vm_compute. repeat split; discriminate.
  - repeat constructor.
  - discriminate.
  - intros d [->|(x & E)]; [|assert (d = [3]) as -> by congruence]; (do 2 eexists; split; [vm_compute; reflexivity|vm_compute; reflexivity]).
  - exists m. split; [exact E|]. intros Z. rewrite Z in T. discriminate.
Qed.
Example C47_elgamal_ex : exists vals, cipher_pair 16 vals [523; 462; 60].
Proof. exists [17]. unfold cipher_pair. cbn [N.eqb Pos.eqb]. exists 523, 462, 60, 17, [], []. split; [reflexivity|]. split; [reflexivity|]. exact elgamal_toy_key. Qed.

(** The message of C47_ex has an integrity protected packet and gives contents. *)
Example C49_C62_ex : exists m r y, protected m y /\ decrypt_pka (fun _ _ => None) 2 big_pri [] m = Ok r /\ g_packets (m_pgp r) <> [].
Proof.
  destruct C47_ex as (m & E & D). exists m. destruct big_decrypts as (id & _ & KI & _).
  destruct (pka_shape _ _ _ (toy_enc 3 None) big_pub big_key id _ _ _ _ m eq_refl eq_refl eq_refl big_encrypts KI E) as (mpi & y & _ & _ & G).
  { intros N. assert (X := D). unfold decrypt_pka in X. change (secret_meaningful big_pri) with (@Ok bool true) in X. cbn [bind negb] in X.
    apply bind_ok in X as (b & _ & X). rewrite N in X. destruct b; discriminate X. }
  eexists. exists y. split; [|split; [exact D|discriminate]].
  exists [new_packet 1 (PSession 3 id (k_pka big_key) mpi)], (new_packet 18 (PProtected 1 y)), [], 1. split; [exact G|]. split; [reflexivity|]. split; [reflexivity|].
  constructor; [split; discriminate|constructor].
Qed.
Example C49_marker_ex : forall unzip fuel, exists m y h, protected m y /\ use_ocfb_decrypt 3 18 y (repeat 1 16) = Ok ((repeat 2 8 ++ [2; 2] ++ [203; 6; 98; 0; 0; 0; 0; 0] ++ [7; 7]) ++ h) /\ len h = 20 /\
  decrypt_data unzip (S fuel) 3 m (repeat 1 16) = Ok (mkMessage (mkPgp false 1 [] [mkPacket 11 NEW NOT_PARTIAL (PLiteral 98 [] 0 [])]) None).
Proof.
  intros unzip fuel. apply (C49_marker_refuted unzip (S fuel) 3 (repeat 1 16) (repeat 2 8) [203; 6; 98; 0; 0; 0; 0; 0] [7; 7] [mkPacket 11 NEW NOT_PARTIAL (PLiteral 98 [] 0 [])] None).
  - cbn; tauto.
  - repeat constructor.
  - reflexivity.
  - reflexivity.
  - reflexivity.
  - reflexivity.
  - vm_compute. reflexivity.
Qed.
Example C67_ex : exists id m, message_read (fun _ _ => None) 3 (no_integers id) = Ok m /\ decrypt_pka (fun _ _ => None) 3 big_pri [] m = UB.
Proof.
  destruct big_decrypts as (id & L & _ & DW). exists id.
  apply (C67_no_integers_refuted _ 3 3 big_pri [] big_key big_sec id [big_d]); [vm_compute; reflexivity|exact DW|exact L|vm_compute; reflexivity|discriminate].
Qed.

Print Assumptions C48_literal_partial.
Print Assumptions C48_signed_partial.
Print Assumptions C48_written_partial.
Print Assumptions C48_length_refuted.
Print Assumptions C47_literal_partial.
Print Assumptions C47_signed_partial.
Print Assumptions C47_written_partial.
Print Assumptions C49_sym_partial.
Print Assumptions C49_pka_partial.
Print Assumptions C49_marker_refuted.
Print Assumptions C62_checked.
Print Assumptions C67_no_integers_refuted.
Print Assumptions C67_data_partial.
