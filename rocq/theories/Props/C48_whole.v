(** Properties C47, C48, from the data to the armored text and back. *)
From Verif Require Import Proofs.SignP Proofs.MadeP Proofs.CryptP Proofs.CfbP Proofs.CipherStdP Proofs.MessageIOP Model.Decrypt Spec.Crypt Spec.Sigs Spec.Armor Spec.Grammar
  Props.C10_C12 Props.C14_C15 Props.C21_C22 Props.C32 Props.C33_C35 Props.C41_C43_C60 Props.C44_C46 Props.C44_written Props.C65_C66 Props.C47_C49_C62 Props.C44_compressed.
Local Open Scope N_scope.

(** ** The size of what is encrypted *)

(** The octets of an encrypted packet's body for [n] octets of contents: a block of random
    octets and two of them again; with an integrity check also the version and 22 octets. *)
Definition encrypted_size (a : enc_args) (n : N) : N :=
  N.of_nat (block_octets (e_sym a)) + 2 + n + (if e_mdc a then 23 else 0).

Lemma octets_last_two p : octets p -> octets (last_two p).
Proof. apply octets_skipn. Qed.
Lemma ocfb_octets alg tag data key pre extra y : In alg offered -> octets key -> length key = key_octets alg -> tag = 9 \/ tag = 18 ->
  octets data -> octets pre -> length pre = block_octets alg -> (2 <= length extra)%nat ->
  use_ocfb_encrypt alg tag data key (pre ++ extra) = Ok y -> octets y /\ len y = N.of_nat (block_octets alg) + 2 + len data.
Proof.
  intros I OK LK T OD OP LP X E. assert (exists f, standard_cipher alg = Some f) as (f & S).
  { apply standard_offered in I. destruct (standard_cipher alg) as [f|]; [eauto|congruence]. }
  rewrite (ocfb_std alg f key tag data pre extra) in E by assumption. apply Ok_inj in E. subst y.
  destruct (CipherP.setup_enciphers alg key I OK LK) as (c & E & C & EN & _). destruct (setup_std alg f key S OK LK) as (c' & C' & _ & H).
  rewrite C in C'. apply Ok_inj in C'. subst c'. pose proof EN as (A & B & D).
  set (bs := block_octets alg) in *. assert (P : (2 <= bs)%nat) by (unfold bs, block_octets; destruct (alg <? 7); lia).
  assert (HEF : forall b, octets b -> length b = bs -> E b = f key b /\ octets (f key b) /\ length (f key b) = bs).
  { intros b Ob Lb. destruct (H b Ob Lb) as (H1 & H2 & H3 & _). rewrite D in H1 by exact Lb. apply Ok_inj in H1. auto. }
  assert (OZ : octets (repeat 0 bs)) by (apply octets_repeat; reflexivity). assert (LZ : length (repeat 0 bs) = bs) by apply repeat_length.
  assert (OL : octets (last_two pre)) by now apply octets_last_two. assert (L2 : length (last_two pre) = 2%nat) by (apply last_two_len; lia).
  assert (M : forall fr p, octets fr -> length fr = bs -> octets p -> octets (cfb_mode (f key) bs fr p) /\ length (cfb_mode (f key) bs fr p) = length p).
  { intros fr p Of Lf Op. destruct (cfb_mode_same E (f key) bs ltac:(lia) HEF fr p Of Lf Op) as [Q O]. split; [exact O|]. rewrite <- Q. apply cfb_length; auto; lia. }
  unfold openpgp_cfb. destruct (tag =? 9).
  - destruct (M (repeat 0 bs) (pre ++ last_two pre) OZ LZ ltac:(now apply octets_app)) as [O1 L1]. rewrite app_length in L1.
    destruct (M (skipn 2 (cfb_mode (f key) bs (repeat 0 bs) (pre ++ last_two pre))) data) as [O3 L3]; [now apply octets_skipn|rewrite skipn_length; lia|exact OD|].
    split; [apply octets_app; now split|]. unfold len in *. rewrite app_length. lia.
  - destruct (M (repeat 0 bs) (pre ++ last_two pre ++ data) OZ LZ) as [O1 L1]; [repeat (apply octets_app; split; auto)|].
    split; [exact O1|]. unfold len. rewrite L1, !app_length. lia.
Qed.
(** The encrypted packet holds octets, as many as [encrypted_size] says. *)
Lemma data_sized zip unzip fuel a key now now' rnd draws w rest p body : In (e_sym a) offered -> octets key -> length key = key_octets (e_sym a) ->
  octets rnd -> octets w -> to_encrypt zip unzip fuel a now now' draws = Ok (Some w, rest) ->
  encrypt_data zip unzip fuel a key now now' rnd draws = Ok (Some p) -> raw (p_body p) = Ok body ->
  octets body /\ len body = encrypted_size a (len w).
Proof.
  intros I OK LK OR OW TE ED RB. destruct (offered_tables _ I) as (TB & _ & _ & _ & BS & _). unfold encrypted_size.
  unfold encrypt_data in ED. destruct (enc_valid a); [|discriminate]. cbn [negb] in ED. rewrite TE in ED. cbn [bind] in ED. rewrite TB in ED. cbn [bind] in ED. rewrite shiftr_8 in ED.
  apply bind_ok in ED as ([pre r] & RP & ED). apply bind_ok in ED as (rep & RE & ED). cbv zeta in ED.
  assert (PR : octets pre /\ length pre = block_octets (e_sym a)).
  { unfold rand_bytes in RP. destruct (_ <? _) eqn:L in RP; [discriminate|]. apply Ok_inj in RP. injection RP as <- <-. split; [now apply octets_firstn|].
    rewrite firstn_length. unfold len in L. lia. }
  destruct PR as [OP LP].
  assert (RL : length rep = 2%nat).
  { rewrite sub64_small in RE by (unfold two64, len; lia). unfold substr in RE. replace (len pre <? len pre - 2) with false in RE by lia. apply Ok_inj in RE. subst rep.
    rewrite firstn_length, skipn_length. unfold len. lia. }
  destruct (e_mdc a); cbn [negb] in ED.
  - apply bind_ok in ED as (h & H & ED). apply bind_ok in ED as (mdc & WM & ED). apply bind_ok in ED as (c & OC & ED). apply Ok_inj in ED. injection ED as <-.
    assert (LH : len h = 20) by (apply (hash_use_len _ _ _ _ H eq_refl)). assert (OH : octets h) by (eapply hash_use_octets; exact H).
    assert (WM' : write (new_packet 19 (PRaw h)) = Ok (211 :: 20 :: h)).
    { unfold write, new_packet. cbn [p_body raw bind p_tag p_format p_partial]. change (can_have_partial_length 19) with false. cbv iota.
      unfold write_new_length, write_new_plain. rewrite LH. reflexivity. }
    rewrite WM' in WM. apply Ok_inj in WM. subst mdc.
    assert (OA : octets (w ++ 211 :: 20 :: h)) by (apply octets_app; split; [exact OW|repeat (apply octets_cons; split; [reflexivity|]); exact OH]).
    destruct (ocfb_octets _ _ _ _ pre rep _ I OK LK (or_intror eq_refl) OA OP LP ltac:(lia) OC) as [O L].
    cbn [new_packet p_body raw] in RB. apply Ok_inj in RB. subst body. split; [apply octets_cons; split; [reflexivity|exact O]|].
    rewrite len_cons, L, len_app, !len_cons, LH. lia.
  - apply bind_ok in ED as (c & OC & ED). apply Ok_inj in ED. injection ED as <-.
    destruct (ocfb_octets _ _ _ _ pre rep _ I OK LK (or_introl eq_refl) OW OP LP ltac:(lia) OC) as [O L].
    cbn [new_packet p_body raw] in RB. apply Ok_inj in RB. subst body. split; [exact O|]. lia.
Qed.

(** ** C48 *)

(** For any contents [w]: the message is made, written in armor, read, and decrypted to what
    [w] reads as. *)
Lemma sym_whole zip unzip unzip' unzip2 fuel fuel' fuel2 a pass kh now now' rnd draws w rest :
  enc_valid a = true -> In (e_sym a) offered -> In kh hashes -> octets rnd -> 8 + N.of_nat (block_octets (e_sym a)) <= len rnd ->
  to_encrypt zip unzip fuel a now now' draws = Ok (Some w, rest) -> octets w -> readable_length NEW (encrypted_size a (len w)) ->
  exists m text m', encrypt_sym zip unzip fuel a pass kh now now' rnd draws = Ok m /\ message_write zip m ArmorYes = Ok text /\
    message_read unzip2 fuel2 text = Ok m' /\
    decrypt_sym unzip' fuel' m' pass = (' (ps, c) <- message_read_raw unzip' fuel' w ;; Ok (mkMessage (mkPgp false 1 [] ps) c)).
Proof.
  intros V I KH OR R TE OW RL. assert (LW : len w < 2 ^ 32) by (unfold encrypted_size in RL; unfold readable_length in RL; destruct (e_mdc a); lia).
  destruct (sym_back zip unzip fuel a pass kh now now' rnd draws unzip' fuel' w rest V I KH R TE ltac:(lia)) as (m & E & TG & D).
  assert (NE : g_packets (m_pgp m) <> []) by (intros Z; rewrite Z in TG; discriminate).
  destruct (sym_shape _ _ _ _ _ _ _ _ _ _ _ E NE) as (x & y & SF & MC & GT & GP).
  (* the packets of the message, once more with their contents *)
  pose proof E as E0. unfold encrypt_sym in E0. rewrite V in E0. cbn [negb] in E0.
  apply bind_ok in E0 as ([salt r] & RB & E0). cbv zeta in E0. apply bind_ok in E0 as (key & GK & E0). apply bind_ok in E0 as (session & SS & E0).
  apply bind_ok in E0 as (o & ED & E0). destruct o as [p|]; [|apply Ok_inj in E0; subst m; contradiction NE; reflexivity]. apply Ok_inj in E0. subst m.
  cbn [m_pgp g_packets] in *. injection GP as GX GY.
  assert (SR : len salt = 8 /\ octets salt /\ octets r).
  { unfold rand_bytes in RB. destruct (len rnd <? 8) eqn:L in RB; [discriminate|]. apply Ok_inj in RB.
    pose proof (f_equal fst RB) as Q1. pose proof (f_equal snd RB) as Q2. cbn [fst snd] in Q1, Q2. rewrite <- Q1, <- Q2.
    split; [rewrite len_firstn; lia|]. split; [now apply octets_firstn|now apply octets_skipn]. }
  destruct SR as (LS & OS & Or).
  destruct (offered_tables _ I) as (TB & TK & _ & N0 & BS & KS).
  set (s := mkS2k S2K3 3 kh salt 96) in *. assert (SF' : s2k_fits s) by (split; [reflexivity|]; split; [exact LS|reflexivity]).
  destruct (s2k_run_ok s pass (N.of_nat (key_octets (e_sym a))) SF' KH) as (k & RK & LK & OK).
  unfold get_session_key in GK. rewrite TK in GK. cbn [bind] in GK. rewrite shiftr_8, RK in GK. cbn [bind] in GK. apply Ok_inj in GK. subst key.
  rewrite len_cons, sub64_small in SS by (unfold two64; lia). rewrite (substr_app_end [e_sym a] k) in SS; [|reflexivity|lia]. apply Ok_inj in SS. subst session.
  assert (PB : exists b, raw (p_body p) = Ok b) by (rewrite GY; destruct (e_mdc a); eexists; reflexivity). destruct PB as (b & PB).
  destruct (data_sized zip unzip fuel a k now now' r draws w rest p b I OK ltac:(unfold len in LK; lia) Or OW TE ED PB) as [OB LB].
  assert (PN : exists c, p = new_packet (if e_mdc a then 18 else 9) c /\ raw c = Ok b) by (rewrite GY in *; destruct (e_mdc a); eexists; split; reflexivity || exact PB).
  destruct PN as (c & PN & RC).
  assert (R3 : exists b3, raw (PSymSession 4 (e_sym a) (Some s) None) = Ok b3 /\ octets b3 /\ len b3 < 100).
  { exists (4 :: e_sym a :: (3 :: kh :: salt ++ be 1 96) ++ []). split; [reflexivity|]. rewrite app_nil_r. split.
    - assert ((e_sym a < 256)) by (clear -I; cbn [offered In] in I; lia). assert (kh < 256) by (clear -KH; cbn [hashes In] in KH; lia).
      repeat (apply octets_cons; split; [reflexivity || assumption|]). apply octets_app. split; [exact OS|apply be_octets].
    - rewrite !len_cons, len_app, len_be, LS. reflexivity. }
  destruct R3 as (b3 & R3 & O3 & L3).
  destruct (new_written 3 _ b3 R3) as (w3 & W3 & LW3). destruct (new_written (if e_mdc a then 18 else 9) c b RC) as (w9 & W9 & LW9).
  pose proof (new_write_octets 3 _ _ w3 R3 O3 W3) as OW3. pose proof (new_write_octets _ _ _ w9 RC OB W9) as OW9.
  assert (WP : write_packets [new_packet 3 (PSymSession 4 (e_sym a) (Some s) None); p] = Ok (w3 ++ w9)).
  { cbn [write_packets]. rewrite W3, PN, W9. cbn [bind]. now rewrite app_nil_r. }
  assert (B1 : octets (w3 ++ w9)) by (apply octets_app; now split).
  assert (B2 : len (w3 ++ w9) < 2 ^ 62) by (rewrite len_app; unfold readable_length in RL; lia).
  assert (B3 : w3 ++ w9 <> []) by (intros Z; apply app_eq_nil in Z as [Z _]; rewrite Z in LW3; cbn in LW3; lia).
  destruct (C14_armor_data_partial 1 version_cc (w3 ++ w9) ltac:(lia) version_ok B1 B3 B2) as (text & AT & _).
  set (m := mkMessage (mkPgp true 1 version_cc [new_packet 3 (PSymSession 4 (e_sym a) (Some s) None); p]) None) in *.
  assert (WT : message_write zip m ArmorYes = Ok text).
  { unfold message_write, message_raw, m. cbn [m_pgp g_packets m_comp g_keys]. rewrite WP. cbn [bind]. exact AT. }
  destruct (C48_armored_partial zip unzip fuel a pass kh now now' rnd draws m text unzip2 fuel2 E NE) as (m' & RD & _ & DD); auto.
  { intros q body IQ RQ. destruct IQ as [<-|[<-|[]]].
    - cbn [new_packet p_body] in RQ. rewrite R3 in RQ. apply Ok_inj in RQ. subst body. unfold readable_length. lia.
    - rewrite PB in RQ. apply Ok_inj in RQ. subst body. rewrite LB. exact RL. }
  { intros body WB. cbn [m m_pgp g_packets] in WB. rewrite WP in WB. apply Ok_inj in WB. subst body. now split. }
  exists m, text, m'. split; [exact E|]. split; [exact WT|]. split; [exact RD|]. rewrite DD. exact D.
Qed.
(** Unsigned data.  [w] is the packet that holds the data. *)
Theorem C48_whole_partial : forall zip unzip unzip' unzip2 fuel fuel' fuel2 a pass kh now now' rnd draws w rest,
  enc_valid a = true -> In (e_sym a) offered -> In kh hashes -> octets rnd -> 8 + N.of_nat (block_octets (e_sym a)) <= len rnd ->
  e_signer a = None -> literal_fits zip unzip' a ->
  to_encrypt zip unzip fuel a now now' draws = Ok (Some w, rest) -> octets w -> readable_length NEW (encrypted_size a (len w)) ->
  exists m text m', encrypt_sym zip unzip fuel a pass kh now now' rnd draws = Ok m /\ message_write zip m ArmorYes = Ok text /\
    message_read unzip2 fuel2 text = Ok m' /\ decrypt_sym unzip' (2 + fuel') m' pass = Ok (plain_message a).
Proof.
  intros zip unzip unzip' unzip2 fuel fuel' fuel2 a pass kh now now' rnd draws w rest V I KH OR R NS LF TE OW RL.
  destruct (plain_back zip unzip fuel a now now' draws unzip' fuel' NS LF) as (w2 & TE2 & LW & RW). assert (w2 = w) as -> by congruence.
  destruct (sym_whole zip unzip unzip' unzip2 fuel (2 + fuel') fuel2 a pass kh now now' rnd draws w rest V I KH OR R TE OW RL) as (m & text & m' & E & W & RD & D).
  exists m, text, m'. split; [exact E|]. split; [exact W|]. split; [exact RD|]. rewrite D, RW. reflexivity.
Qed.
(** Signed data, compressed or not: what comes out verifies. *)
Theorem C48_whole_signed_partial : forall zip unzip unzip' unzip2 fuel fuel' fuel2 a pass kh pri k sec vals g now now' rnd draws w rest,
  enc_valid a = true -> In (e_sym a) offered -> In kh hashes -> octets rnd -> 8 + N.of_nat (block_octets (e_sym a)) <= len rnd ->
  e_signer a = Some pri -> (e_comp a = 0 \/ e_comp a <> 0 /\ signed_compresses zip unzip unzip' (S fuel) a pri now now' draws) ->
  matching (mkArgs pri (e_pass a) 4 (e_hash a)) k sec vals g -> Forall moderate (k_mpi k) ->
  now < 2 ^ 32 -> now' < 2 ^ 32 -> len (e_filename a) < 256 -> readable_length NEW (6 + len (e_filename a) + len (e_data a)) ->
  to_encrypt zip unzip (S fuel) a now now' draws = Ok (Some w, rest) -> octets w -> readable_length NEW (encrypted_size a (len w)) ->
  exists m text m' m'' one_pass s, encrypt_sym zip unzip (S fuel) a pass kh now now' rnd draws = Ok m /\ message_write zip m ArmorYes = Ok text /\
    message_read unzip2 fuel2 text = Ok m' /\ decrypt_sym unzip' (2 + fuel') m' pass = Ok m'' /\
    g_packets (m_pgp m'') = [one_pass; mkPacket 11 NEW NOT_PARTIAL (PLiteral 98 (e_filename a) now (e_data a)); mkPacket 2 NEW NOT_PARTIAL (PSig s)] /\
    verify_binary (S fuel') unzip' g (m_pgp m'') = Ok 1%Z.
Proof.
  intros zip unzip unzip' unzip2 fuel fuel' fuel2 a pass kh pri k sec vals g now now' rnd draws w rest V I KH OR R S SC M MO T T' LF RL TE OW RE.
  destruct (sym_whole zip unzip unzip' unzip2 (Datatypes.S fuel) (2 + fuel') fuel2 a pass kh now now' rnd draws w rest V I KH OR R TE OW RE) as (m & text & m' & E & W & RD & D).
  exists m, text, m'. destruct SC as [C|[C SC]].
  - destruct (signed_back _ _ _ _ _ _ _ _ _ _ _ _ _ _ unzip' (Datatypes.S fuel') S C M MO T T' LF RL TE) as (id & s & L & RR & _).
    destruct (signed_back _ _ _ _ _ _ _ _ _ _ _ _ _ _ unzip' fuel' S C M MO T T' LF RL TE) as (id' & s' & _ & RR' & VB).
    change (2 + fuel')%nat with (Datatypes.S (Datatypes.S fuel')) in *.
    assert (Q : read_raw w = Ok [new_packet 4 (POnePass 3 0 (e_hash a) (k_pka k) id' 1); new_packet 11 (PLiteral 98 (e_filename a) now (e_data a)); new_packet 2 (PSig s')] ->
                message_read_raw unzip' (Datatypes.S (Datatypes.S fuel')) w = Ok ([new_packet 4 (POnePass 3 0 (e_hash a) (k_pka k) id' 1); new_packet 11 (PLiteral 98 (e_filename a) now (e_data a)); new_packet 2 (PSig s')], None)).
    { intros Q. cbn [message_read_raw]. rewrite Q. reflexivity. }
    assert (RA : read_raw w = Ok [new_packet 4 (POnePass 3 0 (e_hash a) (k_pka k) id' 1); new_packet 11 (PLiteral 98 (e_filename a) now (e_data a)); new_packet 2 (PSig s')]).
    { cbn [message_read_raw] in RR'. apply bind_ok in RR' as (ps & RP & RR'). apply bind_ok in RR' as (b & _ & RR'). destruct b; [|discriminate]. rewrite RP.
      unfold decompressed in RR'. destruct ps as [|q [|q2 qs]]; try (apply Ok_inj in RR'; congruence).
      destruct (p_tag q =? 8); [|apply Ok_inj in RR'; congruence]. apply bind_ok in RR' as ([? ?] & _ & RR'). apply bind_ok in RR' as (inner & _ & RR').
      apply bind_ok in RR' as ([ps2 c2] & _ & RR'). apply Ok_inj in RR'. destruct c2; discriminate. }
    do 3 eexists. split; [exact E|]. split; [exact W|]. split; [exact RD|]. split; [rewrite D, (Q RA); reflexivity|]. split; [reflexivity|exact VB].
  - destruct (signed_back' _ _ _ _ _ _ _ _ _ _ _ draws draws _ _ unzip' fuel' S (or_introl eq_refl) SC C M MO T T' LF RL TE) as (id & s & L & RR & VB).
    do 3 eexists. split; [exact E|]. split; [exact W|]. split; [exact RD|]. split; [rewrite D, RR; reflexivity|]. split; [reflexivity|exact VB].
Qed.

(** ** C47 *)
Lemma powm_below b e m r : mpz_powm b e m = Ok r -> r < m.
Proof.
  intros H. apply powm_odd in H as [O ->]. apply N.mod_lt. intros ->. discriminate.
Qed.
Lemma mod_below a m r : mpz_mod a m = Ok r -> r < m.
Proof. unfold mpz_mod. destruct (m =? 0) eqn:Z; [discriminate|]. intros H. apply Ok_inj in H. subst r. apply N.mod_lt. lia. Qed.
(** The integers of the session key packet: one or two, below the modulus. *)
Lemma session_below k v draws mpi d n more : k_mpi k = n :: more -> encrypting (k_pka k) ->
  (if (k_pka k =? 1) || (k_pka k =? 2) then c <- rsa_encrypt v (k_mpi k) ;; Ok ([c], draws)
   else if k_pka k =? 16 then elgamal_encrypt v (k_mpi k) draws else Ok ([], draws)) = Ok (mpi, d) ->
  Forall (fun x => x < n) mpi /\ mpi <> [] /\ (length mpi <= 2)%nat.
Proof.
  intros KM EC E. rewrite KM in E. destruct ((k_pka k =? 1) || (k_pka k =? 2)) eqn:P.
  - apply bind_ok in E as (c & RE & E). apply Ok_inj in E. assert (mpi = [c]) as -> by congruence. unfold rsa_encrypt in RE. apply bind_ok in RE as (e & _ & RE).
    change (vec_at (n :: more) 0) with (@Ok N n) in RE. cbn [bind] in RE. apply powm_below in RE. split; [constructor; [exact RE|constructor]|]. split; [discriminate|cbn; lia].
  - assert (k_pka k =? 16 = true) as P16 by (unfold encrypting in EC; cbn [In] in EC; lia). rewrite P16 in E.
    unfold elgamal_encrypt in E. change (vec_at (n :: more) 0) with (@Ok N n) in E. cbn [bind] in E. apply bind_ok in E as ([kk dd] & _ & E). apply bind_ok in E as (k2 & _ & E).
    apply bind_ok in E as (g & _ & E). apply bind_ok in E as (r & R1 & E). apply bind_ok in E as (y & _ & E). apply bind_ok in E as (s & _ & E). apply bind_ok in E as (c & C1 & E).
    apply Ok_inj in E. assert (mpi = [r; c]) as -> by congruence. apply powm_below in R1. apply mod_below in C1.
    split; [constructor; [exact R1|constructor; [exact C1|constructor]]|]. split; [discriminate|cbn; lia].
Qed.
Lemma pka_parts zip unzip fuel a pub k id n more now now' rnd draws m : enc_valid a = true -> In (e_sym a) offered -> meaningful pub = Ok true -> revoke_check pub = Ok 0%Z ->
  encrypts_with pub k -> get_keyid k = Ok id -> encrypting (k_pka k) -> k_mpi k = n :: more -> octets rnd ->
  N.of_nat (key_octets (e_sym a)) + 14 <= len (mpitoraw n) < two32 ->
  encrypt_pka zip unzip fuel a pub now now' rnd draws = Ok m -> g_packets (m_pgp m) <> [] ->
  exists mpi session r2 d' p, m = mkMessage (mkPgp true 1 version_cc [new_packet 1 (PSession 3 id (k_pka k) mpi); p]) None /\
    Forall (fun x => x < n) mpi /\ mpi <> [] /\ (length mpi <= 2)%nat /\ octets session /\ length session = key_octets (e_sym a) /\ octets r2 /\
    (d' = draws \/ exists x, draws = x :: d') /\
    encrypt_data zip unzip fuel a session now now' r2 d' = Ok (Some p).
Proof.
  intros V I M RC EW KI EC KM OR BG E NE. destruct (offered_tables _ I) as (TB & TK & _ & N0 & BS & KS).
  unfold encrypt_pka in E. rewrite V, M in E. cbn [negb bind] in E. rewrite RC in E. cbn [bind] in E. change (negb (0 =? 0)%Z) with false in E. cbv iota in E.
  rewrite (encrypts_found _ _ None EW) in E. cbn [bind] in E. rewrite KI in E. cbn [bind] in E. rewrite TK in E. cbn [bind] in E. rewrite shiftr_8 in E.
  apply bind_ok in E as ([session r1] & RS & E).
  assert (RD : rnd = session ++ r1 /\ len session = N.of_nat (key_octets (e_sym a))).
  { unfold rand_bytes in RS. destruct (_ <? _) eqn:L in RS; [discriminate|]. apply Ok_inj in RS. injection RS as <- <-. rewrite firstn_skipn, len_firstn. split; [reflexivity|lia]. }
  destruct RD as [-> LS]. apply octets_app in OR as [OS O1].
  rewrite KM in E at 1. change (vec_at (n :: more) 0) with (@Ok N n) in E. cbn [bind] in E.
  set (msg := e_sym a :: session ++ sum16 session) in *.
  assert (OM : octets msg).
  { apply octets_cons. split; [clear -I; cbn [offered In] in I; lia|apply octets_app; split; [exact OS|apply be_octets]]. }
  apply bind_ok in E as ([em r2] & EM & E). destruct (eme_octets _ _ _ _ _ O1 OM EM) as [OE O2]. apply bind_ok in E as (v & RV & E).
  apply bind_ok in E as ([mpi d'] & MP & E). apply bind_ok in E as (o & ED & E). destruct o as [p|]; [|apply Ok_inj in E; subst m; contradiction NE; reflexivity].
  destruct (session_below k v draws mpi d' n more KM EC MP) as (B1 & B2 & B3).
  exists mpi, session, r2, d', p. split; [apply Ok_inj in E; now symmetry|]. split; [exact B1|]. split; [exact B2|]. split; [exact B3|]. split; [exact OS|]. split; [unfold len in LS; lia|].
  split; [exact O2|]. split; [|exact ED].
  destruct ((k_pka k =? 1) || (k_pka k =? 2)).
  - apply bind_ok in MP as (c & _ & MP). apply Ok_inj in MP. left. congruence.
  - destruct (k_pka k =? 16); [|apply Ok_inj in MP; left; congruence]. unfold elgamal_encrypt in MP. apply bind_ok in MP as (pp & _ & MP). apply bind_ok in MP as ([kk dd] & RN & MP).
    apply bind_ok in MP as (k2 & _ & MP). apply bind_ok in MP as (g & _ & MP). apply bind_ok in MP as (r & _ & MP). apply bind_ok in MP as (y & _ & MP).
    apply bind_ok in MP as (s & _ & MP). apply bind_ok in MP as (c & _ & MP). apply Ok_inj in MP. assert (dd = d') as -> by congruence.
    unfold random in RN. destruct (_ =? 0) in RN; [discriminate|]. destruct draws as [|x draws]; [discriminate|]. apply Ok_inj in RN. right. exists x. congruence.
Qed.
Lemma mpis_are_octets l : octets (concat (map write_MPI l)).
Proof. induction l as [|x l IH]; [constructor|]. cbn [map concat]. apply octets_app. split; [apply MpiP.write_MPI_octets|exact IH]. Qed.
Lemma moderate_octets l n : moderate n -> Forall (fun x => x < n) l -> Forall mpi_fits l /\ len (concat (map write_MPI l)) <= 2050 * N.of_nat (length l).
Proof.
  intros M. induction 1 as [|x l X F [IH1 IH2]]; [split; [constructor|cbn; lia]|]. pose proof (moderate_below x n X M) as MX. split; [constructor; [now apply moderate_fits|exact IH1]|].
  cbn [map concat length]. rewrite len_app. apply moderate_len in MX. lia.
Qed.
(** For any contents.  The last of the integers that hold the session key has at least five
    octets, see C58: a shorter one, which chance practically excludes, is not read. *)
Definition long_last (m : message) : Prop :=
  forall p v i pka mpi, In p (g_packets (m_pgp m)) -> p_body p = PSession v i pka mpi -> 6 + before_last write_MPI mpi < Sequence.octets_of write_MPI mpi.
Lemma pka_whole zip unzip unzip' unzip2 fuel fuel' fuel2 a pub pri k sec id vals pass now now' rnd draws n more m :
  enc_valid a = true -> In (e_sym a) offered -> meaningful pub = Ok true -> revoke_check pub = Ok 0%Z -> encrypts_with pub k ->
  secret_meaningful pri = Ok true -> decrypts_with pri id k sec -> decrypt_secret_keys sec pass = Ok vals -> cipher_pair (k_pka k) vals (k_mpi k) ->
  k_mpi k = n :: more -> moderate n -> N.of_nat (key_octets (e_sym a)) + 14 <= len (mpitoraw n) -> len id = 8 -> octets id -> octets rnd ->
  (forall d w rest, d = draws \/ (exists x, draws = x :: d) -> to_encrypt zip unzip fuel a now now' d = Ok (Some w, rest) -> octets w /\ readable_length NEW (encrypted_size a (len w))) ->
  encrypt_pka zip unzip fuel a pub now now' rnd draws = Ok m -> g_packets (m_pgp m) <> [] -> long_last m ->
  exists d w rest text m', (d = draws \/ exists x, draws = x :: d) /\ to_encrypt zip unzip fuel a now now' d = Ok (Some w, rest) /\ message_write zip m ArmorYes = Ok text /\
    message_read unzip2 fuel2 text = Ok m' /\
    decrypt_pka unzip' fuel' pri pass m' = (' (ps, c) <- message_read_raw unzip' fuel' w ;; Ok (mkMessage (mkPgp false 1 [] ps) c)).
Proof.
  intros V I M RC EW SM DW DS CP KM MN BG LI OI OR TE E NE LL.
  assert (BG' : len (mpitoraw n) < two32) by (pose proof (moderate_len n MN) as X; unfold write_MPI in X; rewrite len_app in X; unfold two32; lia).
  assert (KI : get_keyid k = Ok id) by (destruct DW as (? & ? & ? & _ & _ & _ & KI & _); exact KI).
  assert (EC : encrypting (k_pka k)) by (destruct DW as (? & ? & ? & _ & _ & _ & _ & EC & _); exact EC).
  destruct (pka_back zip unzip fuel a pub pri k sec id vals pass now now' rnd draws unzip' fuel' m V I M RC EW SM DW DS CP) as (w & d & rest & DR & TW & D); auto.
  { intros n' more' K. rewrite KM in K. assert (n' = n) as -> by congruence. now split. }
  destruct (TE d w rest DR TW) as [OW RL].
  assert (LW : len w < 2 ^ 32) by (unfold encrypted_size, readable_length in RL; destruct (e_mdc a); lia).
  destruct (pka_parts zip unzip fuel a pub k id n more now now' rnd draws m V I M RC EW KI EC KM OR (conj BG BG') E NE) as (mpi & session & r2 & d' & p & EM & B1 & B2 & B3 & OS & LS & O2 & DR' & ED).
  destruct (pka_shape _ _ _ _ _ _ _ _ _ _ _ _ V M RC EW KI E NE) as (mpi' & y & MC & GT & GP).
  pose proof ED as ED0. unfold encrypt_data in ED0. rewrite V in ED0. cbn [negb] in ED0. apply bind_ok in ED0 as ([ow rest'] & TE' & _).
  assert (SOME : exists w', ow = Some w') by (destruct ow as [w'|]; [eauto|unfold encrypt_data in ED; rewrite V, TE' in ED; discriminate]). destruct SOME as (w' & ->).
  destruct (TE d' w' rest' DR' TE') as [OW' RL'].
  rewrite EM in GP. cbn [m_pgp g_packets] in GP. injection GP as _ GY.
  assert (PB : exists b, raw (p_body p) = Ok b) by (rewrite GY; destruct (e_mdc a); eexists; reflexivity). destruct PB as (b & PB).
  destruct (data_sized zip unzip fuel a session now now' r2 d' w' rest' p b I OS LS O2 OW' TE' ED PB) as [OB LB].
  assert (PN : exists c, p = new_packet (if e_mdc a then 18 else 9) c /\ raw c = Ok b) by (rewrite GY in *; destruct (e_mdc a); eexists; split; reflexivity || exact PB).
  destruct PN as (c & PN & RCC). destruct (moderate_octets mpi n MN B1) as [MF ML].
  assert (PK : k_pka k < 256) by (unfold encrypting in EC; cbn [In] in EC; lia).
  assert (R1 : exists b1, raw (PSession 3 id (k_pka k) mpi) = Ok b1 /\ octets b1 /\ len b1 < 4120).
  { cbn [raw]. eexists. split; [reflexivity|]. split.
    - repeat (apply octets_cons; split; [reflexivity || assumption|]). repeat (apply octets_app; split); auto; repeat (apply octets_cons; split; [assumption|]); try apply Forall_nil; apply mpis_are_octets.
    - rewrite ?len_cons, ?len_app, ?len_cons, ?LI. lia. }
  destruct R1 as (b1 & R1 & Ob1 & L1).
  destruct (new_written 1 _ b1 R1) as (w1 & W1 & LW1). destruct (new_written (if e_mdc a then 18 else 9) c b RCC) as (w9 & W9 & LW9).
  pose proof (new_write_octets 1 _ _ w1 R1 Ob1 W1) as OW1. pose proof (new_write_octets _ _ _ w9 RCC OB W9) as OW9.
  assert (WP : write_packets [new_packet 1 (PSession 3 id (k_pka k) mpi); p] = Ok (w1 ++ w9)).
  { cbn [write_packets]. rewrite W1, PN, W9. cbn [bind]. now rewrite app_nil_r. }
  assert (Q1 : octets (w1 ++ w9)) by (apply octets_app; now split).
  assert (Q2 : len (w1 ++ w9) < 2 ^ 62) by (rewrite len_app; unfold readable_length in RL'; lia).
  assert (Q3 : w1 ++ w9 <> []) by (intros Z; apply app_eq_nil in Z as [Z _]; rewrite Z in LW1; cbn in LW1; lia).
  destruct (C14_armor_data_partial 1 version_cc (w1 ++ w9) ltac:(lia) version_ok Q1 Q3 Q2) as (text & AT & _).
  assert (WT : message_write zip m ArmorYes = Ok text).
  { rewrite EM. unfold message_write, message_raw. cbn [m_pgp g_packets m_comp g_keys]. rewrite WP. cbn [bind]. exact AT. }
  destruct (C47_armored_partial zip unzip fuel a pub k id now now' rnd draws m text unzip2 fuel2 V M RC EW KI LI E NE) as (m' & RD & _ & DD); auto.
  { intros q body IQ RQ. rewrite EM in IQ. cbn [m_pgp g_packets] in IQ. destruct IQ as [<-|[<-|[]]].
    - cbn [new_packet p_body] in RQ. rewrite R1 in RQ. apply Ok_inj in RQ. subst body. unfold readable_length. lia.
    - rewrite PB in RQ. apply Ok_inj in RQ. subst body. rewrite LB. exact RL'. }
  { intros q v i pka l IQ BQ. split; [|right; eapply LL; eauto]. rewrite EM in IQ. cbn [m_pgp g_packets] in IQ. destruct IQ as [<-|[<-|[]]].
    - cbn [new_packet p_body] in BQ. assert (l = mpi) as -> by congruence. exact MF.
    - rewrite GY in BQ. destruct (e_mdc a); discriminate. }
  { intros body WB. rewrite EM in WB. cbn [m_pgp g_packets] in WB. rewrite WP in WB. apply Ok_inj in WB. subst body. now split. }
  exists d, w, rest, text, m'. split; [exact DR|]. split; [exact TW|]. split; [exact WT|]. split; [exact RD|]. rewrite DD. apply D. lia.
Qed.
Theorem C47_whole_partial : forall zip unzip unzip' unzip2 fuel fuel' fuel2 a pub pri k sec id vals pass now now' rnd draws n more m,
  enc_valid a = true -> In (e_sym a) offered -> meaningful pub = Ok true -> revoke_check pub = Ok 0%Z -> encrypts_with pub k ->
  secret_meaningful pri = Ok true -> decrypts_with pri id k sec -> decrypt_secret_keys sec pass = Ok vals -> cipher_pair (k_pka k) vals (k_mpi k) ->
  k_mpi k = n :: more -> moderate n -> N.of_nat (key_octets (e_sym a)) + 14 <= len (mpitoraw n) -> len id = 8 -> octets id -> octets rnd ->
  e_signer a = None -> literal_fits zip unzip' a ->
  (forall w rest, to_encrypt zip unzip fuel a now now' draws = Ok (Some w, rest) -> octets w /\ readable_length NEW (encrypted_size a (len w))) ->
  encrypt_pka zip unzip fuel a pub now now' rnd draws = Ok m -> g_packets (m_pgp m) <> [] -> long_last m ->
  exists text m', message_write zip m ArmorYes = Ok text /\ message_read unzip2 fuel2 text = Ok m' /\
    decrypt_pka unzip' (2 + fuel') pri pass m' = Ok (plain_message a).
Proof.
  intros zip unzip unzip' unzip2 fuel fuel' fuel2 a pub pri k sec id vals pass now now' rnd draws n more m V I M RC EW SM DW DS CP KM MN BG LI OI OR NS LF TE E NE LL.
  assert (SAME : forall d w rest, to_encrypt zip unzip fuel a now now' d = Ok (Some w, rest) -> to_encrypt zip unzip fuel a now now' draws = Ok (Some w, draws)).
  { intros d w rest T. unfold to_encrypt in *. rewrite NS in *. apply bind_ok in T as (x & -> & T). cbn [bind]. destruct (e_comp a =? 0); [apply Ok_inj in T; congruence|].
    apply bind_ok in T as (z & -> & T). cbn [bind]. apply Ok_inj in T. congruence. }
  destruct (pka_whole zip unzip unzip' unzip2 fuel (2 + fuel') fuel2 a pub pri k sec id vals pass now now' rnd draws n more m V I M RC EW SM DW DS CP KM MN BG LI OI OR) as (d & w & rest & text & m' & _ & TW & W & R & D); auto.
  { intros d w rest _ T. eapply TE. eapply SAME. exact T. }
  exists text, m'. split; [exact W|]. split; [exact R|]. rewrite D.
  destruct (plain_back zip unzip fuel a now now' d unzip' fuel' NS LF) as (w2 & TE2 & _ & RW). assert (w2 = w) as -> by congruence. rewrite RW. reflexivity.
Qed.

(** Examples: as for C48_literal_ex, C48_signed_compressed_ex and C47_ex. *)
Lemma toy_literal_octets sym w rest : to_encrypt plus minus 0 (toy_enc sym None) 5 6 [] = Ok (Some w, rest) -> octets w /\ len w = 14.
Proof. intros H. vm_compute in H. injection H as <- _. split; [repeat (apply octets_cons; split; [reflexivity|]); apply Forall_nil|reflexivity]. Qed.
Lemma toy_fits' sym unzip : literal_fits plus unzip (toy_enc sym None).
Proof. destruct (toy_fits sym None) as (A & B & _). split; [exact A|]. split; [exact B|now left]. Qed.
Example C48_whole_ex : forall sym kh, In sym offered -> In kh hashes -> exists m text m',
  encrypt_sym plus minus 0 (toy_enc sym None) (str "pw") kh 5 6 (repeat 7 32) [] = Ok m /\ message_write plus m ArmorYes = Ok text /\
  message_read minus 2 text = Ok m' /\ decrypt_sym minus 2 m' (str "pw") = Ok (plain_message (toy_enc sym None)).
Proof.
  intros sym kh I KH. assert (T : exists w, to_encrypt plus minus 0 (toy_enc sym None) 5 6 [] = Ok (Some w, [])) by (eexists; vm_compute; reflexivity). destruct T as (w & T).
  destruct (toy_literal_octets _ _ _ T) as [OW LW].
  apply (C48_whole_partial plus minus minus minus 0 0 2 (toy_enc sym None) (str "pw") kh 5 6 (repeat 7 32) [] w []); auto.
  - now apply toy_enc_valid.
  - apply octets_repeat. reflexivity.
  - exact (small_block sym I).
  - apply toy_fits'.
  - rewrite LW. pose proof (small_block sym I) as B. unfold encrypted_size. cbn [toy_enc e_sym e_mdc]. unfold readable_length. lia.
Qed.
Example C48_whole_signed_ex : exists w rest, to_encrypt plus minus 1 (toy_comp 3) 5 1234567890 [3; 3] = Ok (Some w, rest) /\ octets w /\
  readable_length NEW (encrypted_size (toy_comp 3) (len w)) /\ signed_compresses plus minus minus 1 (toy_comp 3) toy_pri 5 1234567890 [3; 3].
Proof.
  do 2 eexists. split; [vm_compute; reflexivity|]. split; [repeat (apply octets_cons; split; [reflexivity|]); apply Forall_nil|]. split; [|apply toy_signed_compresses].
  match goal with |- context [len ?l] => let n := eval vm_compute in (len l) in change (len l) with n end.
  unfold encrypted_size. change (block_octets (e_sym (toy_comp 3))) with 8%nat. cbn [toy_comp e_mdc]. unfold readable_length. lia.
Qed.
Example C47_whole_ex : exists m text m', encrypt_pka plus minus 0 (toy_enc 3 None) big_pub 5 6 (repeat 7 80) [1] = Ok m /\ message_write plus m ArmorYes = Ok text /\
  message_read minus 2 text = Ok m' /\ decrypt_pka minus 2 big_pri [] m' = Ok (plain_message (toy_enc 3 None)).
Proof.
  assert (E : exists m, encrypt_pka plus minus 0 (toy_enc 3 None) big_pub 5 6 (repeat 7 80) [1] = Ok m /\ g_packets (m_pgp m) <> [] /\ long_last m).
  { eexists. split; [vm_compute; reflexivity|]. split; [discriminate|]. intros p v i pka mpi IP B. cbn [m_pgp g_packets In] in IP. destruct IP as [<-|[<-|[]]]; [|discriminate].
    cbn [p_body] in B. injection B as _ _ _ <-. vm_compute. reflexivity. }
  destruct E as (m & E & NE & LL). destruct big_decrypts as (id & LI & KI & DW). exists m.
  assert (CP : cipher_pair (k_pka big_key) [big_d] (k_mpi big_key)).
  { unfold cipher_pair. cbn [big_key k_pka k_mpi N.eqb Pos.eqb]. do 5 eexists. split; [reflexivity|]. split; [reflexivity|]. exact big_rsa. }
  assert (KM : exists more, k_mpi big_key = (big_p * big_q) :: more) by (eexists; reflexivity). destruct KM as (more & KM).
  destruct (C47_whole_partial plus minus minus minus 0 0 2 (toy_enc 3 None) big_pub big_pri big_key big_sec id [big_d] [] 5 6 (repeat 7 80) [1] (big_p * big_q) more m)
    as (text & m' & W & R & D); auto.
  - cbn; tauto.
  - exact big_encrypts.
  - unfold moderate. apply N.log2_lt_pow2; vm_compute; reflexivity.
  - vm_compute. discriminate.
  - now apply keyid_octets in KI.
  - apply octets_repeat. reflexivity.
  - apply toy_fits'.
  - intros w rest T. vm_compute in T. injection T as <- _. split; [repeat (apply octets_cons; split; [reflexivity|]); apply Forall_nil|].
    match goal with |- context [len ?l] => let n := eval vm_compute in (len l) in change (len l) with n end.
    unfold encrypted_size. change (block_octets (e_sym (toy_enc 3 None))) with 8%nat. cbn [toy_enc e_mdc]. unfold readable_length. lia.
  - exists text, m'. auto.
Qed.

Print Assumptions C48_whole_partial.
Print Assumptions C48_whole_signed_partial.
Print Assumptions C47_whole_partial.
