(** C83: a session key under a passphrase. *)
From Verif Require Import Proofs.Lib Proofs.CryptP Proofs.KeyP Proofs.CipherP Proofs.MessageP Props.C47_C49_C62 Proofs.MessageIOP Model.SessionKey.
Local Open Scope N_scope.

(** What is stored with set_session_key is what get_session_key gives back, for every cipher and
    specifier the library offers, every passphrase and every key of two octets or more. *)
Theorem C83_roundtrip v sym s old pass sk : In sym offered -> s2k_fits s -> In (s2k_hash s) hashes -> 1 < len sk ->
  exists esk, set_session_key (PSymSession v sym (Some s) old) pass sk = Ok (PSymSession v sym (Some s) (Some esk)) /\ len esk = len sk /\ get_session_key sym (Some s) (Some esk) pass = Ok sk.
Proof.
  intros I F H L. destruct (offered_tables _ I) as (TB & TK & _ & N0 & _). destruct (s2k_run_ok s pass (N.of_nat (key_octets sym)) F H) as (k & RK & LK & OK).
  destruct (setup_enciphers sym k I OK) as (c & E & Sc & En & _); [unfold len in LK; lia|].
  destruct (ncfb_inverts sym k c E sk (repeat 0 (block_octets sym)) N0 Sc En (repeat_length _ _)) as (y & EY & LY & DY).
  exists y. unfold set_session_key, get_session_key. replace (1 <? len sk) with true by lia. rewrite TK. cbn [bind]. rewrite shiftr_8, RK. cbn [bind]. rewrite TB. cbn [bind]. rewrite shiftr_8, Nnat.Nat2N.id, EY. auto.
Qed.
(** Without a specifier, or with a shorter key, nothing is stored, and what was stored is gone. *)
Theorem C83_dropped v sym s old pass sk : s = None \/ len sk <= 1 -> set_session_key (PSymSession v sym s old) pass sk = Ok (PSymSession v sym s None).
Proof. intros [->|L]; [reflexivity|]. unfold set_session_key. replace (1 <? len sk) with false by lia. now destruct s. Qed.
(** Specifiers without a salt are refused. *)
Theorem C83_salted v sym s old x : (tag3_set_s2k (PSymSession v sym s old) (Some x) = Ok (PSymSession v sym (Some x) old) <-> s2k_type x = 1 \/ s2k_type x = 3) /\
  (s2k_type x <> 1 -> s2k_type x <> 3 -> tag3_set_s2k (PSymSession v sym s old) (Some x) = Throw ERuntime) /\ tag3_set_s2k (PSymSession v sym s old) None = Throw ERuntime.
Proof.
  unfold tag3_set_s2k. destruct (N.eqb_spec (s2k_type x) 1) as [A|A], (N.eqb_spec (s2k_type x) 3) as [B|B]; cbn [negb andb]; (split; [split; auto; intros; try discriminate; tauto|]; split; [intros; try reflexivity; contradiction|reflexivity]).
Qed.

(** A message encrypted with a random session key that is itself stored under a passphrase (with a
    cipher of its own) decrypts with the passphrase to the octets encrypted. *)
Theorem C83_decrypts zip unzip fuel unzip' fuel' a now now' rnd draws w rest key sym s pass : enc_valid a = true -> to_encrypt zip unzip fuel a now now' draws = Ok (Some w, rest) ->
  In (e_sym a) offered -> octets key -> length key = key_octets (e_sym a) -> N.of_nat (block_octets (e_sym a)) <= len rnd -> len w < 2 ^ 63 ->
  In sym offered -> s2k_fits s -> In (s2k_hash s) hashes ->
  exists c p, set_session_key (PSymSession 4 sym (Some s) None) pass (e_sym a :: key) = Ok c /\ encrypt_data zip unzip fuel a key now now' rnd draws = Ok (Some p) /\
    decrypt_sym unzip' fuel' (mkMessage (mkPgp true 1 [] [new_packet 3 c; p]) None) pass = (' (ps, z) <- message_read_raw unzip' fuel' w ;; Ok (mkMessage (mkPgp false 1 [] ps) z)).
Proof.
  intros V W I O L R B IS F H. destruct (offered_tables _ I) as (_ & _ & _ & _ & _ & KS).
  destruct (C83_roundtrip 4 sym s None pass (e_sym a :: key) IS F H) as (esk & SS & _ & GS); [rewrite len_cons; unfold len; lia|].
  destruct (data_back zip unzip fuel unzip' fuel' a key now now' rnd draws w rest V W I O L R B) as (tag & y & T & E & D).
  do 2 eexists. split; [exact SS|]. split; [exact E|]. unfold decrypt_sym. cbn [m_pgp].
  assert (M : message_meaningful false (mkPgp true 1 [] [new_packet 3 (PSymSession 4 sym (Some s) (Some esk)); new_packet tag (if e_mdc a then PProtected 1 y else PRaw y)]) = Ok true) by (subst tag; destruct (e_mdc a); reflexivity).
  rewrite M. cbn [bind negb g_packets find p_tag new_packet N.eqb Pos.eqb as_sym_session p_body]. rewrite GS. cbn [bind]. change (at_ (e_sym a :: key) 0) with (@Ok N (e_sym a)). cbn [bind].
  assert (SK : substr (e_sym a :: key) 1 (sub64 (len (e_sym a :: key)) 1) = Ok key).
  { rewrite len_cons, sub64_small by (unfold two64, len; lia). apply (substr_app_end [e_sym a] key); [reflexivity|unfold len; lia]. }
  rewrite SK. cbn [bind]. unfold decrypt_data. cbn [m_pgp]. rewrite M. cbn [bind negb g_packets find p_tag new_packet]. change ((3 =? 9) || (3 =? 18)) with false. cbv iota.
  subst tag. destruct (e_mdc a); cbn [p_tag N.eqb Pos.eqb orb as_encrypted as_protected p_body bind]; exact D.
Qed.
(** In particular an unsigned literal message comes back. *)
Theorem C83_literal_partial zip unzip fuel unzip' fuel' a now now' rnd draws key sym s pass : enc_valid a = true -> e_signer a = None -> literal_fits zip unzip' a ->
  In (e_sym a) offered -> octets key -> length key = key_octets (e_sym a) -> N.of_nat (block_octets (e_sym a)) <= len rnd ->
  In sym offered -> s2k_fits s -> In (s2k_hash s) hashes ->
  exists c p, set_session_key (PSymSession 4 sym (Some s) None) pass (e_sym a :: key) = Ok c /\ encrypt_data zip unzip fuel a key now now' rnd draws = Ok (Some p) /\
    decrypt_sym unzip' (2 + fuel') (mkMessage (mkPgp true 1 [] [new_packet 3 c; p]) None) pass = Ok (plain_message a).
Proof.
  intros V NS LF I O L R IS F H. destruct (plain_back zip unzip fuel a now now' draws unzip' fuel' NS LF) as (w & TE & LW & RW).
  destruct (C83_decrypts zip unzip fuel unzip' (2 + fuel') a now now' rnd draws w draws key sym s pass V TE I O L R LW IS F H) as (c & p & C & P & D).
  exists c, p. rewrite D, RW. auto.
Qed.
(** Such a message may carry the session key for several passphrases (RFC 4880 section 5.3); only
    the first one is ever tried. *)
Theorem C83_second_refuted unzip fuel g p q d pass : p_tag p = 3 -> p_tag q = 3 -> p_tag d = 9 \/ p_tag d = 18 ->
  decrypt_sym unzip fuel (mkMessage (mkPgp (g_armored g) 1 (g_keys g) [p; q; d]) None) pass = decrypt_sym unzip fuel (mkMessage (mkPgp (g_armored g) 1 (g_keys g) [p; d]) None) pass.
Proof.
  intros TP TQ TD. unfold decrypt_sym. cbn [m_pgp g_packets].
  assert (M2 : message_meaningful false (mkPgp (g_armored g) 1 (g_keys g) [p; d]) = Ok true) by (unfold message_meaningful; cbn [g_packets g_type map]; rewrite TP; destruct TD as [->| ->]; reflexivity).
  assert (M3 : message_meaningful false (mkPgp (g_armored g) 1 (g_keys g) [p; q; d]) = Ok true) by (unfold message_meaningful; cbn [g_packets g_type map]; rewrite TP, TQ; destruct TD as [->| ->]; reflexivity).
  rewrite M2, M3. cbn [bind negb find]. rewrite TP. cbn [N.eqb Pos.eqb]. destruct (as_sym_session p) as [[[sym s] esk]| | |]; cbn [bind]; try reflexivity.
  destruct (get_session_key sym s esk pass) as [k| | |]; cbn [bind]; try reflexivity. destruct (at_ k 0) as [alg| | |]; cbn [bind]; try reflexivity. destruct (substr k 1 (sub64 (len k) 1)) as [key| | |]; cbn [bind]; try reflexivity.
  unfold decrypt_data. cbn [m_pgp]. rewrite M2, M3. cbn [bind negb g_packets find]. rewrite TP, TQ. cbn [N.eqb Pos.eqb orb]. destruct TD as [->| ->]; reflexivity.
Qed.
Definition toy_s2k : s2k := mkS2k S2K1 1 2 [1; 2; 3; 4; 5; 6; 7; 8] 0.
Definition toy_literal : enc_args := mkEnc (str "f") (str "hello") 9 0 true None [] 2.
Example C83_ex : forall sym, In sym offered -> exists c p, set_session_key (PSymSession 4 sym (Some toy_s2k) None) (str "pw") (9 :: repeat 5 32) = Ok c /\
  encrypt_data (fun _ _ => None) (fun _ _ => None) 0 toy_literal (repeat 5 32) 5 6 (repeat 7 32) [] = Ok (Some p) /\
  decrypt_sym (fun _ _ => None) 2 (mkMessage (mkPgp true 1 [] [new_packet 3 c; p]) None) (str "pw") = Ok (plain_message toy_literal).
Proof.
  intros sym I. apply (C83_literal_partial (fun _ _ => None) (fun _ _ => None) 0 (fun _ _ => None) 0 toy_literal 5 6 (repeat 7 32) [] (repeat 5 32) sym toy_s2k (str "pw")); try reflexivity; try exact I.
  - split; [reflexivity|]. split; [|now left]. cbn [toy_literal e_filename e_data]. unfold readable_length. change (len (str "f")) with 1. change (len (str "hello")) with 5. lia.
  - cbn. tauto.
  - apply Forall_forall. intros x X. apply repeat_spec in X. subst. reflexivity.
  - vm_compute. discriminate.
  - repeat split; reflexivity.
  - cbn. tauto.
Qed.
Print Assumptions C83_roundtrip. Print Assumptions C83_dropped. Print Assumptions C83_salted. Print Assumptions C83_decrypts. Print Assumptions C83_literal_partial. Print Assumptions C83_second_refuted. Print Assumptions C83_ex.
