(** C86: encryption and decryption on the command line. *)
From Verif Require Import Proofs.Lib Proofs.CommandsP Proofs.ArmorP Proofs.CryptP Proofs.CliP Proofs.MessageIOP Proofs.MadeP Proofs.KeyP Spec.Invocation Spec.Armor Spec.Sequence Spec.Crypt Spec.Cipher Spec.Keys Spec.Sigs Spec.Framing Spec.Grammar
  Props.C14_C15 Props.C44_C46 Props.C44_written Props.C44_compressed Props.C47_C49_C62 Props.C48_whole Props.C10_C12 Props.C33_C35 Props.C78.
Local Open Scope N_scope.

Lemma written_armor zip m text : message_write zip m ArmorYes = Ok text -> exists b, armor 1 (g_keys (m_pgp m)) b = Ok text.
Proof. unfold message_write. intros H. apply bind_ok in H as (o & _ & H). apply bind_ok in H as (b & _ & H). eauto. Qed.
Lemma hash_valid_known h : In h hashes -> hash_valid h = true.
Proof. intros I. unfold hashes in I. cbn [In] in I. decompose [or] I; subst; try contradiction; reflexivity. Qed.
Lemma valid_known name data sym comp mdc s sp shash : In sym offered -> In comp [0; 1; 2] -> In shash hashes -> enc_valid (mkEnc name data sym comp mdc s sp shash) = true.
Proof.
  intros A B C. unfold enc_valid. cbn [e_sym e_comp e_hash]. rewrite (hash_valid_known _ C).
  assert (sym_valid sym = true) as -> by (unfold offered in A; cbn [In] in A; decompose [or] A; subst; try contradiction; reflexivity).
  cbn [In] in B. decompose [or] B; subst; try contradiction; reflexivity.
Qed.
(** What is put behind a message that prints as [d]. *)
Lemma plain_literals sep a : literals sep (g_packets (m_pgp (plain_message a))) = Ok (e_data a ++ sep ++ []).
Proof. reflexivity. Qed.

(** Data encrypted with a passphrase, as the command line says, comes back. *)
Theorem C86_sym_partial : forall w items rest f pass data comp sym khash shash x draws unzip',
  calls cli_encrypt_sym items rest [f; pass] -> w_files w f = Some data ->
  In (given items (str "-c") (str "ZLIB"), comp) compression_names -> In (given items (str "--sym") (str "AES256"), sym) cipher_names ->
  In (given items (str "--khash") (str "SHA1"), khash) hash_names -> In (given items (str "--shash") (str "SHA1"), shash) hash_names ->
  given items (str "--sign") [] = [] -> flag items (str "-a") true = true ->
  octets (w_rnd w) -> 8 + N.of_nat (block_octets sym) <= len (w_rnd w) ->
  let a := mkEnc f data sym comp (flag items (str "--mdc") true) None (given items (str "-p") []) shash in
  literal_fits (w_zip w) unzip' a ->
  to_encrypt (w_zip w) (w_unzip w) (w_fuel w) a (w_now w) (w_now' w) (w_draws w) = Ok (Some x, draws) -> octets x -> readable_length NEW (encrypted_size a (len x)) ->
  exists m text, encrypt_sym (w_zip w) (w_unzip w) (w_fuel w) a pass khash (w_now w) (w_now' w) (w_rnd w) (w_draws w) = Ok m /\
    message_write (w_zip w) m ArmorYes = Ok text /\ prints w (str "encrypt-sym") items rest (text ++ [10]) /\
    (forall w' fuel' items' rest' f', w_unzip w' = unzip' -> w_fuel w' = (2 + fuel')%nat -> calls cli_decrypt_sym items' rest' [f'; pass] -> given items' (str "-s") [] = [] -> w_files w' f' = Some (text ++ [10]) ->
     prints w' (str "decrypt-sym") items' rest' (data ++ [10; 10; 10])).
Proof.
  intros w items rest f pass data comp sym khash shash x draws unzip' CA F C S KH SH NS FA OR LR a LF TE OX RL.
  destruct (cipher_known _ _ S) as [S1 S2]. destruct (hash_known _ _ KH) as [K1 K2]. destruct (hash_known _ _ SH) as [H1 H2]. destruct (compression_known _ _ C) as [C1 C2].
  destruct numbers_unique as (U1 & U2 & U3).
  destruct (C48_whole_partial (w_zip w) (w_unzip w) unzip' unzip' (w_fuel w) 0 2 a pass khash (w_now w) (w_now' w) (w_rnd w) (w_draws w) x draws) as (m & text & _ & E & W & _); auto.
  { now apply valid_known. }
  exists m, text. split; [exact E|]. split; [exact W|]. split.
  - destruct (calls_runs w cli_encrypt_sym uses_encrypt_sym items rest _ ltac:(found) CA) as (p & M & A & P).
    unfold prints. change (str "encrypt-sym") with (m_name cli_encrypt_sym). rewrite P. change (function_of w cli_encrypt_sym) with (run_encrypt_sym w). unfold run_encrypt_sym.
    rewrite (with_file_ok w p "file" f data) by (try exact F; now apply (A 0%nat)).
    rewrite (with_number_ok _ p "-c" _ comp _ U1 (arg_given _ _ _ _ "-c" (str "ZLIB") M ltac:(found)) C1).
    rewrite (with_number_ok _ p "--sym" _ sym _ U2 (arg_given _ _ _ _ "--sym" (str "AES256") M ltac:(found)) S1).
    rewrite (with_number_ok _ p "--khash" _ khash _ U3 (arg_given _ _ _ _ "--khash" (str "SHA1") M ltac:(found)) K1).
    rewrite (with_number_ok _ p "--shash" _ shash _ U3 (arg_given _ _ _ _ "--shash" (str "SHA1") M ltac:(found)) H1).
    rewrite with_signer_none by (rewrite (arg_given _ _ _ _ "--sign" [] M) by found; now rewrite NS).
    rewrite (A 0%nat "file"%string f eq_refl eq_refl). cbn [bind]. rewrite (flag_at _ _ _ _ "--mdc" true M) by found. cbn [bind].
    rewrite (arg_given _ _ _ _ "-p" [] M) by found. cbn [bind]. rewrite (A 1%nat "passphrase"%string pass eq_refl eq_refl). cbn [bind].
    rewrite (armored_at _ _ _ _ true M) by found. cbn [bind]. rewrite FA. fold a. rewrite E. cbn [bind]. rewrite W. reflexivity.
  - intros w' fuel' items' rest' f' UZ FU CD NG FF. destruct (written_armor _ _ _ W) as (b & AR).
    destruct (C48_whole_partial (w_zip w) (w_unzip w) unzip' unzip' (w_fuel w) fuel' (2 + fuel') a pass khash (w_now w) (w_now' w) (w_rnd w) (w_draws w) x draws) as (m1 & text1 & m' & E1 & W1 & R & D); auto.
    { now apply valid_known. }
    assert (m1 = m) as -> by congruence. assert (text1 = text) as -> by congruence. subst unzip'.
    destruct (calls_runs w' cli_decrypt_sym uses_decrypt_sym items' rest' _ ltac:(found) CD) as (p & M & A & P).
    unfold prints. change (str "decrypt-sym") with (m_name cli_decrypt_sym). rewrite P. change (function_of w' cli_decrypt_sym) with (run_decrypt_sym w'). unfold run_decrypt_sym.
    rewrite (with_file_ok w' p "file" f' (text ++ [10])) by (try exact FF; now apply (A 0%nat)).
    rewrite with_signer_none by (rewrite (arg_given _ _ _ _ "-s" [] M) by found; now rewrite NG).
    rewrite (message_read_newline _ _ 1 _ _ _ ltac:(unfold armor_type_ok; lia) AR). rewrite FU, R. cbn [bind].
    rewrite (A 1%nat "passphrase"%string pass eq_refl eq_refl). cbn [bind]. rewrite D. cbn [bind]. unfold show_decrypted.
    change (message_meaningful false (m_pgp (plain_message a))) with (@Ok bool true). cbn [bind negb]. rewrite plain_literals. cbn [bind app].
    change (signature_lines (g_packets (m_pgp (plain_message a)))) with (@Ok bytes []). cbn [bind print]. rewrite <- !app_assoc. reflexivity.
Qed.

(** With a signature, and a key to check it with. *)
Theorem C86_sym_signed_partial : forall w fuel items rest f pass data comp sym khash shash fs ds pri k sec vals x draws unzip' g,
  calls cli_encrypt_sym items rest [f; pass] -> w_files w f = Some data -> w_fuel w = S fuel ->
  In (given items (str "-c") (str "ZLIB"), comp) compression_names -> In (given items (str "--sym") (str "AES256"), sym) cipher_names ->
  In (given items (str "--khash") (str "SHA1"), khash) hash_names -> In (given items (str "--shash") (str "SHA1"), shash) hash_names ->
  given items (str "--sign") [] = fs -> fs <> [] -> w_files w fs = Some ds -> secret_load ds = Ok pri -> secret_meaningful pri = Ok true -> flag items (str "-a") true = true ->
  octets (w_rnd w) -> 8 + N.of_nat (block_octets sym) <= len (w_rnd w) ->
  let a := mkEnc f data sym comp (flag items (str "--mdc") true) (Some pri) (given items (str "-p") []) shash in
  (comp = 0 \/ comp <> 0 /\ signed_compresses (w_zip w) (w_unzip w) unzip' (w_fuel w) a pri (w_now w) (w_now' w) (w_draws w)) ->
  matching (mkArgs pri (given items (str "-p") []) 4 shash) k sec vals g -> Forall moderate (k_mpi k) ->
  w_now w < 2 ^ 32 -> w_now' w < 2 ^ 32 -> len f < 256 -> readable_length NEW (6 + len f + len data) ->
  to_encrypt (w_zip w) (w_unzip w) (w_fuel w) a (w_now w) (w_now' w) (w_draws w) = Ok (Some x, draws) -> octets x -> readable_length NEW (encrypted_size a (len x)) ->
  exists m text, encrypt_sym (w_zip w) (w_unzip w) (w_fuel w) a pass khash (w_now w) (w_now' w) (w_rnd w) (w_draws w) = Ok m /\
    message_write (w_zip w) m ArmorYes = Ok text /\ prints w (str "encrypt-sym") items rest (text ++ [10]) /\
    (forall w' fuel' items' rest' f' fk dk id, w_unzip w' = unzip' -> w_fuel w' = (2 + fuel')%nat -> calls cli_decrypt_sym items' rest' [f'; pass] -> given items' (str "-s") [] = fk -> fk <> [] -> w_files w' fk = Some dk ->
     public_load dk = Ok g -> public_meaningful g = Ok true -> keyid g = Ok id -> w_files w' f' = Some (text ++ [10]) ->
     prints w' (str "decrypt-sym") items' rest' (data ++ [10; 10] ++ str "Message was signed by " ++ [34] ++ fk ++ [34] ++ str " (" ++ hexlify id ++ str ")." ++ [10; 10])).
Proof.
  intros w fuel items rest f pass data comp sym khash shash fs ds pri k sec vals x draws unzip' g CA F FU C S KH SH NS NE FS LS MS FA OR LR a SC MA MO T T' LF LD TE OX RL.
  destruct (cipher_known _ _ S) as [S1 S2]. destruct (hash_known _ _ KH) as [K1 K2]. destruct (hash_known _ _ SH) as [H1 H2]. destruct (compression_known _ _ C) as [C1 C2].
  destruct numbers_unique as (U1 & U2 & U3). rewrite FU in SC, TE.
  destruct (C48_whole_signed_partial (w_zip w) (w_unzip w) unzip' unzip' fuel 0 2 a pass khash pri k sec vals g (w_now w) (w_now' w) (w_rnd w) (w_draws w) x draws) as (m & text & _ & _ & _ & _ & E & W & _); auto.
  { now apply valid_known. }
  rewrite <- FU in E.
  exists m, text. split; [exact E|]. split; [exact W|]. split.
  - destruct (calls_runs w cli_encrypt_sym uses_encrypt_sym items rest _ ltac:(found) CA) as (p & M & A & P).
    unfold prints. change (str "encrypt-sym") with (m_name cli_encrypt_sym). rewrite P. change (function_of w cli_encrypt_sym) with (run_encrypt_sym w). unfold run_encrypt_sym.
    rewrite (with_file_ok w p "file" f data) by (try exact F; now apply (A 0%nat)).
    rewrite (with_number_ok _ p "-c" _ comp _ U1 (arg_given _ _ _ _ "-c" (str "ZLIB") M ltac:(found)) C1).
    rewrite (with_number_ok _ p "--sym" _ sym _ U2 (arg_given _ _ _ _ "--sym" (str "AES256") M ltac:(found)) S1).
    rewrite (with_number_ok _ p "--khash" _ khash _ U3 (arg_given _ _ _ _ "--khash" (str "SHA1") M ltac:(found)) K1).
    rewrite (with_number_ok _ p "--shash" _ shash _ U3 (arg_given _ _ _ _ "--shash" (str "SHA1") M ltac:(found)) H1).
    rewrite (with_signer_ok w _ _ p "--sign" fs ds pri) by (try assumption; rewrite (arg_given _ _ _ _ "--sign" [] M) by found; now rewrite NS).
    rewrite (A 0%nat "file"%string f eq_refl eq_refl). cbn [bind]. rewrite (flag_at _ _ _ _ "--mdc" true M) by found. cbn [bind].
    rewrite (arg_given _ _ _ _ "-p" [] M) by found. cbn [bind]. rewrite (A 1%nat "passphrase"%string pass eq_refl eq_refl). cbn [bind].
    rewrite (armored_at _ _ _ _ true M) by found. cbn [bind]. rewrite FA. fold a. rewrite E. cbn [bind]. rewrite W. reflexivity.
  - intros w' fuel' items' rest' f' fk dk id UZ FU' CD NG NK FD LG MG KG FF. destruct (written_armor _ _ _ W) as (b & AR). rewrite FU in E.
    destruct (C48_whole_signed_partial (w_zip w) (w_unzip w) unzip' unzip' fuel fuel' (2 + fuel') a pass khash pri k sec vals g (w_now w) (w_now' w) (w_rnd w) (w_draws w) x draws) as (m1 & text1 & m' & m2 & op & s & E1 & W1 & R & D & GP & V); auto.
    { now apply valid_known. }
    assert (m1 = m) as -> by congruence. assert (text1 = text) as -> by congruence. subst unzip'.
    destruct (calls_runs w' cli_decrypt_sym uses_decrypt_sym items' rest' _ ltac:(found) CD) as (p & M & A & P).
    unfold prints. change (str "decrypt-sym") with (m_name cli_decrypt_sym). rewrite P. change (function_of w' cli_decrypt_sym) with (run_decrypt_sym w'). unfold run_decrypt_sym.
    rewrite (with_file_ok w' p "file" f' (text ++ [10])) by (try exact FF; now apply (A 0%nat)).
    rewrite (with_signer_ok w' _ _ p "-s" fk dk g) by (try assumption; rewrite (arg_given _ _ _ _ "-s" [] M) by found; now rewrite NG).
    rewrite (message_read_newline _ _ 1 _ _ _ ltac:(unfold armor_type_ok; lia) AR). rewrite FU', R. cbn [bind].
    rewrite (A 1%nat "passphrase"%string pass eq_refl eq_refl). cbn [bind]. rewrite D. cbn [bind]. unfold show_decrypted.
    pose proof V as V1. cbn [verify_binary] in V1. apply bind_ok in V1 as (b1 & _ & V1). destruct b1; [|discriminate]. cbn [negb] in V1. apply bind_ok in V1 as (b2 & V2 & V1). destruct b2; [|discriminate].
    assert (OT : p_tag op =? 11 = false).
    { destruct (p_tag op =? 11) eqn:T11; [|reflexivity]. apply N.eqb_eq in T11. rewrite GP in V2. cbn [map p_tag] in V2. rewrite T11 in V2. unfold message_match in V2.
      exfalso. revert V2. clear. destruct (g_type (m_pgp m2) =? 1); vm_compute; discriminate. }
    unfold message_meaningful. rewrite V2. cbn [bind negb]. rewrite GP. cbn [literals p_tag]. rewrite OT. change (11 =? 11) with true. change (2 =? 11) with false. cbv iota. cbn [as_literal p_body bind app].
    change (2 + fuel')%nat with (Datatypes.S (Datatypes.S fuel')) in *. rewrite ?FU'. rewrite (verify_binary_more _ _ _ _ _ V). cbn [bind]. rewrite (arg_given _ _ _ _ "-s" [] M) by found. rewrite NG. cbn [bind]. rewrite KG. cbn [bind print].
    change ((0 =? -1)%Z) with false. cbv iota. unfold signed_by, quoted, maybe_not. change ((1 =? 1)%Z) with true. cbv iota. change (str "Message was signed by ") with (str "Message was" ++ str " signed by ").
    rewrite app_nil_r. cbn [app]. change (e_data a) with data. repeat (rewrite <- !app_assoc; cbn [app]). reflexivity.
Qed.

(** With a public key. *)
Theorem C86_pka_partial : forall w items rest fp f key data pub comp sym hash m k id sec pri vals n more pass unzip' ds,
  calls cli_encrypt_pka items rest [fp; f] -> w_files w fp = Some key -> w_files w f = Some data -> public_load key = Ok pub ->
  In (given items (str "-c") (str "ZLIB"), comp) compression_names -> In (given items (str "--sym") (str "AES256"), sym) cipher_names ->
  In (given items (str "-h") (str "SHA1"), hash) hash_names -> given items (str "--sign") [] = [] -> flag items (str "-a") true = true ->
  let a := mkEnc f data sym comp (flag items (str "--mdc") true) None (given items (str "-p") []) hash in
  revoke_check pub = Ok 0%Z -> encrypts_with pub k ->
  secret_load ds = Ok pri -> secret_meaningful pri = Ok true -> decrypts_with pri id k sec -> decrypt_secret_keys sec pass = Ok vals -> cipher_pair (k_pka k) vals (k_mpi k) ->
  k_mpi k = n :: more -> moderate n -> N.of_nat (key_octets sym) + 14 <= len (mpitoraw n) -> len id = 8 -> octets id -> octets (w_rnd w) ->
  literal_fits (w_zip w) unzip' a ->
  (forall x rest, to_encrypt (w_zip w) (w_unzip w) (w_fuel w) a (w_now w) (w_now' w) (w_draws w) = Ok (Some x, rest) -> octets x /\ readable_length NEW (encrypted_size a (len x))) ->
  encrypt_pka (w_zip w) (w_unzip w) (w_fuel w) a pub (w_now w) (w_now' w) (w_rnd w) (w_draws w) = Ok m -> g_packets (m_pgp m) <> [] -> long_last m ->
  exists text, message_write (w_zip w) m ArmorYes = Ok text /\ prints w (str "encrypt-pka") items rest (text ++ [10]) /\
    (forall w' fuel' items' rest' fs f', w_unzip w' = unzip' -> w_fuel w' = (2 + fuel')%nat -> calls cli_decrypt_pka items' rest' [fs; pass; f'] -> given items' (str "-s") [] = [] ->
     w_files w' fs = Some ds -> w_files w' f' = Some (text ++ [10]) ->
     prints w' (str "decrypt-pka") items' rest' (data ++ [10; 10])).
Proof.
  intros w items rest fp f key data pub comp sym hash m k id sec pri vals n more pass unzip' ds CA FP F LP C S SH NS FA a RC EW LS MS DW DS CP KM MN BG LI OI OR LF TE E NE LL.
  destruct (cipher_known _ _ S) as [S1 S2]. destruct (hash_known _ _ SH) as [H1 H2]. destruct (compression_known _ _ C) as [C1 C2].
  destruct numbers_unique as (U1 & U2 & U3).
  assert (MP : meaningful pub = Ok true).
  { unfold public_load, key_load in LP. apply bind_ok in LP as (g0 & _ & LP). apply bind_ok in LP as (t & _ & LP). cbv zeta in LP. apply bind_ok in LP as (b & MB & LP). destruct b; [|discriminate]. apply Ok_inj in LP. now subst pub. }
  assert (V : enc_valid a = true) by now apply valid_known.
  destruct (C47_whole_partial (w_zip w) (w_unzip w) unzip' unzip' (w_fuel w) 0 2 a pub pri k sec id vals pass (w_now w) (w_now' w) (w_rnd w) (w_draws w) n more m) as (text & _ & W & _); auto.
  assert (KI : get_keyid k = Ok id) by (destruct DW as (? & ? & ? & _ & _ & _ & KI & _); exact KI).
  destruct (pka_shape _ _ _ _ _ _ _ _ _ _ _ _ V MP RC EW KI E NE) as (mpi & y & MC & GT & GP).
  assert (MM : message_meaningful false (m_pgp m) = Ok true) by (unfold message_meaningful; rewrite GT, GP; destruct (e_mdc a); vm_compute; reflexivity).
  exists text. split; [exact W|]. split.
  - destruct (calls_runs w cli_encrypt_pka uses_encrypt_pka items rest _ ltac:(found) CA) as (p & M & A & P).
    unfold prints. change (str "encrypt-pka") with (m_name cli_encrypt_pka). rewrite P. change (function_of w cli_encrypt_pka) with (run_encrypt_pka w). unfold run_encrypt_pka.
    rewrite (with_file_ok w p "public-key" fp key) by (try exact FP; now apply (A 0%nat)).
    rewrite (with_file_ok w p "file" f data) by (try exact F; now apply (A 1%nat)).
    rewrite (with_number_ok _ p "-h" _ hash _ U3 (arg_given _ _ _ _ "-h" (str "SHA1") M ltac:(found)) H1).
    rewrite (with_number_ok _ p "-c" _ comp _ U1 (arg_given _ _ _ _ "-c" (str "ZLIB") M ltac:(found)) C1).
    rewrite (with_number_ok _ p "--sym" _ sym _ U2 (arg_given _ _ _ _ "--sym" (str "AES256") M ltac:(found)) S1).
    rewrite with_signer_none by (rewrite (arg_given _ _ _ _ "--sign" [] M) by found; now rewrite NS).
    rewrite (A 1%nat "file"%string f eq_refl eq_refl). cbn [bind]. rewrite (flag_at _ _ _ _ "--mdc" true M) by found. cbn [bind].
    rewrite (arg_given _ _ _ _ "-p" [] M) by found. cbn [bind]. rewrite (armored_at _ _ _ _ true M) by found. cbn [bind]. rewrite FA, LP. cbn [bind]. fold a. rewrite E. cbn [bind].
    unfold print_if. rewrite MM. cbn [bind]. rewrite W. reflexivity.
  - intros w' fuel' items' rest' fs f' UZ FU CD NG FS FF. destruct (written_armor _ _ _ W) as (b & AR).
    destruct (C47_whole_partial (w_zip w) (w_unzip w) unzip' unzip' (w_fuel w) fuel' (2 + fuel') a pub pri k sec id vals pass (w_now w) (w_now' w) (w_rnd w) (w_draws w) n more m) as (text1 & m' & W1 & R & D); auto.
    assert (text1 = text) as -> by congruence. subst unzip'.
    destruct (calls_runs w' cli_decrypt_pka uses_decrypt_pka items' rest' _ ltac:(found) CD) as (p & M & A & P).
    unfold prints. change (str "decrypt-pka") with (m_name cli_decrypt_pka). rewrite P. change (function_of w' cli_decrypt_pka) with (run_decrypt_pka w'). unfold run_decrypt_pka.
    rewrite (with_file_ok w' p "private-key" fs ds) by (try exact FS; now apply (A 0%nat)).
    rewrite (with_file_ok w' p "file" f' (text ++ [10])) by (try exact FF; now apply (A 2%nat)).
    rewrite with_signer_none by (rewrite (arg_given _ _ _ _ "-s" [] M) by found; now rewrite NG).
    rewrite LS. cbn [bind]. rewrite (message_read_newline _ _ 1 _ _ _ ltac:(unfold armor_type_ok; lia) AR). rewrite FU, R. cbn [bind].
    rewrite (A 1%nat "passphrase"%string pass eq_refl eq_refl). cbn [bind]. rewrite D. cbn [bind]. unfold show_decrypted.
    change (message_meaningful false (m_pgp (plain_message a))) with (@Ok bool true). cbn [bind negb]. rewrite plain_literals. cbn [bind app].
    change (signature_lines (g_packets (m_pgp (plain_message a)))) with (@Ok bytes []). cbn [bind print]. rewrite <- !app_assoc. reflexivity.
Qed.

(** ** What does not work *)
Lemma unsigned_nothing zip unzip fuel f data sym comp mdc pri sp shash pass kh now now' rnd draws :
  In sym offered -> In comp [0; 1; 2] -> In shash hashes -> In kh hashes -> 8 <= len rnd -> secret_meaningful pri = Ok true -> find_signing_key pri = Ok None ->
  encrypt_sym zip unzip fuel (mkEnc f data sym comp mdc (Some pri) sp shash) pass kh now now' rnd draws = Ok message_new.
Proof.
  intros S C H KH R M FS. unfold encrypt_sym. rewrite valid_known by assumption. cbn [negb]. unfold rand_bytes at 1. replace (len rnd <? 8) with false by lia. cbn [bind e_sym].
  destruct (offered_tables _ S) as (TB & TK & _ & N0 & BS & KS). set (s := mkS2k S2K3 3 kh (firstn (N.to_nat 8) rnd) 96).
  assert (SF : s2k_fits s) by (split; [reflexivity|]; split; [cbn [s s2k_salt]; rewrite len_firstn; lia|reflexivity]).
  destruct (s2k_run_ok s pass (N.of_nat (key_octets sym)) SF KH) as (k & RK & LK & _). unfold get_session_key. rewrite TK. cbn [bind]. rewrite shiftr_8, RK. cbn [bind].
  rewrite len_cons, sub64_small by (unfold two64; lia). rewrite (substr_app_end [sym] k); [|reflexivity|lia]. cbn [bind].
  unfold encrypt_data. rewrite valid_known by assumption. cbn [negb]. unfold to_encrypt. cbn [e_signer e_pass e_hash e_filename e_data e_comp].
  unfold sign_binary, args_valid. cbn [a_pri a_version a_hash]. rewrite M. cbn [bind]. rewrite (hash_valid_known _ H). change (true && ((4 =? 3) || (4 =? 4)) && true) with true. cbn [negb].
  rewrite FS. reflexivity.
Qed.
(** A signature that cannot be made: the command prints an empty message and reports success;
    reading that message is undefined. *)
Theorem C86_failed_refuted : forall w items rest f pass data comp sym khash shash fs ds pri,
  calls cli_encrypt_sym items rest [f; pass] -> w_files w f = Some data ->
  In (given items (str "-c") (str "ZLIB"), comp) compression_names -> In (given items (str "--sym") (str "AES256"), sym) cipher_names ->
  In (given items (str "--khash") (str "SHA1"), khash) hash_names -> In (given items (str "--shash") (str "SHA1"), shash) hash_names ->
  given items (str "--sign") [] = fs -> fs <> [] -> w_files w fs = Some ds -> secret_load ds = Ok pri -> secret_meaningful pri = Ok true -> find_signing_key pri = Ok None ->
  flag items (str "-a") true = true -> 8 <= len (w_rnd w) ->
  exists text, prints w (str "encrypt-sym") items rest text /\
    forall w' items' rest' f', calls cli_decrypt_sym items' rest' [f'; pass] -> given items' (str "-s") [] = [] -> w_files w' f' = Some text ->
      program w' (str "decrypt-sym" :: line items' rest') = Some UB.
Proof.
  intros w items rest f pass data comp sym khash shash fs ds pri CA F C S KH SH NS NE FS LS MS ND FA LR.
  destruct (cipher_known _ _ S) as [S1 S2]. destruct (hash_known _ _ KH) as [K1 K2]. destruct (hash_known _ _ SH) as [H1 H2]. destruct (compression_known _ _ C) as [C1 C2].
  destruct numbers_unique as (U1 & U2 & U3).
  destruct (C14_empty_refuted 1 [] ltac:(lia) ltac:(constructor)) as (text & W & R).
  assert (AR : armor 1 [] [] = Ok text) by exact W.
  exists (text ++ [10]). split.
  - destruct (calls_runs w cli_encrypt_sym uses_encrypt_sym items rest _ ltac:(found) CA) as (p & M & A & P).
    unfold prints. change (str "encrypt-sym") with (m_name cli_encrypt_sym). rewrite P. change (function_of w cli_encrypt_sym) with (run_encrypt_sym w). unfold run_encrypt_sym.
    rewrite (with_file_ok w p "file" f data) by (try exact F; now apply (A 0%nat)).
    rewrite (with_number_ok _ p "-c" _ comp _ U1 (arg_given _ _ _ _ "-c" (str "ZLIB") M ltac:(found)) C1).
    rewrite (with_number_ok _ p "--sym" _ sym _ U2 (arg_given _ _ _ _ "--sym" (str "AES256") M ltac:(found)) S1).
    rewrite (with_number_ok _ p "--khash" _ khash _ U3 (arg_given _ _ _ _ "--khash" (str "SHA1") M ltac:(found)) K1).
    rewrite (with_number_ok _ p "--shash" _ shash _ U3 (arg_given _ _ _ _ "--shash" (str "SHA1") M ltac:(found)) H1).
    rewrite (with_signer_ok w _ _ p "--sign" fs ds pri) by (try assumption; rewrite (arg_given _ _ _ _ "--sign" [] M) by found; now rewrite NS).
    rewrite (A 0%nat "file"%string f eq_refl eq_refl). cbn [bind]. rewrite (flag_at _ _ _ _ "--mdc" true M) by found. cbn [bind].
    rewrite (arg_given _ _ _ _ "-p" [] M) by found. cbn [bind]. rewrite (A 1%nat "passphrase"%string pass eq_refl eq_refl). cbn [bind].
    rewrite (armored_at _ _ _ _ true M) by found. cbn [bind]. rewrite FA. rewrite unsigned_nothing by assumption. cbn [bind].
    change (message_write (w_zip w) message_new ArmorYes) with (armor 1 [] []). rewrite AR. reflexivity.
  - intros w' items' rest' f' CD NG FF.
    destruct (calls_runs w' cli_decrypt_sym uses_decrypt_sym items' rest' _ ltac:(found) CD) as (p & M & A & P).
    change (str "decrypt-sym") with (m_name cli_decrypt_sym). rewrite P. change (function_of w' cli_decrypt_sym) with (run_decrypt_sym w'). unfold run_decrypt_sym.
    rewrite (with_file_ok w' p "file" f' (text ++ [10])) by (try exact FF; now apply (A 0%nat)).
    rewrite with_signer_none by (rewrite (arg_given _ _ _ _ "-s" [] M) by found; now rewrite NG).
    rewrite (message_read_newline _ _ 1 _ _ _ ltac:(unfold armor_type_ok; lia) AR). unfold message_read. rewrite R. reflexivity.
Qed.
(** --sym PLAINTEXT ends the program with an exception. *)
Theorem C86_plaintext_refuted : forall w items rest f pass data comp khash shash,
  calls cli_encrypt_sym items rest [f; pass] -> w_files w f = Some data ->
  In (given items (str "-c") (str "ZLIB"), comp) compression_names -> given items (str "--sym") (str "AES256") = str "PLAINTEXT" ->
  In (given items (str "--khash") (str "SHA1"), khash) hash_names -> In (given items (str "--shash") (str "SHA1"), shash) hash_names ->
  given items (str "--sign") [] = [] -> 8 <= len (w_rnd w) -> aborts w (str "encrypt-sym") items rest.
Proof.
  intros w items rest f pass data comp khash shash CA F C S KH SH NS LR.
  destruct (hash_known _ _ KH) as [K1 K2]. destruct (hash_known _ _ SH) as [H1 H2]. destruct (compression_known _ _ C) as [C1 C2].
  destruct numbers_unique as (U1 & U2 & U3).
  destruct (calls_runs w cli_encrypt_sym uses_encrypt_sym items rest _ ltac:(found) CA) as (p & M & A & P).
  unfold aborts. exists EOutOfRange. change (str "encrypt-sym") with (m_name cli_encrypt_sym). rewrite P. change (function_of w cli_encrypt_sym) with (run_encrypt_sym w). unfold run_encrypt_sym.
  rewrite (with_file_ok w p "file" f data) by (try exact F; now apply (A 0%nat)).
  rewrite (with_number_ok _ p "-c" _ comp _ U1 (arg_given _ _ _ _ "-c" (str "ZLIB") M ltac:(found)) C1).
  rewrite (with_number_ok _ p "--sym" (str "PLAINTEXT") 0 _ U2); [|rewrite <- S; apply (arg_given _ _ _ _ "--sym" (str "AES256") M); found|now left].
  rewrite (with_number_ok _ p "--khash" _ khash _ U3 (arg_given _ _ _ _ "--khash" (str "SHA1") M ltac:(found)) K1).
  rewrite (with_number_ok _ p "--shash" _ shash _ U3 (arg_given _ _ _ _ "--shash" (str "SHA1") M ltac:(found)) H1).
  rewrite with_signer_none by (rewrite (arg_given _ _ _ _ "--sign" [] M) by found; now rewrite NS).
  rewrite (A 0%nat "file"%string f eq_refl eq_refl). cbn [bind]. rewrite (flag_at _ _ _ _ "--mdc" true M) by found. cbn [bind].
  rewrite (arg_given _ _ _ _ "-p" [] M) by found. cbn [bind]. rewrite (A 1%nat "passphrase"%string pass eq_refl eq_refl). cbn [bind].
  rewrite (armored_at _ _ _ _ true M) by found. cbn [bind]. unfold encrypt_sym, enc_valid. cbn [e_sym e_comp e_hash]. rewrite (hash_valid_known _ H2).
  replace (comp_valid comp) with true by (cbn [In] in C2; decompose [or] C2; subst; try contradiction; reflexivity). change (negb (sym_valid 0 && true && true)) with false. cbv iota.
  unfold rand_bytes. replace (len (w_rnd w) <? 8) with false by lia. reflexivity.
Qed.
(** A name that is not in the tables is refused; BZIP2, which the help text offers, is one. *)
Theorem C86_bzip2_refuted : forall w items rest f pass data,
  calls cli_encrypt_sym items rest [f; pass] -> w_files w f = Some data -> given items (str "-c") (str "ZLIB") = str "BZIP2" ->
  refuses w (str "encrypt-sym") items rest.
Proof.
  intros w items rest f pass data CA F C. destruct (calls_runs w cli_encrypt_sym uses_encrypt_sym items rest _ ltac:(found) CA) as (p & M & A & P).
  exists cli_encrypt_sym, uses_encrypt_sym, []. split; [found|]. split; [reflexivity|]. change (str "encrypt-sym") with (m_name cli_encrypt_sym). rewrite P.
  change (function_of w cli_encrypt_sym) with (run_encrypt_sym w). unfold run_encrypt_sym.
  rewrite (with_file_ok w p "file" f data) by (try exact F; now apply (A 0%nat)).
  rewrite (with_number_none _ p "-c" (str "BZIP2")); [reflexivity|rewrite <- C; apply (arg_given _ _ _ _ "-c" (str "ZLIB") M); found|].
  vm_compute. intros X. decompose [or] X; try discriminate; contradiction.
Qed.
(** A file that cannot be opened, and names nobody knows. *)
Theorem C86_refused : forall w items rest f pass, calls cli_encrypt_sym items rest [f; pass] ->
  w_files w f = None \/
  (forall n, ~ In (given items (str "--sym") (str "AES256"), n) cipher_names) /\ given items (str "--sym") (str "AES256") <> str "PLAINTEXT" \/
  (forall n, ~ In (given items (str "--khash") (str "SHA1"), n) hash_names) \/ (forall n, ~ In (given items (str "--shash") (str "SHA1"), n) hash_names) \/
  given items (str "--sign") [] <> [] /\ w_files w (given items (str "--sign") []) = None ->
  refuses w (str "encrypt-sym") items rest.
Proof.
  intros w items rest f pass CA H. destruct (calls_runs w cli_encrypt_sym uses_encrypt_sym items rest _ ltac:(found) CA) as (p & M & A & P).
  assert (FD : forall t n, find_key t n = None \/ exists x : N, find_key t n = Some x) by (intros t n; destruct (find_key t n); eauto).
  assert (SOME : forall (t : list (bytes * N)) n x, find_key t n = Some x -> In (n, x) t).
  { induction t as [|[b c] t IH]; intros n x E; [discriminate|]. cbn [find_key] in E. destruct (beq b n) eqn:B; [apply beq_eq in B; injection E as ->; subst; now left|right; auto]. }
  enough (run_encrypt_sym w p = fail) as E.
  { exists cli_encrypt_sym, uses_encrypt_sym, []. split; [found|]. split; [reflexivity|]. change (str "encrypt-sym") with (m_name cli_encrypt_sym). rewrite P.
    change (function_of w cli_encrypt_sym) with (run_encrypt_sym w). rewrite E. reflexivity. }
  unfold run_encrypt_sym, with_file, with_number at 1 2 3 4, with_signer. rewrite (A 0%nat "file"%string f eq_refl eq_refl). cbn [bind]. destruct (w_files w f) as [data|]; [|reflexivity].
  rewrite (arg_given _ _ _ _ "-c" (str "ZLIB") M) by found. cbn [bind]. destruct (find_key compression_number _); [|reflexivity].
  rewrite (arg_given _ _ _ _ "--sym" (str "AES256") M) by found. cbn [bind]. destruct (find_key sym_number _) as [sy|] eqn:E1; [|reflexivity].
  rewrite (arg_given _ _ _ _ "--khash" (str "SHA1") M) by found. cbn [bind]. destruct (find_key hash_number (given items (str "--khash") _)) as [kh|] eqn:E2; [|reflexivity].
  rewrite (arg_given _ _ _ _ "--shash" (str "SHA1") M) by found. cbn [bind]. destruct (find_key hash_number (given items (str "--shash") _)) as [sh|] eqn:E3; [|reflexivity].
  rewrite (arg_given _ _ _ _ "--sign" [] M) by found. cbn [bind]. apply SOME in E1, E2, E3.
  destruct H as [H|[[H1 H2]|[H|[H|[H1 H2]]]]]; [discriminate| | | |].
  - destruct E1 as [E1|E1]; [exfalso; apply H2; now injection E1|]. destruct (H1 sy). exact E1.
  - destruct (H kh). exact E2.
  - destruct (H sh). exact E3.
  - destruct (given items (str "--sign") []); [contradiction|]. now rewrite H2.
Qed.
(** Output that is not armored ends with a newline, which no command reads: a public key
    extracted in that form cannot be listed. *)
Theorem C86_binary_refuted : forall w items rest f ds pri g body, calls cli_extract_public items rest [f] -> flag items (str "-a") true = false ->
  w_files w f = Some ds -> secret_load ds = Ok pri -> secret_meaningful pri = Ok true -> get_public_key pri = Ok g -> sequence 0 (g_packets g) ->
  pgp_write g ArmorNo = Ok body -> len body + 1 < 2 ^ 63 -> ~ line_begins armor_begin (body ++ [10]) ->
  prints w (str "extract-public") items rest (body ++ [10]) /\
  forall w' items' rest' f', calls cli_list items' rest' [f'] -> w_files w' f' = Some (body ++ [10]) -> aborts w' (str "list") items' rest'.
Proof.
  intros w items rest f ds pri g body CA FA F LS MS GP SQ W L NB. split.
  - destruct (calls_runs w cli_extract_public uses_extract_public items rest _ ltac:(found) CA) as (p & M & A & P).
    unfold prints. change (str "extract-public") with (m_name cli_extract_public). rewrite P. change (function_of w cli_extract_public) with (run_extract_public w). unfold run_extract_public.
    rewrite (with_file_ok w p "private-key" f ds) by (try exact F; now apply (A 0%nat)). rewrite LS. cbn [bind]. rewrite (armored_at _ _ _ _ true M) by found. cbn [bind]. rewrite FA.
    unfold print_if. rewrite MS. cbn [bind]. rewrite GP. cbn [bind]. rewrite W. reflexivity.
  - intros w' items' rest' f' CL FL. exists ERuntime. destruct (calls_runs w' cli_list uses_list items' rest' _ ltac:(found) CL) as (p & M & A & P).
    change (str "list") with (m_name cli_list). rewrite P. change (function_of w' cli_list) with (run_list w'). unfold run_list.
    rewrite (with_file_ok w' p "key-file" f' (body ++ [10])) by (try exact FL; now apply (A 0%nat)). unfold key_load.
    assert (WB : write_packets (g_packets g) = Ok body) by (unfold pgp_write in W; apply bind_ok in W as (b & WB & W); apply Ok_inj in W; now subst).
    rewrite (binary_newline _ _ _ SQ WB L NB). reflexivity.
Qed.
(** Extracted in armor, it is read as it is. *)
Theorem C86_extract : forall w items rest f ds pri g text, calls cli_extract_public items rest [f] -> flag items (str "-a") true = true ->
  w_files w f = Some ds -> secret_load ds = Ok pri -> secret_meaningful pri = Ok true -> get_public_key pri = Ok g -> pgp_write g ArmorYes = Ok text ->
  prints w (str "extract-public") items rest (text ++ [10]) /\ public_load (text ++ [10]) = public_load text.
Proof.
  intros w items rest f ds pri g text CA FA F LS MS GP W. split.
  - destruct (calls_runs w cli_extract_public uses_extract_public items rest _ ltac:(found) CA) as (p & M & A & P).
    unfold prints. change (str "extract-public") with (m_name cli_extract_public). rewrite P. change (function_of w cli_extract_public) with (run_extract_public w). unfold run_extract_public.
    rewrite (with_file_ok w p "private-key" f ds) by (try exact F; now apply (A 0%nat)). rewrite LS. cbn [bind]. rewrite (armored_at _ _ _ _ true M) by found. cbn [bind]. rewrite FA.
    unfold print_if. rewrite MS. cbn [bind]. rewrite GP. cbn [bind]. rewrite W. reflexivity.
  - unfold pgp_write in W. apply bind_ok in W as (b & _ & W). eapply key_load_newline; [|exact W].
    apply bind_ok in GP as (ps & _ & GP). apply Ok_inj in GP. subst g. unfold armor_type_ok. cbn. lia.
Qed.
Definition toy_machine (fuel : nat) (files : list (bytes * bytes)) (draws : list N) : machine :=
  mkMachine (find_key files) 5 6 (repeat 7 80) draws plus minus fuel (fun _ _ => Some 0) (fun _ => Some 16) (fun _ => None) (fun _ => str "usage") (fun _ _ => UB).
Definition file_of (g : pgp) : bytes := match pgp_write g ArmorYes with Ok t => t | _ => [] end.
Ltac call := try match goal with |- calls ?c ?i ?r ?w => let H := fresh in assert (H : calls c i r w); [clear|exact H] end; split; [repeat (apply Forall_cons; [cbn; repeat split; try discriminate; try tauto; intros X; decompose [or] X; try discriminate; try contradiction|]); apply Forall_nil|split; [reflexivity|eexists; reflexivity]].
Example C86_sym_ex : exists text,
  prints (toy_machine 0 [(str "f", str "hello")] []) (str "encrypt-sym") [Value (str "-c") (str "UNCOMPRESSED"); Word (str "f"); Word (str "pw")] None text /\
  prints (toy_machine 2 [(str "g", text)] []) (str "decrypt-sym") [Word (str "g")] (Some [str "pw"]) (str "hello" ++ [10; 10; 10]).
Proof.
  set (w := toy_machine 0 [(str "f", str "hello")] []).
  assert (T : exists x, to_encrypt plus minus 0 (toy_enc 9 None) 5 6 [] = Ok (Some x, [])) by (eexists; vm_compute; reflexivity). destruct T as (x & T).
  destruct (toy_literal_octets _ _ _ T) as [OX LX].
  destruct (C86_sym_partial w [Value (str "-c") (str "UNCOMPRESSED"); Word (str "f"); Word (str "pw")] None (str "f") (str "pw") (str "hello") 0 9 2 2 x [] minus) as (m & text & _ & _ & P & Q); try exact T; try exact OX.
  - call.
  - reflexivity.
  - found.
  - found.
  - found.
  - found.
  - reflexivity.
  - reflexivity.
  - apply octets_repeat. reflexivity.
  - vm_compute. discriminate.
  - apply toy_fits'.
  - rewrite LX. unfold encrypted_size, readable_length. cbn [e_sym e_mdc]. change (block_octets 9) with 16%nat. change (flag _ _ true) with true. cbv iota. lia.
  - exists (text ++ [10]). split; [exact P|]. apply (Q _ 0%nat _ _ (str "g")); try reflexivity. call.
Qed.

Example C86_pka_ex : exists text,
  prints (toy_machine 0 [(str "key", file_of big_pub); (str "f", str "hello")] [1]) (str "encrypt-pka")
    [Value (str "-c") (str "UNCOMPRESSED"); Value (str "--sym") (str "CAST5"); Word (str "key"); Word (str "f")] None text /\
  prints (toy_machine 2 [(str "pri", file_of big_pri); (str "g", text)] []) (str "decrypt-pka") [Word (str "pri"); Word []; Word (str "g")] None (str "hello" ++ [10; 10]).
Proof.
  set (w := toy_machine 0 [(str "key", file_of big_pub); (str "f", str "hello")] [1]).
  set (items := [Value (str "-c") (str "UNCOMPRESSED"); Value (str "--sym") (str "CAST5"); Word (str "key"); Word (str "f")]).
  assert (E : exists m, encrypt_pka plus minus 0 (toy_enc 3 None) big_pub 5 6 (repeat 7 80) [1] = Ok m /\ g_packets (m_pgp m) <> [] /\ long_last m).
  { eexists. split; [vm_compute; reflexivity|]. split; [discriminate|]. intros p v i pka mpi IP B. cbn [m_pgp g_packets In] in IP. destruct IP as [<-|[<-|[]]]; [|discriminate].
    cbn [p_body] in B. injection B as _ _ _ <-. vm_compute. reflexivity. }
  destruct E as (m & E & NE & LL). destruct big_decrypts as (id & LI & KI & DW).
  assert (CP : cipher_pair (k_pka big_key) [big_d] (k_mpi big_key)).
  { unfold cipher_pair. cbn [big_key k_pka k_mpi N.eqb Pos.eqb]. do 5 eexists. split; [reflexivity|]. split; [reflexivity|]. exact big_rsa. }
  assert (KM : exists more, k_mpi big_key = (big_p * big_q) :: more) by (eexists; reflexivity). destruct KM as (more & KM).
  destruct (C86_pka_partial w items None (str "key") (str "f") (file_of big_pub) (str "hello") big_pub 0 3 2 m big_key id big_sec big_pri [big_d] (big_p * big_q) more [] minus (file_of big_pri))
    as (text & _ & P & Q); try exact E; try exact NE; try exact LL; try exact DW; try exact CP; try exact KM; try exact LI.
  - call.
  - reflexivity.
  - reflexivity.
  - vm_compute. reflexivity.
  - found.
  - found.
  - found.
  - reflexivity.
  - reflexivity.
  - reflexivity.
  - exact big_encrypts.
  - vm_compute. reflexivity.
  - vm_compute. reflexivity.
  - vm_compute. reflexivity.
  - unfold moderate. apply N.log2_lt_pow2; vm_compute; reflexivity.
  - vm_compute. discriminate.
  - now apply keyid_octets in KI.
  - apply octets_repeat. reflexivity.
  - apply toy_fits'.
  - intros x rest T. vm_compute in T. injection T as <- _. split; [repeat (apply octets_cons; split; [reflexivity|]); apply Forall_nil|].
    match goal with |- context [len ?l] => let n := eval vm_compute in (len l) in change (len l) with n end.
    unfold encrypted_size, readable_length. cbn [e_sym e_mdc]. change (block_octets 3) with 8%nat. change (flag _ _ true) with true. cbv iota. lia.
  - exists (text ++ [10]). split; [exact P|]. apply (Q _ 0%nat _ _ (str "pri") (str "g")); try reflexivity. call.
Qed.
(** The hypotheses of the signed case. *)
Example C86_signed_ex : let items := [Value (str "-c") (str "UNCOMPRESSED"); Value (str "--sign") (str "k"); Word (str "f"); Word (str "pw")] in
  let w := toy_machine 1 [(str "f", str "hello"); (str "k", file_of toy_pri)] [3; 3] in
  calls cli_encrypt_sym items None [str "f"; str "pw"] /\ secret_load (file_of toy_pri) = Ok toy_pri /\ secret_meaningful toy_pri = Ok true /\
  matching (mkArgs toy_pri [] 4 2) toy_key toy_sec [7] toy_pub /\ public_load (file_of toy_pub) = Ok toy_pub /\ public_meaningful toy_pub = Ok true /\
  exists x draws, to_encrypt (w_zip w) (w_unzip w) (w_fuel w) (mkEnc (str "f") (str "hello") 9 0 (flag items (str "--mdc") true) (Some toy_pri) (given items (str "-p") []) 2) (w_now w) (w_now' w) (w_draws w)
    = Ok (Some x, draws) /\ octets x /\ len x < 200.
Proof.
  cbv zeta. split; [call|]. split; [vm_compute; reflexivity|]. split; [reflexivity|]. split; [exact toy_matching|]. split; [vm_compute; reflexivity|]. split; [reflexivity|].
  do 2 eexists. split; [vm_compute; reflexivity|]. split; [apply octetsb_spec; vm_compute; reflexivity|vm_compute; reflexivity].
Qed.
Definition dumb_pri : pgp := mkPgp true 3 [] [new_packet 5 (PSecret (mkKey 4 1000 16 [23; 4; 8] 0) toy_sec); ex_user "a"; ex_sig 16].
Example C86_failed_ex : exists text,
  prints (toy_machine 1 [(str "f", str "hello"); (str "k", file_of dumb_pri)] []) (str "encrypt-sym") [Value (str "--sign") (str "k"); Word (str "f"); Word (str "pw")] None text /\
  program (toy_machine 1 [(str "g", text)] []) [str "decrypt-sym"; str "g"; str "pw"] = Some UB.
Proof.
  destruct (C86_failed_refuted (toy_machine 1 [(str "f", str "hello"); (str "k", file_of dumb_pri)] []) [Value (str "--sign") (str "k"); Word (str "f"); Word (str "pw")] None (str "f") (str "pw") (str "hello") 2 9 2 2
    (str "k") (file_of dumb_pri) dumb_pri) as (text & P & Q).
  - call.
  - reflexivity.
  - found.
  - found.
  - found.
  - found.
  - reflexivity.
  - discriminate.
  - reflexivity.
  - vm_compute. reflexivity.
  - vm_compute. reflexivity.
  - vm_compute. reflexivity.
  - reflexivity.
  - vm_compute. discriminate.
  - exists text. split; [exact P|]. apply (Q _ [Word (str "g"); Word (str "pw")] None (str "g")); try reflexivity. call.
Qed.
Example C86_refused_ex : let w := toy_machine 1 [(str "f", str "hello")] [] in let ws := [Word (str "f"); Word (str "pw")] in
  aborts w (str "encrypt-sym") (Value (str "--sym") (str "PLAINTEXT") :: ws) None /\
  refuses w (str "encrypt-sym") (Value (str "-c") (str "BZIP2") :: ws) None /\
  refuses w (str "encrypt-sym") (Value (str "--sym") (str "ROT13") :: ws) None /\
  refuses w (str "encrypt-sym") [Word (str "none"); Word (str "pw")] None.
Proof.
  cbv zeta. split; [|split; [|split]].
  - apply (C86_plaintext_refuted _ _ _ (str "f") (str "pw") (str "hello") 2 2 2); try reflexivity; try found; try discriminate. call.
  - apply (C86_bzip2_refuted _ _ _ (str "f") (str "pw") (str "hello")); try reflexivity. call.
  - apply (C86_refused _ _ _ (str "f") (str "pw")); [call|]. right. left. split; [|discriminate]. intros n X. vm_compute in X. decompose [or] X; try discriminate; contradiction.
  - apply (C86_refused _ _ _ (str "none") (str "pw")); [call|]. now left.
Qed.
Example C86_binary_ex : let body := [198; 12; 4; 0; 0; 3; 232; 1; 0; 6; 35; 0; 3; 5; 205; 1; 97] in
  prints (toy_machine 1 [(str "k", file_of C78_secret)] []) (str "extract-public") [Flag (str "-a"); Word (str "k")] None (body ++ [10]) /\
  aborts (toy_machine 1 [(str "p", body ++ [10])] []) (str "list") [Word (str "p")] None.
Proof.
  intros body.
  assert (NB : ~ line_begins armor_begin (body ++ [10])).
  { intros (b & a & E & _). apply (f_equal (existsb (N.eqb 45))) in E. rewrite !existsb_app in E.
    vm_compute (existsb (N.eqb 45) armor_begin) in E. rewrite orb_true_r in E. discriminate. }
  assert (S : sequence 0 [ex_pub 6; ex_user "a"]).
  { apply (sequence_new 0 6 _ [4; 0; 0; 3; 232; 1; 0; 6; 35; 0; 3; 5]); [reflexivity|vm_compute; reflexivity|split; [reflexivity|intros [X _]; vm_compute in X; apply X; reflexivity]| |intros; vm_compute; auto|apply C78_user_sequence].
    split; [now left|]. split; [cbn; lia|]. split; [reflexivity|]. split; [repeat (apply Forall_cons; [apply C10_fits; reflexivity|]); apply Forall_nil|]. split; reflexivity. }
  destruct (C86_binary_refuted (toy_machine 1 [(str "k", file_of C78_secret)] []) [Flag (str "-a"); Word (str "k")] None (str "k") (file_of C78_secret) C78_secret (mkPgp true 2 C78_keys [ex_pub 6; ex_user "a"]) body) as [P Q];
    try reflexivity; try exact S; try exact NB; try (vm_compute; reflexivity).
  - call.
  - split; [exact P|]. apply (Q _ _ _ (str "p")); [call|reflexivity].
Qed.
Example C86_extract_ex : exists text, prints (toy_machine 1 [(str "k", file_of C78_secret)] []) (str "extract-public") [Word (str "k")] None (text ++ [10]) /\
  public_load (text ++ [10]) = Ok (mkPgp true 2 C78_keys [ex_pub 6; ex_user "a"]).
Proof.
  assert (exists text, pgp_write (mkPgp true 2 C78_keys [ex_pub 6; ex_user "a"]) ArmorYes = Ok text /\ public_load text = Ok (mkPgp true 2 C78_keys [ex_pub 6; ex_user "a"])) as (text & W & L)
    by (eexists; split; [vm_compute; reflexivity|vm_compute; reflexivity]).
  destruct (C86_extract (toy_machine 1 [(str "k", file_of C78_secret)] []) [Word (str "k")] None (str "k") (file_of C78_secret) C78_secret (mkPgp true 2 C78_keys [ex_pub 6; ex_user "a"]) text) as [P Q].
  - call.
  - reflexivity.
  - reflexivity.
  - vm_compute. reflexivity.
  - vm_compute. reflexivity.
  - vm_compute. reflexivity.
  - exact W.
  - exists text. split; [exact P|]. now rewrite Q.
Qed.
Print Assumptions C86_sym_partial. Print Assumptions C86_sym_signed_partial. Print Assumptions C86_pka_partial. Print Assumptions C86_failed_refuted.
Print Assumptions C86_plaintext_refuted. Print Assumptions C86_bzip2_refuted. Print Assumptions C86_refused. Print Assumptions C86_binary_refuted. Print Assumptions C86_extract.
