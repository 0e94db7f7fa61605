(** C87: signing and verifying on the command line. *)
From Verif Require Import Proofs.Lib Proofs.CommandsP Proofs.SignP Proofs.ArmorP Proofs.CryptP Proofs.CliP Proofs.CleartextP Proofs.MessageIOP Proofs.MadeP Spec.Invocation Spec.Armor Spec.Sequence Spec.Text Spec.Keys Spec.Sigs Spec.Framing Spec.Grammar
  Props.C10_C12 Props.C14_C15 Props.C32 Props.C38_C39 Props.C44_C46 Props.C44_written Props.C44_compressed Props.C65_C66 Props.C78 Props.C86 Spec.Invocation Spec.CommandLine.
Local Open Scope N_scope.

(** ** The verdicts: what the verify commands say, and with which status *)

Lemma verdict_cases w m u items rest what v file id : In (m, u) ordered ->
  program w (m_name m :: line items rest) = Some (' (r, out) <- verdict v (signed_by (what ++ str " was" ++ maybe_not v) file id) ;; Ok (if (r =? -1)%Z then ((-1)%Z, out ++ w_help w m ++ [10]) else (0%Z, out))) ->
  (v = 1%Z -> prints w (m_name m) items rest (says what true file id)) /\ (v = 0%Z -> prints w (m_name m) items rest (says what false file id)) /\
  (v = (-1)%Z -> refuses w (m_name m) items rest).
Proof.
  intros I E. split; [intros ->|split; intros ->].
  - unfold prints. rewrite E. unfold verdict, print, says, signed_by, maybe_not, quoted. cbn [Z.eqb bind]. rewrite <- ?app_assoc. reflexivity.
  - unfold prints. rewrite E. unfold verdict, print, says, signed_by, maybe_not, quoted. cbn [Z.eqb bind]. rewrite <- ?app_assoc. reflexivity.
  - exists m, u, []. split; [exact I|]. split; [reflexivity|]. rewrite E. reflexivity.
Qed.
Theorem C87_detached_verdict : forall w items rest fk ff fs dk data ds g s id v, calls cli_verify_detached_signature items rest [fk; ff; fs] ->
  w_files w fk = Some dk -> w_files w ff = Some data -> w_files w fs = Some ds -> key_load dk = Ok g -> detached_load ds = Ok s -> keyid g = Ok id ->
  verify_detached g data s = Ok v ->
  (v = 1%Z -> prints w (str "verify-detached-signature") items rest (says (str "File " ++ [34] ++ ff ++ [34]) true fk id)) /\
  (v = 0%Z -> prints w (str "verify-detached-signature") items rest (says (str "File " ++ [34] ++ ff ++ [34]) false fk id)) /\
  (v = (-1)%Z -> refuses w (str "verify-detached-signature") items rest).
Proof.
  intros w items rest fk ff fs dk data ds g s id v CA F0 F1 F2 L0 L1 KI V.
  destruct (calls_runs w cli_verify_detached_signature uses_verify_detached_signature items rest _ ltac:(found) CA) as (p & M & A & P).
  change (str "verify-detached-signature") with (m_name cli_verify_detached_signature). apply (verdict_cases _ _ uses_verify_detached_signature); [found|]. rewrite P.
  change (function_of w cli_verify_detached_signature) with (run_verify_detached w). unfold run_verify_detached.
  rewrite (with_file_ok w p "key" fk dk) by (try exact F0; now apply (A 0%nat)).
  rewrite (with_file_ok w p "file" ff data) by (try exact F1; now apply (A 1%nat)).
  rewrite (with_file_ok w p "signature" fs ds) by (try exact F2; now apply (A 2%nat)).
  rewrite L0. cbn [bind].  rewrite L1. cbn [bind]. rewrite V. cbn [bind].
  rewrite (A 1%nat "file"%string ff eq_refl eq_refl). cbn [bind]. rewrite (A 0%nat "key"%string fk eq_refl eq_refl). cbn [bind].
  rewrite KI. cbn [bind]. unfold quoted. rewrite <- ?app_assoc. reflexivity.
Qed.
Theorem C87_file_verdict : forall w items rest fk fm dk dm g m id v, calls cli_verify_file items rest [fk; fm] ->
  w_files w fk = Some dk -> w_files w fm = Some dm -> key_load dk = Ok g -> message_read (w_unzip w) (w_fuel w) dm = Ok m -> keyid g = Ok id ->
  verify_binary (w_fuel w) (w_unzip w) g (m_pgp m) = Ok v ->
  (v = 1%Z -> prints w (str "verify-file") items rest (says (str "The data in " ++ [34] ++ fm ++ [34]) true fk id)) /\
  (v = 0%Z -> prints w (str "verify-file") items rest (says (str "The data in " ++ [34] ++ fm ++ [34]) false fk id)) /\
  (v = (-1)%Z -> refuses w (str "verify-file") items rest).
Proof.
  intros w items rest fk fm dk dm g m id v CA F0 F1 L0 L1 KI V.
  destruct (calls_runs w cli_verify_file uses_verify_file items rest _ ltac:(found) CA) as (p & M & A & P).
  change (str "verify-file") with (m_name cli_verify_file). apply (verdict_cases _ _ uses_verify_file); [found|]. rewrite P.
  change (function_of w cli_verify_file) with (run_verify_file w). unfold run_verify_file.
  rewrite (with_file_ok w p "key" fk dk) by (try exact F0; now apply (A 0%nat)).
  rewrite (with_file_ok w p "message" fm dm) by (try exact F1; now apply (A 1%nat)).
  rewrite L0. cbn [bind].  rewrite L1. cbn [bind]. rewrite V. cbn [bind].
  rewrite (A 1%nat "message"%string fm eq_refl eq_refl). cbn [bind]. rewrite (A 0%nat "key"%string fk eq_refl eq_refl). cbn [bind].
  rewrite KI. cbn [bind]. unfold quoted. rewrite <- ?app_assoc. reflexivity.
Qed.
Theorem C87_cleartext_verdict : forall w items rest fk fs dk ds g c id v, calls cli_verify_cleartext_signature items rest [fk; fs] ->
  w_files w fk = Some dk -> w_files w fs = Some ds -> key_load dk = Ok g -> cleartext_load ds = Ok c -> keyid g = Ok id ->
  verify_cleartext g c = Ok v ->
  (v = 1%Z -> prints w (str "verify-cleartext-signature") items rest (says (str "This message") true fk id)) /\
  (v = 0%Z -> prints w (str "verify-cleartext-signature") items rest (says (str "This message") false fk id)) /\
  (v = (-1)%Z -> refuses w (str "verify-cleartext-signature") items rest).
Proof.
  intros w items rest fk fs dk ds g c id v CA F0 F1 L0 L1 KI V.
  destruct (calls_runs w cli_verify_cleartext_signature uses_verify_cleartext_signature items rest _ ltac:(found) CA) as (p & M & A & P).
  change (str "verify-cleartext-signature") with (m_name cli_verify_cleartext_signature). apply (verdict_cases _ _ uses_verify_cleartext_signature); [found|]. rewrite P.
  change (function_of w cli_verify_cleartext_signature) with (run_verify_cleartext w). unfold run_verify_cleartext.
  rewrite (with_file_ok w p "key" fk dk) by (try exact F0; now apply (A 0%nat)).
  rewrite (with_file_ok w p "signature" fs ds) by (try exact F1; now apply (A 1%nat)).
  rewrite L0. cbn [bind].  rewrite L1. cbn [bind]. rewrite V. cbn [bind].
  rewrite (A 0%nat "key"%string fk eq_refl eq_refl). cbn [bind].
  rewrite KI. cbn [bind]. unfold quoted. rewrite <- ?app_assoc. reflexivity.
Qed.
Theorem C87_timestamp_verdict : forall w items rest fk fs dk ds g s id v, calls cli_verify_timestamp items rest [fk; fs] ->
  w_files w fk = Some dk -> w_files w fs = Some ds -> key_load dk = Ok g -> detached_load ds = Ok s -> keyid g = Ok id ->
  verify_timestamp g s = Ok v ->
  (v = 1%Z -> prints w (str "verify-timestamp") items rest (says (str "Timestamp signature in " ++ [34] ++ fs ++ [34]) true fk id)) /\
  (v = 0%Z -> prints w (str "verify-timestamp") items rest (says (str "Timestamp signature in " ++ [34] ++ fs ++ [34]) false fk id)) /\
  (v = (-1)%Z -> refuses w (str "verify-timestamp") items rest).
Proof.
  intros w items rest fk fs dk ds g s id v CA F0 F1 L0 L1 KI V.
  destruct (calls_runs w cli_verify_timestamp uses_verify_timestamp items rest _ ltac:(found) CA) as (p & M & A & P).
  change (str "verify-timestamp") with (m_name cli_verify_timestamp). apply (verdict_cases _ _ uses_verify_timestamp); [found|]. rewrite P.
  change (function_of w cli_verify_timestamp) with (run_verify_timestamp w). unfold run_verify_timestamp.
  rewrite (with_file_ok w p "key" fk dk) by (try exact F0; now apply (A 0%nat)).
  rewrite (with_file_ok w p "signature" fs ds) by (try exact F1; now apply (A 1%nat)).
  rewrite L0. cbn [bind].  rewrite L1. cbn [bind]. rewrite V. cbn [bind].
  rewrite (A 1%nat "signature"%string fs eq_refl eq_refl). cbn [bind]. rewrite (A 0%nat "key"%string fk eq_refl eq_refl). cbn [bind].
  rewrite KI. cbn [bind]. unfold quoted. rewrite <- ?app_assoc. reflexivity.
Qed.
Theorem C87_key_verdict : forall w items rest fk ff dk df g h id hid v, calls cli_verify_primary_key items rest [fk; ff] ->
  w_files w fk = Some dk -> w_files w ff = Some df -> key_load dk = Ok g -> key_load df = Ok h -> keyid g = Ok id -> keyid h = Ok hid ->
  verify_primary_key g h = Ok v ->
  let said (verb : string) := str "Key in " ++ [34] ++ ff ++ [34] ++ str " (" ++ hexlify hid ++ str ") " ++ str verb ++ str " signed by key in " ++ [34] ++ fk ++ [34] ++ str " (" ++ hexlify id ++ str ")." ++ [10] in
  (v = 1%Z -> prints w (str "verify-primary-key") items rest (said "was"%string)) /\
  (v = 0%Z -> prints w (str "verify-primary-key") items rest (said "was not"%string)) /\
  (v = (-1)%Z -> refuses w (str "verify-primary-key") items rest).
Proof.
  intros w items rest fk ff dk df g h id hid v CA F0 F1 L0 L1 KI KH V said.
  destruct (calls_runs w cli_verify_primary_key uses_verify_primary_key items rest _ ltac:(found) CA) as (p & M & A & P).
  assert (E : program w (str "verify-primary-key" :: line items rest) = Some (if (v =? -1)%Z then Ok ((-1)%Z, w_help w cli_verify_primary_key ++ [10]) else
    Ok (0%Z, (str "Key in " ++ quoted ff ++ str " (" ++ hexlify hid ++ str ") was" ++ maybe_not v ++ str " signed by key in " ++ quoted fk ++ str " (" ++ hexlify id ++ str ").") ++ [10]))).
  { change (str "verify-primary-key") with (m_name cli_verify_primary_key). rewrite P. change (function_of w cli_verify_primary_key) with (run_verify_primary_key w). unfold run_verify_primary_key.
    rewrite (with_file_ok w p "signer-key" fk dk) by (try exact F0; now apply (A 0%nat)). rewrite (with_file_ok w p "signee-key" ff df) by (try exact F1; now apply (A 1%nat)).
    rewrite L0. cbn [bind]. rewrite L1. cbn [bind]. rewrite V. cbn [bind]. rewrite (A 1%nat "signee-key"%string ff eq_refl eq_refl). cbn [bind].
    rewrite (A 0%nat "signer-key"%string fk eq_refl eq_refl). cbn [bind]. rewrite KH, KI. cbn [bind]. unfold verdict. destruct (v =? -1)%Z; [reflexivity|]. destruct (v =? 0)%Z; reflexivity. }
  split; [intros ->|split; intros ->].
  - unfold prints. rewrite E. unfold said, quoted. cbn [Z.eqb maybe_not]. rewrite <- ?app_assoc. reflexivity.
  - unfold prints. rewrite E. unfold said, quoted. cbn [Z.eqb maybe_not]. rewrite <- ?app_assoc. reflexivity.
  - exists cli_verify_primary_key, uses_verify_primary_key, []. split; [found|]. split; [reflexivity|]. rewrite E. reflexivity.
Qed.
(** So whoever only looks at the status cannot tell a good signature from a wrong one: it is 0 for
    both (and the functions return 1 for a wrong one). *)
Theorem C87_status_refuted : forall w items rest fk ff fs dk data data' ds g s id, calls cli_verify_detached_signature items rest [fk; ff; fs] ->
  w_files w fk = Some dk -> w_files w fs = Some ds -> key_load dk = Ok g -> detached_load ds = Ok s -> keyid g = Ok id ->
  verify_detached g data s = Ok 1%Z -> verify_detached g data' s = Ok 0%Z ->
  forall w', w_files w' fk = Some dk -> w_files w' fs = Some ds -> w_files w ff = Some data -> w_files w' ff = Some data' ->
  prints w (str "verify-detached-signature") items rest (says (str "File " ++ [34] ++ ff ++ [34]) true fk id) /\
  prints w' (str "verify-detached-signature") items rest (says (str "File " ++ [34] ++ ff ++ [34]) false fk id).
Proof.
  intros w items rest fk ff fs dk data data' ds g s id CA F1 F2 LG LS KI V V' w' F1' F2' F3 F3'.
  split.
  - destruct (C87_detached_verdict w items rest fk ff fs dk data ds g s id 1%Z) as (X & _); auto.
  - destruct (C87_detached_verdict w' items rest fk ff fs dk data' ds g s id 0%Z) as (_ & X & _); auto.
Qed.

(** ** Signatures that are made, saved and verified *)

Lemma signature_octets a k sec pri g type now id x digest draws s' d' : matching a k sec pri g -> Forall moderate (k_mpi k) -> now < 2 ^ 32 -> type < 256 ->
  get_keyid k = Ok id -> hash_use (a_hash a) x = Ok digest ->
  finish (create_sig (a_version a) type (k_pka k) (a_hash a) id now) digest k sec (a_pass a) (a_hash a) draws = Ok (Some s', d') ->
  exists w, sequence 0 [new_packet 2 (PSig s')] /\ write_packets [new_packet 2 (PSig s')] = Ok w /\ octets w /\ w <> [] /\ len w < 2 ^ 62.
Proof.
  intros M MO T TY KI HU FI. pose proof M as (V4 & SW & D & KP & F & _).
  apply finish_ok in FI as (pri' & vals & D' & S & NEV & ->). rewrite D in D'. apply Ok_inj in D'. subst pri'. rewrite V4 in *.
  assert (C : In (k_pka k) [1; 3; 17]) by (destruct SW as (? & ? & _ & _ & C); exact C).
  assert (C2 : k_pka k = 1 \/ k_pka k = 17).
  { destruct C as [C|[C|[C|[]]]]; auto. rewrite <- C in S. apply Ok_inj in S. congruence. }
  destruct (made_fits x digest k pri draws vals d' type (a_hash a) id now HU C2 KP MO S (keyid_len k id F KI) T) as (SF & LS & O).
  specialize (O (keyid_octets k id KI) TY). set (s := with_values _ _ _) in *.
  destruct (new_written 2 (PSig s) _ eq_refl) as (w & W & LW). exists w.
  split; [|split; [|split; [|split]]].
  - eapply sequence_new; [reflexivity|reflexivity| | | |intros; exact Logic.I].
    + unfold readable_length. lia. + split; [reflexivity|exact SF]. + intros h _. cbn [placed]. discriminate.
  - cbn [write_packets]. rewrite W. cbn [bind]. now rewrite app_nil_r.
  - exact (new_write_octets 2 (PSig s) _ w eq_refl O W).
  - intros ->. cbn in LW. lia.
  - lia.
Qed.
Lemma detached_back s w : sequence 0 [new_packet 2 (PSig s)] -> write_packets [new_packet 2 (PSig s)] = Ok w -> octets w -> w <> [] -> len w < 2 ^ 62 ->
  exists text, pgp_write (detached_of s) ArmorYes = Ok text /\ detached_load (text ++ [10]) = Ok (detached_of s).
Proof.
  intros SQ WP OW NE LW. destruct (C14_armor_data_partial 6 version_cc w ltac:(lia) version_ok OW NE LW) as (text & AT & RT).
  exists text. unfold pgp_write. cbn [detached_of g_packets g_type g_keys]. rewrite WP. cbn [bind]. split; [exact AT|].
  rewrite (detached_load_newline 6 _ _ _ ltac:(unfold armor_type_ok; lia) AT). unfold detached_load. rewrite RT, (C10_sequence_roundtrip_partial _ _ SQ WP). reflexivity.
Qed.
Theorem C87_detached_partial : forall w items rest fk pass f dk data pri hash k sec vals g sig draws,
  calls cli_sign_detached_signature items rest [fk; pass; f] -> w_files w fk = Some dk -> w_files w f = Some data -> secret_load dk = Ok pri ->
  In (given items (str "-h") (str "SHA1"), hash) hash_names -> flag items (str "-a") true = true ->
  matching (mkArgs pri pass 4 hash) k sec vals g -> Forall moderate (k_mpi k) -> w_now w < 2 ^ 32 ->
  sign_detached (mkArgs pri pass 4 hash) (w_now w) data (w_draws w) = Ok (sig, draws) -> g_packets sig <> [] ->
  exists text, pgp_write sig ArmorYes = Ok text /\ prints w (str "sign-detached-signature") items rest (text ++ [10]) /\
    forall w' items' rest' fk' f' fs' dk' id, calls cli_verify_detached_signature items' rest' [fk'; f'; fs'] ->
      w_files w' fk' = Some dk' -> key_load dk' = Ok g -> keyid g = Ok id -> w_files w' f' = Some data -> w_files w' fs' = Some (text ++ [10]) ->
      prints w' (str "verify-detached-signature") items' rest' (says (str "File " ++ [34] ++ f' ++ [34]) true fk' id).
Proof.
  intros w items rest fk pass f dk data pri hash k sec vals g sig draws CA F1 F2 LP H FA MA MO T E NE.
  destruct (hash_known _ _ H) as [H1 H2]. destruct numbers_unique as (U1 & U2 & U3).
  destruct (C44_detached_written_partial _ _ _ _ _ _ _ _ _ _ MA MO T E NE) as (text & W & R & V). exists text. split; [exact W|].
  assert (G6 : detached_meaningful sig = true).
  { unfold verify_detached, verify_document in V. apply bind_ok in V as (m & _ & V). destruct m; [|discriminate]. cbn [negb] in V. destruct (detached_meaningful sig); [reflexivity|discriminate]. }
  split.
  - destruct (calls_runs w cli_sign_detached_signature uses_sign_detached_signature items rest _ ltac:(found) CA) as (p & M & A & P).
    unfold prints. change (str "sign-detached-signature") with (m_name cli_sign_detached_signature). rewrite P. change (function_of w cli_sign_detached_signature) with (run_sign_detached w). unfold run_sign_detached.
    rewrite (with_file_ok w p "private-key" fk dk) by (try exact F1; now apply (A 0%nat)). rewrite (with_file_ok w p "file" f data) by (try exact F2; now apply (A 2%nat)).
    rewrite (with_number_ok _ p "-h" _ hash _ U3 (arg_given _ _ _ _ "-h" (str "SHA1") M ltac:(found)) H1).
    rewrite LP. cbn [bind]. unfold sign_arg. rewrite (A 1%nat "passphrase"%string pass eq_refl eq_refl). cbn [bind].
    rewrite (armored_at _ _ _ _ true M) by found. cbn [bind]. rewrite FA, E. cbn [bind]. unfold print_if. rewrite G6. cbn [bind]. rewrite W. reflexivity.
  - intros w' items' rest' fk' f' fs' dk' id CD F1' LG KI F2' F3'.
    destruct (C87_detached_verdict w' items' rest' fk' f' fs' dk' data (text ++ [10]) g sig id 1%Z) as (X & _); auto. unfold pgp_write in W. apply bind_ok in W as (b & _ & W).
    assert (T6 : g_type sig = 6) by (unfold detached_meaningful in G6; apply andb_prop in G6 as [G6 _]; lia).
    rewrite (detached_load_newline (g_type sig) _ _ _ ltac:(rewrite T6; unfold armor_type_ok; lia) W). unfold detached_load. rewrite R. cbn [bind].
    replace (mkPgp (g_armored sig) 6 (g_keys sig) (g_packets sig)) with sig by (destruct sig; cbn in *; now subst). now rewrite G6.
Qed.
Theorem C87_timestamp_partial : forall w items rest fk pass t dk time pri hash k sec vals g sig draws,
  calls cli_sign_timestamp items rest [fk; pass; t] -> w_files w fk = Some dk -> w_scan w 32 t = Some time -> time < 2 ^ 32 -> secret_load dk = Ok pri ->
  In (given items (str "-h") (str "SHA1"), hash) hash_names -> flag items (str "-a") true = true ->
  matching (mkArgs pri pass 4 hash) k sec vals g -> Forall moderate (k_mpi k) ->
  sign_timestamp (mkArgs pri pass 4 hash) time (w_draws w) = Ok (sig, draws) -> g_packets sig <> [] ->
  exists text, pgp_write sig ArmorYes = Ok text /\ prints w (str "sign-timestamp") items rest (text ++ [10]) /\
    forall w' items' rest' fk' fs' dk' id, calls cli_verify_timestamp items' rest' [fk'; fs'] ->
      w_files w' fk' = Some dk' -> key_load dk' = Ok g -> keyid g = Ok id -> w_files w' fs' = Some (text ++ [10]) ->
      prints w' (str "verify-timestamp") items' rest' (says (str "Timestamp signature in " ++ [34] ++ fs' ++ [34]) true fk' id).
Proof.
  intros w items rest fk pass t dk time pri hash k sec vals g sig draws CA F1 SC T LP H FA MA MO E NE.
  destruct (hash_known _ _ H) as [H1 H2]. destruct numbers_unique as (U1 & U2 & U3).
  pose proof (C44_timestamp_partial _ _ _ _ _ _ _ _ _ MA E NE) as V.
  assert (SH : exists s text, sig = detached_of s /\ pgp_write (detached_of s) ArmorYes = Ok text /\ detached_load (text ++ [10]) = Ok (detached_of s)).
  { clear V. pose proof E as E'. unfold sign_timestamp in E. apply bind_ok in E as (v & AV & E). destruct v; [|apply Ok_inj in E; injection E as <- <-; now destruct NE]. cbn [negb] in E.
    pose proof MA as (_ & SW & _). destruct (signs_found _ _ _ (args_meaningful _ AV) SW) as (p & FS & A). rewrite FS in E. cbn [bind] in E.
    rewrite A in E. cbn [bind] in E. apply bind_ok in E as (id & KI & E). apply bind_ok in E as (digest & I & E).
    apply bind_ok in E as ((r & d') & FI & E). apply Ok_inj in E. destruct r as [s'|]; [|assert (sig = detached_new) as -> by congruence; now destruct NE].
    apply hashed_with_use in I as (x & HU). cbn [create_sig t2_hash] in HU.
    destruct (signature_octets _ _ _ _ _ 64 time id x digest _ _ _ MA MO T eq_refl KI HU FI) as (b & SQ & WP & OW & NB & LB).
    destruct (detached_back _ _ SQ WP OW NB LB) as (text & W & L). exists s', text. split; [congruence|]. split; [exact W|exact L]. }
  destruct SH as (s & text & -> & W & L). exists text. split; [exact W|]. split.
  - destruct (calls_runs w cli_sign_timestamp uses_sign_timestamp items rest _ ltac:(found) CA) as (p & M & A & P).
    unfold prints. change (str "sign-timestamp") with (m_name cli_sign_timestamp). rewrite P. change (function_of w cli_sign_timestamp) with (run_sign_timestamp w). unfold run_sign_timestamp.
    rewrite (with_file_ok w p "signer-key" fk dk) by (try exact F1; now apply (A 0%nat)). rewrite (A 2%nat "seconds-since-epoch"%string t eq_refl eq_refl). cbn [bind]. rewrite SC.
    rewrite (with_number_ok _ p "-h" _ hash _ U3 (arg_given _ _ _ _ "-h" (str "SHA1") M ltac:(found)) H1).
    rewrite LP. cbn [bind]. unfold sign_arg. rewrite (A 1%nat "passphrase"%string pass eq_refl eq_refl). cbn [bind].
    rewrite (armored_at _ _ _ _ true M) by found. cbn [bind]. rewrite FA, E. cbn [bind]. unfold print_if. change (detached_meaningful (detached_of s)) with true. cbn [bind]. rewrite W. reflexivity.
  - intros w' items' rest' fk' fs' dk' id CD F1' LG KI F3'. destruct (C87_timestamp_verdict w' items' rest' fk' fs' dk' (text ++ [10]) g (detached_of s) id 1%Z) as (X & _); auto.
Qed.
(** Cleartext signatures of texts that C39 covers. *)
Lemma hash_key_ok h name : In h hashes -> hash_name h = Ok name -> armor_key_ok (str "Hash", name).
Proof.
  intros I E. cbn [In hashes] in I. decompose [or] I; try contradiction; subst h; cbn in E; apply Ok_inj in E; subst name; unfold armor_key_ok; cbn [fst snd];
    (split; [intros X; vm_compute in X; decompose [or] X; discriminate || contradiction|];
     split; [intros X; vm_compute in X; decompose [or] X; discriminate || contradiction|];
     split; [intros X; vm_compute in X; decompose [or] X; discriminate || contradiction|]).
  all: split; [eexists _, _; split; [reflexivity|]; intros X; vm_compute in X; decompose [or] X; discriminate || contradiction|].
  all: split; [|reflexivity].
  all: match goal with |- exists v c, ?n = _ /\ _ => exists (removelast n), (last n 0) end; split; [reflexivity|]; intros X; vm_compute in X; decompose [or] X; discriminate || contradiction.
Qed.
Theorem C87_cleartext_partial : forall w items rest fk pass f dk data pri hash k sec vals g c draws,
  calls cli_sign_cleartext_signature items rest [fk; pass; f] -> w_files w fk = Some dk -> w_files w f = Some data -> secret_load dk = Ok pri ->
  In (given items (str "-h") (str "SHA1"), hash) hash_names ->
  matching (mkArgs pri pass 4 hash) k sec vals g -> Forall moderate (k_mpi k) -> w_now w < 2 ^ 32 ->
  len data < 2 ^ 61 -> (forall l, In l (getlines data) -> exists x, ends_tamely l x) -> ends_visibly data ->
  sign_cleartext (mkArgs pri pass 4 hash) (w_now w) data (w_draws w) = Ok (c, draws) -> g_packets (cs_sig c) <> [] ->
  exists text, cs_write c = Ok text /\ prints w (str "sign-cleartext-signature") items rest (text ++ [10]) /\
    forall w' items' rest' fk' fs' dk' id, calls cli_verify_cleartext_signature items' rest' [fk'; fs'] ->
      w_files w' fk' = Some dk' -> key_load dk' = Ok g -> keyid g = Ok id -> w_files w' fs' = Some (text ++ [10]) ->
      prints w' (str "verify-cleartext-signature") items' rest' (says (str "This message") true fk' id).
Proof.
  intros w items rest fk pass f dk data pri hash k sec vals g c draws CA F1 F2 LP H MA MO T LD TL EV E NE.
  destruct (hash_known _ _ H) as [H1 H2]. destruct numbers_unique as (U1 & U2 & U3).
  destruct (C44_cleartext_partial _ _ _ _ _ _ _ _ _ _ MA E NE) as (V & CM).
  assert (SH : exists s name text, c = mkCleartext [(str "Hash", name)] data (detached_of s) /\ cs_write c = Ok text /\
    cleartext_load (text ++ [10]) = Ok (mkCleartext [(str "Hash", name)] (message_of data) (detached_of s))).
  { clear V CM. pose proof E as E'. unfold sign_cleartext in E. apply bind_ok in E as (v & AV & E). destruct v; [|apply Ok_inj in E; injection E as <- <-; now destruct NE]. cbn [negb] in E.
    pose proof MA as (_ & SW & _). destruct (signs_found _ _ _ (args_meaningful _ AV) SW) as (p & FS & A). rewrite FS in E. cbn [bind] in E.
    rewrite A in E. cbn [bind] in E. apply bind_ok in E as (id & KI & E). apply bind_ok in E as (digest & I & E).
    apply bind_ok in E as ((r & d') & FI & E). destruct r as [s'|]; [|apply Ok_inj in E; injection E as <- _; now destruct NE].
    apply bind_ok in E as (name & HN & E). apply Ok_inj in E. injection E as <- _.
    apply hashed_with_use in I as (x & HU). cbn [create_sig t2_hash] in HU.
    destruct (signature_octets _ _ _ _ _ 1 (w_now w) id x digest _ _ _ MA MO T eq_refl KI HU FI) as (b & SQ & WP & OW & NB & LB).
    destruct (C14_armor_data_partial 6 version_cc b ltac:(lia) version_ok OW NB LB) as (at' & AT & RT).
    set (c := mkCleartext [(str "Hash", name)] data (detached_of s')).
    assert (W : exists text, cs_write c = Ok text).
    { unfold cs_write, pgp_write, c. cbn [cs_sig detached_of g_packets g_type g_keys]. rewrite WP. cbn [bind]. rewrite AT. cbn [bind]. eexists. reflexivity. }
    destruct W as (text & W). exists s', name, text. split; [reflexivity|]. split; [exact W|].
    unfold cleartext_load. change (cs_read [] (mkPgp true 6 [] []) (text ++ [10])) with (cs_read [] pgp_new (text ++ [10])).
    rewrite (cs_read_back_end c b text [10] (or_intror eq_refl)); auto.
    - rewrite (C10_sequence_roundtrip_partial _ _ SQ WP). reflexivity.
    - unfold c. cbn [cs_hash]. apply Forall_cons; [|apply Forall_nil]. eapply hash_key_ok; eauto.
    - exact version_ok.
    - intros kk IK. cbn in IK. destruct IK as [<-|[]]. reflexivity. }
  destruct SH as (s & name & text & -> & W & L). exists text. split; [exact W|]. split.
  - destruct (calls_runs w cli_sign_cleartext_signature uses_sign_cleartext_signature items rest _ ltac:(found) CA) as (p & M & A & P).
    unfold prints. change (str "sign-cleartext-signature") with (m_name cli_sign_cleartext_signature). rewrite P. change (function_of w cli_sign_cleartext_signature) with (run_sign_cleartext w). unfold run_sign_cleartext.
    rewrite (with_file_ok w p "private-key" fk dk) by (try exact F1; now apply (A 0%nat)). rewrite (with_file_ok w p "file" f data) by (try exact F2; now apply (A 2%nat)).
    rewrite (with_number_ok _ p "-h" _ hash _ U3 (arg_given _ _ _ _ "-h" (str "SHA1") M ltac:(found)) H1).
    rewrite LP. cbn [bind]. unfold sign_arg. rewrite (A 1%nat "passphrase"%string pass eq_refl eq_refl). cbn [bind].
    rewrite E. cbn [bind]. unfold print_if. change (detached_meaningful (cs_sig (mkCleartext [(str "Hash", name)] data (detached_of s)))) with true. cbn [bind]. rewrite W. reflexivity.
  - intros w' items' rest' fk' fs' dk' id CD F1' LG KI F3'.
    destruct (C87_cleartext_verdict w' items' rest' fk' fs' dk' (text ++ [10]) g (mkCleartext [(str "Hash", name)] (message_of data) (detached_of s)) id 1%Z) as (X & _); auto.
    rewrite <- V. unfold verify_cleartext, verify_document. cbn [cs_sig cs_message].
    assert (SI : forall s0, to_sign_01 (data_to_text (message_of data)) s0 = to_sign_01 (data_to_text data) s0).
    { intros s0. unfold to_sign_01. now rewrite (same_signed data LD TL EV). }
    destruct (meaningful g) as [[]| | |]; cbn [bind negb]; try reflexivity. destruct (negb (detached_meaningful (detached_of s))); [reflexivity|].
    cbn [detached_of g_packets vec_at nth_error bind as_sig new_packet p_body]. destruct (sig_keyid s); cbn [bind]; try reflexivity. destruct (len a =? 0); [reflexivity|].
    destruct (keyid g); cbn [bind]; try reflexivity. destruct (negb (beq a0 a)); [reflexivity|]. now rewrite SI.
Qed.
(** A signed message. *)
Theorem C87_file_partial : forall w items rest fk pass f dk data pri hash k sec vals g m draws,
  calls cli_sign_file items rest [fk; pass; f] -> w_files w fk = Some dk -> w_files w f = Some data -> secret_load dk = Ok pri ->
  given items (str "-c") (str "ZLIB") = str "UNCOMPRESSED" -> In (given items (str "-h") (str "SHA1"), hash) hash_names -> flag items (str "-a") true = true ->
  matching (mkArgs pri pass 4 hash) k sec vals g -> Forall moderate (k_mpi k) -> w_now w < 2 ^ 32 -> w_now' w < 2 ^ 32 -> octets f -> len f < 256 -> octets data ->
  readable_length NEW (6 + len f + len data) ->
  sign_binary (w_zip w) (w_unzip w) (w_fuel w) (mkArgs pri pass 4 hash) f data 0 (w_now w) (w_now' w) (w_draws w) = Ok (m, draws) -> g_packets (m_pgp m) <> [] ->
  exists text, message_write (w_zip w) m ArmorYes = Ok text /\ prints w (str "sign-file") items rest (text ++ [10]) /\
    forall w' fuel' items' rest' fk' fm' dk' id, w_fuel w' = S fuel' -> calls cli_verify_file items' rest' [fk'; fm'] ->
      w_files w' fk' = Some dk' -> key_load dk' = Ok g -> keyid g = Ok id -> w_files w' fm' = Some (text ++ [10]) ->
      prints w' (str "verify-file") items' rest' (says (str "The data in " ++ [34] ++ fm' ++ [34]) true fk' id).
Proof.
  intros w items rest fk pass f dk data pri hash k sec vals g m draws CA F1 F2 LP C H FA MA MO T T' OF LF OD RL E NE.
  destruct (hash_known _ _ H) as [H1 H2]. destruct numbers_unique as (U1 & U2 & U3).
  destruct (binary_shape _ _ _ _ _ _ _ _ _ _ _ _ _ _ _ MA MO T T' LF RL E NE) as (id & s & EM & SQ & LI & OI & PK & HH & OS & LS).
  assert (WB : exists body, write_packets (g_packets (m_pgp m)) = Ok body /\ octets body /\ body <> [] /\ len body < 2 ^ 62).
  { rewrite EM. cbn [m_pgp g_packets write_packets].
    destruct (new_written 4 (POnePass 3 0 hash (k_pka k) id 1) _ eq_refl) as (w1 & W1 & L1).
    destruct (new_written 11 (PLiteral 98 f (w_now w) data) _ eq_refl) as (w2 & W2 & L2).
    destruct (new_written 2 (PSig s) _ eq_refl) as (w3 & W3 & L3).
    cbn [a_hash]. rewrite W1, W2, W3. cbn [bind]. rewrite app_nil_r. eexists. split; [reflexivity|].
    assert (O1 : octets w1).
    { apply (new_write_octets 4 (POnePass 3 0 hash (k_pka k) id 1) _ w1 eq_refl); [|exact W1]. apply octets_cons. split; [reflexivity|]. apply octets_cons. split; [reflexivity|].
      apply octets_cons. split; [cbn [In] in H2; unfold octet; lia|]. apply octets_cons. split; [cbn [In] in PK; unfold octet; lia|]. apply octets_app. split; [exact OI|]. apply octets_cons. split; [reflexivity|apply Forall_nil]. }
    assert (O2 : octets w2).
    { apply (new_write_octets 11 (PLiteral 98 f (w_now w) data) _ w2 eq_refl); [|exact W2]. apply octets_cons. split; [reflexivity|]. apply octets_cons. split; [unfold octet, u8; now apply N.mod_lt|].
      apply octets_app. split; [exact OF|]. apply octets_app. split; [apply be_octets|exact OD]. }
    assert (O3 : octets w3) by exact (new_write_octets 2 (PSig s) _ w3 eq_refl OS W3).
    split; [repeat (apply octets_app; split); auto|]. split; [intros X; apply app_eq_nil in X as [-> _]; cbn in L1; lia|].
    rewrite !len_app. rewrite !len_cons, !len_app, LI in L1. rewrite !len_cons, !len_app, len_be in L2. unfold readable_length in RL.
    change (len [1]) with 1 in L1. lia. }
  destruct WB as (body & WB & OB & NB & LB).
  assert (TG : map p_tag (g_packets (m_pgp m)) = [4; 11; 2]) by (rewrite EM; reflexivity).
  assert (GM : openpgp_message [4; 11; 2]) by (apply om_signed, sm_one_pass, (opsm [11]), om_literal; constructor).
  assert (KV : g_keys (m_pgp m) = version_cc) by (rewrite EM; reflexivity).
  destruct (C14_armor_data_partial 1 version_cc body ltac:(lia) version_ok OB NB LB) as (text & AT & _).
  assert (W : message_write (w_zip w) m ArmorYes = Ok text).
  { unfold message_write, message_raw. rewrite WB. cbn [bind]. rewrite KV. replace (m_comp m) with (@None (header_format * partial_flag * N)) by (rewrite EM; reflexivity). cbn [bind]. exact AT. }
  exists text. split; [exact W|]. split.
  - destruct (calls_runs w cli_sign_file uses_sign_file items rest _ ltac:(found) CA) as (p & M & A & P).
    unfold prints. change (str "sign-file") with (m_name cli_sign_file). rewrite P. change (function_of w cli_sign_file) with (run_sign_file w). unfold run_sign_file.
    rewrite (with_file_ok w p "private-key" fk dk) by (try exact F1; now apply (A 0%nat)). rewrite (with_file_ok w p "file" f data) by (try exact F2; now apply (A 2%nat)).
    rewrite (with_number_ok _ p "-c" (str "UNCOMPRESSED") 0 _ U1); [|rewrite (arg_given _ _ _ _ "-c" (str "ZLIB") M) by found; now rewrite C|now left].
    rewrite (with_number_ok _ p "-h" _ hash _ U3 (arg_given _ _ _ _ "-h" (str "SHA1") M ltac:(found)) H1).
    rewrite LP. cbn [bind]. unfold sign_arg. rewrite (A 1%nat "passphrase"%string pass eq_refl eq_refl). cbn [bind]. rewrite (A 2%nat "file"%string f eq_refl eq_refl). cbn [bind].
    rewrite (armored_at _ _ _ _ true M) by found. cbn [bind]. rewrite FA, E. cbn [bind]. unfold print_if, message_meaningful.
    rewrite TG. replace (g_type (m_pgp m)) with 1 by (rewrite EM; reflexivity). rewrite (C32_complete _ OPENM openpgp_message eq_refl GM). cbn [bind].
    rewrite W. reflexivity.
  - intros w' fuel' items' rest' fk' fm' dk' id' FU CD F1' LG KI F3'.
    assert (R : message_read (w_unzip w') (w_fuel w') (text ++ [10]) = Ok (mkMessage (mkPgp true 1 version_cc (g_packets (m_pgp m))) None)).
    { rewrite (message_read_newline _ _ 1 _ _ _ ltac:(unfold armor_type_ok; lia) AT). rewrite <- KV. eapply C66_armored_partial; [rewrite EM; reflexivity|exact SQ|rewrite TG; exact GM|rewrite TG; discriminate|rewrite KV; exact version_ok| |exact W].
      intros b X. assert (b = body) as -> by congruence. auto. }
    destruct (C87_file_verdict w' items' rest' fk' fm' dk' (text ++ [10]) g _ id' 1%Z CD F1' F3' LG R KI) as (X & _); auto.
    rewrite FU. destruct (C44_binary_written_partial (w_zip w) (w_unzip w) (w_unzip w') (w_fuel w) fuel' _ _ _ _ _ _ _ _ _ _ _ _ MA MO T T' LF RL E NE) as (_ & _ & _ & _ & V).
    rewrite EM in V |- *. exact V.
Qed.
(** A key that does not sign (none of its packets can, it is revoked, or the passphrase is wrong)
    is refused, and so are unknown hash names and missing files. *)
Theorem C87_refused : forall w items rest fk pass f, calls cli_sign_detached_signature items rest [fk; pass; f] ->
  w_files w fk = None \/ w_files w fk <> None /\ w_files w f = None \/
  w_files w fk <> None /\ w_files w f <> None /\ ~ In (given items (str "-h") (str "SHA1")) (map fst hash_names) \/
  (exists dk data pri hash sig draws, w_files w fk = Some dk /\ w_files w f = Some data /\ secret_load dk = Ok pri /\ In (given items (str "-h") (str "SHA1"), hash) hash_names /\
    sign_detached (mkArgs pri pass 4 hash) (w_now w) data (w_draws w) = Ok (sig, draws) /\ g_packets sig = []) ->
  refuses w (str "sign-detached-signature") items rest.
Proof.
  intros w items rest fk pass f CA H. destruct numbers_unique as (U1 & U2 & U3).
  destruct (calls_runs w cli_sign_detached_signature uses_sign_detached_signature items rest _ ltac:(found) CA) as (p & M & A & P).
  exists cli_sign_detached_signature, uses_sign_detached_signature, []. split; [found|]. split; [reflexivity|].
  change (str "sign-detached-signature") with (m_name cli_sign_detached_signature). rewrite P. change (function_of w cli_sign_detached_signature) with (run_sign_detached w).
  enough (run_sign_detached w p = fail) as -> by reflexivity. unfold run_sign_detached.
  destruct H as [H|[[H1 H2]|[(H1 & H2 & H3)|(dk & data & pri & hash & sig & draws & F1 & F2 & LP & H & E & NE)]]].
  - rewrite (with_file_none w p "private-key" fk) by (try exact H; now apply (A 0%nat)). reflexivity.
  - destruct (w_files w fk) as [dk|] eqn:F1; [|contradiction]. rewrite (with_file_ok w p "private-key" fk dk) by (try exact F1; now apply (A 0%nat)).
    rewrite (with_file_none w p "file" f) by (try exact H2; now apply (A 2%nat)). reflexivity.
  - destruct (w_files w fk) as [dk|] eqn:F1; [|contradiction]. destruct (w_files w f) as [data|] eqn:F2; [|contradiction].
    rewrite (with_file_ok w p "private-key" fk dk) by (try exact F1; now apply (A 0%nat)). rewrite (with_file_ok w p "file" f data) by (try exact F2; now apply (A 2%nat)).
    rewrite (with_number_none hash_number p "-h" _ _ (arg_given _ _ _ _ "-h" (str "SHA1") M ltac:(found)) H3). reflexivity.
  - destruct (hash_known _ _ H) as [H1 H2].
    rewrite (with_file_ok w p "private-key" fk dk) by (try exact F1; now apply (A 0%nat)). rewrite (with_file_ok w p "file" f data) by (try exact F2; now apply (A 2%nat)).
    rewrite (with_number_ok _ p "-h" _ hash _ U3 (arg_given _ _ _ _ "-h" (str "SHA1") M ltac:(found)) H1).
    rewrite LP. cbn [bind]. unfold sign_arg. rewrite (A 1%nat "passphrase"%string pass eq_refl eq_refl). cbn [bind].
    rewrite (armored_at _ _ _ _ true M) by found. cbn [bind]. rewrite E. cbn [bind]. unfold print_if, detached_meaningful. rewrite NE. cbn [length Nat.eqb]. rewrite andb_false_r. reflexivity.
Qed.

(** Examples: the DSA key of C44, signing and verifying. *)
Definition sign_files : list (bytes * bytes) := [(str "k", file_of toy_pri); (str "f", str "hello"); (str "d", file_of dumb_pri)].
Definition signing : machine := toy_machine 2 sign_files [3; 5].
Definition verifying (sig : bytes) : machine := toy_machine 2 [(str "p", file_of toy_pub); (str "f", str "hello"); (str "x", str "other"); (str "s", sig)] [].
Lemma toy_moderate : Forall moderate (k_mpi toy_key).
Proof. repeat (apply Forall_cons; [unfold moderate; apply N.log2_lt_pow2; reflexivity|]); constructor. Qed.
Lemma toy_loaded : secret_load (file_of toy_pri) = Ok toy_pri /\ key_load (file_of toy_pub) = Ok toy_pub.
Proof. split; vm_compute; reflexivity. Qed.
Lemma toy_id : exists id, keyid toy_pub = Ok id.
Proof. eexists. vm_compute. reflexivity. Qed.
Example C87_detached_ex : exists text id, prints signing (str "sign-detached-signature") [Word (str "k"); Word []; Word (str "f")] None text /\
  prints (verifying text) (str "verify-detached-signature") [Word (str "p"); Word (str "f"); Word (str "s")] None (says (str "File ""f""") true (str "p") id).
Proof.
  destruct toy_id as (id & KI). destruct toy_loaded as [LS LP].
  assert (E : exists sig rest, sign_detached (mkArgs toy_pri [] 4 2) 5 (str "hello") [3; 5] = Ok (sig, rest) /\ g_packets sig <> []) by (do 2 eexists; split; [vm_compute; reflexivity|discriminate]).
  destruct E as (sig & rest & E & NE).
  destruct (C87_detached_partial signing [Word (str "k"); Word []; Word (str "f")] None (str "k") [] (str "f") (file_of toy_pri) (str "hello") toy_pri 2 toy_key toy_sec [7] toy_pub sig rest) as (text & _ & P & Q); try exact E; try exact NE; try exact LS.
  - call.
  - reflexivity.
  - reflexivity.
  - found.
  - reflexivity.
  - exact toy_matching.
  - exact toy_moderate.
  - reflexivity.
  - exists (text ++ [10]), id. split; [exact P|]. apply (Q (verifying (text ++ [10])) _ _ (str "p") (str "f") (str "s") (file_of toy_pub)); try exact LP; try exact KI; try reflexivity. call.
Qed.
Example C87_file_ex : exists text id, prints signing (str "sign-file") [Word (str "k"); Value (str "-c") (str "UNCOMPRESSED"); Word []; Word (str "f")] None text /\
  prints (verifying text) (str "verify-file") [Word (str "p"); Word (str "s")] None (says (str "The data in ""s""") true (str "p") id).
Proof.
  destruct toy_id as (id & KI). destruct toy_loaded as [LS LP].
  assert (E : exists m rest, sign_binary plus minus 2 (mkArgs toy_pri [] 4 2) (str "f") (str "hello") 0 5 6 [3; 5] = Ok (m, rest) /\ g_packets (m_pgp m) <> []) by (do 2 eexists; split; [vm_compute; reflexivity|discriminate]).
  destruct E as (m & rest & E & NE).
  destruct (C87_file_partial signing [Word (str "k"); Value (str "-c") (str "UNCOMPRESSED"); Word []; Word (str "f")] None (str "k") [] (str "f") (file_of toy_pri) (str "hello") toy_pri 2 toy_key toy_sec [7] toy_pub m rest) as (text & _ & P & Q); try exact E; try exact NE; try exact LS.
  - call.
  - reflexivity.
  - reflexivity.
  - reflexivity.
  - found.
  - reflexivity.
  - exact toy_matching.
  - exact toy_moderate.
  - reflexivity.
  - reflexivity.
  - apply octetsb_spec. reflexivity.
  - reflexivity.
  - apply octetsb_spec. reflexivity.
  - unfold readable_length. vm_compute (6 + _ + _). lia.
  - exists (text ++ [10]), id. split; [exact P|]. apply (Q (verifying (text ++ [10])) 1%nat _ _ (str "p") (str "s") (file_of toy_pub)); try exact LP; try exact KI; try reflexivity. call.
Qed.
Example C87_timestamp_ex : exists text id, prints signing (str "sign-timestamp") [Word (str "k"); Word []; Word (str "0")] None text /\
  prints (verifying text) (str "verify-timestamp") [Word (str "p"); Word (str "s")] None (says (str "Timestamp signature in ""s""") true (str "p") id).
Proof.
  destruct toy_id as (id & KI). destruct toy_loaded as [LS LP].
  assert (E : exists sig rest, sign_timestamp (mkArgs toy_pri [] 4 2) 0 [3; 5] = Ok (sig, rest) /\ g_packets sig <> []) by (do 2 eexists; split; [vm_compute; reflexivity|discriminate]).
  destruct E as (sig & rest & E & NE).
  destruct (C87_timestamp_partial signing [Word (str "k"); Word []; Word (str "0")] None (str "k") [] (str "0") (file_of toy_pri) 0 toy_pri 2 toy_key toy_sec [7] toy_pub sig rest) as (text & _ & P & Q); try exact E; try exact NE; try exact LS.
  - call.
  - reflexivity.
  - reflexivity.
  - reflexivity.
  - found.
  - reflexivity.
  - exact toy_matching.
  - exact toy_moderate.
  - exists (text ++ [10]), id. split; [exact P|]. apply (Q (verifying (text ++ [10])) _ _ (str "p") (str "s") (file_of toy_pub)); try exact LP; try exact KI; try reflexivity. call.
Qed.
Example C87_cleartext_ex : exists text id, prints signing (str "sign-cleartext-signature") [Word (str "k"); Word []; Word (str "f")] None text /\
  prints (verifying text) (str "verify-cleartext-signature") [Word (str "p"); Word (str "s")] None (says (str "This message") true (str "p") id).
Proof.
  destruct toy_id as (id & KI). destruct toy_loaded as [LS LP].
  assert (E : exists c rest, sign_cleartext (mkArgs toy_pri [] 4 2) 5 (str "hello") [3; 5] = Ok (c, rest) /\ g_packets (cs_sig c) <> []) by (do 2 eexists; split; [vm_compute; reflexivity|discriminate]).
  destruct E as (c & rest & E & NE).
  destruct (C87_cleartext_partial signing [Word (str "k"); Word []; Word (str "f")] None (str "k") [] (str "f") (file_of toy_pri) (str "hello") toy_pri 2 toy_key toy_sec [7] toy_pub c rest) as (text & _ & P & Q); try exact E; try exact NE; try exact LS.
  - call.
  - reflexivity.
  - reflexivity.
  - found.
  - exact toy_matching.
  - exact toy_moderate.
  - reflexivity.
  - reflexivity.
  - intros l I. change (getlines (str "hello")) with [str "hello"] in I. destruct I as [<-|[]]. exists (str "hello"), []. split; [apply Forall_nil|]. split; [left; reflexivity|].
    intros y ch X B. change (str "hello") with (str "hell" ++ [111]) in X. apply app_inj_tail in X as [_ <-]. clear - B. vm_compute in B. decompose [or] B; discriminate || contradiction.
  - clear. intros a b c0 X. change (getlines (str "hello")) with [str "hello"] in X. apply (f_equal (@length bytes)) in X. rewrite app_length in X. cbn in X. lia.
  - exists (text ++ [10]), id. split; [exact P|]. apply (Q (verifying (text ++ [10])) _ _ (str "p") (str "s") (file_of toy_pub)); try exact LP; try exact KI; try reflexivity. call.
Qed.
Definition good_sig : pgp := match sign_detached (mkArgs toy_pri [] 4 2) 5 (str "hello") [3; 5] with Ok (s, _) => s | _ => detached_new end.
(** A good and a wrong file under the same signature: status 0 for both. *)
Example C87_status_ex : exists sig id ds, pgp_write sig ArmorYes = Ok ds /\
  prints (toy_machine 2 [(str "p", file_of toy_pub); (str "f", str "hello"); (str "s", ds)] []) (str "verify-detached-signature") [Word (str "p"); Word (str "f"); Word (str "s")] None (says (str "File ""f""") true (str "p") id) /\
  prints (toy_machine 2 [(str "p", file_of toy_pub); (str "f", str "other"); (str "s", ds)] []) (str "verify-detached-signature") [Word (str "p"); Word (str "f"); Word (str "s")] None (says (str "File ""f""") false (str "p") id).
Proof.
  destruct toy_id as (id & KI). destruct toy_loaded as [LS LP].
  assert (E : exists sig ds, pgp_write sig ArmorYes = Ok ds /\ detached_load ds = Ok sig /\ verify_detached toy_pub (str "hello") sig = Ok 1%Z /\ verify_detached toy_pub (str "other") sig = Ok 0%Z).
  { exists good_sig. eexists. split; [vm_compute; reflexivity|]. split; [vm_compute; reflexivity|]. split; [vm_compute; reflexivity|vm_compute; reflexivity]. }
  destruct E as (sig & ds & W & LD & V & V'). exists sig, id, ds. split; [exact W|].
  apply (C87_status_refuted _ [Word (str "p"); Word (str "f"); Word (str "s")] None (str "p") (str "f") (str "s") (file_of toy_pub) (str "hello") (str "other") ds toy_pub sig id); try exact LP; try exact KI; try exact LD; try exact V; try exact V'; try reflexivity. call.
Qed.
Example C87_refused_ex : refuses signing (str "sign-detached-signature") [Word (str "d"); Word []; Word (str "f")] None /\
  refuses signing (str "sign-detached-signature") [Value (str "-h") (str "sha1"); Word (str "k"); Word []; Word (str "f")] None.
Proof.
  split.
  - apply (C87_refused _ _ _ (str "d") [] (str "f")); [call|]. right; right; right. exists (file_of dumb_pri), (str "hello"), dumb_pri, 2, detached_new, [3; 5].
    split; [reflexivity|]. split; [reflexivity|]. split; [vm_compute; reflexivity|]. split; [found|]. split; [vm_compute; reflexivity|reflexivity].
  - apply (C87_refused _ _ _ (str "k") [] (str "f")); [call|]. right; right; left. split; [discriminate|]. split; [discriminate|]. intros X. vm_compute in X. decompose [or] X; discriminate || contradiction.
Qed.
Example C87_key_ex : exists id, prints (toy_machine 2 [(str "p", file_of toy_pub); (str "q", file_of C78_secret)] []) (str "verify-primary-key") [Word (str "p"); Word (str "q")] None
  (str "Key in ""q"" (" ++ hexlify (snd id) ++ str ") was not signed by key in ""p"" (" ++ hexlify (fst id) ++ str ")." ++ [10]).
Proof.
  destruct toy_id as (id & KI). assert (E : exists id', keyid C78_secret = Ok id') by (eexists; vm_compute; reflexivity). destruct E as (id' & KI'). exists (id, id').
  destruct toy_loaded as [_ LP]. assert (LC : key_load (file_of C78_secret) = Ok C78_secret) by (vm_compute; reflexivity). assert (V : verify_primary_key toy_pub C78_secret = Ok 0%Z) by (vm_compute; reflexivity).
  destruct (C87_key_verdict (toy_machine 2 [(str "p", file_of toy_pub); (str "q", file_of C78_secret)] []) [Word (str "p"); Word (str "q")] None (str "p") (str "q") (file_of toy_pub) (file_of C78_secret) toy_pub C78_secret id id' 0%Z) as (_ & X & _);
    [call|reflexivity|reflexivity|exact LP|exact LC|exact KI|exact KI'|exact V|]. exact (X eq_refl).
Qed.
Print Assumptions C87_detached_verdict. Print Assumptions C87_file_verdict. Print Assumptions C87_cleartext_verdict. Print Assumptions C87_timestamp_verdict. Print Assumptions C87_key_verdict.
Print Assumptions C87_status_refuted. Print Assumptions C87_detached_partial. Print Assumptions C87_timestamp_partial. Print Assumptions C87_cleartext_partial. Print Assumptions C87_file_partial. Print Assumptions C87_refused.
