(** C88: revoking and certifying on the command line. *)
From Verif Require Import Proofs.Lib Proofs.CommandsP Proofs.SignP Proofs.ArmorP Proofs.CryptP Proofs.CliP Proofs.MadeP Proofs.PgpP Proofs.KeyGrammarP Proofs.IncludesP Proofs.MessageIOP Proofs.ValidP Proofs.CertifyP Spec.Invocation Spec.Armor Spec.Sequence Spec.Text Spec.Keys Spec.Sigs Spec.Framing Spec.Grammar Spec.KeyGrammar Spec.Signed Spec.Certify
  Props.C10_C12 Props.C14_C15 Props.C32 Props.C33_C35 Props.C36_C68 Props.C44_C46 Props.C44_written Props.C65_C66 Props.C72 Props.C78 Props.C86 Props.C87 Spec.Invocation Spec.CommandLine.
Local Open Scope N_scope.

(** ** verify-revoke *)
Theorem C88_verdict : forall w items rest fk fc dk dc g c id v, calls cli_verify_revoke items rest [fk; fc] ->
  w_files w fk = Some dk -> w_files w fc = Some dc -> key_load dk = Ok g -> certificate_load dc = Ok c -> keyid g = Ok id ->
  verify_revoke g c = Ok v ->
  (v = 1%Z -> prints w (str "verify-revoke") items rest (revokes fc true fk id)) /\
  (v = 0%Z -> prints w (str "verify-revoke") items rest (revokes fc false fk id)) /\
  (v = (-1)%Z -> refuses w (str "verify-revoke") items rest).
Proof.
  intros w items rest fk fc dk dc g c id v CA F0 F1 L0 L1 KI V.
  destruct (calls_runs w cli_verify_revoke uses_verify_revoke items rest _ ltac:(found) CA) as (p & M & A & P).
  assert (E : program w (str "verify-revoke" :: line items rest) = Some (if (v =? -1)%Z then Ok ((-1)%Z, w_help w cli_verify_revoke ++ [10]) else
    Ok (0%Z, (str "The certificate in " ++ quoted fc ++ str " " ++ (if (v =? 1)%Z then str "revokes" else str "does not revoke") ++ str " key in " ++ quoted fk ++ str " (" ++ hexlify id ++ str ").") ++ [10]))).
  { change (str "verify-revoke") with (m_name cli_verify_revoke). rewrite P. change (function_of w cli_verify_revoke) with (run_verify_revoke w). unfold run_verify_revoke.
    rewrite (with_file_ok w p "key" fk dk) by (try exact F0; now apply (A 0%nat)). rewrite (with_file_ok w p "revocation-certificate" fc dc) by (try exact F1; now apply (A 1%nat)).
    rewrite L0. cbn [bind]. rewrite L1. cbn [bind]. rewrite V. cbn [bind]. rewrite (A 1%nat "revocation-certificate"%string fc eq_refl eq_refl). cbn [bind].
    rewrite (A 0%nat "key"%string fk eq_refl eq_refl). cbn [bind]. rewrite KI. cbn [bind]. unfold verdict. destruct (v =? -1)%Z; [reflexivity|]. destruct (v =? 0)%Z; reflexivity. }
  split; [intros ->|split; intros ->].
  - unfold prints. rewrite E. unfold revokes, quoted. cbn [Z.eqb Pos.eqb]. rewrite <- ?app_assoc. reflexivity.
  - unfold prints. rewrite E. unfold revokes, quoted. cbn [Z.eqb]. rewrite <- ?app_assoc. reflexivity.
  - exists cli_verify_revoke, uses_verify_revoke, []. split; [found|]. split; [reflexivity|]. rewrite E. reflexivity.
Qed.

(** ** Certificates that are made, saved and verified *)
Definition cert_keys : list (bytes * bytes) := [(str "Version", str "cc"); (str "Comment", str "Revocation Certificate")].
Lemma cert_keys_ok : Forall armor_key_ok cert_keys.
Proof.
  constructor; [|constructor; [|constructor]]; unfold armor_key_ok; cbn [fst snd];
    (split; [intros X; vm_compute in X; decompose [or] X; discriminate || contradiction|];
     split; [intros X; vm_compute in X; decompose [or] X; discriminate || contradiction|];
     split; [intros X; vm_compute in X; decompose [or] X; discriminate || contradiction|]).
  all: split; [eexists _, _; split; [reflexivity|]; intros X; vm_compute in X; decompose [or] X; discriminate || contradiction|].
  all: split; [|reflexivity].
  all: match goal with |- exists v c, ?n = _ /\ _ => exists (removelast n), (last n 0) end; split; [reflexivity|]; intros X; vm_compute in X; decompose [or] X; discriminate || contradiction.
Qed.
Lemma cert_back s w dr : In (t2_type s) [32; 40; 48] -> sequence 0 [new_packet 2 (PSig s)] -> write_packets [new_packet 2 (PSig s)] = Ok w -> octets w -> w <> [] -> len w < 2 ^ 62 ->
  exists text, pgp_write (fst (cert_of (Some s, dr))) ArmorYes = Ok text /\ certificate_load (text ++ [10]) = Ok (fst (cert_of (Some s, dr))) /\
    revocation_meaningful (fst (cert_of (Some s, dr))) = Ok true.
Proof.
  intros TY SQ WP OW NE LW. destruct (C14_armor_data_partial 2 cert_keys w ltac:(lia) cert_keys_ok OW NE LW) as (text & AT & RT).
  assert (RM : revocation_meaningful (mkPgp true 2 cert_keys [new_packet 2 (PSig s)]) = Ok true).
  { unfold revocation_meaningful. cbn [g_type g_packets N.eqb Pos.eqb negb new_packet p_tag]. change (as_sig _) with (Ok s). cbn [bind]. apply mem_In in TY. now rewrite TY. }
  exists text. unfold pgp_write, cert_of. cbn [fst g_packets g_type g_keys]. fold cert_keys. rewrite WP. cbn [bind]. split; [exact AT|]. split; [|exact RM].
  rewrite (certificate_load_newline 2 _ _ _ ltac:(unfold armor_type_ok; lia) AT). unfold certificate_load. rewrite RT, (C10_sequence_roundtrip_partial _ _ SQ WP). cbn [bind g_armored g_keys g_packets].
  rewrite RM. reflexivity.
Qed.
(** The signature with a reason fits its packet. *)
Lemma reason_raw type pka hash id now l v code reason : len id = 8 -> len reason <= 3900 ->
  exists h, (len h <= 2 /\ octets h) /\ 
  tag2_raw (with_values (with_reason code reason (create_sig 4 type pka hash id now)) l v) =
  4 :: type :: pka :: hash :: be 2 (6 + len (h ++ 29 :: code :: reason)) ++ (5 :: 2 :: be 4 now) ++ (h ++ 29 :: code :: reason) ++ be 2 10 ++ (9 :: 16 :: id) ++ l ++ concat (map write_MPI v).
Proof.
  intros L LR. 
  assert (A : @sub_write tag2 tag2_raw (false, Sub2 now) = 5 :: 2 :: be 4 now).
  { unfold sub_write, write_subpacket. cbn [snd fst sub_type sub_raw]. change (N.lor 2 0) with 2. rewrite len_cons, len_be. reflexivity. }
  assert (B : @sub_write tag2 tag2_raw (false, Sub16 id) = 9 :: 16 :: id).
  { unfold sub_write, write_subpacket. cbn [snd fst sub_type sub_raw]. change (N.lor 16 0) with 16. rewrite len_cons, L. reflexivity. }
  assert (C : exists h, (len h <= 2 /\ octets h) /\ @sub_write tag2 tag2_raw (false, Sub29 code reason) = h ++ 29 :: code :: reason).
  { unfold sub_write, write_subpacket. cbn [snd fst sub_type sub_raw]. change (N.lor 29 0) with 29. rewrite !len_cons.
    destruct (1 + (1 + len reason) <? 192) eqn:Q1.
    - exists [u8 (1 + (1 + len reason))]. split; [|reflexivity]. split; [rewrite !len_cons, len_nil; lia|]. repeat constructor. unfold octet, u8. apply N.mod_lt. lia.
    - replace ((192 <=? 1 + (1 + len reason)) && (1 + (1 + len reason) <? 8383)) with true by lia.
      eexists [_; _]. split; [|reflexivity]. split; [rewrite !len_cons, len_nil; lia|]. constructor; [unfold octet, u8; apply N.mod_lt; lia|]. constructor; [|constructor].
      unfold octet. change 255 with (N.ones 8). rewrite N.land_ones. apply N.mod_lt. lia. }
  destruct C as (h & HL & C). exists h. split; [exact HL|].
  cbn [create_sig with_reason with_values tag2_raw map concat app]. 
  change (4 =? 3) with false. change (4 =? 4) with true. cbv iota. cbn [app].
  change (concat []) with (@nil N). rewrite ?app_nil_r. rewrite A, B, C.
  replace (len (9 :: 16 :: id)) with 10 by (rewrite !len_cons, L; reflexivity). rewrite (len_app (5 :: 2 :: be 4 now)).
  replace (len (5 :: 2 :: be 4 now)) with 6 by (rewrite !len_cons, len_be; reflexivity).
  rewrite <- !app_assoc. reflexivity.
Qed.
Lemma reason_fits d digest k pri draws vals draws' type hash id now code reason :
  hash_use hash d = Ok digest -> k_pka k = 1 \/ k_pka k = 17 -> key_pair (k_pka k) pri (k_mpi k) -> Forall moderate (k_mpi k) ->
  sign_with_pka digest (k_pka k) pri (k_mpi k) hash draws = Ok (vals, draws') ->
  len id = 8 -> now < 2 ^ 32 -> len reason <= 3900 -> code < 256 -> octets reason -> octets id -> type < 256 ->
  let s := with_values (with_reason code reason (create_sig 4 type (k_pka k) hash id now)) (prefix digest 2) vals in
  sig_fits s /\ len (tag2_raw s) <= 8100 /\ octets (tag2_raw s).
Proof.
  intros H P KP F S L T LR CO OR OI OT s. destruct (with_pka_small _ _ _ _ _ _ _ _ _ H P KP F S) as [LV FV].
  destruct (digest_two _ _ _ H) as [L2 O2].
  assert (FM : Forall mpi_fits vals) by (eapply Forall_impl; [|exact FV]; apply moderate_fits).
  destruct (reason_raw type (k_pka k) hash id now (prefix digest 2) vals code reason L LR) as (h & (LH & OH) & R).
  split; [|split].
  - unfold s. cbn [create_sig with_reason with_values sig_fits]. split; [exact L2|]. split; [exact LV|]. split; [exact FM|]. left.
    split; [reflexivity|]. split; [reflexivity|]. split; [reflexivity|].
    split; [cbn [app allP snd sub_fits sub_kept]; repeat split; exact T|]. split; [cbn; tauto|].
    unfold area. cbn [app map concat]. rewrite !app_nil_r. unfold sub_write, write_subpacket. cbn [snd fst sub_type sub_raw].
    rewrite !len_cons, len_be, L. change (1 + N.of_nat 4 <? 192) with true. change (1 + 8 <? 192) with true. cbv iota. rewrite len_app, !len_cons, len_be, L. 
    split; [|reflexivity]. repeat match goal with |- context [if ?b then _ else _] => destruct b end; rewrite ?len_cons, ?len_app, ?len_be, ?len_cons; lia.
  - unfold s. rewrite R. repeat (rewrite ?len_cons, ?len_app, ?len_be). rewrite L, L2.
    assert (X : len (concat (map write_MPI vals)) <= 2050 * N.of_nat (length vals)).
    { clear -FV. induction FV as [|x r X F IH]; [cbn; lia|]. cbn [map concat length]. rewrite len_app. pose proof (moderate_len x X). lia. }
    rewrite LV in X. unfold sig_mpis in X. destruct (k_pka k =? 17); lia.
  - unfold s. rewrite R.
    assert (OHA : hash < 256) by (unfold hash_use, hash_alg in H; destruct hash as [|p]; [reflexivity|]; repeat (destruct p as [p|p|]; try discriminate H); reflexivity).
    repeat (apply Forall_cons; [unfold octet; lia|]). rewrite !octets_app.
    repeat (split; [first [apply be_octets|exact O2|exact OH|repeat (apply Forall_cons; [unfold octet; lia|]); first [exact OI|exact OR|apply be_octets]]|]).
    split; [split; [exact OH|]; repeat (apply Forall_cons; [unfold octet; lia|]); exact OR|].
    repeat (split; [first [apply be_octets|exact O2|exact OH|repeat (apply Forall_cons; [unfold octet; lia|]); first [exact OI|exact OR|apply be_octets]]|]).
    clear. induction vals as [|x r IH]; [constructor|]. cbn [map concat]. apply octets_app. split; [apply write_MPI_octets|exact IH].
Qed.
Definition as_signer (a : rev_args) : sign_args := mkArgs (r_signer a) (r_pass a) (r_version a) (r_hash a).
Lemma revoker_matching a k sec pri g : revoker a k sec pri g -> matching (as_signer a) k sec pri g.
Proof. intros (V & SW & D & KP & F & _ & M & H). unfold matching, as_signer. cbn [a_version a_pri a_pass]. auto 10. Qed.
Lemma subkey_cert_written a k sec pri g x now draws cert rest : revoker a k sec pri g -> Forall moderate (k_mpi k) -> now < 2 ^ 32 ->
  subkey_cert a x now draws = Ok (cert, rest) -> g_packets cert <> [] ->
  exists text, pgp_write cert ArmorYes = Ok text /\ certificate_load (text ++ [10]) = Ok cert /\ revocation_meaningful cert = Ok true.
Proof.
  intros R MO T E NE. unfold subkey_cert in E. apply bind_ok in E as ([o dr] & KS & E). apply Ok_inj in E.
  destruct o as [s'|]; [|assert (cert = mkPgp true 2 [] []) as -> by (apply (f_equal fst) in E; symmetry; exact E); now destruct NE].
  assert (cert = fst (cert_of (Some s', dr))) as -> by (apply (f_equal fst) in E; symmetry; exact E). clear NE E.
  unfold subkey_sig in KS. apply bind_ok in KS as (v & V & KS). destruct v; [|discriminate]. cbn [negb] in KS. destruct (rev_valid_target a V) as [_ MS].
  pose proof R as (RV & SW & _ & _ & _ & V4 & _). destruct (signs_found _ _ _ MS SW) as (p & FP & AP). rewrite FP in KS. cbn [bind] in KS. rewrite AP in KS. cbn [bind] in KS.
  apply bind_ok in KS as (o & FK & KS). destruct o as [t|]; [|discriminate]. apply bind_ok in KS as (id & KI & KS). unfold revocation_sig in KS.
  cbn [create_sig t2_type t2_hash N.eqb Pos.eqb] in KS. apply bind_ok in KS as (digest & DG & FI).
  unfold to_sign_28 in DG. apply hashed_with_use in DG as (d & HU). cbn [create_sig t2_hash] in HU.
  pose proof FI as FI'. apply finish_ok in FI' as (p1 & vals & _ & _ & _ & ES).
  destruct (signature_octets _ _ _ _ _ 40 now id d digest draws s' dr (revoker_matching _ _ _ _ _ R) MO T eq_refl KI HU FI) as (b & SQ & WP & OW & NB & LB).
  apply (cert_back _ b); auto. rewrite ES. cbn. auto.
Qed.
Lemma uid_cert_written a k sec pri g x now draws cert rest : revoker a k sec pri g -> Forall moderate (k_mpi k) -> now < 2 ^ 32 ->
  r_code a < 256 -> octets (r_reason a) -> len (r_reason a) <= 3900 ->
  uid_cert a x now draws = Ok (cert, rest) -> g_packets cert <> [] ->
  exists text, pgp_write cert ArmorYes = Ok text /\ certificate_load (text ++ [10]) = Ok cert /\ revocation_meaningful cert = Ok true.
Proof.
  intros R MO T CO OR LR E NE. unfold uid_cert in E. apply bind_ok in E as ([o dr] & KS & E). apply Ok_inj in E.
  destruct o as [s'|]; [|assert (cert = mkPgp true 2 [] []) as -> by (apply (f_equal fst) in E; symmetry; exact E); now destruct NE].
  assert (cert = fst (cert_of (Some s', dr))) as -> by (apply (f_equal fst) in E; symmetry; exact E). clear NE E.
  unfold uid_sig in KS. apply bind_ok in KS as (v & V & KS). destruct v; [|discriminate]. cbn [negb] in KS. destruct (rev_valid_target a V) as [_ MS].
  pose proof R as (RV & SW & D & KP & F & V4 & _). destruct (signs_found _ _ _ MS SW) as (p & FP & AP). rewrite FP in KS. cbn [bind] in KS. rewrite AP in KS. cbn [bind] in KS.
  apply bind_ok in KS as (o & FK & KS). destruct o as [[[xs u] ys]|]; [|discriminate]. apply bind_ok in KS as (id & KI & KS).
  apply bind_ok in KS as (digest & DG & FI).
  unfold to_sign_30 in DG. apply hashed_with_use in DG as (d & HU). cbn [with_reason create_sig t2_hash] in HU.
  apply finish_ok in FI as (pri' & vals & D' & S & NEV & ->). rewrite D in D'. apply Ok_inj in D'. subst pri'. rewrite RV in *. cbn [with_reason create_sig t2_hash] in S.
  assert (C : In (k_pka k) [1; 3; 17]) by (destruct SW as (? & ? & _ & _ & C); exact C).
  assert (C2 : k_pka k = 1 \/ k_pka k = 17).
  { destruct C as [C|[C|[C|[]]]]; auto. rewrite <- C in S. apply Ok_inj in S. congruence. }
  destruct (reason_fits d digest k pri draws vals dr 48 (r_hash a) id now (r_code a) (r_reason a) HU C2 KP MO S (keyid_len k id F KI) T LR CO OR (keyid_octets k id KI) eq_refl) as (SF & LS & O).
  set (s := with_values _ _ _) in *. destruct (new_written 2 (PSig s) _ eq_refl) as (w & W & LW).
  apply (cert_back s w); auto.
  - cbn. auto.
  - eapply sequence_new; [reflexivity|reflexivity| | | |intros; exact Logic.I].
    + unfold MessageIOP.readable_length. lia. + split; [reflexivity|exact SF]. + intros h _. cbn [placed]. discriminate.
  - cbn [write_packets]. rewrite W. cbn [bind]. now rewrite app_nil_r.
  - exact (new_write_octets 2 (PSig s) _ w eq_refl O W).
  - intros ->. cbn in LW. lia.
  - lia.
Qed.
Lemma with_code_ok w p c code k : arg p "-c" = Ok c -> w_scan w 32 c = Some code -> code mod 256 <= 3 -> with_code w p k = k (code mod 256).
Proof. intros A S L. unfold with_code. rewrite A. cbn [bind]. rewrite S. unfold u8. replace (code mod 256 <=? 3) with true by lia. reflexivity. Qed.
(** generate-revoke-subkey-cert: the certificate it prints, saved, is accepted by verify-revoke for
    every key with that primary key and its subkeys. *)
Theorem C88_subkey_cert_partial : forall w items rest fk pass dk pri code hash k sec vals g cert draws,
  calls cli_generate_revoke_subkey_cert items rest [fk; pass] -> w_files w fk = Some dk -> secret_load dk = Ok pri ->
  w_scan w 32 (given items (str "-c") (str "0")) = Some code -> code <= 3 ->
  In (given items (str "-h") (str "SHA1"), hash) hash_names -> flag items (str "-a") true = true ->
  let a := mkRev pri pass pri code (given items (str "-r") []) 4 hash in
  revoker a k sec vals g -> Forall moderate (k_mpi k) -> w_now w < 2 ^ 32 -> Forall typed (g_packets g) ->
  (forall p kp, In p (g_packets pri) -> p_tag p = 7 -> as_key p = Ok kp -> k_version kp = 4 /\ exists q, In q (g_packets g) /\ (p_tag q = 7 \/ p_tag q = 14) /\ holds q kp) ->
  subkey_cert a (given items (str "-k") []) (w_now w) (w_draws w) = Ok (cert, draws) -> g_packets cert <> [] ->
  exists text, pgp_write cert ArmorYes = Ok text /\ prints w (str "generate-revoke-subkey-cert") items rest (text ++ [10]) /\
    forall w' items' rest' fk' fc' dk' id, calls cli_verify_revoke items' rest' [fk'; fc'] ->
      w_files w' fk' = Some dk' -> key_load dk' = Ok g -> keyid g = Ok id -> w_files w' fc' = Some (text ++ [10]) ->
      prints w' (str "verify-revoke") items' rest' (revokes fc' true fk' id).
Proof.
  intros w items rest fk pass dk pri code hash k sec vals g cert draws CA F1 LP SC CL H FA a R MO T TY HS E NE.
  destruct (hash_known _ _ H) as [H1 H2]. destruct numbers_unique as (U1 & U2 & U3).
  pose proof (C68_subkey_partial _ _ _ _ _ _ _ _ _ _ R TY HS E NE) as V.
  destruct (subkey_cert_written _ _ _ _ _ _ _ _ _ _ R MO T E NE) as (text & W & L & RM). exists text. split; [exact W|]. split.
  - destruct (calls_runs w cli_generate_revoke_subkey_cert uses_generate_revoke_subkey_cert items rest _ ltac:(found) CA) as (p & M & A & P).
    unfold prints. change (str "generate-revoke-subkey-cert") with (m_name cli_generate_revoke_subkey_cert). rewrite P. change (function_of w cli_generate_revoke_subkey_cert) with (run_revoke_subkey_cert w). unfold run_revoke_subkey_cert.
    rewrite (with_file_ok w p "private-key" fk dk) by (try exact F1; now apply (A 0%nat)).
    rewrite (with_code_ok w p _ code _ (arg_given _ _ _ _ "-c" (str "0") M ltac:(found)) SC) by (rewrite N.mod_small; lia). rewrite (N.mod_small code) by lia.
    rewrite (with_number_ok _ p "-h" _ hash _ U3 (arg_given _ _ _ _ "-h" (str "SHA1") M ltac:(found)) H1).
    rewrite LP. cbn [bind]. unfold rev_arg. rewrite (A 1%nat "passphrase"%string pass eq_refl eq_refl). cbn [bind].
    rewrite (arg_given _ _ _ _ "-r" (str "") M ltac:(found)). cbn [bind]. rewrite (arg_given _ _ _ _ "-k" (str "") M ltac:(found)). cbn [bind].
    rewrite (armored_at _ _ _ _ true M) by found. cbn [bind]. rewrite FA. change (str "") with (@nil N). fold a. rewrite E. cbn [bind]. unfold print_if. rewrite RM. cbn [bind]. rewrite W. reflexivity.
  - intros w' items' rest' fk' fc' dk' id CD F1' LG KI F2'. destruct (C88_verdict w' items' rest' fk' fc' dk' (text ++ [10]) g cert id 1%Z) as (X & _); auto.
Qed.
(** generate-revoke-uid-cert, with a reason of up to 3900 octets. *)
Theorem C88_uid_cert_partial : forall w items rest fk pass dk pri hash k sec vals g cert draws,
  calls cli_generate_revoke_uid_cert items rest [fk; pass] -> w_files w fk = Some dk -> secret_load dk = Ok pri ->
  In (given items (str "-h") (str "SHA1"), hash) hash_names -> flag items (str "-a") true = true ->
  let reason := given items (str "-r") [] in octets reason -> len reason <= 3900 ->
  let a := mkRev pri pass pri 32 reason 4 hash in
  revoker a k sec vals g -> Forall moderate (k_mpi k) -> w_now w < 2 ^ 32 -> Forall typed (g_packets g) ->
  (forall p, In p (g_packets g) -> p_tag p = 17 -> exists w, raw (p_body p) = Ok w) ->
  (forall p, In p (g_packets pri) -> p_tag p = 13 -> In p (g_packets g)) ->
  uid_cert a (given items (str "-u") []) (w_now w) (w_draws w) = Ok (cert, draws) -> g_packets cert <> [] ->
  exists text, pgp_write cert ArmorYes = Ok text /\ prints w (str "generate-revoke-uid-cert") items rest (text ++ [10]) /\
    forall w' items' rest' fk' fc' dk' id, calls cli_verify_revoke items' rest' [fk'; fc'] ->
      w_files w' fk' = Some dk' -> key_load dk' = Ok g -> keyid g = Ok id -> w_files w' fc' = Some (text ++ [10]) ->
      prints w' (str "verify-revoke") items' rest' (revokes fc' true fk' id).
Proof.
  intros w items rest fk pass dk pri hash k sec vals g cert draws CA F1 LP H FA reason OR LR a R MO T TY WA HS E NE.
  destruct (hash_known _ _ H) as [H1 H2]. destruct numbers_unique as (U1 & U2 & U3).
  pose proof (C68_uid_partial _ _ _ _ _ _ _ _ _ _ R TY WA HS E NE) as V.
  destruct (uid_cert_written _ _ _ _ _ _ _ _ _ _ R MO T ltac:(reflexivity) OR LR E NE) as (text & W & L & RM). exists text. split; [exact W|]. split.
  - destruct (calls_runs w cli_generate_revoke_uid_cert uses_generate_revoke_uid_cert items rest _ ltac:(found) CA) as (p & M & A & P).
    unfold prints. change (str "generate-revoke-uid-cert") with (m_name cli_generate_revoke_uid_cert). rewrite P. change (function_of w cli_generate_revoke_uid_cert) with (run_revoke_uid_cert w). unfold run_revoke_uid_cert.
    rewrite (with_file_ok w p "private-key" fk dk) by (try exact F1; now apply (A 0%nat)).
    rewrite (with_number_ok _ p "-h" _ hash _ U3 (arg_given _ _ _ _ "-h" (str "SHA1") M ltac:(found)) H1).
    rewrite LP. cbn [bind]. unfold rev_arg. rewrite (A 1%nat "passphrase"%string pass eq_refl eq_refl). cbn [bind].
    rewrite (arg_given _ _ _ _ "-r" (str "") M ltac:(found)). cbn [bind]. rewrite (arg_given _ _ _ _ "-u" (str "") M ltac:(found)). cbn [bind].
    rewrite (armored_at _ _ _ _ true M) by found. cbn [bind]. rewrite FA. change (str "") with (@nil N). fold reason. fold a. rewrite E. cbn [bind]. unfold print_if. rewrite RM. cbn [bind]. rewrite W. reflexivity.
  - intros w' items' rest' fk' fc' dk' id CD F1' LG KI F2'. destruct (C88_verdict w' items' rest' fk' fc' dk' (text ++ [10]) g cert id 1%Z) as (X & _); auto.
Qed.

(** ** What goes wrong *)
Lemma prints_inv w m u items rest out r : In (m, u) ordered ->
  program w (m_name m :: line items rest) = Some (' (r, out) <- r ;; Ok (if (r =? -1)%Z then ((-1)%Z, out ++ w_help w m ++ [10]) else (0%Z, out))) ->
  prints w (m_name m) items rest out -> exists v, v <> (-1)%Z /\ r = Ok (v, out).
Proof.
  intros I P E. unfold prints in E. rewrite P in E. injection E as E. apply bind_ok in E as ([v o] & -> & E). destruct (v =? -1)%Z eqn:Q; [discriminate|].
  exists v. split; [lia|]. apply Ok_inj in E. injection E as <-. reflexivity.
Qed.
Lemma fail_prints v out : v <> (-1)%Z -> fail <> Ok (v, out).
Proof. intros N E. apply Ok_inj in E. congruence. Qed.
(** generate-revoke-key-cert refuses whenever there is a certificate to print, and what it does print
    is not a certificate. *)
Theorem C88_key_cert_refuted : forall w items rest fk pass dk pri code hash,
  calls cli_generate_revoke_key_cert items rest [fk; pass] -> w_files w fk = Some dk -> secret_load dk = Ok pri ->
  w_scan w 32 (given items (str "-c") (str "0")) = Some code -> code <= 3 ->
  In (given items (str "-h") (str "SHA1"), hash) hash_names ->
  let a := mkRev pri pass pri code (given items (str "-r") []) 4 hash in
  (forall cert draws, key_cert a (w_now w) (w_draws w) = Ok (cert, draws) -> revocation_meaningful cert = Ok true -> refuses w (str "generate-revoke-key-cert") items rest) /\
  (forall out, prints w (str "generate-revoke-key-cert") items rest out -> forall cert, certificate_load out <> Ok cert).
Proof.
  intros w items rest fk pass dk pri code hash CA F1 LP SC CL H a.
  destruct (hash_known _ _ H) as [H1 H2]. destruct numbers_unique as (U1 & U2 & U3).
  destruct (calls_runs w cli_generate_revoke_key_cert uses_generate_revoke_key_cert items rest _ ltac:(found) CA) as (p & M & A & P).
  assert (E : function_of w cli_generate_revoke_key_cert p = (' (g, _) <- key_cert a (w_now w) (w_draws w) ;;
    print_if (m <- revocation_meaningful g ;; Ok (negb m)) (pgp_write g (if flag items (str "-a") true then ArmorYes else ArmorNo)))).
  { change (function_of w cli_generate_revoke_key_cert) with (run_revoke_key_cert w). unfold run_revoke_key_cert.
    rewrite (with_file_ok w p "private-key" fk dk) by (try exact F1; now apply (A 0%nat)).
    rewrite (with_code_ok w p _ code _ (arg_given _ _ _ _ "-c" (str "0") M ltac:(found)) SC) by (rewrite N.mod_small; lia). rewrite (N.mod_small code) by lia.
    rewrite (with_number_ok _ p "-h" _ hash _ U3 (arg_given _ _ _ _ "-h" (str "SHA1") M ltac:(found)) H1).
    rewrite LP. cbn [bind]. unfold rev_arg. rewrite (A 1%nat "passphrase"%string pass eq_refl eq_refl). cbn [bind].
    rewrite (arg_given _ _ _ _ "-r" (str "") M ltac:(found)). cbn [bind].
    rewrite (armored_at _ _ _ _ true M) by found. cbn [bind]. reflexivity. }
  rewrite E in P. clear E. split.
  - intros cert draws K RM. exists cli_generate_revoke_key_cert, uses_generate_revoke_key_cert, []. split; [found|]. split; [reflexivity|].
    change (str "generate-revoke-key-cert") with (m_name cli_generate_revoke_key_cert). rewrite P, K. cbn [bind]. unfold print_if. rewrite RM. reflexivity.
  - intros out PR. change (str "generate-revoke-key-cert") with (m_name cli_generate_revoke_key_cert) in PR.
    destruct (prints_inv _ cli_generate_revoke_key_cert uses_generate_revoke_key_cert _ _ _ _ ltac:(found) P PR) as (v & NV & E). clear P PR.
    apply bind_ok in E as ([g dr] & K & E). unfold print_if in E. apply bind_ok in E as (b & B & E). apply bind_ok in B as (m & RM & B). apply Ok_inj in B. subst b.
    destruct m; [now apply fail_prints in E|]. cbn [negb] in E. apply bind_ok in E as (text & W & E). unfold print in E. apply Ok_inj in E. injection E as <- <-.
    unfold key_cert in K. apply bind_ok in K as ([o dr'] & KS & K). apply Ok_inj in K. destruct o as [s|].
    + exfalso. assert (g = fst (cert_of (Some s, dr'))) as -> by (apply (f_equal fst) in K; symmetry; exact K).
      assert (TY : t2_type s = 32).
      { clear - KS. unfold key_sig in KS. apply bind_ok in KS as (v & V & KS). destruct v; [|discriminate]. cbn [negb] in KS.
        apply bind_ok in KS as (o & FK & KS). destruct o as [p|]; [|discriminate]. apply bind_ok in KS as ([k sec] & AS & KS). apply bind_ok in KS as (id & KI & KS).
        unfold revocation_sig in KS. cbn [with_reason create_sig t2_type N.eqb Pos.eqb] in KS. apply bind_ok in KS as (d & _ & KS).
        apply finish_ok in KS as (? & ? & _ & _ & _ & ->). reflexivity. }
      unfold revocation_meaningful, cert_of in RM. cbn [fst g_type g_packets N.eqb Pos.eqb negb new_packet p_tag] in RM. change (as_sig _) with (Ok s) in RM. cbn [bind] in RM. rewrite TY in RM. discriminate.
    + assert (g = mkPgp true 2 [] []) as -> by (apply (f_equal fst) in K; symmetry; exact K). clear - W. intros cert.
      destruct (flag items (str "-a") true).
      * vm_compute in W. apply Ok_inj in W. subst text. vm_compute. discriminate.
      * vm_compute in W. apply Ok_inj in W. subst text. vm_compute. discriminate.
Qed.
(** sign-subkey never succeeds. *)
Theorem C88_sign_subkey_refuted : forall w items rest ws out, calls cli_sign_subkey items rest ws -> ~ prints w (str "sign-subkey") items rest out.
Proof.
  intros w items rest ws out CA PR. destruct (calls_runs w cli_sign_subkey uses_sign_subkey items rest _ ltac:(found) CA) as (p & M & A & P).
  change (str "sign-subkey") with (m_name cli_sign_subkey) in PR. destruct (prints_inv _ cli_sign_subkey uses_sign_subkey _ _ _ _ ltac:(found) P PR) as (v & NV & E).
  change (function_of w cli_sign_subkey) with (run_sign_subkey w) in E. unfold run_sign_subkey, with_file, with_number in E.
  apply bind_ok in E as (n & _ & E). destruct (w_files w n); [|now apply fail_prints in E].
  apply bind_ok in E as (n' & _ & E). destruct (w_files w n'); [|now apply fail_prints in E].
  apply bind_ok in E as (h & _ & E). destruct (find_key hash_number h); [|now apply fail_prints in E].
  apply bind_ok in E as (pri & _ & E). apply bind_ok in E as (s & _ & E). now apply fail_prints in E.
Qed.
(** The ID of a subkey as the list and fingerprint commands print it, in hexadecimal digits, is never
    found: the octets typed are looked for in the eight octets of the ID. *)
Lemma keyid_most k id : get_keyid k = Ok id -> len id <= 8.
Proof.
  intros E. unfold get_keyid in E. destruct (k_version k <? 4); [|destruct (k_version k =? 4); [|discriminate]];
    apply bind_ok in E as (x & _ & E); apply substr_inv in E as [_ ->]; unfold len; rewrite firstn_length; lia.
Qed.
Lemma find_subkey_long x ps o : 8 < len x -> find_subkey x ps = Ok o -> o = None.
Proof.
  intros L. revert o. induction ps as [|p ps IH]; intros o E; [now apply Ok_inj in E|]. cbn [find_subkey] in E.
  destruct (p_tag p =? 7) eqn:T; [|exact (IH _ E)].
  apply bind_ok in E as (k & K & E). apply bind_ok in E as (id & KI & E). destruct (occurs x id) eqn:O; [|exact (IH _ E)].
  exfalso. apply occurs_iff in O as (a & b & ->). pose proof (keyid_most k _ KI) as X. rewrite !len_app in X. lia.
Qed.
Lemma subkey_sig_long a x now draws o dr : 8 < len x -> subkey_sig a x now draws = Ok (o, dr) -> o = None.
Proof.
  intros L E. unfold subkey_sig in E. apply bind_ok in E as (v & _ & E). destruct v; [|apply Ok_inj in E; congruence]. cbn [negb] in E.
  apply bind_ok in E as (s & _ & E). destruct s as [p|]; [|apply Ok_inj in E; congruence]. apply bind_ok in E as ([k sec] & _ & E).
  apply bind_ok in E as (t & F & E). apply (find_subkey_long _ _ _ L) in F. subst t. apply Ok_inj in E. congruence.
Qed.
Lemma hexlify_len b : len (hexlify b) = 2 * len b.
Proof. unfold hexlify, len. rewrite IncludesP.hexlify_length. lia. Qed.
Theorem C88_subkey_id_refuted : forall w items rest fk pass out id, len id = 8 -> given items (str "-k") [] = hexlify id ->
  (calls cli_generate_revoke_subkey_cert items rest [fk; pass] -> ~ prints w (str "generate-revoke-subkey-cert") items rest out) /\
  (calls cli_revoke_subkey items rest [fk; pass] -> ~ prints w (str "revoke-subkey") items rest out).
Proof.
  intros w items rest fk pass out id LI GI. assert (L : 8 < len (given items (str "-k") [])) by (rewrite GI, hexlify_len; lia). split; intros CA PR.
  - destruct (calls_runs w cli_generate_revoke_subkey_cert uses_generate_revoke_subkey_cert items rest _ ltac:(found) CA) as (p & M & A & P).
    change (str "generate-revoke-subkey-cert") with (m_name cli_generate_revoke_subkey_cert) in PR. destruct (prints_inv _ cli_generate_revoke_subkey_cert uses_generate_revoke_subkey_cert _ _ _ _ ltac:(found) P PR) as (v & NV & E).
    change (function_of w cli_generate_revoke_subkey_cert) with (run_revoke_subkey_cert w) in E. unfold run_revoke_subkey_cert, with_file, with_code, with_number in E.
    apply bind_ok in E as (n & _ & E). destruct (w_files w n); [|now apply fail_prints in E].
    apply bind_ok in E as (n' & _ & E). destruct (w_scan w 32 n'); [|now apply fail_prints in E]. destruct (u8 n0 <=? 3); [|now apply fail_prints in E].
    apply bind_ok in E as (h & _ & E). destruct (find_key hash_number h); [|now apply fail_prints in E].
    apply bind_ok in E as (pri & _ & E). apply bind_ok in E as (r & _ & E). rewrite (arg_given _ _ _ _ "-k" (str "") M ltac:(found)) in E. cbn [bind] in E.
    apply bind_ok in E as (ar & _ & E). apply bind_ok in E as ([g dr] & S & E). unfold subkey_cert in S. apply bind_ok in S as ([o dr'] & S & X). apply (subkey_sig_long _ _ _ _ _ _ L) in S. subst o.
    apply Ok_inj in X. injection X as <- _. change (print_if _ _) with fail in E. now apply fail_prints in E.
  - destruct (calls_runs w cli_revoke_subkey uses_revoke_subkey items rest _ ltac:(found) CA) as (p & M & A & P).
    change (str "revoke-subkey") with (m_name cli_revoke_subkey) in PR. destruct (prints_inv _ cli_revoke_subkey uses_revoke_subkey _ _ _ _ ltac:(found) P PR) as (v & NV & E).
    change (function_of w cli_revoke_subkey) with (run_revoke_subkey w) in E. unfold run_revoke_subkey, run_revoke, with_file, with_code, with_number in E.
    apply bind_ok in E as (n & _ & E). destruct (w_files w n); [|now apply fail_prints in E].
    apply bind_ok in E as (n' & _ & E). destruct (w_scan w 32 n'); [|now apply fail_prints in E]. destruct (u8 n0 <=? 3); [|now apply fail_prints in E].
    apply bind_ok in E as (h & _ & E). destruct (find_key hash_number h); [|now apply fail_prints in E].
    apply bind_ok in E as (pri & _ & E). apply bind_ok in E as (r & _ & E).
    apply bind_ok in E as (ar & _ & E). apply bind_ok in E as ([g dr] & S & E). rewrite (arg_given _ _ _ _ "-k" (str "") M ltac:(found)) in S. cbn [bind] in S.
    unfold revoke_subkey in S. apply bind_ok in S as (rv & _ & S). destruct rv; cbn [negb] in S.
    + apply bind_ok in S as ([o dr'] & S & X). apply (subkey_sig_long _ _ _ _ _ _ L) in S. subst o.
      apply Ok_inj in X. injection X as <- _. change (print_if _ _) with fail in E. now apply fail_prints in E.
    + apply Ok_inj in S. injection S as <- _. change (print_if _ _) with fail in E. now apply fail_prints in E.
Qed.

(** ** Keys that are revoked or certified *)
(** revoke-primary-key prints what Revoke::key returns for the key, with the code taken modulo 256:
    a number that is no code at all, such as 258, is taken and recorded as one. *)
Theorem C88_revoke_key : forall w items rest fk pass dk pri code hash g draws,
  calls cli_revoke_primary_key items rest [fk; pass] -> w_files w fk = Some dk -> secret_load dk = Ok pri ->
  w_scan w 32 (given items (str "-c") (str "0")) = Some code -> code mod 256 <= 3 ->
  In (given items (str "-h") (str "SHA1"), hash) hash_names -> 
  let a := mkRev pri pass pri (code mod 256) (given items (str "-r") []) 4 hash in
  revoke_key a (w_now w) (w_draws w) = Ok (g, draws) -> g_packets g <> [] ->
  Forall typed (g_packets pri) -> Forall writable (g_packets pri) ->
  (exists k others k' others' s r, g_packets pri = k :: others /\ Forall2 public_of (k :: others) (k' :: others') /\ g_packets g = k' :: r :: others' /\
     signature_packet s r /\ t2_type s = 32 /\ In (false, Sub29 (code mod 256) (given items (str "-r") [])) (t2_hashed s) /\ no_secrets (g_packets g)) /\
  (forall text, pgp_write g (if flag items (str "-a") true then ArmorYes else ArmorNo) = Ok text -> prints w (str "revoke-primary-key") items rest (text ++ [10])) /\
  (flag items (str "-a") true = true -> Forall armor_key_ok (g_keys g) -> sequence 0 (g_packets g) -> forall body, write_packets (g_packets g) = Ok body -> octets body -> body <> [] -> len body < 2 ^ 62 ->
   exists text, prints w (str "revoke-primary-key") items rest (text ++ [10]) /\ exists g', key_load (text ++ [10]) = Ok g' /\ g_type g' = 2 /\ g_packets g' = g_packets g).
Proof.
  intros w items rest fk pass dk pri code hash g draws CA F1 LP SC CL H a E NE TY WR.
  destruct (hash_known _ _ H) as [H1 H2]. destruct numbers_unique as (U1 & U2 & U3).
  destruct (C36_key a _ _ _ _ TY WR E NE) as (k & others & k' & others' & s & r & GP & F2 & GG & SP & T & RE & PM & NS & GK).
  assert (PR : forall text, pgp_write g (if flag items (str "-a") true then ArmorYes else ArmorNo) = Ok text -> prints w (str "revoke-primary-key") items rest (text ++ [10])).
  { intros text W. destruct (calls_runs w cli_revoke_primary_key uses_revoke_primary_key items rest _ ltac:(found) CA) as (p & M & A & P).
    unfold prints. change (str "revoke-primary-key") with (m_name cli_revoke_primary_key). rewrite P. change (function_of w cli_revoke_primary_key) with (run_revoke_primary_key w). unfold run_revoke_primary_key, run_revoke.
    rewrite (with_file_ok w p "private-key" fk dk) by (try exact F1; now apply (A 0%nat)).
    rewrite (with_code_ok w p _ code _ (arg_given _ _ _ _ "-c" (str "0") M ltac:(found)) SC CL).
    rewrite (with_number_ok _ p "-h" _ hash _ U3 (arg_given _ _ _ _ "-h" (str "SHA1") M ltac:(found)) H1).
    rewrite LP. cbn [bind]. unfold rev_arg. rewrite (A 1%nat "passphrase"%string pass eq_refl eq_refl). cbn [bind].
    rewrite (arg_given _ _ _ _ "-r" (str "") M ltac:(found)). cbn [bind].
    rewrite (armored_at _ _ _ _ true M) by found. cbn [bind]. change (str "") with (@nil N). fold a. rewrite E. cbn [bind]. unfold print_if. rewrite PM. cbn [bind]. rewrite W. reflexivity. }
  split; [exists k, others, k', others', s, r; auto 10|]. split; [exact PR|].
  intros FA AK SQ body WB OB NB LB. rewrite FA in PR.
  assert (GT : g_type g = 2) by (unfold public_meaningful in PM; destruct (g_type g =? 2) eqn:Q; [lia|discriminate]).
  assert (exists text, pgp_write g ArmorYes = Ok text) as (text & W).
  { unfold pgp_write. rewrite WB. cbn [bind]. destruct (C14_armor_data_partial (g_type g) (g_keys g) body ltac:(rewrite GT; lia) AK OB NB LB) as (text & AT & _). eauto. }
  pose proof (C14_armor_roundtrip_partial g text body ltac:(rewrite GT; lia) AK SQ WB OB NB LB W) as RT. pose proof (pgp_read_typed _ _ _ RT) as TG. cbn [g_packets] in TG.
  assert (TR : transferable (g_type g) (g_packets g)).
  { unfold public_meaningful in PM. rewrite GT in PM. cbn [N.eqb Pos.eqb] in PM. unfold meaningful in PM. rewrite GT in *. now apply (transferable_iff 2 _ TG). }
  exists text. split; [now apply PR|]. exists (mkPgp true (g_type g) (g_keys g) (g_packets g)). split; [|split; [exact GT|reflexivity]].
  pose proof W as W'. unfold pgp_write in W'. rewrite WB in W'. cbn [bind] in W'.
  rewrite (key_load_newline (g_type g) _ _ _ ltac:(rewrite GT; unfold armor_type_ok; lia) W'). eapply C78_armored; eauto.
Qed.
Theorem C88_code_refuted : forall w items rest fk pass dk pri code hash g draws text,
  calls cli_revoke_primary_key items rest [fk; pass] -> w_files w fk = Some dk -> secret_load dk = Ok pri ->
  w_scan w 32 (given items (str "-c") (str "0")) = Some code -> 256 <= code -> code mod 256 <= 3 ->
  In (given items (str "-h") (str "SHA1"), hash) hash_names ->
  revoke_key (mkRev pri pass pri (code mod 256) (given items (str "-r") []) 4 hash) (w_now w) (w_draws w) = Ok (g, draws) -> g_packets g <> [] ->
  Forall typed (g_packets pri) -> Forall writable (g_packets pri) -> pgp_write g (if flag items (str "-a") true then ArmorYes else ArmorNo) = Ok text ->
  prints w (str "revoke-primary-key") items rest (text ++ [10]) /\ exists p s, In p (g_packets g) /\ p_body p = PSig s /\ In (false, Sub29 (code mod 256) (given items (str "-r") [])) (t2_hashed s).
Proof.
  intros w items rest fk pass dk pri code hash g draws text CA F1 LP SC C2 CL H E NE TY WR W.
  destruct (C88_revoke_key w items rest fk pass dk pri code hash g draws CA F1 LP SC CL H E NE TY WR) as ((k & others & k' & others' & s & r & _ & _ & GG & (_ & SP) & _ & RE & _) & PR & _).
  split; [now apply PR|]. exists r, s. rewrite GG. split; [right; now left|]. auto.
Qed.

(** A key file that cannot be opened, a code that is no number or not 0 to 3 modulo 256, an unknown
    hash: refused. *)
Theorem C88_refused : forall w m u items rest fk pass, calls m items rest [fk; pass] ->
  In (m, u) [(cli_revoke_primary_key, uses_revoke_primary_key); (cli_revoke_subkey, uses_revoke_subkey); (cli_revoke_uid, uses_revoke_uid);
             (cli_generate_revoke_key_cert, uses_generate_revoke_key_cert); (cli_generate_revoke_subkey_cert, uses_generate_revoke_subkey_cert)] ->
  (w_files w fk = None \/ w_scan w 32 (given items (str "-c") (str "0")) = None \/
   (exists code, w_scan w 32 (given items (str "-c") (str "0")) = Some code /\ 4 <= code mod 256) \/
   ~ In (given items (str "-h") (str "SHA1")) (map fst hash_names)) ->
  refuses w (m_name m) items rest.
Proof.
  intros w m u items rest fk pass CA I H.
  assert (O : In (m, u) ordered) by (cbn [In] in I; decompose [or] I; try contradiction; match goal with X : _ = (m, u) |- _ => injection X as <- <- end; found).
  assert (OC : In (str "-c", str "0") (m_opts m) /\ In (str "-h", str "SHA1") (m_opts m)) by (cbn [In] in I; decompose [or] I; try contradiction; match goal with X : _ = (m, u) |- _ => injection X as <- <- end; (split; found)).
  destruct OC as [OC OH].
  destruct (calls_runs w m u items rest _ O CA) as (p & M & A & P).
  assert (A0 : arg p "private-key" = Ok fk) by (cbn [In] in I; decompose [or] I; try contradiction; match goal with X : _ = (m, u) |- _ => injection X as <- <- end; now apply (A 0%nat)).
  pose proof (arg_given _ _ _ _ "-c" (str "0") M OC) as AC. pose proof (arg_given _ _ _ _ "-h" (str "SHA1") M OH) as AH.
  assert (E : forall f, with_file w p "private-key" (fun key => with_code w p (fun code => with_number hash_number p "-h" (f key code))) = fail).
  { intros f. unfold with_file. rewrite A0. cbn [bind]. destruct (w_files w fk) as [dk|] eqn:F; [|reflexivity]. destruct H as [H|[H|[(code & H & C4)|H]]]; [discriminate| | |].
    - unfold with_code. rewrite AC. cbn [bind]. now rewrite H.
    - unfold with_code. rewrite AC. cbn [bind]. rewrite H. unfold u8. replace (code mod 256 <=? 3) with false by lia. reflexivity.
    - unfold with_code. rewrite AC. cbn [bind]. destruct (w_scan w 32 _) as [code|]; [|reflexivity]. destruct (u8 code <=? 3); [|reflexivity].
      apply (with_number_none _ _ _ _ _ AH). exact H. }
  exists m, u, []. split; [exact O|]. split; [reflexivity|]. rewrite P.
  assert (function_of w m p = fail) as ->; [|reflexivity].
  cbn [In] in I; decompose [or] I; try contradiction; match goal with X : _ = (m, u) |- _ => injection X as <- <- end; apply E.
Qed.

(** Inserting a packet in new format into a sequence that can stand anywhere. *)
Lemma sequence_split a b n w : sequence n (a ++ b) -> write_packets a = Ok w -> sequence n a /\ sequence (n + len w) b.
Proof.
  revert n w. induction a as [|p a IH]; intros n w S W; cbn [app sequence write_packets] in *.
  - apply Ok_inj in W. subst w. rewrite len_nil, N.add_0_r. auto.
  - destruct S as (h & d & WR & R & HO & FI & PL & S). apply bind_ok in W as (x & X & W). apply bind_ok in W as (y & Y & W). apply Ok_inj in W. subst w.
    rewrite WR in X. apply Ok_inj in X. subst x. destruct (IH _ _ S Y) as [A B]. split; [exists h, d; auto 10|].
    rewrite (len_app (h ++ d)). replace (n + (len (h ++ d) + len y)) with (n + len (h ++ d) + len y) by lia. exact B.
Qed.
Lemma sequence_join a b n w : sequence n a -> write_packets a = Ok w -> sequence (n + len w) b -> sequence n (a ++ b).
Proof.
  revert n w. induction a as [|p a IH]; intros n w S W B; cbn [app sequence write_packets] in *.
  - apply Ok_inj in W. subst w. rewrite len_nil, N.add_0_r in B. exact B.
  - destruct S as (h & d & WR & R & HO & FI & PL & S). apply bind_ok in W as (x & X & W). apply bind_ok in W as (y & Y & W). apply Ok_inj in W. subst w.
    rewrite WR in X. apply Ok_inj in X. subst x. exists h, d. split; [exact WR|]. split; [exact R|]. split; [exact HO|]. split; [exact FI|]. split; [exact PL|].
    apply (IH _ y S Y). rewrite (len_app (h ++ d)) in B. replace (n + len (h ++ d) + len y) with (n + (len (h ++ d) + len y)) by lia. exact B.
Qed.
Lemma write_packets_app a b : write_packets (a ++ b) = (x <- write_packets a ;; y <- write_packets b ;; Ok (x ++ y)).
Proof.
  induction a as [|p a IH]; cbn [app write_packets bind]; [destruct (write_packets b); reflexivity|].
  destruct (write p); cbn [bind]; try reflexivity. rewrite IH. destruct (write_packets a); cbn [bind]; try reflexivity. destruct (write_packets b); cbn [bind]; try reflexivity.
  now rewrite app_assoc.
Qed.
(** sign-primary-key: the certified key it prints, saved, is found signed by verify-primary-key with
    the signer's public key. *)
Theorem C88_certified_partial : forall w items rest fk pass fs dk ds pri signee hash cert k sec vals g r draws body,
  calls cli_sign_primary_key items rest [fk; pass; fs] -> w_files w fk = Some dk -> w_files w fs = Some ds -> secret_load dk = Ok pri -> public_load ds = Ok signee ->
  In (given items (str "-h") (str "SHA1"), hash) hash_names -> w_hex w (given items (str "-c") (str "13")) = Some cert -> cert < 256 -> flag items (str "-a") true = true ->
  matching (mkArgs pri pass 4 hash) k sec vals g -> Forall moderate (k_mpi k) -> w_now w < 2 ^ 32 ->
  Forall typed (g_packets signee) -> Forall (by_another k) (g_packets signee) -> Forall armor_key_ok (g_keys signee) ->
  (forall n, sequence n (g_packets signee)) -> write_packets (g_packets signee) = Ok body -> octets body -> len body < 2 ^ 61 ->
  sign_primary_key (mkArgs pri pass 4 hash) (w_now w) signee (given items (str "-u") []) cert (w_draws w) = Ok (r, draws) -> g_packets r <> [] ->
  exists text, pgp_write r ArmorYes = Ok text /\ prints w (str "sign-primary-key") items rest (text ++ [10]) /\
    forall w' items' rest' fk' fs' dk' id hid, calls cli_verify_primary_key items' rest' [fk'; fs'] ->
      w_files w' fk' = Some dk' -> key_load dk' = Ok g -> keyid g = Ok id -> keyid r = Ok hid -> w_files w' fs' = Some (text ++ [10]) ->
      prints w' (str "verify-primary-key") items' rest' 
        (str "Key in " ++ [34] ++ fs' ++ [34] ++ str " (" ++ hexlify hid ++ str ") was signed by key in " ++ [34] ++ fk' ++ [34] ++ str " (" ++ hexlify id ++ str ")." ++ [10]).
Proof.
  intros w items rest fk pass fs dk ds pri signee hash cert k sec vals g r draws body CA F1 F2 LP LS H CE C8 FA MA MO T TY BA AK SQ WB OB LB E NE.
  destruct (hash_known _ _ H) as [H1 H2]. destruct numbers_unique as (U1 & U2 & U3).
  pose proof (C72_key_verifies _ _ _ _ _ _ _ _ _ _ _ _ MA E NE TY BA) as V. destruct (C72_meaningful _ _ _ _ _ _ _ _ E NE TY) as (GT & TR & TF & MR & _).
  assert (SH : g_keys r = g_keys signee /\ sequence 0 (g_packets r) /\ exists b, write_packets (g_packets r) = Ok b /\ octets b /\ b <> [] /\ len b < 2 ^ 62).
  { destruct (sign_primary_inv _ _ _ _ _ _ _ _ E NE) as (AV & _ & _ & _ & _ & C & p & k0 & sec0 & q & k' & bs & u & after & FS & A & GP & K & FU & HH).
    assert (NB : body <> []).
    { intros ->. pose proof (C10_sequence_roundtrip_partial _ _ (SQ 0) WB) as R. rewrite GP in R. vm_compute in R. discriminate. }
    destruct HH as [(x & y & AL & -> & _)|(z & sigs & tail & id & digest & s & AL & Z1 & Z2 & KI & _ & DG & FI & ->)].
    { split; [reflexivity|]. split; [apply SQ|]. exists body. repeat (split; [assumption|]). lia. }
    split; [reflexivity|]. cbn [g_packets].
    pose proof (already_zero_only _ _ _ _ _ _ _ AL Z1 Z2) as ->. destruct (already_zero _ _ _ _ _ _ AL) as (-> & _ & _ & _).
    pose proof MA as (_ & SW & _). destruct (signs_found _ _ _ (args_meaningful _ AV) SW) as (p0 & FS' & A'). rewrite FS in FS'. assert (p0 = p) as -> by congruence. rewrite A in A'. assert (k0 = k) as -> by congruence. assert (sec0 = sec) as -> by congruence.
    assert (HU : exists d, hash_use hash d = Ok digest).
    { clear - DG. unfold to_sign_cert in DG. destruct cert as [|c]; [discriminate|]. repeat (destruct c as [c|c|]; try discriminate DG); apply hashed_with_use in DG as (d & HU); exists d; exact HU. }
    destruct HU as (d & HU).
    destruct (signature_octets _ _ _ _ _ cert (w_now w) id d digest _ _ _ MA MO T C8 KI HU FI) as (b & SQ1 & WP & OW & NB1 & LB1).
    set (front := q :: bs ++ u :: sigs). set (new := new_packet 2 (PSig s)) in *.
    assert (EG : g_packets signee = front ++ tail) by (rewrite GP; unfold front; cbn [app]; rewrite <- app_assoc; reflexivity).
    replace (q :: bs ++ u :: sigs ++ new :: tail) with (front ++ [new] ++ tail) by (unfold front; cbn [app]; rewrite <- app_assoc; reflexivity).
    rewrite EG in WB. rewrite write_packets_app in WB. apply bind_ok in WB as (x & WX & WB). apply bind_ok in WB as (y & WY & WB). apply Ok_inj in WB. subst body.
    assert (LSG : len b <= 4132).
    { clear - WP SQ1 FI MA MO HU KI T. pose proof MA as (V4 & SW & D & KP & F & _). apply finish_ok in FI as (pri' & vals' & D' & S & NEV & ->). rewrite D in D'. apply Ok_inj in D'. subst pri'.
      assert (C : In (k_pka k) [1; 3; 17]) by (destruct SW as (? & ? & _ & _ & C); exact C).
      assert (C2 : k_pka k = 1 \/ k_pka k = 17) by (destruct C as [C|[C|[C|[]]]]; auto; rewrite <- C in S; apply Ok_inj in S; congruence).
      destruct (made_fits d digest k vals _ vals' _ cert hash id (w_now w) HU C2 KP MO S (keyid_len k id F KI) T) as (_ & LS & _).
      destruct (new_written 2 (PSig (with_values (create_sig 4 cert (k_pka k) hash id (w_now w)) (prefix digest 2) vals')) _ eq_refl) as (w0 & W & LW).
      cbn [a_version a_hash] in *. unfold new in WP. cbn [write_packets] in WP. rewrite W in WP. cbn [bind] in WP. apply Ok_inj in WP. rewrite app_nil_r in WP. subst b. lia. }
    split.
    - apply (sequence_join _ _ 0 x); [|exact WX|].
      + specialize (SQ 0). rewrite EG in SQ. now apply (sequence_split _ _ _ _ SQ WX).
      + rewrite N.add_0_l. apply (sequence_join [new] tail (len x) b); [|exact WP|].
        * destruct SQ1 as (h & bd & WR & R & HO & FI' & PL & _). exists h, bd. split; [exact WR|]. split; [exact R|]. split; [exact HO|]. split; [exact FI'|]. split; [|exact Logic.I].
          unfold new, new_packet in *. cbn [p_body placed]. intros V3. exfalso. apply finish_ok in FI as (? & ? & _ & _ & _ & ->). discriminate V3.
        * specialize (SQ (len b)). rewrite EG in SQ. destruct (sequence_split _ _ _ _ SQ WX) as [_ B]. rewrite N.add_comm. exact B.
    - exists (x ++ b ++ y). apply octets_app in OB as [OX OY]. split; [rewrite !write_packets_app, WX, WP, WY; reflexivity|]. split; [rewrite !octets_app; auto|].
      split; [destruct x; [destruct b; [congruence|discriminate]|discriminate]|]. rewrite !len_app in *. lia. }
  destruct SH as (GK & SR & b & WR & OR & NR & LR).
  assert (exists text, pgp_write r ArmorYes = Ok text) as (text & W).
  { unfold pgp_write. rewrite WR. cbn [bind]. destruct (C14_armor_data_partial (g_type r) (g_keys r) b ltac:(rewrite GT; lia) ltac:(now rewrite GK) OR NR LR) as (text & AT & _). eauto. }
  exists text. split; [exact W|]. split.
  - destruct (calls_runs w cli_sign_primary_key uses_sign_primary_key items rest _ ltac:(found) CA) as (p & M & A & P).
    unfold prints. change (str "sign-primary-key") with (m_name cli_sign_primary_key). rewrite P. change (function_of w cli_sign_primary_key) with (run_sign_primary_key w). unfold run_sign_primary_key.
    rewrite (with_file_ok w p "signer-key" fk dk) by (try exact F1; now apply (A 0%nat)). rewrite (with_file_ok w p "signee-key" fs ds) by (try exact F2; now apply (A 2%nat)).
    rewrite (with_number_ok _ p "-h" _ hash _ U3 (arg_given _ _ _ _ "-h" (str "SHA1") M ltac:(found)) H1).
    rewrite LP. cbn [bind]. unfold sign_arg. rewrite (A 1%nat "passphrase"%string pass eq_refl eq_refl). cbn [bind]. rewrite LS. cbn [bind].
    rewrite (arg_given _ _ _ _ "-u" (str "") M ltac:(found)). cbn [bind]. rewrite (arg_given _ _ _ _ "-c" (str "13") M ltac:(found)). cbn [bind].
    rewrite (armored_at _ _ _ _ true M) by found. cbn [bind]. rewrite CE, FA. unfold u8. rewrite N.mod_small by lia. change (str "") with (@nil N). rewrite E. cbn [bind]. unfold print_if, public_meaningful. rewrite GT, MR. cbn [bind N.eqb Pos.eqb]. rewrite W. reflexivity.
  - intros w' items' rest' fk' fs' dk' id hid CD F1' LG KI KR F2'.
    assert (LK : key_load (text ++ [10]) = Ok (mkPgp true (g_type r) (g_keys r) (g_packets r))).
    { pose proof W as W'. unfold pgp_write in W'. rewrite WR in W'. cbn [bind] in W'.
      rewrite (key_load_newline (g_type r) _ _ _ ltac:(rewrite GT; unfold armor_type_ok; lia) W'). apply (C78_armored r b text); first [assumption|rewrite GT; exact TF|now rewrite GK]. }
    destruct (C87_key_verdict w' items' rest' fk' fs' dk' (text ++ [10]) g (mkPgp true (g_type r) (g_keys r) (g_packets r)) id hid 1%Z) as (X & _); auto.
Qed.

(** Examples: the DSA key of C36 with two subkeys. *)
Definition branch : pgp := tree one_user two_subkeys.
Definition branch_pub : pgp := mkPgp true 2 [] (new_packet 6 (PKey toy_key) :: one_user ++ public_two).
Definition branch_rev (code : N) (reason : bytes) : rev_args := mkRev branch [] branch code reason 4 2.
Definition branching : machine := toy_machine 2 [(str "k", file_of branch); (str "d", file_of dumb_pri)] [3; 5].
Definition checking (cert : bytes) : machine := toy_machine 2 [(str "p", file_of branch_pub); (str "q", file_of toy_pub); (str "c", cert)] [].
Lemma branch_loaded : secret_load (file_of branch) = Ok branch /\ key_load (file_of branch_pub) = Ok branch_pub.
Proof. split; vm_compute; reflexivity. Qed.
Lemma branch_typed : Forall typed (g_packets branch_pub).
Proof. typed_all. Qed.
Lemma branch_revoker code reason : revoker (branch_rev code reason) toy_key toy_sec [7] branch_pub.
Proof.
  destruct toy_matching as (_ & SW & D & KP & F & M & HP). split; [reflexivity|]. split.
  { exists (new_packet 5 (PSecret toy_key toy_sec)), (one_user ++ two_subkeys). split; [reflexivity|]. split; [reflexivity|]. cbn. auto. }
  split; [exact D|]. split; [exact KP|]. split; [exact F|]. split; [reflexivity|]. split; [vm_compute; reflexivity|].
  destruct HP as (p0 & r & E & HP). exists p0, (one_user ++ public_two). injection E as <- _. split; [reflexivity|exact HP].
Qed.
Example C88_subkey_cert_ex : exists text id id', prints branching (str "generate-revoke-subkey-cert") [Word (str "k"); Word []] None text /\
  prints (checking text) (str "verify-revoke") [Word (str "p"); Word (str "c")] None (revokes (str "c") true (str "p") id) /\
  prints (checking text) (str "verify-revoke") [Word (str "q"); Word (str "c")] None (revokes (str "c") false (str "q") id').
Proof.
  assert (KI : exists id, keyid branch_pub = Ok id) by (eexists; vm_compute; reflexivity). destruct KI as (id & KI). destruct toy_id as (id' & KI'). destruct branch_loaded as [LS LP]. destruct toy_loaded as [_ LP'].
  assert (E : exists c rest, subkey_cert (branch_rev 0 []) [] 5 [3; 5] = Ok (c, rest) /\ g_packets c <> [] /\ verify_revoke toy_pub c = Ok 0%Z) by (do 2 eexists; split; [vm_compute; reflexivity|split; [discriminate|vm_compute; reflexivity]]).
  destruct E as (c & rest & E & NE & V0).
  pose proof (subkey_cert_written (branch_rev 0 []) toy_key toy_sec [7] branch_pub [] 5 [3; 5] c rest (branch_revoker 0 []) toy_moderate ltac:(reflexivity) E NE) as (text0 & W0 & L0 & _).
  destruct (C88_subkey_cert_partial branching [Word (str "k"); Word []] None (str "k") [] (file_of branch) branch 0 2 toy_key toy_sec [7] branch_pub c rest) as (text & W & P & Q); try exact E; try exact NE; try exact LS.
  - call.
  - reflexivity.
  - reflexivity.
  - lia.
  - found.
  - reflexivity.
  - apply branch_revoker.
  - exact toy_moderate.
  - reflexivity.
  - exact branch_typed.
  - intros p kp I T K. cbn in I. decompose [or] I; try contradiction; subst p; try discriminate T; apply Ok_inj in K; subst kp; (split; [reflexivity|]).
    + exists (new_packet 14 (PKey (toy_subkey 5))). split; [cbn; tauto|]. split; [now right|]. exists (toy_subkey 5). split; [now left|]. repeat split; reflexivity.
    + exists (new_packet 14 (PKey (toy_subkey 6))). split; [cbn; tauto|]. split; [now right|]. exists (toy_subkey 6). split; [now left|]. repeat split; reflexivity.
  - assert (text0 = text) as -> by congruence. exists (text ++ [10]), id, id'. split; [exact P|]. split.
    + apply (Q _ _ _ (str "p") (str "c") (file_of branch_pub)); [call|reflexivity|exact LP|exact KI|reflexivity].
    + destruct (C88_verdict (checking (text ++ [10])) [Word (str "q"); Word (str "c")] None (str "q") (str "c") (file_of toy_pub) (text ++ [10]) toy_pub c id' 0%Z) as (_ & X & _); [call|reflexivity|reflexivity|exact LP'|exact L0|exact KI'|exact V0|].
      exact (X eq_refl).
Qed.
Example C88_uid_cert_ex : exists text id, prints branching (str "generate-revoke-uid-cert") [Value (str "-r") (str "gone"); Word (str "k"); Word []; Value (str "-u") (str "a")] None text /\
  prints (checking text) (str "verify-revoke") [Word (str "p"); Word (str "c")] None (revokes (str "c") true (str "p") id).
Proof.
  assert (KI : exists id, keyid branch_pub = Ok id) by (eexists; vm_compute; reflexivity). destruct KI as (id & KI). destruct branch_loaded as [LS LP].
  assert (E : exists c rest, uid_cert (branch_rev 32 (str "gone")) (str "a") 5 [3; 5] = Ok (c, rest) /\ g_packets c <> []) by (do 2 eexists; split; [vm_compute; reflexivity|discriminate]).
  destruct E as (c & rest & E & NE).
  destruct (C88_uid_cert_partial branching [Value (str "-r") (str "gone"); Word (str "k"); Word []; Value (str "-u") (str "a")] None (str "k") [] (file_of branch) branch 2 toy_key toy_sec [7] branch_pub c rest) as (text & W & P & Q); try exact E; try exact NE; try exact LS.
  - call.
  - reflexivity.
  - found.
  - reflexivity.
  - apply octetsb_spec. reflexivity.
  - vm_compute. discriminate.
  - exact (branch_revoker 32 (str "gone")).
  - exact toy_moderate.
  - reflexivity.
  - exact branch_typed.
  - intros p I T. cbn in I. decompose [or] I; try contradiction; subst p; discriminate T.
  - intros p I T. cbn in I. decompose [or] I; try contradiction; subst p; try discriminate T. cbn. auto.
  - exists (text ++ [10]), id. split; [exact P|]. apply (Q _ _ _ (str "p") (str "c") (file_of branch_pub)); [call|reflexivity|exact LP|exact KI|reflexivity].
Qed.
(** A key with which a certificate is made, and one with which none is (it cannot sign). *)
Example C88_key_cert_ex : refuses branching (str "generate-revoke-key-cert") [Word (str "k"); Word []] None /\
  exists out, prints branching (str "generate-revoke-key-cert") [Word (str "d"); Word []] None out.
Proof.
  split.
  - destruct (C88_key_cert_refuted branching [Word (str "k"); Word []] None (str "k") [] (file_of branch) branch 0 2) as (X & _); [call|reflexivity|exact (proj1 branch_loaded)|reflexivity|lia|found|].
    assert (E : exists c rest, key_cert (branch_rev 0 []) 5 [3; 5] = Ok (c, rest) /\ revocation_meaningful c = Ok true) by (do 2 eexists; split; [vm_compute; reflexivity|reflexivity]).
    destruct E as (c & rest & E & R). exact (X c rest E R).
  - eexists. vm_compute. reflexivity.
Qed.
Example C88_sign_subkey_ex : refuses (toy_machine 2 [(str "k", file_of branch); (str "p", file_of branch_pub)] []) (str "sign-subkey") [Word (str "k"); Word []; Word (str "p")] None.
Proof. exists cli_sign_subkey, uses_sign_subkey, []. split; [found|]. split; [reflexivity|]. vm_compute. reflexivity. Qed.
(** With the ID of the first subkey in hexadecimal digits the command refuses; with four of its octets it prints. *)
Example C88_subkey_id_ex : exists id text, get_keyid (toy_subkey 5) = Ok id /\
  refuses branching (str "generate-revoke-subkey-cert") [Value (str "-k") (hexlify id); Word (str "k"); Word []] None /\
  prints branching (str "generate-revoke-subkey-cert") [Value (str "-k") (skipn 4 id); Word (str "k"); Word []] None text.
Proof.
  eexists _, _. split; [vm_compute; reflexivity|]. split; [|vm_compute; reflexivity].
  exists cli_generate_revoke_subkey_cert, uses_generate_revoke_subkey_cert, []. split; [found|]. split; [reflexivity|]. vm_compute. reflexivity.
Qed.
Definition scanning : machine := let 'mkMachine f n n' r d z u fu _ h g he o := branching in mkMachine f n n' r d z u fu (fun _ _ => Some 258) h g he o.
Example C88_code_ex : exists text, prints scanning (str "revoke-primary-key") [Value (str "-c") (str "258"); Word (str "k"); Word []] None text.
Proof.
  assert (E : exists g rest text, revoke_key (branch_rev 2 []) 5 [3; 5] = Ok (g, rest) /\ g_packets g <> [] /\ pgp_write g ArmorYes = Ok text) by (do 3 eexists; split; [vm_compute; reflexivity|split; [discriminate|vm_compute; reflexivity]]).
  destruct E as (g & rest & text & E & NE & W). destruct some_typed as (A & _ & B), users_plain as [U _].
  destruct (C88_code_refuted scanning [Value (str "-c") (str "258"); Word (str "k"); Word []] None (str "k") [] (file_of branch) branch 258 2 g rest text) as (P & _);
    [call|reflexivity|exact (proj1 branch_loaded)|reflexivity|lia|vm_compute; discriminate|found|exact E|exact NE|now apply tree_typed|now apply some_writable|exact W|]. exists (text ++ [10]). exact P.
Qed.
Example C88_refused_ex : refuses branching (str "revoke-uid") [Value (str "-h") (str "sha1"); Word (str "k"); Word []] None /\ refuses branching (str "revoke-subkey") [Word (str "x"); Word []] None.
Proof.
  split.
  - apply (C88_refused branching cli_revoke_uid uses_revoke_uid _ _ (str "k") []); [call|cbn; auto 6|]. right; right; right. intros X. vm_compute in X. decompose [or] X; discriminate || contradiction.
  - apply (C88_refused branching cli_revoke_subkey uses_revoke_subkey _ _ (str "x") []); [call|cbn; auto 6|]. now left.
Qed.
Definition pal : pgp := mkPgp true 2 [] [ex_pub 6; ex_user "bo"].
Lemma pal_sequence n : sequence n (g_packets pal).
Proof.
  apply (sequence_new n 6 _ [4; 0; 0; 3; 232; 1; 0; 6; 35; 0; 3; 5]); [reflexivity|vm_compute; reflexivity|split; [reflexivity|intros [X _]; vm_compute in X; apply X; reflexivity]| |intros; exact Logic.I|].
  - split; [now left|]. split; [cbn; lia|]. split; [reflexivity|]. split; [repeat (apply Forall_cons; [apply C10_fits; reflexivity|]); apply Forall_nil|]. split; reflexivity.
  - intros n'. apply (sequence_new n' 13 _ [98; 111] []); [reflexivity|reflexivity|split; [reflexivity|intros [X _]; vm_compute in X; apply X; reflexivity]|split; [right; right; right; now left|discriminate]|intros; exact Logic.I|intros; exact Logic.I].
Qed.
Example C88_certified_ex : exists text id hid, 
  prints (toy_machine 2 [(str "k", file_of toy_pri); (str "s", file_of pal)] [3; 5]) (str "sign-primary-key") [Word (str "k"); Word []; Word (str "s")] None text /\
  prints (toy_machine 2 [(str "p", file_of toy_pub); (str "s", text)] []) (str "verify-primary-key") [Word (str "p"); Word (str "s")] None
    (str "Key in ""s"" (" ++ hexlify hid ++ str ") was signed by key in ""p"" (" ++ hexlify id ++ str ")." ++ [10]).
Proof.
  destruct toy_id as (id & KI). destruct toy_loaded as [LS LP].
  assert (E : exists r rest hid, sign_primary_key (mkArgs toy_pri [] 4 2) 5 pal [] 16 [3; 5] = Ok (r, rest) /\ g_packets r <> [] /\ keyid r = Ok hid) by (do 3 eexists; split; [vm_compute; reflexivity|split; [discriminate|vm_compute; reflexivity]]).
  destruct E as (r & rest & hid & E & NE & KH). assert (L : public_load (file_of pal) = Ok pal) by (vm_compute; reflexivity).
  assert (WB : exists b, write_packets (g_packets pal) = Ok b /\ octets b /\ len b < 2 ^ 61) by (eexists; split; [vm_compute; reflexivity|split; [apply octetsb_spec; reflexivity|reflexivity]]). destruct WB as (b & WB & OB & LB).
  destruct (C88_certified_partial (toy_machine 2 [(str "k", file_of toy_pri); (str "s", file_of pal)] [3; 5]) [Word (str "k"); Word []; Word (str "s")] None (str "k") [] (str "s") (file_of toy_pri) (file_of pal) toy_pri pal 2 16 toy_key toy_sec [7] toy_pub r rest b) as (text & W & P & Q);
    [call|reflexivity|reflexivity|exact LS|exact L|found|reflexivity|lia|reflexivity|exact toy_matching|exact toy_moderate|reflexivity|typed_all| |apply Forall_nil|exact pal_sequence|exact WB|exact OB|exact LB|exact E|exact NE|].
  - repeat constructor; intros s X; discriminate X.
  - exists (text ++ [10]), id, hid. split; [exact P|]. apply (Q _ _ _ (str "p") (str "s") (file_of toy_pub) id hid); [call|reflexivity|exact LP|exact KI|exact KH|reflexivity].
Qed.
Print Assumptions C88_verdict. Print Assumptions C88_subkey_cert_partial. Print Assumptions C88_uid_cert_partial. Print Assumptions C88_key_cert_refuted. Print Assumptions C88_sign_subkey_refuted.
Print Assumptions C88_subkey_id_refuted. Print Assumptions C88_revoke_key. Print Assumptions C88_code_refuted. Print Assumptions C88_certified_partial. Print Assumptions C88_refused.
