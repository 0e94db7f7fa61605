(** C90: generating a key pair on the command line. *)
From Verif Require Import Proofs.Lib Proofs.CommandsP Proofs.CliP Proofs.SignP Proofs.MadeP Proofs.KeyGenP Proofs.GenWriteP Proofs.KeyGrammarP Proofs.PgpP Proofs.ArmorP Spec.Armor Spec.Sequence Spec.KeyGrammar
  Props.C10_C12 Props.C33_C35 Props.C44_C46 Props.C73 Props.C74 Props.C76 Props.C78 Props.C80 Props.C86 Props.C87 Spec.Keypair Spec.Invocation Spec.CommandLine.
Local Open Scope N_scope.

Lemma keypair_runs w x items rest : calls cli_generate_keypair items rest [] ->
  exists p, meaning cli_generate_keypair items rest p /\
    program (with_keypair w x) (str "generate-keypair" :: line items rest) =
      Some (' (r, out) <- snd (run_generate_keypair w x p) ;; Ok (if (r =? -1)%Z then ((-1)%Z, out ++ w_help w cli_generate_keypair ++ [10]) else (0%Z, out))) /\
    program_files w x (str "generate-keypair" :: line items rest) = fst (run_generate_keypair w x p).
Proof.
  intros (F & _ & _). assert (I : In (cli_generate_keypair, uses_generate_keypair) ordered) by found.
  destruct C80_modules as [DM _]. rewrite Forall_forall in DM. destruct (DM _ I) as [D U]. cbn [fst] in D, U.
  eexists. split; [apply (final_meaning cli_generate_keypair D U items rest F)|].
  unfold program, program_files. change (str "generate-keypair") with (m_name cli_generate_keypair).
  rewrite (proj1 C80_dispatch cli_generate_keypair uses_generate_keypair (line items rest) I). unfold execute.
  rewrite (parse_line cli_generate_keypair D items rest F). rewrite skipn_all2 by (cbn; lia). split; [|rewrite beq_refl; reflexivity].
  change (m_pos cli_generate_keypair) with (@nil bytes). cbv iota.
  change (function_of (with_keypair w x) cli_generate_keypair) with (w_other (with_keypair w x) (str "generate-keypair")). unfold with_keypair at 1. cbn [w_other].
  rewrite beq_refl. reflexivity.
Qed.
Lemma digits_read s n : in_decimal s n -> forall t, strtoul_digits 0 (s ++ t) = strtoul_digits n t.
Proof.
  induction 1 as [d L|s n d D IH L]; intros t.
  - cbn [app strtoul_digits]. replace (48 <=? 48 + d) with true by lia. replace (48 + d <=? 57) with true by lia. cbn [andb]. f_equal. lia.
  - rewrite <- app_assoc, IH. cbn [app strtoul_digits]. replace (48 <=? 48 + d) with true by lia. replace (48 + d <=? 57) with true by lia. cbn [andb]. f_equal. lia.
Qed.
Lemma decimal_first s n : in_decimal s n -> exists c r, s = c :: r /\ 48 <= c <= 57.
Proof.
  induction 1 as [d L|s n d D (c & r & -> & B) L]; [exists (48 + d), []; split; [reflexivity|lia]|]. exists c, (r ++ [48 + d]). auto.
Qed.
Lemma strtoul_read s n : in_decimal s n -> n < 2 ^ 64 -> strtoul s = n.
Proof.
  intros D L. pose proof (digits_read s n D []) as R. rewrite app_nil_r in R. destruct (decimal_first s n D) as (c & r & E & B).
  rewrite E in R |- *. cbn [strtoul]. unfold isspace. replace (c =? 32) with false by lia. replace (c <=? 13) with false by lia. rewrite Bool.andb_false_r. cbn [orb].
  replace (c =? 45) with false by lia. replace (c =? 43) with false by lia. rewrite R. cbn [strtoul_digits]. unfold strtoul_limit, two64. now replace (_ <=? n) with false by lia.
Qed.
Lemma pka_unique : NoDup (map fst pka_number).
Proof. cbn. repeat (constructor; [cbn; intuition discriminate|]). constructor. Qed.
Lemma has_In {A} (t : list (bytes * A)) n x : NoDup (map fst t) -> In (n, x) t -> has_key t n = true.
Proof. intros U I. unfold has_key. now rewrite (CommandsP.find_key_In t n x U I). Qed.
Lemma number_at t p name a n : NoDup (map fst t) -> arg p name = Ok a -> In (a, n) t -> number_arg t p name = Ok n.
Proof. intros U A I. unfold number_arg. rewrite A. cbn [bind]. unfold key_at. now rewrite (CommandsP.find_key_In t a n U I). Qed.
Lemma size_at p name a n : arg p name = Ok a -> in_decimal a n -> n < 2 ^ 64 -> size_arg p name = Ok n.
Proof. intros A D L. unfold size_arg. rewrite A. cbn [bind]. now rewrite (strtoul_read a n D L). Qed.

(** The command line is read as it is meant. *)
Lemma asked_config items rest p c : meaning cli_generate_keypair items rest p -> asked items c ->
  keypair_checks pka_number sym_number hash_number p = Ok true /\ keypair_config p = Ok c.
Proof.
  intros M (pka & bits & sym & hash & sig & spka & sbits & ssym & shash & ssig & P1 & P2 & B1 & B1' & B2 & B2' & S1 & S2 & H1 & H2 & G1 & G2 & ->).
  destruct numbers_unique as (_ & U2 & U3). pose proof pka_unique as U1.
  apply cipher_known in S1 as [S1 _]. apply cipher_known in S2 as [S2 _].
  apply hash_known in H1 as [H1 _]. apply hash_known in H2 as [H2 _]. apply hash_known in G1 as [G1 _]. apply hash_known in G2 as [G2 _].
  assert (A : forall o d, In (str o, str d) (m_opts cli_generate_keypair) -> arg p o = Ok (value items o d)) by (intros o d I; exact (arg_given _ _ _ _ o (str d) M I)).
  split.
  - unfold keypair_checks.
    assert (K : forall o d (t : list (bytes * N)) n, In (str o, str d) (m_opts cli_generate_keypair) -> NoDup (map fst t) -> In (value items o d, n) t -> exists a, key_at (fst p) (str o) = Ok a /\ has_key t a = true).
    { intros o d t n I U J. exists (value items o d). split; [exact (A o d I)|exact (has_In t _ n U J)]. }
    destruct (K "--ppka"%string _ _ _ ltac:(found) U1 P1) as (? & -> & E). cbn [bind]. rewrite E. cbn [negb].
    destruct (K "--psym"%string _ _ _ ltac:(found) U2 S1) as (? & -> & E2). cbn [bind]. rewrite E2. cbn [negb].
    destruct (K "--phash"%string _ _ _ ltac:(found) U3 H1) as (? & -> & E3). cbn [bind]. rewrite E3. cbn [negb].
    destruct (K "--psig"%string _ _ _ ltac:(found) U3 G1) as (? & -> & E4). cbn [bind]. rewrite E4. cbn [negb].
    destruct (K "--spka"%string _ _ _ ltac:(found) U1 P2) as (? & -> & E5). cbn [bind]. rewrite E5. cbn [negb].
    destruct (K "--ssym"%string _ _ _ ltac:(found) U2 S2) as (? & -> & E6). cbn [bind]. rewrite E6. cbn [negb].
    destruct (K "--shash"%string _ _ _ ltac:(found) U3 H2) as (? & -> & E7). cbn [bind]. rewrite E7. cbn [negb].
    destruct (K "--ssig"%string _ _ _ ltac:(found) U3 G2) as (? & -> & E8). cbn [bind]. now rewrite E8.
  - unfold keypair_config.
    rewrite (A "-p"%string ""%string) by found. cbn [bind].
    rewrite (number_at _ _ _ _ _ U1 (A "--ppka"%string _ ltac:(found)) P1). cbn [bind].
    rewrite (size_at _ _ _ _ (A "--pkeysize"%string _ ltac:(found)) B1 B1'). cbn [bind].
    rewrite (number_at _ _ _ _ _ U2 (A "--psym"%string _ ltac:(found)) S1). cbn [bind].
    rewrite (number_at _ _ _ _ _ U3 (A "--phash"%string _ ltac:(found)) H1). cbn [bind].
    rewrite (A "-u"%string ""%string) by found. cbn [bind]. rewrite (A "-c"%string ""%string) by found. cbn [bind]. rewrite (A "-e"%string ""%string) by found. cbn [bind].
    rewrite (number_at _ _ _ _ _ U3 (A "--psig"%string _ ltac:(found)) G1). cbn [bind].
    rewrite (number_at _ _ _ _ _ U1 (A "--spka"%string _ ltac:(found)) P2). cbn [bind].
    rewrite (size_at _ _ _ _ (A "--skeysize"%string _ ltac:(found)) B2 B2'). cbn [bind].
    rewrite (number_at _ _ _ _ _ U2 (A "--ssym"%string _ ltac:(found)) S2). cbn [bind].
    rewrite (number_at _ _ _ _ _ U3 (A "--shash"%string _ ltac:(found)) H2). cbn [bind].
    rewrite (number_at _ _ _ _ _ U3 (A "--ssig"%string _ ltac:(found)) G2). reflexivity.
Qed.

Lemma open_names items rest p : meaning cli_generate_keypair items rest p -> arg p "-o" = Ok (value items "-o" "key") /\ armored_arg p = Ok (if flag items (str "-a") true then ArmorYes else ArmorNo).
Proof. intros M. split; [exact (arg_given _ _ _ _ "-o" (str "key") M ltac:(found))|]. apply (armored_at _ _ _ _ true M). found. Qed.
Lemma loaded_back g text : pgp_read pgp_new text = Ok g -> meaningful g = Ok true -> g_type g <> 0 -> key_load text = Ok g.
Proof.
  intros R M T. unfold key_load. rewrite R. cbn [bind]. unfold key_type. apply N.eqb_neq in T. rewrite T. cbn [bind]. destruct g as [a t ks ps]. cbn [g_armored g_type g_keys g_packets] in *.
  rewrite M. reflexivity.
Qed.
Lemma asked_few items c : asked items c -> N.of_nat (length (c_uids c) + length (c_subkeys c)) < 2 ^ 26.
Proof. intros (? & ? & ? & ? & ? & ? & ? & ? & ? & ? & _ & _ & _ & _ & _ & _ & _ & _ & _ & _ & _ & _ & ->). reflexivity. Qed.
(** The key that is generated, with its public part. *)
Lemma keys_made w x items rest p c g : meaning cli_generate_keypair items rest p -> asked items c -> generates w x c g -> g_packets g <> [] -> fair w x c g ->
  keypair_keys w x p = Ok (Some (public_part g, g)) /\ secret_meaningful g = Ok true.
Proof.
  intros M A (rnd & dr & E) NE (SP & T & OR & NF & VS & OM). destruct (asked_config _ _ _ _ M A) as [KC KF]. unfold keypair_keys. rewrite KC. cbn [bind negb]. rewrite KF. cbn [bind]. rewrite E. cbn [bind].
  destruct (C74_contents _ _ _ _ _ _ _ _ _ _ E NE) as (_ & _ & _ & _ & _ & _ & _ & _ & _ & _ & _ & _ & _ & _ & ME). rewrite ME. cbn [bind negb].
  destruct (C76_public _ _ _ _ _ _ _ _ _ _ SP E NE T OR NF VS OM (asked_few _ _ A)) as (-> & _). auto.
Qed.
Lemma meaningful_of g : (secret_meaningful g = Ok true -> meaningful g = Ok true /\ g_type g = 3) /\ (public_meaningful g = Ok true -> meaningful g = Ok true /\ g_type g = 2).
Proof. unfold secret_meaningful, public_meaningful. split; [destruct (g_type g =? 3) eqn:E|destruct (g_type g =? 2) eqn:E]; try discriminate; apply N.eqb_eq in E; auto. Qed.

(** ** The two files *)
(** Both keys are written, and read back as the key that was generated and its public part. *)
Theorem C90_written : forall w x items rest c g, calls cli_generate_keypair items rest [] -> asked items c -> generates w x c g -> g_packets g <> [] -> fair w x c g ->
  flag items (str "-a") true = true -> k_open x (public_file items) = true -> k_open x (private_file items) = true ->
  exists public private,
    prints (with_keypair w x) (str "generate-keypair") items rest (str "Keys written to '" ++ public_file items ++ str "' and '" ++ private_file items ++ str "'." ++ [10]) /\
    leaves w x items rest [(public_file items, public); (private_file items, private)] /\
    public_load public = Ok (public_part g) /\ secret_load private = Ok g.
Proof.
  intros w x items rest c g CA A GE NE FA FL O1 O2. destruct (keypair_runs w x items rest CA) as (p & M & P & PF).
  destruct (keys_made w x items rest p c g M A GE NE FA) as [KK ME]. destruct (open_names _ _ _ M) as [AO AA]. rewrite FL in AA.
  destruct GE as (rnd & dr & E). destruct FA as (SP & T & OR & NF & VS & OM).
  destruct (C76_written _ _ _ _ _ _ _ _ _ _ SP E NE T OR NF VS OM (asked_few _ _ A)) as (b & private & _ & _ & W1 & R1).
  destruct (C76_public _ _ _ _ _ _ _ _ _ _ SP E NE T OR NF VS OM (asked_few _ _ A)) as (_ & PM & _ & public & W2 & R2).
  exists public, private. unfold public_file, private_file in *. unfold prints, leaves. rewrite P, PF. unfold run_generate_keypair. rewrite KK, AO, AA. cbv zeta. rewrite O1, O2. cbn [negb fst snd].
  rewrite W2, W1. cbn [bind put_file print]. split; [cbn [Z.eqb]; rewrite <- !app_assoc; reflexivity|]. split; [reflexivity|].
  destruct (proj1 (meaningful_of g) ME) as [M3 T3]. destruct (proj2 (meaningful_of (public_part g)) PM) as [M2 T2].
  split; apply loaded_back; auto; congruence.
Qed.
(** Without armor the same packets are read back, unless something in them looks like armor. *)
Theorem C90_binary : forall w x items rest c g, calls cli_generate_keypair items rest [] -> asked items c -> generates w x c g -> g_packets g <> [] -> fair w x c g ->
  flag items (str "-a") true = false -> k_open x (public_file items) = true -> k_open x (private_file items) = true ->
  exists public private,
    prints (with_keypair w x) (str "generate-keypair") items rest (str "Keys written to '" ++ public_file items ++ str "' and '" ++ private_file items ++ str "'." ++ [10]) /\
    leaves w x items rest [(public_file items, public); (private_file items, private)] /\
    (~ line_begins armor_begin public -> public_load public = Ok (mkPgp false 2 [] (map public_form (g_packets g)))) /\
    (~ line_begins armor_begin private -> secret_load private = Ok (mkPgp false 3 [] (g_packets g))).
Proof.
  intros w x items rest c g CA A GE NE FA FL O1 O2. destruct (keypair_runs w x items rest CA) as (p & M & P & PF).
  destruct (keys_made w x items rest p c g M A GE NE FA) as [KK ME]. destruct (open_names _ _ _ M) as [AO AA]. rewrite FL in AA.
  destruct GE as (rnd & dr & E). destruct FA as (SP & T & OR & NF & VS & OM). pose proof (asked_few _ _ A) as FW.
  destruct (generated_sound _ _ _ _ _ _ _ _ _ _ SP E NE T OR NF VS OM) as (S & L & _).
  destruct (C76_public _ _ _ _ _ _ _ _ _ _ SP E NE T OR NF VS OM FW) as (GP & PM & _).
  destruct (proj1 (meaningful_of g) ME) as [M3 T3]. destruct (proj2 (meaningful_of (public_part g)) PM) as [M2 T2].
  assert (P1 : Forall portable (g_packets g)) by (eapply Forall_impl; [|exact S]; intros q (Q & _); exact Q).
  assert (P2 : Forall portable (g_packets (public_part g))) by (apply Forall_map; eapply Forall_impl; [|exact S]; intros q (_ & Q & _); exact Q).
  assert (L2 : length (g_packets (public_part g)) = length (g_packets g)) by apply map_length.
  assert (BK : forall k, Forall portable (g_packets k) -> N.of_nat (length (g_packets k)) < 2 ^ 28 -> meaningful k = Ok true -> g_type k <> 0 -> Forall typed (g_packets k) ->
     exists body, pgp_write k ArmorNo = Ok body /\ (~ line_begins armor_begin body -> key_load body = Ok (mkPgp false (g_type k) [] (g_packets k)))).
  { intros k PK LK MK TK TY. destruct (portable_written _ PK) as (body & W & OW & LW & _). exists body. assert (PW : pgp_write k ArmorNo = Ok body) by (unfold pgp_write; rewrite W; reflexivity).
    split; [exact PW|]. intros NB. apply C78_binary; auto; [|now apply portable_sequence|].
    - apply C33_exact; [exact TY|]. exact MK.
    - eapply N.le_lt_trans; [exact LW|]. change (2 ^ 63) with (2 ^ 33 * 2 ^ 30). apply N.mul_lt_mono_pos_l; [reflexivity|]. eapply N.lt_trans; [exact LK|reflexivity]. }
  assert (TY : Forall typed (g_packets g)) by (destruct (C74_contents _ _ _ _ _ _ _ _ _ _ E NE) as (_ & _ & _ & _ & _ & _ & _ & _ & _ & _ & _ & _ & _ & TY & _); exact TY).
  assert (TP : Forall typed (g_packets (public_part g))).
  { apply Forall_map. eapply Forall_impl; [|exact TY]. intros q TQ. unfold public_form. destruct (p_body q) eqn:B; try exact TQ. unfold typed. cbn [p_tag p_body]. destruct (p_tag q =? 5); eauto. }
  assert (FW2 : N.of_nat (length (g_packets g)) < 2 ^ 28) by (rewrite L; change (2 ^ 28) with 268435456; change (2 ^ 26) with 67108864 in FW; lia).
  destruct (BK g P1 FW2 M3 ltac:(congruence) TY) as (private & W1 & R1).
  destruct (BK (public_part g) P2 ltac:(rewrite L2; exact FW2) M2 ltac:(congruence) TP) as (public & W2 & R2).
  exists public, private. unfold public_file, private_file in *. unfold prints, leaves. rewrite P, PF. unfold run_generate_keypair. rewrite KK, AO, AA. cbv zeta. rewrite O1, O2. cbn [negb fst snd].
  rewrite W2, W1. cbn [bind put_file print]. split; [cbn [Z.eqb]; rewrite <- !app_assoc; reflexivity|]. split; [reflexivity|]. rewrite T2 in R2. rewrite T3 in R1. auto.
Qed.
(** The public file has no secret packet and the same public values. *)
Theorem C90_no_secret : forall w x c g, generates w x c g -> g_packets g <> [] ->
  Forall (fun q => p_tag q <> 5 /\ p_tag q <> 7 /\ forall k s, p_body q <> PSecret k s) (g_packets (public_part g)) /\
  Forall2 public_of (g_packets g) (g_packets (public_part g)).
Proof.
  intros w x c g (rnd & dr & E) NE. destruct (C74_contents _ _ _ _ _ _ _ _ _ _ E NE) as (_ & _ & _ & _ & _ & _ & _ & _ & _ & _ & _ & _ & _ & TY & ME).
  unfold public_part. cbn [g_packets]. split.
  - apply Forall_map. eapply Forall_impl; [|exact TY]. intros q TQ. unfold public_form. destruct (p_body q) eqn:B; cbn [p_tag p_body];
      try (split; [|split]; [| |congruence]; intros X; unfold typed in TQ; rewrite X in TQ; destruct TQ as (? & ? & TQ); congruence).
    split; [|split]; [destruct (p_tag q =? 5); discriminate..|discriminate].
  - clear - TY. induction TY as [|q qs TQ TY IH]; constructor; [|exact IH]. unfold public_of, public_form. unfold typed in TQ.
    destruct (N.eq_dec (p_tag q) 5) as [X|X]; [rewrite X in *; destruct TQ as (k & s & B); rewrite B; cbn [p_tag p_body N.eqb Pos.eqb]; split; [reflexivity|]; do 3 eexists; split; [reflexivity|]; split; [reflexivity|]; apply same_public_refl|].
    destruct (N.eq_dec (p_tag q) 7) as [Y|Y]; [rewrite Y in *; destruct TQ as (k & s & B); rewrite B; cbn [p_tag p_body N.eqb Pos.eqb]; split; [reflexivity|]; do 3 eexists; split; [reflexivity|]; split; [reflexivity|]; apply same_public_refl|].
    assert (NP : forall k s, p_body q <> PSecret k s).
    { intros k s B. rewrite B in TQ. destruct (p_tag q) as [|t]; [destruct TQ as (? & ?); discriminate|]. repeat (destruct t as [t|t|]; try (decompose [ex] TQ; discriminate); try congruence). }
    fold (public_form q).
    assert (F2 : public_form q = q) by (unfold public_form; destruct (p_body q) eqn:B; try reflexivity; now destruct (NP k s)).
    rewrite F2. destruct (p_tag q) as [|t]; [reflexivity|]. do 3 (try destruct t as [t|t|]); try reflexivity; congruence.
Qed.

(** ** Refusals *)
Lemma refused w x items rest p files : meaning cli_generate_keypair items rest p ->
  program (with_keypair w x) (str "generate-keypair" :: line items rest) =
      Some (' (r, out) <- snd (run_generate_keypair w x p) ;; Ok (if (r =? -1)%Z then ((-1)%Z, out ++ w_help w cli_generate_keypair ++ [10]) else (0%Z, out))) ->
  program_files w x (str "generate-keypair" :: line items rest) = fst (run_generate_keypair w x p) ->
  run_generate_keypair w x p = (files, fail) -> refuses (with_keypair w x) (str "generate-keypair") items rest /\ leaves w x items rest files.
Proof.
  intros M P PF R. rewrite R in P, PF. split; [|exact PF]. exists cli_generate_keypair, uses_generate_keypair, []. split; [found|]. split; [reflexivity|]. rewrite P. reflexivity.
Qed.
(** Any other algorithm that is not known, by the order of the checks: nothing is written. *)
Theorem C90_unknown : forall w x items rest, calls cli_generate_keypair items rest [] ->
  In (value items "--ppka" "RSA_ENCRYPT_OR_SIGN") (map fst pka_names) -> In (value items "--spka" "RSA_ENCRYPT_OR_SIGN") (map fst pka_names) ->
  (exists o, In o ["--psym"; "--ssym"]%string /\ ~ In (value items o "AES256") (str "PLAINTEXT" :: map fst cipher_names)) \/
  (exists o, In o ["--phash"; "--shash"; "--psig"; "--ssig"]%string /\ ~ In (value items o "SHA1") (map fst hash_names)) ->
  refuses (with_keypair w x) (str "generate-keypair") items rest /\ leaves w x items rest [].
Proof.
  intros w x items rest CA P1 P2 H. destruct (keypair_runs w x items rest CA) as (p & M & P & PF). apply (refused w x items rest p [] M P PF).
  assert (KC : keypair_checks pka_number sym_number hash_number p = Ok false); [|unfold run_generate_keypair, keypair_keys; rewrite KC; reflexivity].
  assert (A : forall o d, In (str o, str d) (m_opts cli_generate_keypair) -> key_at (fst p) (str o) = Ok (value items o d)) by (intros o d I; exact (arg_given _ _ _ _ o (str d) M I)).
  unfold keypair_checks. rewrite (A "--ppka"%string "RSA_ENCRYPT_OR_SIGN"%string), (A "--psym"%string "AES256"%string), (A "--phash"%string "SHA1"%string), (A "--psig"%string "SHA1"%string),
    (A "--spka"%string "RSA_ENCRYPT_OR_SIGN"%string), (A "--ssym"%string "AES256"%string), (A "--shash"%string "SHA1"%string), (A "--ssig"%string "SHA1"%string) by found. cbn [bind].
  change pka_names with pka_number in *. apply has_key_In in P1, P2. rewrite P1, P2. cbn [negb].
  assert (B : has_key sym_number (value items "--psym" "AES256") && has_key sym_number (value items "--ssym" "AES256") &&
     (has_key hash_number (value items "--phash" "SHA1") && has_key hash_number (value items "--shash" "SHA1") && (has_key hash_number (value items "--psig" "SHA1") && has_key hash_number (value items "--ssig" "SHA1"))) = false).
  { apply Bool.not_true_is_false. intros X. apply Bool.andb_true_iff in X as [X X']. apply Bool.andb_true_iff in X as [X1 X2]. apply Bool.andb_true_iff in X' as [X X'].
    apply Bool.andb_true_iff in X as [X3 X4]. apply Bool.andb_true_iff in X' as [X5 X6]. apply has_key_In in X1, X2, X3, X4, X5, X6.
    change hash_names with hash_number in H. change (str "PLAINTEXT" :: map fst cipher_names) with (map fst sym_number) in H.
    destruct H as [(o & [<-|[<-|[]]] & N)|(o & [<-|[<-|[<-|[<-|[]]]]] & N)]; contradiction. }
  destruct (has_key sym_number (value items "--psym" "AES256")); [|reflexivity]. destruct (has_key hash_number (value items "--phash" "SHA1")); [|reflexivity].
  destruct (has_key hash_number (value items "--psig" "SHA1")); [|reflexivity]. destruct (has_key sym_number (value items "--ssym" "AES256")); [|reflexivity].
  destruct (has_key hash_number (value items "--shash" "SHA1")); [|reflexivity]. destruct (has_key hash_number (value items "--ssig" "SHA1")); [discriminate B|reflexivity].
Qed.
(** An unknown public key algorithm ends in an exception instead. *)
Theorem C90_algorithm_refuted : forall w x items rest, calls cli_generate_keypair items rest [] ->
  ~ In (value items "--ppka" "RSA_ENCRYPT_OR_SIGN") (map fst pka_names) \/
  (In (value items "--ppka" "RSA_ENCRYPT_OR_SIGN") (map fst pka_names) /\ ~ In (value items "--spka" "RSA_ENCRYPT_OR_SIGN") (map fst pka_names) /\
   In (value items "--psym" "AES256") (map fst cipher_names) /\ In (value items "--phash" "SHA1") (map fst hash_names) /\ In (value items "--psig" "SHA1") (map fst hash_names)) ->
  aborts (with_keypair w x) (str "generate-keypair") items rest /\ leaves w x items rest [].
Proof.
  intros w x items rest CA H. destruct (keypair_runs w x items rest CA) as (p & M & P & PF).
  assert (KC : keypair_checks pka_number sym_number hash_number p = Throw EOutOfRange);
    [|unfold aborts, leaves; rewrite P, PF; unfold run_generate_keypair, keypair_keys; rewrite KC; cbn [bind fst snd]; split; [eexists|]; reflexivity].
  assert (A : forall o d, In (str o, str d) (m_opts cli_generate_keypair) -> key_at (fst p) (str o) = Ok (value items o d)) by (intros o d I; exact (arg_given _ _ _ _ o (str d) M I)).
  assert (NK : forall o, o = "--pka"%string \/ o = "--ska"%string -> key_at (fst p) (str o) = Throw EOutOfRange).
  { destruct M as (_ & _ & _ & MX & _). intros o [-> | ->]; apply MX; vm_compute; intuition discriminate. }
  unfold keypair_checks. rewrite (A "--ppka"%string "RSA_ENCRYPT_OR_SIGN"%string), (A "--psym"%string "AES256"%string), (A "--phash"%string "SHA1"%string), (A "--psig"%string "SHA1"%string),
    (A "--spka"%string "RSA_ENCRYPT_OR_SIGN"%string) by found. cbn [bind]. rewrite (NK "--pka"%string (or_introl eq_refl)), (NK "--ska"%string (or_intror eq_refl)). cbn [bind].
  change pka_names with pka_number in *. change hash_names with hash_number in *.
  assert (NH : forall v, ~ In v (map fst pka_number) -> has_key pka_number v = false) by (intros v N; apply Bool.not_true_is_false; intros X; apply has_key_In in X; contradiction).
  destruct H as [N|(I1 & N & I2 & I3 & I4)]; [rewrite (NH _ N); reflexivity|]. rewrite (NH _ N).
  assert (I2' : In (value items "--psym" "AES256") (map fst sym_number)) by (change (map fst sym_number) with (str "PLAINTEXT" :: map fst cipher_names); now right).
  apply has_key_In in I1, I2', I3, I4. now rewrite I1, I2', I3, I4.
Qed.
Lemma generated_empty fuel np test c time rnd draws g rnd' rest : generate_key fuel np test c time rnd draws = Ok (g, rnd', rest) -> g_packets g = [] -> g = secret_key_new.
Proof.
  intros E Z. unfold generate_key in E. apply bind_ok in E as (v & _ & E). destruct v; cbn [negb] in E; [|apply Ok_inj in E; congruence].
  apply bind_ok in E as ([o d1] & _ & E). destruct o as [[pri pub]|]; [|apply Ok_inj in E; congruence]. apply bind_ok in E as ([sec r1] & _ & E). cbv zeta in E.
  apply bind_ok in E as (id & _ & E). apply bind_ok in E as ([o2 d2] & _ & E). destruct o2 as [us|]; [|apply Ok_inj in E; congruence].
  apply bind_ok in E as ([[o3 r3] d3] & _ & E). destruct o3 as [subs|]; [|apply Ok_inj in E; congruence]. apply Ok_inj in E. injection E as <- _ _. discriminate Z.
Qed.
(** A request the library does not accept, a key that could not be made, and a public file that
    cannot be opened: nothing is written. *)
Theorem C90_refused : forall w x items rest c, calls cli_generate_keypair items rest [] -> asked items c ->
  ~ acceptable c \/ (exists g, generates w x c g /\ g_packets g = []) \/
  (exists g, generates w x c g /\ g_packets g <> [] /\ fair w x c g /\ k_open x (public_file items) = false) ->
  refuses (with_keypair w x) (str "generate-keypair") items rest /\ leaves w x items rest [].
Proof.
  intros w x items rest c CA A H. destruct (keypair_runs w x items rest CA) as (p & M & P & PF). apply (refused w x items rest p [] M P PF).
  destruct (asked_config _ _ _ _ M A) as [KC KF]. destruct (open_names _ _ _ M) as [AO AA].
  assert (EM : forall g rnd dr, generate_key (k_fuel x) (k_nextprime x) (k_test x) c (w_now w) (w_rnd w) (w_draws w) = Ok (g, rnd, dr) -> secret_meaningful g = Ok false -> run_generate_keypair w x p = ([], fail)).
  { intros g rnd dr E S. unfold run_generate_keypair, keypair_keys. rewrite KC. cbn [bind negb]. rewrite KF. cbn [bind]. rewrite E. cbn [bind]. rewrite S. reflexivity. }
  destruct H as [N|[(g & (rnd & dr & E) & Z)|(g & GE & NE & FA & O)]].
  - assert (V : config_valid c = Ok false).
    { destruct (config_valid c) as [[]| | |] eqn:V; try reflexivity; [now apply C74_checked in V| | |]; exfalso.
      all: destruct A as (pka & bits & sym & hash & sig & spka & sbits & ssym & shash & ssig & _ & _ & _ & _ & _ & _ & _ & _ & _ & _ & G1 & G2 & ->); unfold config_valid in V; cbn [c_pka c_sym c_hash c_uids c_subkeys uids_valid subs_valid u_sig b_pka b_sym b_hash b_sig] in V.
      all: apply hash_known in G1 as [_ G1]; apply hash_known in G2 as [_ G2].
      all: assert (DS : forall k h, In h [1; 2; 3; 8; 9; 10; 11] -> exists b, dsa_hash_short k h = Ok b) by
             (intros k h I; unfold dsa_hash_short; destruct (k =? 17); [|eauto]; cbn in I; repeat (destruct I as [<-|I]; [eexists; reflexivity|]); destruct I).
      all: destruct (DS pka sig G1) as (b1 & D1); destruct (DS spka ssig G2) as (b2 & D2); rewrite D1, D2 in V; cbn [bind] in V.
      all: repeat match type of V with context [if ?b then _ else _] => destruct b; cbn [bind] in V; try discriminate V end. }
    apply (EM secret_key_new (w_rnd w) (w_draws w)); [unfold generate_key; rewrite V; reflexivity|reflexivity].
  - assert (g = secret_key_new) as ->; [|now apply (EM secret_key_new rnd dr)]. exact (generated_empty _ _ _ _ _ _ _ _ _ _ E Z).
  - destruct (keys_made w x items rest p c g M A GE NE FA) as [KK _]. unfold run_generate_keypair. rewrite KK, AO, AA. cbv zeta. unfold public_file in O. rewrite O. reflexivity.
Qed.
(** When only the private file cannot be opened, the command is refused, but what was in the
    public file is lost. *)
Theorem C90_emptied_refuted : forall w x items rest c g, calls cli_generate_keypair items rest [] -> asked items c -> generates w x c g -> g_packets g <> [] -> fair w x c g ->
  k_open x (public_file items) = true -> k_open x (private_file items) = false ->
  refuses (with_keypair w x) (str "generate-keypair") items rest /\ leaves w x items rest [(public_file items, [])].
Proof.
  intros w x items rest c g CA A GE NE FA O1 O2. destruct (keypair_runs w x items rest CA) as (p & M & P & PF). apply (refused w x items rest p _ M P PF).
  destruct (open_names _ _ _ M) as [AO AA]. destruct (keys_made w x items rest p c g M A GE NE FA) as [KK _]. unfold run_generate_keypair. rewrite KK, AO, AA. cbv zeta.
  unfold public_file, private_file in *. rewrite O1, O2. reflexivity.
Qed.

(** ** Using the files *)
Lemma public_keyid g k sec more : g_packets g = new_packet 5 (PSecret k sec) :: more -> meaningful (public_part g) = Ok true -> keyid (public_part g) = get_keyid k.
Proof.
  intros GP M. unfold keyid, primary. rewrite M. cbn [bind]. unfold public_part. cbn [g_packets]. rewrite GP. reflexivity.
Qed.
(** A file signed with the private file and the passphrase is verified with the public file. *)
Theorem C90_signs : forall w x items c g public private, asked items c -> generates w x c g -> g_packets g <> [] -> fair w x c g -> c_pka c = 1 ->
  public_load public = Ok (public_part g) -> secret_load private = Ok g ->
  forall w1 items1 rest1 fk f data hash, calls cli_sign_detached_signature items1 rest1 [fk; value items "-p" ""; f] ->
  w_files w1 fk = Some private -> w_files w1 f = Some data -> In (given items1 (str "-h") (str "SHA1"), hash) hash_names -> flag items1 (str "-a") true = true -> w_now w1 < 2 ^ 32 ->
  (forall p more k sec, g_packets g = p :: more -> p_body p = PSecret k sec -> hash_fits (hd 0 (k_mpi k)) hash) ->
  exists text id, keyid (public_part g) = Ok id /\ prints w1 (str "sign-detached-signature") items1 rest1 text /\
    forall w2 items2 rest2 fk2 f2 fs2, calls cli_verify_detached_signature items2 rest2 [fk2; f2; fs2] ->
      w_files w2 fk2 = Some public -> w_files w2 f2 = Some data -> w_files w2 fs2 = Some text ->
      prints w2 (str "verify-detached-signature") items2 rest2 (says (str "File " ++ [34] ++ f2 ++ [34]) true fk2 id).
Proof.
  intros w x items c g public private A (rnd & dr & E) NE (SP & T & OR & NF & VS & OM) PK LP LS w1 items1 rest1 fk f data hash CA F1 F2 H FL TN HF.
  pose proof (asked_few _ _ A) as FW.
  destruct (generated_matching _ _ _ _ _ _ _ _ _ _ SP E NE T OR NF VS OM FW) as (k & sec & pri & more & GP & V4 & _ & MA).
  assert (CP : c_pass c = value items "-p" "") by (destruct A as (? & ? & ? & ? & ? & ? & ? & ? & ? & ? & _ & _ & _ & _ & _ & _ & _ & _ & _ & _ & _ & _ & ->); reflexivity).
  destruct (C76_rsa_signs _ _ _ _ _ _ _ _ _ _ SP E NE T OR NF VS OM FW PK _ _ k sec hash (w_now w1) data (w_draws w1) GP eq_refl (HF _ _ _ _ GP eq_refl)) as (sig & S & V).
  rewrite CP in S. assert (MM := MA hash). rewrite CP in MM.
  assert (NS : g_packets sig <> []).
  { intros Z. unfold verify_detached, verify_document, detached_meaningful in V. rewrite Z in V. cbn [length Nat.eqb] in V. rewrite Bool.andb_false_r in V.
    destruct (meaningful (public_part g)) as [[]| | |]; cbn [bind negb] in V; discriminate. }
  assert (MO : Forall moderate (k_mpi k)).
  { eapply Forall_impl; [|apply (VS _ k sec ltac:(rewrite GP; now left) eq_refl)]. intros v L. unfold moderate. eapply N.lt_le_trans; [exact L|]. apply N.pow_le_mono_r; lia. }
  destruct (C87_detached_partial w1 items1 rest1 fk (value items "-p" "") f private data g hash k sec pri (public_part g) sig (w_draws w1) CA F1 F2 LS H FL MM MO TN S NS) as (text & _ & P & Q).
  destruct (C76_public _ _ _ _ _ _ _ _ _ _ SP E NE T OR NF VS OM FW) as (_ & PM & _). destruct (proj2 (meaningful_of (public_part g)) PM) as [M2 _].
  destruct (KeyP.keyid_v4 k V4) as (fp & id & _ & KI & _). assert (KP : keyid (public_part g) = Ok id) by (rewrite (public_keyid g k sec more GP M2); exact KI).
  exists (text ++ [10]), id. split; [exact KP|]. split; [exact P|]. intros w2 items2 rest2 fk2 f2 fs2 C2 G1 G2 G3.
  exact (Q w2 items2 rest2 fk2 f2 fs2 public id C2 G1 LP KP G2 G3).
Qed.

(** ** Examples *)
Definition toy_line : list item :=
  [Value (str "-o") (str "my"); Value (str "-u") (str "A"); Value (str "-p") (str "pass"); Value (str "--pkeysize") (str "300"); Value (str "--skeysize") (str "300");
   Value (str "--psym") (str "AES128"); Value (str "--ssym") (str "AES128"); Value (str "--psig") (str "MD5"); Value (str "--ssig") (str "MD5")].
Definition toy_conf : config := mkConfig (str "pass") 1 300 7 2 [mkUid (str "A") [] [] 1 0] [mkSub 1 300 7 2 1 0].
Definition toy_world : machine := mkMachine (fun _ => None) 1234567890 6 (repeat 7 48) [0; 1; 3; 0; 1; 5] (fun _ d => Some d) (fun _ d => Some d) 1 (fun _ _ => Some 0) (fun _ => None) (fun _ => None) (fun _ => str "usage") (fun _ _ => UB).
Definition toy_maker (open : bytes -> bool) : maker := mkMaker 1 gen_next (fun _ => false) open.
Lemma toy_calls : calls cli_generate_keypair toy_line None [].
Proof. unfold toy_line. call. Qed.
Lemma toy_asked : asked toy_line toy_conf.
Proof.
  assert (D : in_decimal (str "300") 300) by (change (str "300") with (([48 + 3] ++ [48 + 0]) ++ [48 + 0]); change 300 with (10 * (10 * 3 + 0) + 0); repeat constructor).
  exists 1, 300, 7, 2, 1, 1, 300, 7, 2, 1.
  do 2 (split; [now left|]). split; [exact D|]. split; [reflexivity|]. split; [exact D|]. split; [reflexivity|].
  do 2 (split; [right; right; right; right; now left|]). do 2 (split; [right; now left|]). do 2 (split; [now left|]). reflexivity.
Qed.
Example C90_ex : exists g, (forall open, generates toy_world (toy_maker open) toy_conf g /\ fair toy_world (toy_maker open) toy_conf g) /\ g_packets g <> [] /\
  forall p more k sec, g_packets g = p :: more -> p_body p = PSecret k sec -> hash_fits (hd 0 (k_mpi k)) 1.
Proof.
  assert (HF : hash_fits (modulus gen_next (0, 1, 3)) 1) by (do 2 eexists; split; [reflexivity|]; split; [reflexivity|]; vm_compute; discriminate).
  destruct (C74_made 1 gen_next (fun _ => false) toy_conf 1234567890 (repeat 7 48) (0, 1, 3) [(0, 1, 5)] [] gen_primes eq_refl eq_refl (gen_draws 3)) as (g & rnd' & E & NE).
  - repeat (apply Forall_cons; [exact HF|]). constructor.
  - apply Forall2_cons; [|constructor]. split; [cbn; auto|]. split; [apply gen_draws|]. split; [exact HF|]. intros _. split; cbn; auto 12.
  - intros _. split; cbn; auto 12.
  - vm_compute. discriminate.
  - exists g. cbn [map concat flat app] in E.
    assert (V : values_small g /\ odd_modulus g /\ forall p more k sec, g_packets g = p :: more -> p_body p = PSecret k sec -> hash_fits (hd 0 (k_mpi k)) 1).
    { apply generate_inv in E as (k & sec & pri & id & us & ss & _ & KE & _ & (d' & KP) & _ & GE & FU & FS); [|exact NE].
      change (c_pka toy_conf) with 1 in KP. change (c_bits toy_conf) with 300 in KP.
      destruct (gen_values _ _ _ _ KP) as [KS KO]. assert (GP : g_packets g = new_packet 5 (PSecret k sec) :: concat us ++ concat ss) by (rewrite GE; reflexivity).
      assert (HD : forall p more k0 x, g_packets g = p :: more -> p_body p = PSecret k0 x -> k0 = k).
      { intros p more k0 x G B. rewrite GP in G. assert (p = new_packet 5 (PSecret k sec)) as -> by congruence. cbn in B. congruence. }
      split; [|split].
      - intros p k0 x I B. rewrite GP in I. destruct I as [ <- | I]; [cbn in B; assert (k0 = k) as -> by congruence; exact KS|].
        apply in_app_or in I as [I|I]; apply in_concat in I as (l & I1 & I2).
        + exfalso. clear - FU I1 I2 B. induction FU as [|u l' ul us (p' & q & s & -> & _ & BP & _ & BQ & _) F IH]; [destruct I1|].
          destruct I1 as [ <- |I1]; [|now apply IH]. destruct I2 as [ <- |[ <- |[]]]; congruence.
        + clear - FS I1 I2 B. change (c_subkeys toy_conf) with [mkSub 1 300 7 2 1 0] in FS. inversion FS as [|? l' ? ss' H F]; subst. inversion F; subst. clear F FS.
          destruct I1 as [ <- |[]]. destruct H as (p' & q & kk & y & s & -> & _ & BP & _ & _ & _ & _ & BQ & _ & _ & pr & r & r' & _ & d & d2 & KP).
          destruct I2 as [ <- |[ <- |[]]]; [|congruence]. assert (k0 = kk) as -> by congruence. exact (proj1 (gen_values _ _ _ _ KP)).
      - intros p more k0 x G B _. rewrite (HD _ _ _ _ G B). exact KO.
      - intros p more k0 x G B. rewrite (HD _ _ _ _ G B). destruct (gen_pair [0; 1; 5]) as (pri' & KP'). cbn [app] in KP'. rewrite KP' in KP. apply Ok_inj in KP.
        assert (k_mpi k = [big_p * big_q; 3]) as -> by congruence. exact HF. }
    destruct V as (VS & OM & HS). split; [|split; [exact NE|exact HS]].
    intros open. split; [exists rnd', []; exact E|]. split; [split; [exact gen_primes|discriminate]|]. split; [reflexivity|]. split; [apply octets_repeat; reflexivity|].
    split; [|split; assumption]. repeat (apply Forall_cons; [do 3 (split; [apply octetsb_spec; reflexivity|]); split; [reflexivity|]; vm_compute; intros [X _]; now apply X|]). constructor.
Qed.
Example C90_written_ex : exists g public private, prints (with_keypair toy_world (toy_maker (fun _ => true))) (str "generate-keypair") toy_line None (str "Keys written to 'my.public' and 'my.private'." ++ [10]) /\
  leaves toy_world (toy_maker (fun _ => true)) toy_line None [(str "my.public", public); (str "my.private", private)] /\
  public_load public = Ok (public_part g) /\ secret_load private = Ok g /\
  exists text id, prints (toy_machine 1 [(str "k", private); (str "f", str "data")] []) (str "sign-detached-signature") [Word (str "k"); Word (str "pass"); Word (str "f"); Value (str "-h") (str "MD5")] None text /\
    prints (toy_machine 1 [(str "k", public); (str "f", str "data"); (str "s", text)] []) (str "verify-detached-signature") [Word (str "k"); Word (str "f"); Word (str "s")] None
      (says (str "File " ++ [34] ++ str "f" ++ [34]) true (str "k") id).
Proof.
  destruct C90_ex as (g & GF & NE & HF). destruct (GF (fun _ => true)) as [G F].
  destruct (C90_written toy_world (toy_maker (fun _ => true)) toy_line None toy_conf g toy_calls toy_asked G NE F eq_refl eq_refl eq_refl) as (public & private & P & L & LP & LS).
  exists g, public, private. split; [exact P|]. split; [exact L|]. split; [exact LP|]. split; [exact LS|].
  destruct (C90_signs toy_world (toy_maker (fun _ => true)) toy_line toy_conf g public private toy_asked G NE F eq_refl LP LS (toy_machine 1 [(str "k", private); (str "f", str "data")] [])
    [Word (str "k"); Word (str "pass"); Word (str "f"); Value (str "-h") (str "MD5")] None (str "k") (str "f") (str "data") 1) as (text & id & KI & P1 & Q).
  - call. - reflexivity. - reflexivity. - now left. - reflexivity. - reflexivity. - exact HF.
  - exists text, id. split; [exact P1|]. apply (Q _ _ _ (str "k") (str "f") (str "s")); [call|reflexivity..].
Qed.
Example C90_emptied_ex : refuses (with_keypair toy_world (toy_maker (beq (str "my.public")))) (str "generate-keypair") toy_line None /\
  leaves toy_world (toy_maker (beq (str "my.public"))) toy_line None [(str "my.public", [])].
Proof.
  destruct C90_ex as (g & GF & NE & _). destruct (GF (beq (str "my.public"))) as [G F].
  exact (C90_emptied_refuted toy_world _ toy_line None toy_conf g toy_calls toy_asked G NE F eq_refl eq_refl).
Qed.
Example C90_refused_ex : refuses (with_keypair toy_world (toy_maker (fun _ => false))) (str "generate-keypair") toy_line None /\
  refuses (with_keypair toy_world (toy_maker (fun _ => true))) (str "generate-keypair") [Value (str "--ppka") (str "DSA")] None /\
  refuses (with_keypair toy_world (toy_maker (fun _ => true))) (str "generate-keypair") [Value (str "--ssig") (str "SHA3")] None /\
  aborts (with_keypair toy_world (toy_maker (fun _ => true))) (str "generate-keypair") [Value (str "--spka") (str "rsa")] None.
Proof.
  assert (D : in_decimal (str "2048") 2048) by (change (str "2048") with ((([48 + 2] ++ [48 + 0]) ++ [48 + 4]) ++ [48 + 8]); change 2048 with (10 * (10 * (10 * 2 + 0) + 4) + 8); repeat constructor).
  split; [|split; [|split]].
  - destruct C90_ex as (g & GF & NE & _). destruct (GF (fun _ => false)) as [G F].
    apply (C90_refused toy_world _ toy_line None toy_conf toy_calls toy_asked). right; right. exists g. auto.
  - apply (C90_refused toy_world _ [Value (str "--ppka") (str "DSA")] None (mkConfig [] 17 2048 9 2 [mkUid [] [] [] 2 0] [mkSub 1 2048 9 2 2 0])); [call| |].
    + exists 17, 2048, 9, 2, 2, 1, 2048, 9, 2, 2. split; [right; right; right; right; now left|]. split; [now left|].
      split; [exact D|]. split; [reflexivity|]. split; [exact D|]. split; [reflexivity|].
      do 2 (split; [right; right; right; right; right; right; now left|]). do 4 (split; [right; now left|]). reflexivity.
    + left. intros (_ & _ & _ & _ & F & _). inversion F as [|? ? [_ H] _]; subst. specialize (H eq_refl). cbn in H. intuition discriminate.
  - apply (C90_unknown toy_world _ [Value (str "--ssig") (str "SHA3")] None); [call|now left|now left|]. right. exists "--ssig"%string. split; [cbn; auto|].
    vm_compute. intuition discriminate.
  - apply (C90_algorithm_refuted toy_world _ [Value (str "--spka") (str "rsa")] None); [call|]. right. split; [now left|]. split; [vm_compute; intuition discriminate|].
    split; [vm_compute; tauto|]. split; vm_compute; tauto.
Qed.

Print Assumptions C90_written.
Print Assumptions C90_binary.
Print Assumptions C90_no_secret.
Print Assumptions C90_unknown.
Print Assumptions C90_algorithm_refuted.
Print Assumptions C90_refused.
Print Assumptions C90_emptied_refuted.
Print Assumptions C90_signs.
