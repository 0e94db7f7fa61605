(** C89: fingerprints and listings on the command line. *)
From Verif Require Import Proofs.Lib Proofs.CommandsP Proofs.CliP Proofs.KeyP Proofs.IncludesP Proofs.CipherLib Spec.Invocation Spec.Keys Spec.Text Spec.Listing
  Props.C23_C26 Props.C33_C35 Props.C78 Props.C84 Props.C85 Props.C86 Props.C87 Spec.Invocation Spec.CommandLine.
Local Open Scope N_scope.

(** ** Grouping *)
Lemma fp_groups_ok fp sep n : 0 < n < two64 -> len fp < 2 ^ 32 -> forall fuel pre rest, fp = pre ++ rest -> pre = [] \/ n < len fp -> rest <> [] -> (length rest < fuel)%nat ->
  exists gs final, rest = concat gs ++ final /\ Forall (fun g => len g = n) gs /\ 0 < len final <= n /\
    fp_groups fuel fp sep n (len pre) = Ok (concat (map (fun g => hexlify g ++ sep) gs)).
Proof.
  intros N0 L. induction fuel as [|fuel IH]; intros pre rest E PR NE F; [lia|]. cbn [fp_groups].
  assert (LF : len fp = len pre + len rest) by (subst fp; now rewrite len_app).
  assert (0 < len rest) by (destruct rest; [contradiction|rewrite len_cons; lia]).
  assert (U : u64 (len pre + n) = len pre + n) by (apply N.mod_small; unfold two64 in *; destruct PR as [->|]; rewrite ?len_nil; lia). rewrite U.
  destruct (N.lt_ge_cases n (len rest)) as [C|C].
  - replace (len pre + n <? len fp) with true by lia.
    assert (X : exists a b, rest = a ++ b /\ len a = n).
    { exists (firstn (N.to_nat n) rest), (skipn (N.to_nat n) rest). split; [now rewrite firstn_skipn|]. rewrite len_firstn. lia. }
    destruct X as (a & b & -> & LA). assert (substr fp (len pre) n = Ok a) as -> by (rewrite E; apply substr_app; auto). cbn [bind].
    rewrite len_app in *. destruct (IH (pre ++ a) b) as (gs & final & -> & FG & LL & R).
    + now rewrite <- app_assoc.
    + right. lia.
    + intros ->. rewrite len_nil in *. lia.
    + rewrite app_length in F. unfold len in *. lia.
    + exists (a :: gs), final. split; [cbn; now rewrite app_assoc|]. split; [now constructor|]. split; [exact LL|].
      replace (len pre + n) with (len (pre ++ a)) by (rewrite len_app; lia). rewrite R. cbn [bind map concat]. now rewrite <- app_assoc.
  - exists [], rest. split; [reflexivity|]. split; [constructor|]. split; [lia|]. now replace (len pre + n <? len fp) with false by lia.
Qed.
Lemma full_groups n gs : Forall (fun g : bytes => len g = n) gs -> len (concat gs) = n * N.of_nat (length gs).
Proof. induction 1 as [|g gs G F IH]; [now rewrite N.mul_0_r|]. cbn [concat length]. rewrite len_app, IH, G. lia. Qed.
Lemma separated_ok fp sep n : n < two64 -> 0 < len fp < 2 ^ 32 -> exists out, separated fp sep n = Ok out /\ grouped n sep fp out.
Proof.
  intros NN L. unfold separated, grouped. destruct (n =? 0) eqn:Z; [eauto|].
  destruct (fp_groups_ok fp sep n ltac:(lia) ltac:(lia) (S (length fp)) [] fp eq_refl ltac:(now left) ltac:(intros ->; rewrite len_nil in L; lia) ltac:(lia)) as (gs & final & E & FG & LL & R).
  rewrite len_nil in R. rewrite R. cbn [bind]. pose proof (full_groups _ _ FG) as LG.
  assert (LF : len fp = n * N.of_nat (length gs) + len final) by (rewrite E, len_app, LG; reflexivity).
  assert (RM : (if (len fp mod n =? 0) || (n =? 1) then n else len fp mod n) = len final).
  { rewrite LF, N.add_comm, N.mul_comm, N.mod_add by lia. destruct (N.eq_dec (len final) n) as [->|D].
    - rewrite N.mod_same by lia. reflexivity.
    - rewrite N.mod_small by lia. replace (len final =? 0) with false by lia. now replace (n =? 1) with false by lia. }
  cbv zeta. rewrite RM. rewrite sub64_small by (unfold two64; lia).
  assert (substr fp (len fp - len final) (len final) = Ok final) as -> by (rewrite E at 1; apply substr_app_end; [rewrite LG, LF; apply N.add_sub|lia]). cbn [bind]. eexists. split; [reflexivity|]. exists gs, final. auto.
Qed.
(** There is only one way to group a fingerprint. *)
Theorem C89_one : forall n sep fp o o', grouped n sep fp o -> grouped n sep fp o' -> o = o'.
Proof.
  intros n sep fp o o' H H'. unfold grouped in *. destruct (n =? 0) eqn:Z; [congruence|].
  destruct H as (gs & f & E & FG & L & ->), H' as (gs' & f' & E' & FG' & L' & ->). subst fp. rename E' into E. revert gs' FG' E. induction FG as [|g gs G FG IH]; intros gs' FG' E.
  - destruct FG' as [|g' gs' G' FG']; [cbn in *; now subst|]. exfalso. apply (f_equal len) in E. cbn [concat app] in E. rewrite !len_app in E. lia.
  - destruct FG' as [|g' gs' G' FG'].
    + exfalso. apply (f_equal len) in E. cbn [concat app] in E. rewrite !len_app in E. lia.
    + cbn [concat] in E. rewrite <- !app_assoc in E. apply app_inj_len in E as (-> & E); [|unfold len in *; lia]. cbn [map concat]. rewrite <- !app_assoc. do 2 f_equal. exact (IH gs' FG' E).
Qed.

(** ** fingerprint *)
Lemma fingerprint_len g fp : fingerprint g = Ok fp -> len fp = 16 \/ len fp = 20.
Proof.
  unfold fingerprint. intros E. apply bind_ok in E as (k & _ & E). unfold get_fingerprint in E. destruct (k_version k <? 4).
  - left. exact (hash_use_len 1 _ _ 128 E eq_refl).
  - destruct (k_version k =? 4); [|discriminate]. right. exact (hash_use_len 2 _ _ 160 E eq_refl).
Qed.
Lemma loaded_meaningful data g : key_load data = Ok g -> meaningful g = Ok true.
Proof.
  unfold key_load. intros E. apply bind_ok in E as (h & _ & E). apply bind_ok in E as (t & _ & E). cbv zeta in E. apply bind_ok in E as (m & M & E). destruct m; [|discriminate]. apply Ok_inj in E. now subst g.
Qed.
Theorem C89_fingerprint : forall w items rest f data n g fp, calls cli_fingerprint items rest [f] -> w_files w f = Some data ->
  w_scan w 64 (given items (str "-g") (str "1")) = Some n -> n < 2 ^ 64 -> key_load data = Ok g -> fingerprint g = Ok fp ->
  exists out, prints w (str "fingerprint") items rest (out ++ [10]) /\ grouped n (given items (str "-s") (str ":")) fp out.
Proof.
  intros w items rest f data n g fp CA F SC NN LG FP. pose proof (loaded_meaningful _ _ LG) as MG. destruct (calls_runs w cli_fingerprint uses_fingerprint items rest _ ltac:(found) CA) as (p & M & A & P).
  destruct (separated_ok fp (given items (str "-s") (str ":")) n NN ltac:(destruct (fingerprint_len _ _ FP); lia)) as (out & S & G). exists out. split; [|exact G].
  unfold prints. change (str "fingerprint") with (m_name cli_fingerprint). rewrite P. change (function_of w cli_fingerprint) with (run_fingerprint w). unfold run_fingerprint.
  rewrite (with_file_ok w p "key-file" f data) by (try exact F; now apply (A 0%nat)). rewrite (arg_given _ _ _ _ "-g" (str "1") M) by found. cbn [bind]. rewrite SC, LG. cbn [bind].
  rewrite (arg_given _ _ _ _ "-s" (str ":") M) by found. cbn [bind]. unfold print_if. rewrite MG. cbn [bind]. rewrite FP. cbn [bind]. rewrite S. reflexivity.
Qed.
(** In one group, the last sixteen digits of the fingerprint of a version 4 key are the ID the other
    commands print. *)
Theorem C89_id : forall w items rest f data g k p rest', calls cli_fingerprint items rest [f] -> w_files w f = Some data ->
  w_scan w 64 (given items (str "-g") (str "1")) = Some 0 -> key_load data = Ok g ->
  g_packets g = p :: rest' -> as_key p = Ok k -> k_version k = 4 ->
  exists pre id, keyid g = Ok id /\ length pre = 24%nat /\ length (hexlify id) = 16%nat /\ prints w (str "fingerprint") items rest (pre ++ hexlify id ++ [10]).
Proof.
  intros w items rest f data g k p r CA F SC LG GP AK V. pose proof (loaded_meaningful _ _ LG) as MG. destruct (keyid_v4 k V) as (fp & id & FP & KI & LF & LI & E).
  assert (PK : primary g = Ok k).
  { unfold primary. rewrite MG, GP. exact AK. }
  destruct (C89_fingerprint w items rest f data 0 g fp CA F SC ltac:(reflexivity) LG) as (out & PR & G); [unfold fingerprint; now rewrite PK|].
  cbn in G. subst out. exists (hexlify (firstn 12 fp)), id. split; [unfold keyid; now rewrite PK|]. unfold hexlify. rewrite !hexlify_length.
  split; [rewrite firstn_length; unfold len in LF; lia|]. split; [unfold len in LI; lia|].
  rewrite E in PR. unfold hexlify in PR. unfold hexlify_c in PR |- *. rewrite flat_map_app in PR. now rewrite <- app_assoc in PR.
Qed.
(** A file that is not there and a number that is none are refused. *)
Theorem C89_refused : forall w items rest f, calls cli_fingerprint items rest [f] ->
  w_files w f = None \/ w_scan w 64 (given items (str "-g") (str "1")) = None -> refuses w (str "fingerprint") items rest.
Proof.
  intros w items rest f CA H. destruct (calls_runs w cli_fingerprint uses_fingerprint items rest _ ltac:(found) CA) as (p & M & A & P).
  enough (run_fingerprint w p = fail) as E.
  { exists cli_fingerprint, uses_fingerprint, []. split; [found|]. split; [reflexivity|]. change (str "fingerprint") with (m_name cli_fingerprint). rewrite P.
    change (function_of w cli_fingerprint) with (run_fingerprint w). rewrite E. reflexivity. }
  unfold run_fingerprint, with_file. rewrite (A 0%nat "key-file"%string f eq_refl eq_refl). cbn [bind]. rewrite (arg_given _ _ _ _ "-g" (str "1") M) by found.
  destruct H as [->|H]; [reflexivity|]. cbn [bind]. rewrite H. now destruct (w_files w f).
Qed.
(** What is not a key is not: the constructor throws before the command looks, and both commands
    end with an exception instead of the message they have for it. *)
Theorem C89_not_key_refuted : forall w items rest f data e, w_files w f = Some data -> key_load data = Throw e ->
  (calls cli_fingerprint items rest [f] -> w_scan w 64 (given items (str "-g") (str "1")) <> None -> aborts w (str "fingerprint") items rest) /\
  (calls cli_list items rest [f] -> aborts w (str "list") items rest).
Proof.
  intros w items rest f data e F L. split; [intros CA SC|intros CA]; exists e.
  - destruct (calls_runs w cli_fingerprint uses_fingerprint items rest _ ltac:(found) CA) as (p & M & A & P).
    change (str "fingerprint") with (m_name cli_fingerprint). rewrite P. change (function_of w cli_fingerprint) with (run_fingerprint w). unfold run_fingerprint.
    rewrite (with_file_ok w p "key-file" f data) by (try exact F; now apply (A 0%nat)). rewrite (arg_given _ _ _ _ "-g" (str "1") M) by found. cbn [bind].
    destruct (w_scan w 64 _); [|contradiction]. now rewrite L.
  - destruct (calls_runs w cli_list uses_list items rest _ ltac:(found) CA) as (p & M & A & P).
    change (str "list") with (m_name cli_list). rewrite P. change (function_of w cli_list) with (run_list w). unfold run_list.
    rewrite (with_file_ok w p "key-file" f data) by (try exact F; now apply (A 0%nat)). now rewrite L.
Qed.

(** ** list *)
Theorem C89_list : forall w items rest f data g s, calls cli_list items rest [f] -> w_files w f = Some data -> key_load data = Ok g ->
  (prints w (str "list") items rest s <-> exists lss, Forall2 (listed (w_gmtime w) []) (g_packets g) lss /\ s = text (concat lss)).
Proof.
  intros w items rest f data g s CA F L. pose proof (loaded_meaningful _ _ L) as MG. destruct (calls_runs w cli_list uses_list items rest _ ltac:(found) CA) as (p & M & A & P).
  rewrite <- (C85_exact (w_gmtime w) g 0 4 s MG : _ <-> exists lss, Forall2 (listed (w_gmtime w) []) (g_packets g) lss /\ s = text (concat lss)).
  unfold prints. change (str "list") with (m_name cli_list). rewrite P. change (function_of w cli_list) with (run_list w). unfold run_list.
  rewrite (with_file_ok w p "key-file" f data) by (try exact F; now apply (A 0%nat)). rewrite L. cbn [bind]. destruct (list_keys (w_gmtime w) 0 4 g) as [t| | |]; cbn [bind]; split; intros E; try discriminate.
  - injection E as <-. reflexivity.
  - apply Ok_inj in E. now subst.
Qed.
Theorem C89_list_missing : forall w items rest f, calls cli_list items rest [f] -> w_files w f = None -> refuses w (str "list") items rest.
Proof.
  intros w items rest f CA F. destruct (calls_runs w cli_list uses_list items rest _ ltac:(found) CA) as (p & M & A & P).
  exists cli_list, uses_list, []. split; [found|]. split; [reflexivity|]. change (str "list") with (m_name cli_list). rewrite P.
  change (function_of w cli_list) with (run_list w). unfold run_list, with_file. rewrite (A 0%nat "key-file"%string f eq_refl eq_refl). cbn [bind]. now rewrite F.
Qed.

(** ** Instances *)
Definition grouping (n : option N) (files : list (bytes * bytes)) : machine :=
  let 'mkMachine f a b r d z u fu _ h _ he o := toy_machine 0 files [] in mkMachine f a b r d z u fu (fun _ _ => n) h counted he o.
Definition block : pgp := mkPgp true 2 C78_keys [ex_pub 6; ex_user "a"].
Definition at_hand (n : option N) : machine := grouping n [(str "k", file_of block); (str "e", str "")].
Lemma block_read : key_load (file_of block) = Ok block /\ meaningful block = Ok true.
Proof. split; vm_compute; reflexivity. Qed.
Definition block_print : bytes := [70; 59; 250; 93; 161; 2; 139; 71; 48; 57; 240; 55; 53; 245; 250; 50; 216; 227; 128; 242].
Lemma block_fp : fingerprint block = Ok block_print.
Proof. vm_compute. reflexivity. Qed.
Example C89_fingerprint_ex : prints (at_hand (Some 7)) (str "fingerprint") [Value (str "-g") (str "7"); Word (str "k")] None (str "463bfa5da1028b:473039f03735f5:fa32d8e380f2" ++ [10]).
Proof.
  destruct block_read as [L MG].
  destruct (C89_fingerprint (at_hand (Some 7)) [Value (str "-g") (str "7"); Word (str "k")] None (str "k") (file_of block) 7 block block_print) as (out & PR & G);
    [call|reflexivity|reflexivity|reflexivity|exact L|exact block_fp|].
  rewrite (C89_one _ _ _ _ (str "463bfa5da1028b:473039f03735f5:fa32d8e380f2") G) in PR; [exact PR|].
  exists [[70; 59; 250; 93; 161; 2; 139]; [71; 48; 57; 240; 55; 53; 245]], [250; 50; 216; 227; 128; 242].
  split; [reflexivity|]. split; [repeat constructor|]. split; [split; [reflexivity|discriminate]|]. vm_compute. reflexivity.
Qed.
Example C89_id_ex : exists pre id, keyid block = Ok id /\ length pre = 24%nat /\ length (hexlify id) = 16%nat /\
  prints (at_hand (Some 0)) (str "fingerprint") [Word (str "k"); Value (str "-g") (str "0")] None (pre ++ hexlify id ++ [10]).
Proof.
  destruct block_read as [L MG]. eapply (C89_id (at_hand (Some 0)) _ None (str "k") (file_of block) block); [call|reflexivity|reflexivity|exact L|reflexivity|reflexivity|reflexivity].
Qed.
Example C89_refused_ex : refuses (at_hand (Some 1)) (str "fingerprint") [Word (str "no")] None /\ refuses (at_hand None) (str "fingerprint") [Value (str "-g") (str "x"); Word (str "k")] None.
Proof.
  split.
  - apply (C89_refused (at_hand (Some 1)) [Word (str "no")] None (str "no")); [call|left; reflexivity].
  - apply (C89_refused (at_hand None) [Value (str "-g") (str "x"); Word (str "k")] None (str "k")); [call|right; reflexivity].
Qed.
Example C89_list_ex : prints (at_hand (Some 1)) (str "list") [Word (str "k")] None (str "pub     6R/d8e380f2 1970-01-01" ++ [10; 10] ++ str "uid a" ++ [10]).
Proof.
  destruct block_read as [L MG]. apply (C89_list (at_hand (Some 1)) [Word (str "k")] None (str "k") (file_of block) block); [call|reflexivity|exact L|].
  apply (C85_exact (w_gmtime (at_hand (Some 1))) block 0 4 _ MG). vm_compute. reflexivity.
Qed.
Example C89_not_key_ex : let w := grouping (Some 1) [(str "u", file_of (mkPgp true 2 [] [ex_user "a"]))] in
  aborts w (str "fingerprint") [Word (str "u")] None /\ aborts w (str "list") [Word (str "u")] None.
Proof.
  set (w := grouping (Some 1) [(str "u", file_of (mkPgp true 2 [] [ex_user "a"]))]). cbv zeta.
  assert (L : key_load (file_of (mkPgp true 2 [] [ex_user "a"])) = Throw ERuntime) by (vm_compute; reflexivity).
  destruct (C89_not_key_refuted w [Word (str "u")] None (str "u") _ ERuntime eq_refl L) as [A B].
  split; [apply A; [call|discriminate]|apply B; call].
Qed.
Example C89_missing_ex : refuses (at_hand None) (str "list") [Word (str "no")] None.
Proof. apply (C89_list_missing (at_hand None) [Word (str "no")] None (str "no")); [call|reflexivity]. Qed.
Print Assumptions C89_one. Print Assumptions C89_fingerprint. Print Assumptions C89_id. Print Assumptions C89_refused. Print Assumptions C89_list. Print Assumptions C89_not_key_refuted. Print Assumptions C89_list_missing.
