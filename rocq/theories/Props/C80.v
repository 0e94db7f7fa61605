(** C80: what a command line means. *)
From Verif Require Import Proofs.Lib Proofs.CliP.
Local Open Scope N_scope.

(** A module is accepted exactly if its names are usable and distinct; otherwise std::runtime_error. *)
Theorem C80_declare m : (module_new m = Ok m <-> declarable m) /\ (~ declarable m -> module_new m = Throw ERuntime).
Proof.
  assert (B : forall s, existsb isspace s = false <-> no_blank s).
  { intros s. split.
    - intros H c I X. assert (E : existsb isspace s = true); [|congruence]. apply existsb_exists. exists c. split; [exact I|]. unfold isspace. destruct X as [->|[X Y]]; [reflexivity|].
      apply N.leb_le in X, Y. now rewrite X, Y, Bool.orb_true_r.
    - intros H. apply Bool.not_true_is_false. intros E. apply existsb_exists in E as (c & I & E). apply (H c I). unfold isspace in E. apply Bool.orb_true_iff in E as [E|E]; [left; now apply N.eqb_eq|right].
      apply andb_prop in E as [E F]. apply N.leb_le in E, F. now split. }
  assert (BB : forall A (l : list (bytes * A)), existsb (fun o => existsb isspace (fst o)) l = false <-> Forall no_blank (map fst l)).
  { intros A l. induction l as [|o r IH]; cbn [existsb map]; [split; [constructor|reflexivity]|]. rewrite Bool.orb_false_iff, B, IH. split; [intros []; now constructor|intros F; inversion F; auto]. }
  assert (K : forall A (l : list (bytes * A)) (ks : list bytes), existsb (has_key l) ks = false <-> forall x, In x ks -> ~ In x (map fst l)).
  { intros A l ks. split.
    - intros H x I J. assert (E : existsb (has_key l) ks = true); [|congruence]. apply existsb_exists. exists x. split; [exact I|]. now apply has_key_In.
    - intros H. apply Bool.not_true_is_false. intros E. apply existsb_exists in E as (x & I & E). apply (H x I). now apply has_key_In. }
  assert (KF : existsb (fun f => has_key (m_opts m) (fst f)) (m_flags m) = false <-> forall x, In x (map fst (m_flags m)) -> ~ In x (map fst (m_opts m))).
  { rewrite <- K. induction (m_flags m) as [|f r IH]; cbn [existsb map]; [reflexivity|]. rewrite !Bool.orb_false_iff, IH. reflexivity. }
  destruct (sort_spec (m_pos m)) as (SO & SN & _).
  assert (NB : neighbours_equal (sort_strings (m_pos m)) = false <-> NoDup (m_pos m)) by (rewrite neighbours by exact SO; exact SN).
  unfold module_new, check_names_ws, check_duplicate, declarable.
  assert (NT : forall b, b = false \/ b = true) by (intros []; auto).
  destruct (m_name m) as [|c0 name] eqn:NM; [cbn [bind]; split; [split; [discriminate|intros [H _]; contradiction]|reflexivity]|]. rewrite <- NM in *.
  destruct (NT (existsb isspace (m_name m))) as [E1|E1]; rewrite E1; [|cbn [bind]; split; [split; [discriminate|intros (_ & H & _); apply B in H; congruence]|reflexivity]].
  destruct (NT (existsb (fun o => existsb isspace (fst o)) (m_opts m))) as [E2|E2]; rewrite E2; [|cbn [bind]; split; [split; [discriminate|intros (_ & _ & H & _); apply BB in H; congruence]|reflexivity]].
  destruct (NT (existsb (fun o => existsb isspace (fst o)) (m_flags m))) as [E3|E3]; rewrite E3; [|cbn [bind]; split; [split; [discriminate|intros (_ & _ & _ & H & _); apply BB in H; congruence]|reflexivity]].
  cbn [bind].
  destruct (NT (neighbours_equal (sort_strings (m_pos m)))) as [E4|E4]; rewrite E4; [|cbn [bind]; split; [split; [discriminate|intros (_ & _ & _ & _ & H & _); apply NB in H; congruence]|reflexivity]].
  destruct (NT (existsb (has_key (m_opts m)) (m_pos m))) as [E5|E5]; rewrite E5; [|cbn [bind]; split; [split; [discriminate|intros (_ & _ & _ & _ & _ & H & _); exfalso; enough (X : existsb (has_key (m_opts m)) (m_pos m) = false) by congruence; apply K; intros x I; apply (H x I)]|reflexivity]].
  destruct (NT (existsb (has_key (m_flags m)) (m_pos m))) as [E6|E6]; rewrite E6; [|cbn [bind]; split; [split; [discriminate|intros (_ & _ & _ & _ & _ & H & _); exfalso; enough (X : existsb (has_key (m_flags m)) (m_pos m) = false) by congruence; apply K; intros x I; apply (H x I)]|reflexivity]].
  destruct (NT (existsb (fun f => has_key (m_opts m) (fst f)) (m_flags m))) as [E7|E7]; rewrite E7; [|cbn [bind]; split; [split; [discriminate|intros (_ & _ & _ & _ & _ & _ & H); apply KF in H; congruence]|reflexivity]].
  cbn [bind]. apply B in E1. apply BB in E2, E3. apply NB in E4. rewrite KF in E7. rewrite K in E5. rewrite K in E6.
  assert (DE : c0 :: name <> [] /\ no_blank (m_name m) /\ Forall no_blank (map fst (m_opts m)) /\ Forall no_blank (map fst (m_flags m)) /\ NoDup (m_pos m) /\
    (forall x, In x (m_pos m) -> ~ In x (map fst (m_opts m)) /\ ~ In x (map fst (m_flags m))) /\ (forall x, In x (map fst (m_flags m)) -> ~ In x (map fst (m_opts m)))).
  { split; [discriminate|]. split; [exact E1|]. split; [exact E2|]. split; [exact E3|]. split; [exact E4|]. split; [intros x I; split; [now apply E5|now apply E6]|exact E7]. }
  rewrite <- NM in DE. split; [split; [intros _; exact DE|reflexivity]|]. intros ND. contradiction.
Qed.

(** With words enough for the positional arguments the function is called with what the line
    means: the last value of an option or its default, the opposite of a flag's default if it is
    given (once or more often), the words in order. *)
Theorem C80_run m run items rest : declarable m -> keys_unique m -> Forall (fits m) items ->
  (length (m_pos m) <= length (words items rest))%nat ->
  exists p, meaning m items rest p /\ invoke m run (line items rest) = (r <- run p ;; Ok (if (r =? -1)%Z then (-1)%Z else 0%Z)).
Proof.
  intros D U F L. eexists. split; [apply (final_meaning m D U items rest F)|]. unfold invoke. rewrite (parse_line m D items rest F). rewrite skipn_all2 by exact L. reflexivity.
Qed.
(** With fewer words, or without the value of the last option, it is not called. *)
Theorem C80_usage m run items rest : declarable m -> Forall (fits m) items ->
  ((length (words items rest) < length (m_pos m))%nat -> invoke m run (line items rest) = Ok (-1)%Z) /\
  (forall o, o <> dashes -> In o (map fst (m_opts m)) -> invoke m run (flat_map spell items ++ [o]) = Ok (-1)%Z).
Proof.
  intros D F. split.
  - intros L. unfold invoke. rewrite (parse_line m D items rest F). destruct (skipn (length (words items rest)) (m_pos m)) eqn:E; [|reflexivity].
    assert (X := skipn_length (length (words items rest)) (m_pos m)). rewrite E in X. cbn in X. lia.
  - intros o NO IO. unfold invoke. rewrite (loop_items m) by (try apply D; exact F). cbn [parse_loop]. fold dashes. apply beq_neq in NO. rewrite NO. apply has_key_In in IO. rewrite IO. reflexivity.
Qed.
(** These are all command lines. *)
Theorem C80_every m argv : (exists items rest, Forall (fits m) items /\ argv = line items rest) \/
  (exists items o, Forall (fits m) items /\ o <> dashes /\ In o (map fst (m_opts m)) /\ argv = flat_map spell items ++ [o]).
Proof. apply every_line. Qed.
(** The word "--" itself cannot be given: behind "--" it is left out as well. *)
Theorem C80_dashes_refuted m run items ws more : declarable m -> Forall (fits m) items ->
  invoke m run (line items (Some (ws ++ dashes :: more))) = invoke m run (line items (Some (ws ++ more))).
Proof.
  intros D F. unfold invoke. rewrite !(parse_line m D _ _ F). unfold words, all_items. rewrite !filter_app. cbn [filter]. rewrite beq_refl. reflexivity.
Qed.

(** The modules of the program are all accepted, their names are distinct, and each is called
    by its name. *)
Definition no_dup (l : list bytes) : bool := negb (neighbours_equal (sort_strings l)).
Lemma no_dup_NoDup l : no_dup l = true -> NoDup l.
Proof. intros H. destruct (sort_spec l) as (O & ND & _). apply ND. apply neighbours; [exact O|]. now apply Bool.negb_true_iff. Qed.
Theorem C80_modules : Forall (fun x => declarable (fst x) /\ keys_unique (fst x)) ordered /\ NoDup (map (fun x => m_name (fst x)) ordered).
Proof.
  split.
  - assert (C : forallb (fun x => (match module_new (fst x) with Ok _ => true | _ => false end) && no_dup (map fst (m_opts (fst x))) && no_dup (map fst (m_flags (fst x)))) ordered = true) by (vm_compute; reflexivity).
    apply Forall_forall. intros x I. pose proof (proj1 (forallb_forall _ _) C x I) as H. cbv beta in H. apply andb_prop in H as [H N2]. apply andb_prop in H as [H N1].
    split; [|split; now apply no_dup_NoDup]. apply (C80_declare (fst x)). unfold module_new in H |- *. destruct (check_names_ws (fst x)); try discriminate H. cbn [bind] in *. destruct (check_duplicate (fst x)); try discriminate H. reflexivity.
  - apply no_dup_NoDup. vm_compute. reflexivity.
Qed.
(** The commands are those of the list, each once. *)
Theorem C80_commands : map (fun x => m_name (fst x)) ordered = commands /\ NoDup commands.
Proof.
  assert (E : map (fun x => m_name (fst x)) ordered = commands) by (vm_compute; reflexivity).
  split; [exact E|]. rewrite <- E. apply C80_modules.
Qed.
Lemma find_module_sound : forall l a x, find_module l a = Some x -> In x l /\ m_name (fst x) = a.
Proof.
  induction l as [|y r IH]; intros a x H; cbn [find_module] in H; [discriminate|]. destruct (find_module r a) as [z|] eqn:E.
  - inversion H; subst. destruct (IH _ _ E). split; [now right|assumption].
  - destruct (beq (m_name (fst y)) a) eqn:B; [|discriminate]. inversion H; subst. apply beq_eq in B. split; [now left|exact B].
Qed.
Lemma find_module_complete : forall l x, NoDup (map (fun x => m_name (fst x)) l) -> In x l -> find_module l (m_name (fst x)) = Some x.
Proof.
  induction l as [|y r IH]; intros x ND I; [destruct I|]. cbn [map] in ND. inversion ND as [|? ? NI ND']; subst. cbn [find_module]. destruct I as [->|I]; [|now rewrite (IH x ND' I)].
  destruct (find_module r (m_name (fst x))) as [z|] eqn:E; [|now rewrite beq_refl]. apply find_module_sound in E as [IZ EZ]. exfalso. apply NI. rewrite <- EZ. now apply (in_map (fun x => m_name (fst x))).
Qed.
Theorem C80_dispatch : (forall m u argv, In (m, u) ordered -> cli_main (m_name m :: argv) = Call m u argv) /\
  (forall argv m u r, cli_main argv = Call m u r -> In (m, u) ordered /\ argv = m_name m :: r) /\
  (forall name argv, cli_main (name :: argv) = Unknown <-> firstn 4 name <> str "help" /\ ~ In name (map (fun x => m_name (fst x)) ordered)).
Proof.
  destruct C80_modules as [_ ND].
  assert (NH : forallb (fun x => negb (beq (firstn 4 (m_name (fst x))) (str "help"))) ordered = true) by (vm_compute; reflexivity). rewrite forallb_forall in NH.
  unfold cli_main. split; [|split].
  - intros m u argv I. specialize (NH _ I). cbn [fst] in NH. apply Bool.negb_true_iff in NH. rewrite NH. pose proof (find_module_complete _ _ ND I) as E. cbn [fst] in E. now rewrite E.
  - intros [|a r0] m u r H; [discriminate|]. destruct (beq (firstn 4 a) (str "help")); [discriminate|]. destruct (find_module ordered a) as [[m' u']|] eqn:E; [|discriminate]. inversion H; subst.
    apply find_module_sound in E as [I E]. cbn [fst] in E. subst a. auto.
  - intros name argv. destruct (beq (firstn 4 name) (str "help")) eqn:H; [apply beq_eq in H; split; [discriminate|intros [X _]; contradiction]|]. apply beq_neq in H.
    destruct (find_module ordered name) as [[m u]|] eqn:E.
    + split; [discriminate|]. intros [_ X]. exfalso. apply find_module_sound in E as [I E]. apply X. rewrite <- E. now apply (in_map (fun x => m_name (fst x))).
    + split; [|reflexivity]. intros _. split; [exact H|]. intros X. apply in_map_iff in X as (x & EX & I). rewrite <- EX, (find_module_complete _ _ ND I) in E. discriminate.
Qed.

(** No function looks up a name that is not there, whatever the command line, but for two. *)
Theorem C80_lookups_partial : forall m u argv, In (m, u) ordered -> m_name m <> str "generate-keypair" -> m_name m <> str "show-cleartext-signature" ->
  exists z, invoke m (fun p => _ <- touch (fst u) (fst p) ;; _ <- touch (snd u) (snd p) ;; Ok 0%Z) argv = Ok z.
Proof.
  intros m u argv I N1 N2.
  assert (C : forallb (fun x => beq (m_name (fst x)) (str "generate-keypair") || beq (m_name (fst x)) (str "show-cleartext-signature") ||
     (forallb (fun n => has_key (m_opts (fst x)) n || existsb (beq n) (m_pos (fst x))) (fst (snd x)) && forallb (has_key (m_flags (fst x))) (snd (snd x)))) ordered = true) by (vm_compute; reflexivity).
  rewrite forallb_forall in C. specialize (C _ I). cbn [fst snd] in C. apply beq_neq in N1, N2. rewrite N1, N2 in C. cbn [orb] in C. apply andb_prop in C as [CA CF]. rewrite forallb_forall in CA, CF.
  destruct C80_modules as [DM _]. rewrite Forall_forall in DM. destruct (DM _ I) as [D U]. cbn [fst] in D, U.
  destruct (C80_every m argv) as [(items & rest & F & ->)|(items & o & F & NO & IO & ->)]; [|eexists; now apply (proj2 (C80_usage m _ items None D F))].
  destruct (Nat.lt_ge_cases (length (words items rest)) (length (m_pos m))) as [L|L]; [eexists; now apply (proj1 (C80_usage m _ items rest D F))|].
  match goal with |- exists z, invoke m ?run _ = _ => destruct (C80_run m run items rest D U F L) as (p & (MO & MF & MP & _) & E) end. rewrite E.
  assert (TA : forall l, (forall n, In n l -> exists v, key_at (fst p) n = Ok v) -> touch l (fst p) = Ok tt).
  { induction l as [|n r IH]; intros H; [reflexivity|]. cbn [touch]. destruct (H n (or_introl eq_refl)) as [v ->]. cbn [bind]. apply IH. intros n' I'. apply H. now right. }
  assert (TF : forall l, (forall n, In n l -> exists v, key_at (snd p) n = Ok v) -> touch l (snd p) = Ok tt).
  { induction l as [|n r IH]; intros H; [reflexivity|]. cbn [touch]. destruct (H n (or_introl eq_refl)) as [v ->]. cbn [bind]. apply IH. intros n' I'. apply H. now right. }
  rewrite TA, TF; [cbn [bind]; eauto| |].
  - intros n IN. specialize (CF n IN). apply has_key_In in CF. apply in_map_iff in CF as ((f & d) & <- & IF). cbn [fst].
    destruct (MF f d IF) as [A B]. destruct (in_dec (fun a b : item => ltac:(decide equality; apply (list_eq_dec N.eq_dec))) (Flag f) items) as [Y|Y]; [rewrite (A Y)|rewrite (B Y)]; eauto.
  - intros n IN. specialize (CA n IN). apply Bool.orb_true_iff in CA as [CA|CA].
    + apply has_key_In in CA. apply in_map_iff in CA as ((o & d) & <- & IO). cbn [fst]. rewrite (MO o d IO). eauto.
    + apply existsb_exists in CA as (x & IX & EX). apply beq_eq in EX. subst x. apply In_nth_error in IX as [i NI].
      destruct (nth_error (words items rest) i) as [w|] eqn:W; [rewrite (MP i n w NI W); eauto|].
      exfalso. apply nth_error_None in W. assert (i < length (m_pos m))%nat by (apply nth_error_Some; congruence). lia.
Qed.
(** Those two: an unknown public key algorithm, and a file that is not there, end in an
    exception instead of the error message. *)
Theorem C80_keypair_refuted pkas syms hashes name : ~ In name (map fst pkas) ->
  invoke cli_generate_keypair (fun p => b <- keypair_checks pkas syms hashes p ;; Ok (if b : bool then 0%Z else (-1)%Z)) [str "--ppka"; name] = Throw EOutOfRange.
Proof.
  intros H. destruct C80_modules as [DM _]. rewrite Forall_forall in DM. assert (I : In (cli_generate_keypair, uses_generate_keypair) ordered) by (unfold ordered; cbn [In]; tauto).
  destruct (DM _ I) as [D U]. cbn [fst] in D, U.
  assert (F : Forall (fits cli_generate_keypair) [Value (str "--ppka") name]) by (constructor; [split; [discriminate|vm_compute; tauto]|constructor]).
  match goal with |- invoke _ ?run _ = _ => destruct (C80_run cli_generate_keypair run [Value (str "--ppka") name] None D U F ltac:(cbn; lia)) as (p & (MO & _ & _ & MX & _) & E) end.
  change (line [Value (str "--ppka") name] None) with [str "--ppka"; name] in E. rewrite E. unfold keypair_checks.
  rewrite (MO (str "--ppka") (str "RSA_ENCRYPT_OR_SIGN")) by (vm_compute; tauto). cbn [last_value]. rewrite beq_refl. cbn [bind].
  assert (HK : has_key pkas name = false) by (apply Bool.not_true_is_false; intros X; apply has_key_In in X; contradiction). rewrite HK. cbn [negb].
  rewrite (MX (str "--pka")); [reflexivity| |]; vm_compute; intuition discriminate.
Qed.
Theorem C80_show_refuted show name : name <> dashes -> invoke cli_show_cleartext_signature (show_cleartext None show) [name] = Throw EOutOfRange.
Proof. intros H. unfold invoke. cbn [parse_loop cli_show_cleartext_signature m_pos m_opts m_flags]. fold dashes. apply beq_neq in H. rewrite H. vm_compute. reflexivity. Qed.

(** *** Examples. *)
Definition sign_line : list item := [Word (str "key"); Value (str "-h") (str "SHA256"); Flag (str "-a"); Word (str "secret"); Value (str "-h") (str "SHA512"); Flag (str "-a")].
Example sign_line_fits : Forall (fits cli_sign_detached_signature) sign_line /\ (length (m_pos cli_sign_detached_signature) <= length (words sign_line (Some [str "-h"])))%nat.
Proof. split; [repeat constructor; vm_compute; intuition discriminate|vm_compute; lia]. Qed.
Example sign_line_parsed : exists p, parse_loop cli_sign_detached_signature false (m_pos cli_sign_detached_signature) (line sign_line (Some [str "-h"])) (defaults cli_sign_detached_signature) = (None, p) /\
  key_at (fst p) (str "-h") = Ok (str "SHA512") /\ key_at (fst p) (str "passphrase") = Ok (str "secret") /\ key_at (fst p) (str "file") = Ok (str "-h") /\ key_at (snd p) (str "-a") = Ok false.
Proof. eexists. split; [vm_compute; reflexivity|]. vm_compute. auto. Qed.
(** A misspelt option is taken for the next positional argument. *)
Example misspelt : exists p, parse_loop cli_sign_detached_signature false (m_pos cli_sign_detached_signature) [str "key"; str "--hash"; str "SHA256"; str "secret"; str "file"] (defaults cli_sign_detached_signature) = (None, p) /\
  key_at (fst p) (str "passphrase") = Ok (str "--hash") /\ key_at (fst p) (str "file") = Ok (str "SHA256").
Proof. eexists. split; [vm_compute; reflexivity|]. vm_compute. auto. Qed.
Example usage_example : invoke cli_sign_file (fun _ => Ok 0%Z) [str "key"; str "secret"] = Ok (-1)%Z /\ invoke cli_sign_file (fun _ => Ok 0%Z) [str "key"; str "secret"; str "file"; str "-c"] = Ok (-1)%Z.
Proof. split; vm_compute; reflexivity. Qed.
Example dispatch_example : cli_main [str "sign-file"; str "x"] = Call cli_sign_file uses_sign_file [str "x"] /\ cli_main [str "helpme"] = Help /\ cli_main [str "signfile"] = Unknown.
Proof. repeat split; vm_compute; reflexivity. Qed.
Example declare_example : module_new (mkModule (str "a b") [] [] []) = Throw ERuntime /\ module_new (mkModule (str "a") [str "x"; str "y"; str "x"] [] []) = Throw ERuntime /\
  module_new (mkModule (str "a") [str "x"] [(str "-o", str "")] [(str "-o", true)]) = Throw ERuntime.
Proof. repeat split; vm_compute; reflexivity. Qed.
Example keypair_name : ~ In (str "rsa") (map fst [(str "RSA_ENCRYPT_OR_SIGN", 1); (str "DSA", 17)]).
Proof. vm_compute. intuition discriminate. Qed.

Print Assumptions C80_declare. Print Assumptions C80_run. Print Assumptions C80_usage. Print Assumptions C80_every. Print Assumptions C80_dashes_refuted. Print Assumptions C80_modules. Print Assumptions C80_commands.
Print Assumptions C80_dispatch. Print Assumptions C80_lookups_partial. Print Assumptions C80_keypair_refuted. Print Assumptions C80_show_refuted.
