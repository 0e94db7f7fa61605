(** C92: help on the command line. *)
From Verif Require Import Proofs.Lib Proofs.TimesP Proofs.CliP Model.Help Spec.Calendar Spec.Manual.
Local Open Scope N_scope.

Lemma blt_before : forall a b, blt a b = true -> before a b.
Proof.
  induction a as [|x a IH]; intros [|y b] H; cbn in H; try discriminate; [exists []; left; exists y, b; auto|].
  destruct (x =? y) eqn:E.
  - apply N.eqb_eq in E. subst y. destruct (IH b H) as (p & [(c & r & -> & ->)|(c & d & r & s & -> & -> & L)]); exists (x :: p); [left; exists c, r; auto|right; exists c, d, r, s; auto].
  - exists []. right. exists x, y, a, b. split; [reflexivity|]. split; [reflexivity|lia].
Qed.
Fixpoint rising {A} (l : list (bytes * A)) : Prop := match l with [] => True | x :: r => Forall (fun y => blt (fst x) (fst y) = true) r /\ rising r end.
Lemma insert_fits {A} (x k : bytes) (v : A) l : blt x k = true -> Forall (fun y => blt x (fst y) = true) l -> Forall (fun y => blt x (fst y) = true) (insert_key k v l).
Proof.
  intros K F. induction F as [|[a b] l B F IH]; cbn; [now repeat constructor|]. destruct (blt k a); [now repeat constructor|]. destruct (beq k a); constructor; assumption.
Qed.
Lemma insert_rising {A} (k : bytes) (v : A) l : rising l -> rising (insert_key k v l).
Proof.
  induction l as [|[a b] l IH]; intros R; cbn; [split; [constructor|exact I]|]. destruct R as [F R]. destruct (blt k a) eqn:B.
  - cbn. split; [|split; assumption]. constructor; [exact B|]. eapply Forall_impl; [|exact F]. cbn. intros y Y. eapply blt_trans; eassumption.
  - destruct (beq k a) eqn:E; [apply beq_eq in E; subst a; cbn; now split|]. cbn. split; [|now apply IH]. apply insert_fits; [|exact F].
    cbn. destruct (blt a k) eqn:C; [reflexivity|]. rewrite (blt_total _ _ B C), beq_refl in E. discriminate.
Qed.
Lemma order_rising {A} (m : list (bytes * A)) : rising (in_order m).
Proof. induction m as [|[k v] m IH]; [exact I|]. now apply insert_rising. Qed.
Lemma insert_find {A} (k : bytes) (v : A) l x : find_key (insert_key k v l) x = if beq k x then Some v else find_key l x.
Proof.
  induction l as [|[a b] l IH]; cbn; [reflexivity|]. destruct (blt k a); [reflexivity|]. destruct (beq k a) eqn:E; cbn.
  - apply beq_eq in E. subst a. destruct (beq k x); reflexivity.
  - rewrite IH. destruct (beq a x) eqn:X; [|reflexivity]. destruct (beq k x) eqn:Y; [|reflexivity]. apply beq_eq in X, Y. subst. rewrite beq_refl in E. discriminate.
Qed.
Lemma order_find {A} (m : list (bytes * A)) x : find_key (in_order m) x = find_key m x.
Proof. induction m as [|[k v] m IH]; [reflexivity|]. cbn [in_order fold_right fst snd]. fold (in_order m). rewrite insert_find, IH. reflexivity. Qed.
Lemma rising_nodup {A} (l : list (bytes * A)) : rising l -> NoDup (map fst l).
Proof.
  induction l as [|x l IH]; intros R; [constructor|]. destruct R as [F R]. cbn. constructor; [|now apply IH]. intros I. apply in_map_iff in I as (y & E & I). rewrite Forall_forall in F. apply F in I. rewrite E, blt_irrefl in I. discriminate.
Qed.
Lemma order_In {A} (m : list (bytes * A)) k v : In (k, v) (in_order m) <-> find_key m k = Some v.
Proof.
  rewrite <- order_find. split; [apply find_key_unique, rising_nodup, order_rising|]. generalize (in_order m) as l. induction l as [|[a b] l IH]; cbn; [discriminate|].
  destruct (beq a k) eqn:E; [apply beq_eq in E; intros X; injection X as ->; left; now subst|intros X; right; now apply IH].
Qed.
Lemma rising_alphabetical {A} (l : list (bytes * A)) : rising l -> alphabetical (map fst l).
Proof. induction l as [|x l IH]; [trivial|]. intros [F R]. split; [|now apply IH]. apply Forall_map. eapply Forall_impl; [|exact F]. intros y. apply blt_before. Qed.
Lemma order_none {A} (m : list (bytes * A)) : in_order m = [] <-> m = [].
Proof.
  split; [|intros ->; reflexivity]. destruct m as [|[k v] m]; [reflexivity|]. intros E. exfalso. assert (X : In (k, v) (in_order ((k, v) :: m))) by (apply order_In; cbn; now rewrite beq_refl). rewrite E in X. destruct X.
Qed.
Lemma lines_flat {A} (f g : A -> bytes) l : (forall x, f x = g x ++ [10]) -> flat_map f l = as_text (map g l).
Proof. intros E. unfold as_text. induction l as [|x l IH]; [reflexivity|]. cbn. now rewrite E, IH. Qed.
Lemma as_text_cons x l : as_text (x :: l) = x ++ [10] ++ as_text l.
Proof. unfold as_text. cbn [map concat]. now rewrite <- app_assoc. Qed.
Lemma as_text_app a b : as_text (a ++ b) = as_text a ++ as_text b.
Proof. unfold as_text. now rewrite map_app, concat_app. Qed.

(** The help text of a function is its manual: every option and every flag it has, and no other, each
    once, in alphabetical order, with the default value that counts. *)
Theorem C92_manual m indent : exists opts flags, alphabetical (map fst opts) /\ alphabetical (map fst flags) /\
  (forall o d, In (o, d) opts <-> find_key (fst (defaults m)) o = Some d) /\ (forall o d, In (o, d) flags <-> find_key (snd (defaults m)) o = Some d) /\
  module_help m indent = as_text (manual (explain (m_name m)) (m_name m) (m_pos m) opts flags indent).
Proof.
  exists (in_order (m_opts m)), (in_order (m_flags m)). split; [apply rising_alphabetical, order_rising|]. split; [apply rising_alphabetical, order_rising|].
  split; [intros o d; apply order_In|]. split; [intros o d; apply order_In|]. unfold module_help, manual.
  assert (H1 : forall l, flat_map (fun o : bytes * bytes => indent ++ str "        " ++ fst o ++ str " " ++ explain (m_name m) (fst o) ++ str "; default value: """ ++ snd o ++ str """" ++ [10]) l =
    as_text (map (fun o : bytes * bytes => option_line indent (fst o) (explain (m_name m) (fst o)) ([34] ++ snd o ++ [34])) l)) by (intros l; apply lines_flat; intros x; unfold option_line; rewrite <- !app_assoc; reflexivity).
  assert (H2 : forall l, flat_map (fun o : bytes * bool => indent ++ str "        " ++ fst o ++ str " " ++ explain (m_name m) (fst o) ++ str "; default value: " ++ (if snd o then str "true" else str "false") ++ [10]) l =
    as_text (map (fun o : bytes * bool => option_line indent (fst o) (explain (m_name m) (fst o)) (if snd o then str "true" else str "false")) l)) by (intros l; apply lines_flat; intros x; unfold option_line; rewrite <- !app_assoc; reflexivity).
  rewrite as_text_cons, as_text_app. rewrite (flat_map_concat_map (fun p => str " " ++ p)). change (fun p => str " " ++ p) with (fun p : bytes => 32 :: p).
  pose proof (order_none (m_opts m)) as O. pose proof (order_none (m_flags m)) as P. destruct (m_opts m) as [|a l]; destruct (m_flags m) as [|b k].
  - cbn [in_order fold_right as_text map concat app]. rewrite ?app_nil_r, <- ?app_assoc. reflexivity.
  - rewrite H2. change (in_order (@nil (bytes * bytes))) with (@nil (bytes * bytes)). destruct (in_order (b :: k)) as [|b' k']; [destruct P as [P _]; specialize (P eq_refl); discriminate|].
    rewrite !(as_text_cons []), !(as_text_cons (indent ++ _)). change (as_text []) with (@nil N). rewrite <- ?app_assoc. reflexivity.
  - rewrite H1. change (in_order (@nil (bytes * bool))) with (@nil (bytes * bool)). destruct (in_order (a :: l)) as [|a' l']; [destruct O as [O _]; specialize (O eq_refl); discriminate|].
    rewrite !(as_text_cons (indent ++ _)). change (as_text []) with (@nil N). rewrite <- ?app_assoc. reflexivity.
  - rewrite H1, H2. destruct (in_order (a :: l)) as [|a' l']; [destruct O as [O _]; specialize (O eq_refl); discriminate|]. destruct (in_order (b :: k)) as [|b' k']; [destruct P as [P _]; specialize (P eq_refl); discriminate|].
    rewrite !(as_text_cons []), !(as_text_cons (indent ++ _)). rewrite <- ?app_assoc. reflexivity.
Qed.
(** All of them are explained. *)
Theorem C92_explained m uses o : In (m, uses) ordered -> In o (map fst (m_opts m) ++ map fst (m_flags m)) -> exists t e, In (m_name m, t) explanations /\ In (o, e) t /\ e <> [] /\ explain (m_name m) o = e.
Proof.
  intros I J. assert (C : forallb (fun x => forallb (fun o => match find_key explanations (m_name (fst x)) with Some t => match find_key t o with Some (_ :: _) => true | _ => false end | None => false end) (map fst (m_opts (fst x)) ++ map fst (m_flags (fst x)))) ordered = true) by (vm_compute; reflexivity).
  rewrite forallb_forall in C. specialize (C _ I). cbv beta in C. cbn [fst] in C. rewrite forallb_forall in C. specialize (C _ J). cbv beta in C. unfold explain.
  assert (F : forall {A} (l : list (bytes * A)) k v, find_key l k = Some v -> In (k, v) l).
  { clear. intros A l k v. induction l as [|[a b] l IH]; cbn; [discriminate|]. destruct (beq a k) eqn:E; [apply beq_eq in E; intros X; injection X as ->; left; now subst|intros X; right; now apply IH]. }
  destruct (find_key explanations (m_name m)) as [t|] eqn:E1; [|discriminate]. destruct (find_key t o) as [[|c e]|] eqn:E2; [discriminate| |discriminate].
  exists t, (c :: e). split; [now apply F|]. split; [now apply F|]. split; [discriminate|reflexivity].
Qed.

Lemma loop_text f indent l : help_loop f indent l = (concat (map (fun m => module_help m indent ++ [10]) (filter (fun m => f (m_name m)) l)), N.of_nat (length (filter (fun m => f (m_name m)) l))).
Proof.
  induction l as [|m l IH]; [reflexivity|]. cbn [help_loop filter]. rewrite IH. destruct (f (m_name m)); [|reflexivity]. cbn [map concat length]. rewrite <- app_assoc. f_equal. lia.
Qed.
Definition commands : list module := map fst ordered.
(** The texts of the functions chosen, in the order of the list, each followed by an empty line. *)
Definition texts (l : list module) : bytes := concat (map (fun m => module_help m (repeat 32 4) ++ [10]) l).
Definition everything (engine : regex_engine) : Prop := exists f, engine [] = Some f /\ forall s, f s = true.
(** Without arguments, and with help alone, all functions are explained. *)
Theorem C92_all engine argv : everything engine -> argv = [] \/ argv = [str "help"] ->
  main_says engine argv = Ok (Some (mkSaid (header_text ++ texts commands) [] 0)).
Proof.
  intros (f & E & T) A. assert (X : help engine [] (str "    ") = Ok (texts commands, N.of_nat (length commands))).
  { unfold help. rewrite E, loop_text. fold commands. assert (Y : filter (fun m => f (m_name m)) commands = commands) by (generalize commands; induction l as [|m l IH]; [reflexivity|]; cbn; now rewrite T, IH). rewrite Y. reflexivity. }
  destruct A as [->| ->]; unfold main_says; change (beq (firstn 4 (str "help")) (str "help")) with true; cbv iota; rewrite X; reflexivity.
Qed.
(** help with a pattern says how many names match it and explains exactly those. *)
Theorem C92_matching engine f pattern rest : engine pattern = Some f -> let chosen := filter (fun m => f (m_name m)) commands in
  exists n, digits n /\ number n = N.of_nat (length chosen) /\
    main_says engine (str "help" :: pattern :: rest) = Ok (Some (mkSaid (n ++ str " matches for """ ++ pattern ++ str """" ++ match chosen with [] => [10] | _ => str ":" ++ [10] ++ texts chosen end) [] 0)).
Proof.
  intros E chosen. exists (Times.decimal (N.of_nat (length chosen))). split; [apply decimal_digits|]. split; [apply decimal_number|]. unfold main_says. change (beq (firstn 4 (str "help")) (str "help")) with true. cbv iota. unfold help. rewrite E, loop_text. fold commands. fold chosen. cbn [bind].
  destruct chosen as [|m l]; [reflexivity|]. replace (N.of_nat (length (m :: l)) =? 0) with false by (cbn [length]; lia). reflexivity.
Qed.
(** A name that is no function ends with status -1, an error message and the functions it may have meant;
    nothing is run. *)
Theorem C92_unknown engine f name rest : firstn 4 name <> str "help" -> ~ In name (map m_name commands) -> engine name = Some f -> let chosen := filter (fun m => f (m_name m)) commands in
  exists n, digits n /\ number n = N.of_nat (length chosen) /\
    main_says engine (name :: rest) = Ok (Some (mkSaid (match chosen with [] => [] | _ => n ++ str " matches:" ++ [10] ++ texts chosen end) (str "Error: Function """ ++ name ++ str """ not found." ++ [10]) (-1))).
Proof.
  intros H N E chosen. exists (Times.decimal (N.of_nat (length chosen))). split; [apply decimal_digits|]. split; [apply decimal_number|]. unfold main_says. destruct (beq (firstn 4 name) (str "help")) eqn:B; [apply beq_eq in B; contradiction|].
  assert (F : forall l, ~ In name (map (fun x : module * (list bytes * list bytes) => m_name (fst x)) l) -> find_module l name = None).
  { clear. induction l as [|x l IH]; intros N; [reflexivity|]. cbn in *. rewrite IH by tauto. destruct (beq (m_name (fst x)) name) eqn:B; [apply beq_eq in B; exfalso; apply N; now left|reflexivity]. }
  rewrite F by (unfold commands in N; rewrite map_map in N; exact N). unfold help. rewrite E, loop_text. fold commands. fold chosen. cbn [bind]. destruct chosen as [|m l]; [reflexivity|]. replace (N.of_nat (length (m :: l)) =? 0) with false by (cbn [length]; lia). reflexivity.
Qed.
(** The names of functions are run, whatever follows. *)
Theorem C92_known engine name rest : In name (map m_name commands) -> main_says engine (name :: rest) = Ok None.
Proof.
  intros I. assert (C : forallb (fun m => negb (beq (firstn 4 (m_name m)) (str "help")) && match find_module ordered (m_name m) with Some _ => true | None => false end) commands = true) by (vm_compute; reflexivity).
  apply in_map_iff in I as (m & <- & I). rewrite forallb_forall in C. specialize (C _ I). cbv beta in C. apply andb_prop in C as [C1 C2]. apply Bool.negb_true_iff in C1. unfold main_says. rewrite C1. destruct (find_module ordered (m_name m)); [reflexivity|discriminate].
Qed.
(** But names are taken for regular expressions: one that is none ends the program with an exception
    nobody catches, instead of status -1. *)
Theorem C92_regex_refuted engine name rest : firstn 4 name <> str "help" -> ~ In name (map m_name commands) -> engine name = None -> main_says engine (name :: rest) = Throw ERuntime /\ main_says engine (str "help" :: name :: rest) = Throw ERuntime.
Proof.
  intros H N E. split; unfold main_says.
  - destruct (beq (firstn 4 name) (str "help")) eqn:B; [apply beq_eq in B; contradiction|].
    assert (F : forall l, ~ In name (map (fun x : module * (list bytes * list bytes) => m_name (fst x)) l) -> find_module l name = None).
    { clear. induction l as [|x l IH]; intros N; [reflexivity|]. cbn in *. rewrite IH by tauto. destruct (beq (m_name (fst x)) name) eqn:B; [apply beq_eq in B; exfalso; apply N; now left|reflexivity]. }
    rewrite F by (unfold commands in N; rewrite map_map in N; exact N). unfold help. rewrite E. reflexivity.
  - change (beq (firstn 4 (str "help")) (str "help")) with true. cbv iota. unfold help. rewrite E. reflexivity.
Qed.
(** And every word that begins with help is taken for help. *)
Theorem C92_prefix_refuted engine w rest : main_says engine ((str "help" ++ w) :: rest) = main_says engine (str "help" :: rest).
Proof. reflexivity. Qed.
(** A function called with arguments that do not fit, or that fails, prints its manual last and ends with
    status -1; otherwise it prints what it prints, and the status is 0. *)
Theorem C92_usage m run argv out status : module_call m run argv = Ok (out, status) ->
  status = (-1)%Z /\ (exists first, out = first ++ module_help m [] ++ [10]) \/ status = 0%Z /\ exists p r, run p = Ok (out, r) /\ r <> (-1)%Z.
Proof.
  unfold module_call. destruct (parse_loop m false (m_pos m) argv (defaults m)) as [[x|] p]; intros E.
  - apply Ok_inj in E. injection E as <- <-. left. split; [reflexivity|]. now exists [].
  - apply bind_ok in E as ([o r] & R & E). apply Ok_inj in E. destruct (r =? -1)%Z eqn:Z; injection E as <- <-; [left; split; [reflexivity|now exists o]|right; split; [reflexivity|]]. exists p, r. split; [exact R|lia].
Qed.
(** The status is the one of C80. *)
Theorem C92_status m run argv : invoke m (fun p => x <- run p ;; Ok (snd x)) argv = (x <- module_call m run argv ;; Ok (snd x)).
Proof.
  unfold invoke, module_call. destruct (parse_loop m false (m_pos m) argv (defaults m)) as [[x|] p]; [reflexivity|]. destruct (run p) as [[o r]| | |]; try reflexivity. cbn [bind snd]. destruct (r =? -1)%Z; reflexivity.
Qed.

(** *** Examples: an engine that finds the text itself and knows that an open parenthesis is an error. *)
Fixpoint within (p s : bytes) : bool := beq p (firstn (length p) s) || match s with [] => false | _ :: r => within p r end.
Definition plain_engine : regex_engine := fun p => if existsb (N.eqb 40) p then None else Some (within p).
Example C92_all_ex : everything plain_engine.
Proof. exists (within []). split; [reflexivity|]. intros s. destruct s; reflexivity. Qed.
Example C92_matching_ex : main_says plain_engine [str "help"; str "fingerp"] = Ok (Some (mkSaid (str "1 matches for ""fingerp"":
    fingerprint key-file [options]
        Optional Arguments:
            -g group this many octets together; default value: ""1""
            -s separator; default value: "":""

") [] 0)).
Proof. vm_compute. reflexivity. Qed.
Example C92_unknown_ex : main_says plain_engine [str "showw"] = Ok (Some (mkSaid [] (str "Error: Function ""showw"" not found.
") (-1))) /\ ~ In (str "sign") (map m_name commands) /\ length (filter (fun m => within (str "sign") (m_name m)) commands) = 9%nat.
Proof. split; [vm_compute; reflexivity|]. split; [|vm_compute; reflexivity]. intros I. assert (C : existsb (beq (str "sign")) (map m_name commands) = false) by (vm_compute; reflexivity). assert (D : existsb (beq (str "sign")) (map m_name commands) = true) by (apply existsb_exists; exists (str "sign"); split; [exact I|apply beq_refl]). congruence. Qed.
Example C92_regex_ex : main_says plain_engine [str "sign(file"] = Throw ERuntime.
Proof. vm_compute. reflexivity. Qed.
Print Assumptions C92_manual. Print Assumptions C92_explained. Print Assumptions C92_all. Print Assumptions C92_matching. Print Assumptions C92_unknown. Print Assumptions C92_known.
Print Assumptions C92_regex_refuted. Print Assumptions C92_prefix_refuted. Print Assumptions C92_usage. Print Assumptions C92_status.
