(** Running commands, and texts with a newline at the end. *)
From Verif Require Import Proofs.Lib Proofs.CliP Proofs.ArmorP Proofs.PgpP Spec.Armor Spec.Invocation Spec.Sequence Props.C80.
Local Open Scope N_scope.
Notation dashes2 := Spec.CommandLine.dashes.

(** ** Command lines *)
Lemma exec_line w m u items rest : In (m, u) ordered -> Forall (CommandLine.fits m) items -> (length (m_pos m) <= length (words items rest))%nat ->
  exists p, meaning m items rest p /\
    program w (m_name m :: line items rest) = Some (' (r, out) <- function_of w m p ;; Ok (if (r =? -1)%Z then ((-1)%Z, out ++ w_help w m ++ [10]) else (0%Z, out))).
Proof.
  intros I F L. destruct C80_modules as [DM _]. rewrite Forall_forall in DM. destruct (DM _ I) as [D U]. cbn [fst] in D, U.
  eexists. split; [apply (final_meaning m D U items rest F)|]. unfold program. rewrite (proj1 C80_dispatch m u (line items rest) I). unfold execute.
  rewrite (parse_line m D items rest F). rewrite skipn_all2 by exact L. reflexivity.
Qed.
Lemma arg_given m items rest p o d : meaning m items rest p -> In (str o, d) (m_opts m) -> arg p o = Ok (given items (str o) d).
Proof. intros (H & _) I. exact (H _ _ I). Qed.
Lemma arg_word m items rest p i x v : meaning m items rest p -> nth_error (m_pos m) i = Some (str x) -> nth_error (words items rest) i = Some v -> arg p x = Ok v.
Proof. intros (_ & _ & H & _) I W. exact (H _ _ _ I W). Qed.
Lemma is_flag_In f items : existsb (is_flag f) items = true <-> In (Flag f) items.
Proof.
  rewrite existsb_exists. split.
  - intros (i & I & E). destruct i; try discriminate E. cbn in E. apply beq_eq in E. now subst.
  - intros I. exists (Flag f). split; [exact I|apply beq_refl].
Qed.
Lemma flag_at m items rest p f d : meaning m items rest p -> In (str f, d) (m_flags m) -> key_at (snd p) (str f) = Ok (flag items (str f) d).
Proof.
  intros (_ & H & _) I. destruct (H _ _ I) as [A B]. unfold flag. destruct (existsb (is_flag (str f)) items) eqn:E.
  - apply A. now apply is_flag_In.
  - apply B. intros X. apply is_flag_In in X. congruence.
Qed.
Lemma armored_at m items rest p d : meaning m items rest p -> In (str "-a", d) (m_flags m) -> armored_arg p = Ok (if flag items (str "-a") d then ArmorYes else ArmorNo).
Proof. intros H I. unfold armored_arg. rewrite (flag_at _ _ _ _ _ _ H I). reflexivity. Qed.
Lemma find_key_In {A} (t : list (bytes * A)) n x : NoDup (map fst t) -> In (n, x) t -> find_key t n = Some x.
Proof.
  induction t as [|[a b] t IH]; intros ND I; [destruct I|]. cbn [map fst] in ND. inversion ND as [|? ? NI ND']; subst. cbn [find_key]. destruct I as [I|I].
  - injection I as -> ->. now rewrite beq_refl.
  - destruct (beq a n) eqn:E; [|now apply IH]. apply beq_eq in E. subst a. exfalso. apply NI. change n with (fst (n, x)). now apply in_map.
Qed.
Lemma find_key_none {A} (t : list (bytes * A)) n : ~ In n (map fst t) -> find_key t n = None.
Proof.
  induction t as [|[a b] t IH]; intros NI; [reflexivity|]. cbn [find_key]. destruct (beq a n) eqn:E; [apply beq_eq in E; subst; exfalso; apply NI; now left|]. apply IH. intros X. apply NI. now right.
Qed.
Lemma numbers_unique : NoDup (map fst compression_number) /\ NoDup (map fst sym_number) /\ NoDup (map fst hash_number).
Proof. repeat split; apply no_dup_NoDup; vm_compute; reflexivity. Qed.

(** ** A newline behind an armored text *)
Lemma getlines_newline s : s <> [] -> last s 0 <> 10 -> getlines (s ++ [10]) = getlines s.
Proof.
  unfold getlines. intros NE. assert (G : forall s cur, (s = [] -> cur <> []) -> (s <> [] -> last s 0 <> 10) -> getlines_aux cur (s ++ [10]) = getlines_aux cur s).
  { clear. induction s as [|c s IH]; intros cur H L.
    - destruct cur; [now contradiction H|reflexivity].
    - cbn [app getlines_aux]. destruct (c =? 10) eqn:C.
      + f_equal. destruct s as [|d s]; [exfalso; apply L; [discriminate|apply N.eqb_eq in C; exact C]|]. apply IH; [discriminate|]. intros _. apply L. discriminate.
      + apply IH; [discriminate|]. intros NE. specialize (L ltac:(discriminate)). destruct s; [contradiction|exact L]. }
  intros L. apply G; [intros E; contradiction|intros _; exact L].
Qed.
Lemma armor_last t ks b text : armor t ks b = Ok text -> exists front, text = front ++ [45].
Proof.
  unfold armor. intros H. apply bind_ok in H as (h & _ & H). apply Ok_inj in H. subst text. change Pgp.dashes with (str "----" ++ [45]).
  repeat rewrite app_assoc. eexists. reflexivity.
Qed.
Lemma pgp_read_newline g t ks b text : armor_type_ok t -> armor t ks b = Ok text -> pgp_read g (text ++ [10]) = pgp_read g text.
Proof.
  intros T A. pose proof (armor_last _ _ _ _ A) as (front & EF). unfold pgp_read. rewrite getlines_newline.
  2:{ subst text. now destruct front. }
  2:{ subst text. rewrite last_last. discriminate. }
  destruct (header_line t T) as (h & EH & _ & N1 & _ & T1 & _). unfold armor in A. rewrite EH in A. cbn [bind] in A. apply Ok_inj in A.
  assert (exists r, text = (armor_begin ++ h ++ Pgp.dashes) ++ 10 :: r) as (r & ->) by (subst text; eexists; rewrite <- !app_assoc; cbn [app]; reflexivity).
  rewrite getlines_line by exact N1. cbn [find_begin]. rewrite T1. cbn [bind]. rewrite starts_with_app. reflexivity.
Qed.
Lemma message_read_newline unzip fuel t ks b text : armor_type_ok t -> armor t ks b = Ok text -> message_read unzip fuel (text ++ [10]) = message_read unzip fuel text.
Proof. intros T A. unfold message_read. now rewrite (pgp_read_newline _ _ _ _ _ T A). Qed.
Lemma key_load_newline t ks b text : armor_type_ok t -> armor t ks b = Ok text -> key_load (text ++ [10]) = key_load text.
Proof. intros T A. unfold key_load. now rewrite (pgp_read_newline _ _ _ _ _ T A). Qed.
Lemma detached_load_newline t ks b text : armor_type_ok t -> armor t ks b = Ok text -> detached_load (text ++ [10]) = detached_load text.
Proof. intros T A. unfold detached_load. now rewrite (pgp_read_newline _ _ _ _ _ T A). Qed.
Lemma certificate_load_newline t ks b text : armor_type_ok t -> armor t ks b = Ok text -> certificate_load (text ++ [10]) = certificate_load text.
Proof. intros T A. unfold certificate_load. now rewrite (pgp_read_newline _ _ _ _ _ T A). Qed.
(** ** A newline behind packets *)
Lemma binary_newline g ps body : sequence 0 ps -> write_packets ps = Ok body -> len body + 1 < 2 ^ 63 -> ~ line_begins armor_begin (body ++ [10]) ->
  pgp_read g (body ++ [10]) = Throw ERuntime.
Proof.
  intros S W L NB. unfold pgp_read. rewrite find_begin_none by (rewrite ?len_app; auto). cbn [bind].
  unfold read_raw. pose proof (write_packets_length _ _ _ S W) as HL.
  pose proof (sequence_read ps (Datatypes.S (length (body ++ [10]))) [] [10] body S W) as E. cbn [app] in E. change (len []) with 0 in E. rewrite E by (rewrite app_length; lia). clear E.
  replace (Datatypes.S (length (body ++ [10%N])) - length ps)%nat with (Datatypes.S (Datatypes.S (length body - length ps))) by (rewrite app_length; change (length [10%N]) with 1%nat; lia).
  cbn [read_packets]. replace (len body <? len (body ++ [10])) with true by (rewrite len_app; cbn; lia).
  unfold read_packet, read_frame, read_packet_header, at_. replace (len body <? len (body ++ [10])) with true by (rewrite len_app; cbn; lia). replace (nth_error (body ++ [10]) (N.to_nat (len body))) with (Some 10).
  - reflexivity.
  - rewrite nth_error_app2 by (unfold len; lia). replace (N.to_nat (len body) - length body)%nat with 0%nat by (unfold len; lia). reflexivity.
Qed.

(** ** More fuel changes nothing *)
Lemma decompressed_more unzip (f f' : bytes -> result (list packet * option (header_format * partial_flag * N))) ps r :
  (forall d r, f d = Ok r -> f' d = Ok r) -> decompressed unzip f ps = Ok r -> decompressed unzip f' ps = Ok r.
Proof.
  intros H. unfold decompressed. destruct ps as [|p [|q ps]]; try tauto. destruct (p_tag p =? 8); [|tauto]. intros E.
  apply bind_ok in E as ([alg d] & E1 & E). rewrite E1. cbn [bind]. apply bind_ok in E as (i & E2 & E). rewrite E2. cbn [bind].
  apply bind_ok in E as ([qs c] & E3 & E). apply H in E3. rewrite E3. exact E.
Qed.
Lemma read_raw_more unzip f : forall d r, message_read_raw unzip f d = Ok r -> message_read_raw unzip (S f) d = Ok r.
Proof.
  induction f as [|f IH]; intros d r E; [discriminate|]. cbn [message_read_raw] in E. apply bind_ok in E as (ps & E1 & E). apply bind_ok in E as (m & E2 & E).
  change (message_read_raw unzip (S (S f)) d) with (ps <- read_raw d ;; m <- message_match false 1 (map p_tag ps) OPENM ;; if m : bool then decompressed unzip (message_read_raw unzip (S f)) ps else Throw ERuntime).
  rewrite E1. cbn [bind]. rewrite E2. cbn [bind]. destruct m; [|discriminate]. eapply decompressed_more; [|exact E]. exact IH.
Qed.
Lemma message_read_more unzip f d r : message_read unzip f d = Ok r -> message_read unzip (S f) d = Ok r.
Proof.
  unfold message_read. intros E. apply bind_ok in E as (g & E1 & E). rewrite E1. cbn [bind]. apply bind_ok in E as (m & E2 & E). rewrite E2. cbn [bind].
  destruct m; [|discriminate]. apply bind_ok in E as ([ps c] & E3 & E). rewrite (decompressed_more _ _ _ _ _ (read_raw_more unzip f) E3). exact E.
Qed.
Lemma verify_binary_more unzip g f : forall m v, verify_binary f unzip g m = Ok v -> verify_binary (S f) unzip g m = Ok v.
Proof.
  induction f as [|f IH]; intros m v E; [discriminate|]. remember (S f) as f1. cbn [verify_binary]. subst f1. cbn [verify_binary] in E.
  apply bind_ok in E as (b & -> & E). cbn [bind]. destruct b; [|exact E]. cbn [negb] in *.
  apply bind_ok in E as (b & -> & E). cbn [bind]. destruct b; [|exact E]. cbn [negb] in *.
  apply bind_ok in E as (b & -> & E). cbn [bind]. destruct b; [exact E|].
  apply bind_ok in E as (b & -> & E). cbn [bind]. destruct b; [exact E|].
  apply bind_ok in E as (b & -> & E). cbn [bind]. destruct b; [|exact E].
  apply bind_ok in E as (p & -> & E). cbn [bind]. apply bind_ok in E as ([alg d] & -> & E). cbn [bind]. apply bind_ok in E as (x & -> & E). cbn [bind].
  apply bind_ok in E as (m' & E1 & E). rewrite (message_read_more _ _ _ _ E1). cbn [bind]. now apply IH.
Qed.

(** ** A command with its words *)
Ltac found := cbn [ordered m_opts m_flags In]; repeat first [left; reflexivity | right].
Lemma calls_runs w m u items rest ws : In (m, u) ordered -> calls m items rest ws ->
  exists p, meaning m items rest p /\ (forall i x v, nth_error (m_pos m) i = Some (str x) -> nth_error ws i = Some v -> arg p x = Ok v) /\
    program w (m_name m :: line items rest) = Some (' (r, out) <- function_of w m p ;; Ok (if (r =? -1)%Z then ((-1)%Z, out ++ w_help w m ++ [10]) else (0%Z, out))).
Proof.
  intros I (F & L & more & W). destruct (exec_line w m u items rest I F) as (p & M & P); [rewrite W, app_length; lia|]. exists p. split; [exact M|]. split; [|exact P].
  intros i x v E V. eapply arg_word; [exact M|exact E|]. rewrite W, nth_error_app1; [exact V|]. apply nth_error_Some. congruence.
Qed.
Lemma with_file_ok w p x n d k : arg p x = Ok n -> w_files w n = Some d -> with_file w p x k = k d.
Proof. intros A F. unfold with_file. rewrite A. cbn [bind]. now rewrite F. Qed.
Lemma with_file_none w p x n k : arg p x = Ok n -> w_files w n = None -> with_file w p x k = fail.
Proof. intros A F. unfold with_file. rewrite A. cbn [bind]. now rewrite F. Qed.
Lemma with_number_ok t p x n d k : NoDup (map fst t) -> arg p x = Ok n -> In (n, d) t -> with_number t p x k = k d.
Proof. intros U A F. unfold with_number. rewrite A. cbn [bind]. now rewrite (find_key_In _ _ _ U F). Qed.
Lemma with_number_none t p x n k : arg p x = Ok n -> ~ In n (map fst t) -> with_number t p x k = fail.
Proof. intros A F. unfold with_number. rewrite A. cbn [bind]. now rewrite (find_key_none _ _ F). Qed.
Lemma with_signer_none w load ok p x k : arg p x = Ok [] -> with_signer w load ok p x k = k None.
Proof. intros A. unfold with_signer. now rewrite A. Qed.
Lemma with_signer_ok w load ok p x n d g k : arg p x = Ok n -> n <> [] -> w_files w n = Some d -> load d = Ok g -> ok g = Ok true -> with_signer w load ok p x k = k (Some g).
Proof. intros A NE F L M. unfold with_signer. rewrite A. cbn [bind]. destruct n; [contradiction|]. rewrite F, L. cbn [bind]. rewrite M. reflexivity. Qed.
Lemma cipher_known n c : In (n, c) cipher_names -> In (n, c) sym_number /\ In c [1; 2; 3; 4; 7; 8; 9; 10; 11; 12; 13].
Proof. intros I. cbn in I. decompose [or] I; try contradiction; match goal with H : _ = (n, c) |- _ => injection H as <- <- end; (split; [cbn; tauto|cbn; tauto]). Qed.
Lemma hash_known n c : In (n, c) hash_names -> In (n, c) hash_number /\ In c [1; 2; 3; 8; 9; 10; 11].
Proof. intros I. cbn in I. decompose [or] I; try contradiction; match goal with H : _ = (n, c) |- _ => injection H as <- <- end; (split; [cbn; tauto|cbn; tauto]). Qed.
Lemma compression_known n c : In (n, c) compression_names -> In (n, c) compression_number /\ In c [0; 1; 2].
Proof. intros I. cbn in I. decompose [or] I; try contradiction; match goal with H : _ = (n, c) |- _ => injection H as <- <- end; (split; [cbn; tauto|cbn; tauto]). Qed.
