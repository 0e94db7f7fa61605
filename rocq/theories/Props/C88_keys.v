(** C88, continued: revoke-subkey, revoke-uid and revoke-with-cert. *)
From Verif Require Import Proofs.Lib Proofs.CommandsP Proofs.SignP Proofs.ArmorP Proofs.CliP Spec.Invocation Spec.Armor Spec.Sequence Spec.Text Spec.Keys Spec.Sigs Spec.Framing Spec.Grammar Spec.KeyGrammar Spec.Signed
  Props.C14_C15 Props.C33_C35 Props.C36_C68 Props.C44_C46 Props.C44_written Props.C78 Props.C86 Props.C87 Props.C88 Props.C89 Spec.Invocation Spec.CommandLine.
Local Open Scope N_scope.

(** What a command prints of a key it made: the text, and, in armor, something that is read as that
    key again. *)
Definition prints_key (w : machine) (name : bytes) (items : list item) (rest : option (list bytes)) (g : pgp) : Prop :=
  (forall text, pgp_write g (if flag items (str "-a") true then ArmorYes else ArmorNo) = Ok text -> prints w name items rest (text ++ [10])) /\
  (flag items (str "-a") true = true -> Forall armor_key_ok (g_keys g) -> sequence 0 (g_packets g) ->
   forall body, write_packets (g_packets g) = Ok body -> octets body -> body <> [] -> len body < 2 ^ 62 ->
   exists text, prints w name items rest (text ++ [10]) /\ exists g', key_load (text ++ [10]) = Ok g' /\ g_type g' = 2 /\ g_packets g' = g_packets g).
Lemma printed_key w name items rest g : public_meaningful g = Ok true ->
  (forall text, pgp_write g (if flag items (str "-a") true then ArmorYes else ArmorNo) = Ok text -> prints w name items rest (text ++ [10])) -> prints_key w name items rest g.
Proof.
  intros PM PR. split; [exact PR|]. intros FA AK SQ body WB OB NB LB. rewrite FA in PR.
  assert (GT : g_type g = 2) by (unfold public_meaningful in PM; destruct (g_type g =? 2) eqn:Q; [lia|discriminate]).
  assert (exists text, pgp_write g ArmorYes = Ok text) as (text & W).
  { unfold pgp_write. rewrite WB. cbn [bind]. destruct (C14_armor_data_partial (g_type g) (g_keys g) body ltac:(rewrite GT; lia) AK OB NB LB) as (text & AT & _). eauto. }
  pose proof (C14_armor_roundtrip_partial g text body ltac:(rewrite GT; lia) AK SQ WB OB NB LB W) as RT. pose proof (pgp_read_typed _ _ _ RT) as TG. cbn [g_packets] in TG.
  assert (TR : transferable (g_type g) (g_packets g)).
  { unfold public_meaningful in PM. rewrite GT in PM. cbn [N.eqb Pos.eqb] in PM. unfold meaningful in PM. rewrite GT in *. now apply (transferable_iff 2 _ TG). }
  exists text. split; [now apply PR|]. exists (mkPgp true (g_type g) (g_keys g) (g_packets g)). split; [|split; [exact GT|reflexivity]].
  pose proof W as W'. unfold pgp_write in W'. rewrite WB in W'. cbn [bind] in W'.
  rewrite (key_load_newline (g_type g) _ _ _ ltac:(rewrite GT; unfold armor_type_ok; lia) W'). eapply C78_armored; eauto.
Qed.

(** revoke-subkey prints the public key in which every subkey whose ID contains the octets asked for
    has a revocation, and nothing else is changed. *)
Theorem C88_revoke_subkey : forall w items rest fk pass dk pri code hash g draws,
  calls cli_revoke_subkey items rest [fk; pass] -> w_files w fk = Some dk -> secret_load dk = Ok pri ->
  w_scan w 32 (given items (str "-c") (str "0")) = Some code -> code mod 256 <= 3 ->
  In (given items (str "-h") (str "SHA1"), hash) hash_names -> let x := given items (str "-k") [] in
  let a := mkRev pri pass pri (code mod 256) (given items (str "-r") []) 4 hash in
  revoke_subkey a x (w_now w) (w_draws w) = Ok (g, draws) -> g_packets g <> [] ->
  Forall typed (g_packets pri) -> Forall writable (g_packets pri) ->
  (exists k revs us subs k' subs' s r, g_packets pri = k :: revs ++ concat us ++ concat subs /\ Forall user_part us /\ Forall (subkey_part 7) subs /\
     g_packets g = k' :: revs ++ concat us ++ concat subs' /\ public_of k k' /\ Forall2 (revoked_part x r) subs subs' /\ signature_packet s r /\ t2_type s = 40 /\ no_secrets (g_packets g)) /\
  prints_key w (str "revoke-subkey") items rest g.
Proof.
  intros w items rest fk pass dk pri code hash g draws CA F1 LP SC CL H x a E NE TY WR.
  destruct (hash_known _ _ H) as [H1 H2]. destruct numbers_unique as (U1 & U2 & U3).
  destruct (C36_subkey a _ _ _ _ _ TY WR E NE) as (k & revs & us & subs & k' & subs' & s & r & GP & FU & FS & GG & PK & F2 & SP & T & EX & PM & NS & GK).
  split; [exists k, revs, us, subs, k', subs', s, r; repeat (split; [assumption|]); assumption|]. apply printed_key; [exact PM|].
  intros text W. destruct (calls_runs w cli_revoke_subkey uses_revoke_subkey items rest _ ltac:(found) CA) as (p & M & A & P).
  unfold prints. change (str "revoke-subkey") with (m_name cli_revoke_subkey). rewrite P. change (function_of w cli_revoke_subkey) with (run_revoke_subkey w). unfold run_revoke_subkey, run_revoke.
  rewrite (with_file_ok w p "private-key" fk dk) by (try exact F1; now apply (A 0%nat)).
  rewrite (with_code_ok w p _ code _ (arg_given _ _ _ _ "-c" (str "0") M ltac:(found)) SC CL).
  rewrite (with_number_ok _ p "-h" _ hash _ U3 (arg_given _ _ _ _ "-h" (str "SHA1") M ltac:(found)) H1).
  rewrite LP. cbn [bind]. unfold rev_arg. rewrite (A 1%nat "passphrase"%string pass eq_refl eq_refl). cbn [bind].
  rewrite (arg_given _ _ _ _ "-r" (str "") M ltac:(found)). cbn [bind]. rewrite (arg_given _ _ _ _ "-k" (str "") M ltac:(found)).
  rewrite (armored_at _ _ _ _ true M) by found. cbn [bind]. change (str "") with (@nil N). fold a. fold x. rewrite E. cbn [bind]. unfold print_if. rewrite PM. cbn [bind]. rewrite W. reflexivity.
Qed.
(** revoke-uid, when every user ID of the key contains the text asked for: the public key in which
    every user ID has a revocation with code and reason.  The others would be lost (C36_uid_refuted). *)
Theorem C88_revoke_uid_partial : forall w items rest fk pass dk pri code hash g draws,
  calls cli_revoke_uid items rest [fk; pass] -> w_files w fk = Some dk -> secret_load dk = Ok pri ->
  w_scan w 32 (given items (str "-c") (str "0")) = Some code -> code mod 256 <= 3 ->
  In (given items (str "-h") (str "SHA1"), hash) hash_names -> let x := given items (str "-u") [] in
  let a := mkRev pri pass pri (code mod 256) (given items (str "-r") []) 4 hash in
  revoke_uid a x (w_now w) (w_draws w) = Ok (g, draws) -> g_packets g <> [] ->
  Forall typed (g_packets pri) -> Forall writable (g_packets pri) -> (forall p t, In p (g_packets pri) -> user_text p t -> contains x t) ->
  (exists k revs us subs k' us' subs' s r, g_packets pri = k :: revs ++ concat us ++ concat subs /\ Forall user_part us /\
     g_packets g = k' :: revs ++ concat us' ++ concat subs' /\ public_of k k' /\ Forall2 (revoked_user r) us us' /\ Forall2 public_part subs subs' /\
     signature_packet s r /\ t2_type s = 48 /\ In (false, Sub29 (code mod 256) (given items (str "-r") [])) (t2_hashed s) /\ no_secrets (g_packets g)) /\
  prints_key w (str "revoke-uid") items rest g.
Proof.
  intros w items rest fk pass dk pri code hash g draws CA F1 LP SC CL H x a E NE TY WR CO.
  destruct (hash_known _ _ H) as [H1 H2]. destruct numbers_unique as (U1 & U2 & U3).
  destruct (C36_uid_partial a _ _ _ _ _ TY WR CO E NE) as (k & revs & us & subs & k' & us' & subs' & s & r & GP & _ & FU & _ & GG & PK & F2 & F3 & SP & T & RE & PM & NS & GK).
  split; [exists k, revs, us, subs, k', us', subs', s, r; repeat (split; [assumption|]); assumption|]. apply printed_key; [exact PM|].
  intros text W. destruct (calls_runs w cli_revoke_uid uses_revoke_uid items rest _ ltac:(found) CA) as (p & M & A & P).
  unfold prints. change (str "revoke-uid") with (m_name cli_revoke_uid). rewrite P. change (function_of w cli_revoke_uid) with (run_revoke_uid w). unfold run_revoke_uid, run_revoke.
  rewrite (with_file_ok w p "private-key" fk dk) by (try exact F1; now apply (A 0%nat)).
  rewrite (with_code_ok w p _ code _ (arg_given _ _ _ _ "-c" (str "0") M ltac:(found)) SC CL).
  rewrite (with_number_ok _ p "-h" _ hash _ U3 (arg_given _ _ _ _ "-h" (str "SHA1") M ltac:(found)) H1).
  rewrite LP. cbn [bind]. unfold rev_arg. rewrite (A 1%nat "passphrase"%string pass eq_refl eq_refl). cbn [bind].
  rewrite (arg_given _ _ _ _ "-r" (str "") M ltac:(found)). cbn [bind]. rewrite (arg_given _ _ _ _ "-u" (str "") M ltac:(found)).
  rewrite (armored_at _ _ _ _ true M) by found. cbn [bind]. change (str "") with (@nil N). fold a. fold x. rewrite E. cbn [bind]. unfold print_if. rewrite PM. cbn [bind]. rewrite W. reflexivity.
Qed.

(** ** revoke-with-cert *)
Lemma with_cert_run w items rest ft fc dt dc g c : calls cli_revoke_with_cert items rest [ft; fc] -> w_files w ft = Some dt -> w_files w fc = Some dc ->
  key_load dt = Ok g -> certificate_load dc = Ok c ->
  program w (str "revoke-with-cert" :: line items rest) =
  Some (' (r, out) <- (r <- revoke_with_cert g c ;; print_if (public_meaningful r) (pgp_write r (if flag items (str "-a") true then ArmorYes else ArmorNo))) ;;
        Ok (if (r =? -1)%Z then ((-1)%Z, out ++ w_help w cli_revoke_with_cert ++ [10]) else (0%Z, out))).
Proof.
  intros CA F0 F1 L0 L1. destruct (calls_runs w cli_revoke_with_cert uses_revoke_with_cert items rest _ ltac:(found) CA) as (p & M & A & P).
  change (str "revoke-with-cert") with (m_name cli_revoke_with_cert). rewrite P. change (function_of w cli_revoke_with_cert) with (run_revoke_with_cert w). unfold run_revoke_with_cert.
  rewrite (with_file_ok w p "target" ft dt) by (try exact F0; now apply (A 0%nat)). rewrite (with_file_ok w p "revocation-certificate" fc dc) by (try exact F1; now apply (A 1%nat)).
  rewrite L0. cbn [bind]. rewrite L1. cbn [bind]. rewrite (armored_at _ _ _ _ true M) by found. reflexivity.
Qed.
(** The packets of a public key are typed, can be written and are their own public forms. *)
Lemma loaded_typed data g : key_load data = Ok g -> Forall typed (g_packets g).
Proof.
  unfold key_load. intros E. apply bind_ok in E as (h & R & E). apply bind_ok in E as (t & _ & E). cbv zeta in E. apply bind_ok in E as (m & _ & E). destruct m; [|discriminate]. apply Ok_inj in E. subst g.
  cbn [g_packets]. exact (pgp_read_typed _ _ _ R).
Qed.
Lemma public_tags g k revs us subs : parts g k revs us subs -> g_type g = 2 -> meaningful g = Ok true -> p_tag k = 6 /\ Forall (subkey_part 14) subs.
Proof.
  intros (E & _ & _ & _ & (prim & sub & I & Tk & S) & _) T M. cbn in I. destruct I as [I|[I|[]]]; injection I as <- <-; [auto|]. exfalso.
  unfold meaningful, key_meaningful in M. rewrite T, E in M. destruct (revs ++ concat us ++ concat subs); [discriminate|]. rewrite Tk in M. discriminate.
Qed.
Lemma public_writable g k revs us subs : parts g k revs us subs -> g_type g = 2 -> meaningful g = Ok true -> Forall typed (g_packets g) -> Forall writable (g_packets g).
Proof.
  intros P T M TY. destruct (public_tags _ _ _ _ _ P T M) as [T6 S]. pose proof (other_tags _ _ _ _ _ P) as O.
  assert (NS : Forall (fun p => p_tag p <> 5 /\ p_tag p <> 7) (g_packets g)).
  { destruct P as (-> & _). constructor; [lia|]. rewrite app_assoc. apply Forall_app. split; [revert O; apply Forall_impl; intros; lia|].
    clear - S. induction S as [|l subs S0 S IH]; [constructor|]. cbn [concat]. apply Forall_app. split; [|exact IH].
    apply part_shape in S0 as (q & s1 & sigs & -> & Tq & F). constructor; [lia|]. revert F. apply Forall_impl. intros; lia. }
  rewrite Forall_forall in *. intros p I. specialize (TY p I). destruct (NS p I) as [N5 N7]. unfold writable. destruct (p_body p) eqn:B; try exact Logic.I.
  exfalso. unfold typed in TY. rewrite B in TY.
  repeat match type of TY with match ?x with _ => _ end => destruct x eqn:?; try congruence end; decompose [ex] TY; discriminate.
Qed.
Lemma kept_same g k revs us subs k' : parts g k revs us subs -> g_type g = 2 -> meaningful g = Ok true -> public_of k k' -> k' = k.
Proof. intros P T M H. destruct (public_tags _ _ _ _ _ P T M) as [T6 _]. apply not_secret_same in H; [exact H|lia|lia]. Qed.
Lemma revoked_type g cert g' : revoke_with_cert g cert = Ok g' -> g_type g' = 2.
Proof.
  unfold revoke_with_cert. intros E. apply bind_ok in E as (m & _ & E). destruct m; [|apply Ok_inj in E; now subst]. cbn [negb] in E.
  apply bind_ok in E as (m & _ & E). destruct m; [|apply Ok_inj in E; now subst]. cbn [negb] in E.
  apply bind_ok in E as (rc & _ & E). destruct (_ || _); [apply Ok_inj in E; now subst|].
  apply bind_ok in E as (c0 & _ & E). apply bind_ok in E as (s & _ & E). apply bind_ok in E as (p0 & _ & E). apply bind_ok in E as (first & _ & E). apply bind_ok in E as (k & _ & E). apply bind_ok in E as (o & _ & E). destruct o as [[users r]|]; [|apply Ok_inj in E; now subst]. destruct (before_subkeys r) as [y z]. destruct z; [discriminate|].
  do 2 (apply bind_ok in E as (? & _ & E)). apply Ok_inj in E. now subst.
Qed.
Definition loads (w : machine) (f : bytes) (load : bytes -> result pgp) (g : pgp) : Prop := exists data, w_files w f = Some data /\ load data = Ok g.

(** A certificate for the primary key: it comes behind the primary key, and nothing else is changed. *)
Theorem C88_with_key_cert_partial : forall w items rest ft fc g cert k revs us l more c s,
  calls cli_revoke_with_cert items rest [ft; fc] -> loads w ft key_load g -> loads w fc certificate_load cert -> g_type g = 2 -> verify_revoke g cert = Ok 1%Z ->
  parts g k revs us (l :: more) -> g_packets cert = [c] -> signature_packet s c -> t2_type s = 32 ->
  exists g', g_packets g' = k :: c :: revs ++ concat us ++ concat (l :: more) /\ g_keys g' = g_keys g /\ prints_key w (str "revoke-with-cert") items rest g'.
Proof.
  intros w items rest ft fc g cert k revs us l more c s CA (dt & F0 & L0) (dc & F1 & L1) GT V P C SP TY.
  pose proof (loaded_typed _ _ L0) as T. pose proof (loaded_meaningful _ _ L0) as M. pose proof (public_writable _ _ _ _ _ P GT M T) as W.
  destruct (C36_cert_key_partial g cert k revs us l more c s T W V P (or_introl GT) C SP TY) as (g' & k' & l' & R & GP & PK & PL & NS & GK).
  assert (l' :: more = l :: more) as X.
  { apply (parts_public_same _ _ _ _ _ _ P GT M). constructor; [exact PL|]. destruct (public_tags _ _ _ _ _ P GT M) as [_ S]. apply Forall_cons_iff in S as [_ S]. clear - S.
    induction S as [|m more S0 S IH]; constructor; [|exact IH]. apply part_shape in S0 as (q & s1 & sigs & -> & Tq & _). exists q, q, s1, sigs. split; [reflexivity|]. split; [reflexivity|]. unfold public_of. now rewrite Tq. }
  injection X as ->. pose proof (kept_same _ _ _ _ _ _ P GT M PK) as ->. exists g'. split; [exact GP|]. split; [exact GK|].
  assert (PM : public_meaningful g' = Ok true).
  { apply block_meaningful; [exact (revoked_type _ _ _ R)| |].
    - rewrite GP. destruct P as (E & _). rewrite E in T. apply Forall_cons_iff in T as [T0 T]. constructor; [exact T0|]. constructor; [destruct SP as [S1 S2]; unfold typed; rewrite S1; eauto|]. exact T.
    - rewrite GP. destruct (public_tags _ _ _ _ _ P GT M) as [T6 S]. destruct P as (_ & R0 & U & X & _ & V3).
      exists k, (c :: revs), us, (l :: more). split; [reflexivity|]. split; [exact T6|]. split; [constructor; [destruct SP as [S1 S2]; split; [exact S1|]; exists s; auto|exact R0]|]. auto. }
  apply printed_key; [exact PM|]. intros text WT. unfold prints. rewrite (with_cert_run w items rest ft fc dt dc g cert CA F0 F1 L0 L1), R. cbn [bind]. unfold print_if. rewrite PM. cbn [bind]. rewrite WT. reflexivity.
Qed.
(** A certificate for the only subkey: it comes behind the first signature of the subkey. *)
Theorem C88_with_subkey_cert_partial : forall w items rest ft fc g cert k revs us q s1 sigs c s,
  calls cli_revoke_with_cert items rest [ft; fc] -> loads w ft key_load g -> loads w fc certificate_load cert -> g_type g = 2 -> verify_revoke g cert = Ok 1%Z ->
  parts g k revs us [q :: s1 :: sigs] -> g_packets cert = [c] -> signature_packet s c -> t2_type s = 40 ->
  exists g', g_packets g' = k :: revs ++ concat us ++ q :: s1 :: c :: sigs /\ g_keys g' = g_keys g /\ prints_key w (str "revoke-with-cert") items rest g'.
Proof.
  intros w items rest ft fc g cert k revs us q s1 sigs c s CA (dt & F0 & L0) (dc & F1 & L1) GT V P C SP TY.
  pose proof (loaded_typed _ _ L0) as T. pose proof (loaded_meaningful _ _ L0) as M. pose proof (public_writable _ _ _ _ _ P GT M T) as W.
  destruct (C36_cert_subkey_partial g cert k revs us q s1 sigs c s T W V P C SP TY) as (g' & k' & q' & R & GP & PK & PL & NS & GK).
  destruct (public_tags _ _ _ _ _ P GT M) as [T6 S]. apply Forall_cons_iff in S as [(q0 & ss & E0 & Tq & FS & XS) _]. injection E0 as <- <-.
  apply not_secret_same in PL as ->; [|lia|lia]. pose proof (kept_same _ _ _ _ _ _ P GT M PK) as ->. exists g'. split; [exact GP|]. split; [exact GK|].
  assert (SC : signature_of (fun _ => True) c) by (destruct SP as [S1 S2]; split; [exact S1|]; exists s; auto).
  assert (PM : public_meaningful g' = Ok true).
  { apply block_meaningful; [exact (revoked_type _ _ _ R)| |].
    - rewrite GP. destruct P as (E & _). rewrite E in T. apply Forall_cons_iff in T as [T0 T]. constructor; [exact T0|]. cbn [concat] in T. rewrite app_nil_r in T. rewrite app_assoc in *. apply Forall_app in T as [T1 T2]. apply Forall_app. split; [exact T1|].
      apply Forall_cons_iff in T2 as [T2 T3]. apply Forall_cons_iff in T3 as [T3 T4]. repeat (constructor; [assumption|]). constructor; [|exact T4]. destruct SP as [S1 S2]. unfold typed. rewrite S1. eauto.
    - rewrite GP. destruct P as (_ & R0 & U & X & _ & V3).
      exists k, revs, us, [q :: s1 :: c :: sigs]. split; [cbn [concat]; now rewrite app_nil_r|]. split; [exact T6|]. split; [exact R0|]. split; [exact U|]. split; [exact X|]. split; [|intros V'; apply V3 in V'; discriminate].
      constructor; [|constructor]. exists q, (s1 :: c :: sigs). split; [reflexivity|]. split; [exact Tq|]. apply Forall_cons_iff in FS as [FS0 FS]. split; [repeat (constructor; [assumption|]); assumption|].
      inversion XS; subst; [now apply Exists_cons_hd|now apply Exists_cons_tl, Exists_cons_tl]. }
  apply printed_key; [exact PM|]. intros text WT. unfold prints. rewrite (with_cert_run w items rest ft fc dt dc g cert CA F0 F1 L0 L1), R. cbn [bind]. unfold print_if. rewrite PM. cbn [bind]. rewrite WT. reflexivity.
Qed.
(** A certificate that does not verify for the key is refused. *)
Theorem C88_with_cert_refused : forall w items rest ft fc g cert v,
  calls cli_revoke_with_cert items rest [ft; fc] -> loads w ft key_load g -> loads w fc certificate_load cert -> verify_revoke g cert = Ok v -> v = 0%Z \/ v = (-1)%Z ->
  refuses w (str "revoke-with-cert") items rest.
Proof.
  intros w items rest ft fc g cert v CA (dt & F0 & L0) (dc & F1 & L1) V VV.
  assert (R : revoke_with_cert g cert = Ok public_new).
  { unfold revoke_with_cert. rewrite (loaded_meaningful _ _ L0). cbn [bind negb]. assert (revocation_meaningful cert = Ok true) as ->.
    { unfold certificate_load in L1. apply bind_ok in L1 as (h & _ & E). cbv zeta in E. apply bind_ok in E as (m & M & E). destruct m; [|discriminate]. apply Ok_inj in E. now subst cert. }
    cbn [bind negb]. rewrite V. cbn [bind]. now destruct VV as [-> | ->]. }
  exists cli_revoke_with_cert, uses_revoke_with_cert, []. split; [found|]. split; [reflexivity|].
  rewrite (with_cert_run w items rest ft fc dt dc g cert CA F0 F1 L0 L1), R. reflexivity.
Qed.
(** A good certificate for the primary key and a key without subkeys: undefined behaviour.  A good one
    for a user ID other than the first: the command never ends. *)
Theorem C88_with_cert_refuted : forall w items rest ft fc g cert k revs us subs c s,
  calls cli_revoke_with_cert items rest [ft; fc] -> loads w ft key_load g -> loads w fc certificate_load cert -> g_type g = 2 -> verify_revoke g cert = Ok 1%Z ->
  parts g k revs us subs -> g_packets cert = [c] -> signature_packet s c ->
  (subs = [] -> t2_type s = 32 -> program w (str "revoke-with-cert" :: line items rest) = Some UB) /\
  (forall kk u sigs more d, us = (u :: sigs) :: more -> as_key k = Ok kk -> t2_type s = 48 -> to_sign_30 kk (p_tag u) (p_body u) s = Ok d -> verify_key d kk s = Ok 0%Z ->
   program w (str "revoke-with-cert" :: line items rest) = Some Diverge).
Proof.
  intros w items rest ft fc g cert k revs us subs c s CA (dt & F0 & L0) (dc & F1 & L1) GT V P C SP.
  pose proof (loaded_typed _ _ L0) as T. pose proof (loaded_meaningful _ _ L0) as M. pose proof (public_writable _ _ _ _ _ P GT M T) as W.
  split.
  - intros -> TY. rewrite (with_cert_run w items rest ft fc dt dc g cert CA F0 F1 L0 L1). now rewrite (C36_cert_no_subkey_refuted g cert k revs us c s T W V P C SP TY).
  - intros kk u sigs more d -> K TY D VK. rewrite (with_cert_run w items rest ft fc dt dc g cert CA F0 F1 L0 L1). now rewrite (C36_cert_user_refuted g cert k kk revs u sigs more subs c s d T W V P K C SP TY D VK).
Qed.

(** ** Instances *)
Example C88_revoke_subkey_ex : exists text, prints branching (str "revoke-subkey") [Word (str "k"); Word []] None text.
Proof.
  assert (E : exists g rest text, revoke_subkey (branch_rev 0 []) [] 5 [3; 5] = Ok (g, rest) /\ g_packets g <> [] /\ pgp_write g ArmorYes = Ok text) by (do 3 eexists; split; [vm_compute; reflexivity|split; [discriminate|vm_compute; reflexivity]]).
  destruct E as (g & rest & text & E & NE & W). destruct some_typed as (A & _ & B), users_plain as [U _].
  destruct (C88_revoke_subkey branching [Word (str "k"); Word []] None (str "k") [] (file_of branch) branch 0 2 g rest) as (_ & P & _);
    [call|reflexivity|exact (proj1 branch_loaded)|reflexivity|vm_compute; discriminate|found|exact E|exact NE|now apply tree_typed|now apply some_writable|]. exists (text ++ [10]). now apply P.
Qed.
Example C88_revoke_uid_ex : exists text, prints branching (str "revoke-uid") [Word (str "k"); Word []; Value (str "-u") (str "a")] None text.
Proof.
  assert (E : exists g rest text, revoke_uid (branch_rev 0 []) (str "a") 5 [3; 5] = Ok (g, rest) /\ g_packets g <> [] /\ pgp_write g ArmorYes = Ok text) by (do 3 eexists; split; [vm_compute; reflexivity|split; [discriminate|vm_compute; reflexivity]]).
  destruct E as (g & rest & text & E & NE & W). destruct some_typed as (A & _ & B), users_plain as [U _].
  destruct (C88_revoke_uid_partial branching [Word (str "k"); Word []; Value (str "-u") (str "a")] None (str "k") [] (file_of branch) branch 0 2 g rest) as (_ & P & _);
    [call|reflexivity|exact (proj1 branch_loaded)|reflexivity|vm_compute; discriminate|found|exact E|exact NE|now apply tree_typed|now apply some_writable| |].
  - intros p t I [T X]. cbn in I. decompose [or] I; try contradiction; subst p; try discriminate T. injection X as <-. exists [], []. reflexivity.
  - exists (text ++ [10]). now apply P.
Qed.
Definition made (r : result (pgp * list N)) : pgp := match r with Ok (g, _) => g | _ => public_new end.
Definition one_branch : pgp := mkPgp true 2 [] (new_packet 6 (PKey toy_key) :: one_user ++ firstn 3 public_two).
Definition two_names : pgp := mkPgp true 2 [] (new_packet 6 (PKey toy_key) :: two_users ++ public_two).
Definition applying (g cert : pgp) : machine := toy_machine 2 [(str "p", file_of g); (str "c", file_of cert)] [].
Definition key_certificate : pgp := made (key_cert (branch_rev 0 []) 5 [3; 5]).
Definition subkey_certificate : pgp := made (subkey_cert (branch_rev 0 []) [] 5 [3; 5]).
Definition second_certificate : pgp := made (uid_cert (toy_rev (tree [ex_user "b"; ex_sig 16] two_subkeys)) (str "b") 1234567891 [3]).
Lemma certified_user x : user_part [ex_user x; ex_sig 16].
Proof. exists (ex_user x), [ex_sig 16]. split; [reflexivity|]. split; [now left|]. constructor; [|constructor]. split; [reflexivity|]. eexists. split; [reflexivity|]. left. now left. Qed.
Lemma bound_part t : subkey_part 14 [new_packet 14 (PKey (toy_subkey t)); ex_sig 24; ex_sig 24] /\ subkey_part 14 [new_packet 14 (PKey (toy_subkey t)); ex_sig 24].
Proof.
  assert (B : signature_of (eq 24) (ex_sig 24) /\ signature_of (fun _ => True) (ex_sig 24)) by (split; (split; [reflexivity|eexists; split; [reflexivity|easy]])). destruct B as [B1 B2].
  split; eexists _, _; (split; [reflexivity|]; split; [reflexivity|]; split; [repeat (constructor; [exact B2|]); constructor|now apply Exists_cons_hd]).
Qed.
Lemma not_three subs : has_version 3 (new_packet 6 (PKey toy_key)) -> subs = @nil (list packet).
Proof. intros (k & [B|(s & B)] & V); [injection B as <-|]; discriminate. Qed.
Lemma branch_parts : parts branch_pub (new_packet 6 (PKey toy_key)) [] [one_user] [firstn 3 public_two; skipn 3 public_two].
Proof.
  split; [reflexivity|]. split; [constructor|]. split; [constructor; [apply certified_user|constructor]|]. split; [apply Exists_cons_hd; eexists _, _; split; reflexivity|]. split; [|apply not_three].
  exists 6, 14. split; [now left|]. split; [reflexivity|]. constructor; [apply bound_part|]. constructor; [apply bound_part|constructor].
Qed.
Lemma one_parts : parts one_branch (new_packet 6 (PKey toy_key)) [] [one_user] [firstn 3 public_two].
Proof.
  split; [reflexivity|]. split; [constructor|]. split; [constructor; [apply certified_user|constructor]|]. split; [apply Exists_cons_hd; eexists _, _; split; reflexivity|]. split; [|apply not_three].
  exists 6, 14. split; [now left|]. split; [reflexivity|]. constructor; [apply bound_part|constructor].
Qed.
Lemma toy_parts : parts toy_pub (new_packet 6 (PKey toy_key)) [] [one_user] [].
Proof.
  split; [reflexivity|]. split; [constructor|]. split; [constructor; [apply certified_user|constructor]|]. split; [apply Exists_cons_hd; eexists _, _; split; reflexivity|]. split; [|apply not_three].
  exists 6, 14. split; [now left|]. split; [reflexivity|]. constructor.
Qed.
Lemma names_parts : parts two_names (new_packet 6 (PKey toy_key)) [] [firstn 2 two_users; skipn 2 two_users] [firstn 3 public_two; skipn 3 public_two].
Proof.
  split; [reflexivity|]. split; [constructor|]. split; [repeat (constructor; [apply certified_user|]); constructor|]. split; [apply Exists_cons_hd; eexists _, _; split; reflexivity|]. split; [|apply not_three].
  exists 6, 14. split; [now left|]. split; [reflexivity|]. constructor; [apply bound_part|]. constructor; [apply bound_part|constructor].
Qed.
Lemma applied g cert : key_load (file_of g) = Ok g -> certificate_load (file_of cert) = Ok cert -> loads (applying g cert) (str "p") key_load g /\ loads (applying g cert) (str "c") certificate_load cert.
Proof. intros A B. split; eexists; (split; [reflexivity|assumption]). Qed.
Lemma certificates : certificate_load (file_of key_certificate) = Ok key_certificate /\ certificate_load (file_of subkey_certificate) = Ok subkey_certificate /\ certificate_load (file_of second_certificate) = Ok second_certificate.
Proof. split; [|split]; vm_compute; reflexivity. Qed.
Lemma keys_loaded : key_load (file_of one_branch) = Ok one_branch /\ key_load (file_of two_names) = Ok two_names.
Proof. split; vm_compute; reflexivity. Qed.
Definition with_cert_words : list item := [Word (str "p"); Word (str "c")].
Example C88_with_key_cert_ex : exists g c, g_packets key_certificate = [c] /\ g_packets g = new_packet 6 (PKey toy_key) :: c :: one_user ++ public_two /\
  prints_key (applying branch_pub key_certificate) (str "revoke-with-cert") with_cert_words None g.
Proof.
  assert (X : exists c s, g_packets key_certificate = [c] /\ signature_packet s c /\ t2_type s = 32) by (do 2 eexists; split; [vm_compute; reflexivity|split; [split; reflexivity|reflexivity]]).
  destruct X as (c & s & C & SP & TY). destruct (applied branch_pub key_certificate (proj2 branch_loaded) (proj1 certificates)) as [A B].
  destruct (C88_with_key_cert_partial (applying branch_pub key_certificate) with_cert_words None (str "p") (str "c") branch_pub key_certificate _ _ _ _ _ c s ltac:(call) A B eq_refl ltac:(vm_compute; reflexivity) branch_parts C SP TY) as (g & GP & _ & P).
  exists g, c. split; [exact C|]. split; [exact GP|exact P].
Qed.
Example C88_with_subkey_cert_ex : exists g, prints_key (applying one_branch subkey_certificate) (str "revoke-with-cert") with_cert_words None g.
Proof.
  assert (X : exists c s, g_packets subkey_certificate = [c] /\ signature_packet s c /\ t2_type s = 40) by (do 2 eexists; split; [vm_compute; reflexivity|split; [split; reflexivity|reflexivity]]).
  destruct X as (c & s & C & SP & TY). destruct (applied one_branch subkey_certificate (proj1 keys_loaded) (proj1 (proj2 certificates))) as [A B].
  destruct (C88_with_subkey_cert_partial (applying one_branch subkey_certificate) with_cert_words None (str "p") (str "c") one_branch subkey_certificate _ _ _ _ _ _ c s ltac:(call) A B eq_refl ltac:(vm_compute; reflexivity) one_parts C SP TY) as (g & _ & _ & P).
  exists g. exact P.
Qed.
Example C88_with_cert_refused_ex : refuses (applying toy_pub subkey_certificate) (str "revoke-with-cert") with_cert_words None.
Proof.
  destruct (applied toy_pub subkey_certificate (proj2 toy_loaded) (proj1 (proj2 certificates))) as [A B].
  apply (C88_with_cert_refused (applying toy_pub subkey_certificate) with_cert_words None (str "p") (str "c") toy_pub subkey_certificate 0%Z ltac:(call) A B); [vm_compute; reflexivity|now left].
Qed.
Example C88_with_cert_ex : program (applying toy_pub key_certificate) (str "revoke-with-cert" :: line with_cert_words None) = Some UB /\
  program (applying two_names second_certificate) (str "revoke-with-cert" :: line with_cert_words None) = Some Diverge.
Proof.
  split.
  - assert (X : exists c s, g_packets key_certificate = [c] /\ signature_packet s c /\ t2_type s = 32) by (do 2 eexists; split; [vm_compute; reflexivity|split; [split; reflexivity|reflexivity]]).
    destruct X as (c & s & C & SP & TY). destruct (applied toy_pub key_certificate (proj2 toy_loaded) (proj1 certificates)) as [A B].
    apply (proj1 (C88_with_cert_refuted (applying toy_pub key_certificate) with_cert_words None (str "p") (str "c") toy_pub key_certificate _ _ _ _ c s ltac:(call) A B eq_refl ltac:(vm_compute; reflexivity) toy_parts C SP)); [reflexivity|exact TY].
  - assert (X : exists c s d, g_packets second_certificate = [c] /\ signature_packet s c /\ t2_type s = 48 /\ to_sign_30 toy_key 13 (PRaw (str "ab")) s = Ok d /\ verify_key d toy_key s = Ok 0%Z)
      by (do 3 eexists; split; [vm_compute; reflexivity|split; [split; reflexivity|split; [reflexivity|split; vm_compute; reflexivity]]]).
    destruct X as (c & s & d & C & SP & TY & D & VK). destruct (applied two_names second_certificate (proj2 keys_loaded) (proj2 (proj2 certificates))) as [A B].
    apply (proj2 (C88_with_cert_refuted (applying two_names second_certificate) with_cert_words None (str "p") (str "c") two_names second_certificate _ _ _ _ c s ltac:(call) A B eq_refl ltac:(vm_compute; reflexivity) names_parts C SP) toy_key (ex_user "ab") [ex_sig 16] [skipn 2 two_users] d); [reflexivity|reflexivity|exact TY|exact D|exact VK].
Qed.
Print Assumptions C88_revoke_subkey. Print Assumptions C88_revoke_uid_partial. Print Assumptions C88_with_key_cert_partial. Print Assumptions C88_with_subkey_cert_partial. Print Assumptions C88_with_cert_refused. Print Assumptions C88_with_cert_refuted.

(** sign-primary-key with a certification level that is no number (-c) is not refused: the exception
    of mpz_class is not caught. *)
Theorem C88_number_refuted : forall w items rest fk pass fs dk ds pri signee hash,
  calls cli_sign_primary_key items rest [fk; pass; fs] -> w_files w fk = Some dk -> w_files w fs = Some ds -> secret_load dk = Ok pri -> public_load ds = Ok signee ->
  In (given items (str "-h") (str "SHA1"), hash) hash_names -> w_hex w (given items (str "-c") (str "13")) = None ->
  aborts w (str "sign-primary-key") items rest.
Proof.
  intros w items rest fk pass fs dk ds pri signee hash CA F1 F2 LP LS H CE. destruct (hash_known _ _ H) as [H1 H2]. destruct numbers_unique as (U1 & U2 & U3).
  destruct (calls_runs w cli_sign_primary_key uses_sign_primary_key items rest _ ltac:(found) CA) as (p & M & A & P). exists EInvalidArgument.
  change (str "sign-primary-key") with (m_name cli_sign_primary_key). rewrite P. change (function_of w cli_sign_primary_key) with (run_sign_primary_key w). unfold run_sign_primary_key.
  rewrite (with_file_ok w p "signer-key" fk dk) by (try exact F1; now apply (A 0%nat)). rewrite (with_file_ok w p "signee-key" fs ds) by (try exact F2; now apply (A 2%nat)).
  rewrite (with_number_ok _ p "-h" _ hash _ U3 (arg_given _ _ _ _ "-h" (str "SHA1") M ltac:(found)) H1).
  rewrite LP. cbn [bind]. unfold sign_arg. rewrite (A 1%nat "passphrase"%string pass eq_refl eq_refl). cbn [bind]. rewrite LS. cbn [bind].
  rewrite (arg_given _ _ _ _ "-u" (str "") M ltac:(found)). cbn [bind]. rewrite (arg_given _ _ _ _ "-c" (str "13") M ltac:(found)). cbn [bind].
  rewrite (armored_at _ _ _ _ true M) by found. cbn [bind]. rewrite CE. reflexivity.
Qed.
Definition no_numbers : machine :=
  mkMachine (find_key [(str "k", file_of toy_pri); (str "s", file_of toy_pub)]) 5 6 (repeat 7 80) [3; 5] (fun _ _ => None) (fun _ _ => None) 2 (fun _ _ => Some 0) (fun _ => None) (fun _ => None) (fun _ => str "usage") (fun _ _ => UB).
Example C88_number_ex : aborts no_numbers (str "sign-primary-key") [Value (str "-c") (str "xyz"); Word (str "k"); Word []; Word (str "s")] None.
Proof.
  destruct toy_loaded as [LS _].
  assert (LP : exists g, public_load (file_of toy_pub) = Ok g) by (eexists; vm_compute; reflexivity). destruct LP as (g & LP).
  apply (C88_number_refuted no_numbers _ _ (str "k") [] (str "s") (file_of toy_pri) (file_of toy_pub) toy_pri g 2); [call|reflexivity|reflexivity|exact LS|exact LP|found|reflexivity].
Qed.
Print Assumptions C88_number_refuted.
