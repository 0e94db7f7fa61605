(** Property C78: the constructors that read their argument accept exactly what they are for. *)
From Verif Require Import Proofs.Lib Proofs.ArmorP Proofs.KeyGrammarP Proofs.KeyP Proofs.CleartextP Proofs.ValidP Proofs.MadeP Spec.Armor Spec.KeyGrammar Model.Load
  Props.C10_C12 Props.C14_C15 Props.C33_C35 Props.C38_C39 Props.C44_C46.
Local Open Scope N_scope.

Lemma pgp_read_typed g0 data g : pgp_read g0 data = Ok g -> Forall typed (g_packets g).
Proof.
  intros R. unfold pgp_read in R. inv_bind R. destruct a as [[line rest]|].
  - inv_bind R. inv_bind R. destruct a0 as [ks rest']. inv_bind R. destruct a0 as [body sum]. inv_bind R. inv_bind R. inv_bind R. apply Ok_inj in R. subst g.
    cbn [g_packets]. eapply read_raw_typed; eassumption.
  - inv_bind R. apply Ok_inj in R. subst g. cbn [g_packets]. eapply read_raw_typed; eassumption.
Qed.
(** [g] with the block type [t]. *)
Definition with_type (t : N) (g : pgp) : pgp := mkPgp (g_armored g) t (g_keys g) (g_packets g).
(** Type [t] is what the armor says, or the data had no armor. *)
Definition said (t : N) (g : pgp) : Prop := g_type g = t \/ g_type g = 0.

Lemma block_first prim sub ps : key_block prim sub ps -> exists p q r, ps = p :: q :: r /\ p_tag p = prim.
Proof.
  intros (k & revs & us & subs & -> & T & _ & U & X & _). exists k.
  assert (N : revs ++ concat us ++ concat subs <> []).
  { intros Z. apply app_eq_nil in Z as [_ Z]. apply app_eq_nil in Z as [Z _]. apply Exists_exists in X as (l & I & u & sigs & -> & _).
    apply in_split in I as (a & b & ->). rewrite concat_app in Z. apply app_eq_nil in Z as [_ Z]. discriminate. }
  destruct (revs ++ concat us ++ concat subs) as [|q r]; [contradiction|]. eauto.
Qed.
Lemma key_type_of t g : transferable t (g_packets g) -> said t g -> key_type g = Ok t.
Proof.
  intros T S. unfold key_type. destruct S as [S|S].
  - rewrite S. destruct T as [[-> _]|[-> _]]; reflexivity.
  - rewrite S. cbn [N.eqb]. destruct T as [[-> B]|[-> B]]; apply block_first in B as (p & q & r & E & P); rewrite E, P; reflexivity.
Qed.
Lemma key_type_said g t : key_type g = Ok t -> said t g.
Proof. unfold key_type, said. destruct (g_type g =? 0) eqn:Z; [right; lia|]. intros H. apply Ok_inj in H. now left. Qed.

(** ** Keys *)
(** Key(data) succeeds exactly when the packets in the data form a transferable key of the kind
    the armor names, or of either kind when there is no armor; the object holds just that. *)
Theorem C78_key : forall data g, key_load data = Ok g <->
  exists g0 t, pgp_read pgp_new data = Ok g0 /\ said t g0 /\ transferable t (g_packets g0) /\ g = with_type t g0.
Proof.
  intros data g. unfold key_load. split.
  - intros H. inv_bind H. rename a into g0. inv_bind H. rename a into t. inv_bind H. destruct a; [|discriminate]. apply Ok_inj in H. subst g.
    exists g0, t. split; [exact E|]. split; [now apply key_type_said|]. split; [|reflexivity].
    apply C33_exact; [eapply pgp_read_typed; eassumption|]. assumption.
  - intros (g0 & t & R & S & T & ->). rewrite R. cbn [bind]. rewrite (key_type_of t g0 T S). cbn [bind]. unfold meaningful. cbn [g_type g_packets].
    assert (M : key_meaningful t (g_packets g0) = Ok true) by (apply C33_exact; [eapply pgp_read_typed; eassumption|exact T]).
    rewrite M. reflexivity.
Qed.
(** What is not a key is refused by an exception, with one exception. *)
Theorem C78_refused_partial : forall data g0, pgp_read pgp_new data = Ok g0 ->
  (forall t, said t g0 -> ~ bare t (g_packets g0)) -> (forall t, said t g0 -> ~ transferable t (g_packets g0)) -> key_load data = Throw ERuntime.
Proof.
  intros data g0 R B T. unfold key_load. rewrite R. cbn [bind]. pose proof (pgp_read_typed _ _ _ R) as TY.
  destruct (key_type g0) as [t|e| |] eqn:KT.
  - cbn [bind]. pose proof (key_type_said _ _ KT) as S. unfold meaningful. cbn [g_type g_packets].
    destruct (meaningful_answers t (g_packets g0) TY) as [[b E]|X]; [|exfalso; eapply B; eauto]. rewrite E. cbn [bind].
    destruct b; [|reflexivity]. exfalso. eapply T; [exact S|]. now apply C33_exact.
  - revert KT. unfold key_type. destruct (g_type g0 =? 0); [|discriminate]. destruct (g_packets g0) as [|p [|q r]]; try (intros X; injection X as <-; reflexivity).
    destruct (p_tag p =? 6); [discriminate|]. destruct (p_tag p =? 5); [discriminate|]. intros X. injection X as <-. reflexivity.
  - exfalso. revert KT. unfold key_type. destruct (g_type g0 =? 0); [|discriminate]. destruct (g_packets g0) as [|p [|q r]]; try discriminate.
    destruct (p_tag p =? 6); [discriminate|]. destruct (p_tag p =? 5); discriminate.
  - exfalso. revert KT. unfold key_type. destruct (g_type g0 =? 0); [|discriminate]. destruct (g_packets g0) as [|p [|q r]]; try discriminate.
    destruct (p_tag p =? 6); [discriminate|]. destruct (p_tag p =? 5); discriminate.
Qed.
(** The exception: a key followed by revocations and nothing else makes the constructor read past
    the end of the packets. *)
Theorem C78_range_refuted : forall data g0 t, pgp_read pgp_new data = Ok g0 -> said t g0 -> bare t (g_packets g0) -> key_load data = UB.
Proof.
  intros data g0 t R S B. unfold key_load. rewrite R. cbn [bind]. pose proof (pgp_read_typed _ _ _ R) as TY.
  assert (K : key_type g0 = Ok t).
  { unfold key_type. destruct B as (k & revs & E & NE & _ & C). destruct S as [S|S]; rewrite S.
    - destruct C as [[-> _]|[-> _]]; reflexivity.
    - rewrite E. destruct revs as [|q r]; [contradiction|]. cbn [N.eqb]. destruct C as [[-> P]|[-> P]]; rewrite P; reflexivity. }
  rewrite K. cbn [bind]. unfold meaningful. cbn [g_type g_packets]. now rewrite (C33_range_refuted t _ TY B).
Qed.
(** A key that was written is loaded again: from its armored text, and from its octets as long as
    no line of them looks like an armor header. *)
Theorem C78_armored : forall g body text, transferable (g_type g) (g_packets g) -> Forall armor_key_ok (g_keys g) -> sequence 0 (g_packets g) ->
  write_packets (g_packets g) = Ok body -> octets body -> body <> [] -> len body < 2 ^ 62 -> pgp_write g ArmorYes = Ok text ->
  key_load text = Ok (mkPgp true (g_type g) (g_keys g) (g_packets g)).
Proof.
  intros g body text T K S W O N L E. apply C78_key.
  exists (mkPgp true (g_type g) (g_keys g) (g_packets g)), (g_type g). split; [|split; [now left|]; split; [exact T|reflexivity]].
  apply (C14_armor_roundtrip_partial g text body); auto. destruct T as [[-> _]|[-> _]]; lia.
Qed.
Theorem C78_binary : forall g body, transferable (g_type g) (g_packets g) -> sequence 0 (g_packets g) ->
  pgp_write g ArmorNo = Ok body -> len body < 2 ^ 63 -> ~ line_begins armor_begin body ->
  key_load body = Ok (mkPgp false (g_type g) [] (g_packets g)).
Proof.
  intros g body T S W L N. apply C78_key.
  exists (mkPgp false 0 [] (g_packets g)), (g_type g). split; [now apply C14_binary_partial|]. split; [now right|]. split; [exact T|reflexivity].
Qed.
(** PublicKey(data) does not insist on a public key: the text of a secret key is loaded, secret
    packets and all, into an object that is not meaningful; and the other way round. *)
Theorem C78_kind_refuted : forall g body text, transferable (g_type g) (g_packets g) -> Forall armor_key_ok (g_keys g) -> sequence 0 (g_packets g) ->
  write_packets (g_packets g) = Ok body -> octets body -> body <> [] -> len body < 2 ^ 62 -> pgp_write g ArmorYes = Ok text ->
  (g_type g = 3 -> exists g', public_load text = Ok g' /\ g_packets g' = g_packets g /\ public_meaningful g' = Ok false /\ Exists (fun p => p_tag p = 5) (g_packets g')) /\
  (g_type g = 2 -> exists g', secret_load text = Ok g' /\ g_packets g' = g_packets g /\ secret_meaningful g' = Ok false /\ Forall (fun p => p_tag p <> 5 /\ p_tag p <> 7) (g_packets g')).
Proof.
  intros g body text T K S W O N L E. unfold public_load, secret_load. rewrite (C78_armored g body text T K S W O N L E).
  split; intros G; eexists; (split; [reflexivity|]); (split; [reflexivity|]); unfold public_meaningful, secret_meaningful; cbn [g_type g_packets]; rewrite G; (split; [reflexivity|]).
  - destruct T as [[X _]|[_ B]]; [congruence|]. apply block_first in B as (p & q & r & -> & P). now constructor.
  - destruct T as [[_ B]|[X _]]; [|congruence]. destruct B as (k & revs & us & subs & -> & P & RV & U & _ & SB & _).
    constructor; [lia|]. apply Forall_app. split; [eapply Forall_impl; [|exact RV]; intros p (Q & _); lia|]. apply Forall_app. split; apply Forall_concat.
    + eapply Forall_impl; [|exact U]. intros l (u & sigs & -> & Q & F). constructor; [lia|]. eapply Forall_impl; [|exact F]. intros p (Z & _); lia.
    + eapply Forall_impl; [|exact SB]. intros l (u & sigs & -> & Q & F & _). constructor; [lia|]. eapply Forall_impl; [|exact F]. intros p (Z & _); lia.
Qed.

(** ** Revocation certificates *)
(** RevocationCertificate(data) succeeds exactly when the data holds one packet, a signature of
    a revocation type (32 key, 40 subkey, 48 certification), and get_revoke_type is that type. *)
Theorem C78_certificate : forall data g, certificate_load data = Ok g <->
  exists g0 p s, pgp_read pgp_new data = Ok g0 /\ g_packets g0 = [p] /\ p_tag p = 2 /\ p_body p = PSig s /\ In (t2_type s) [32; 40; 48] /\
    g = with_type 2 g0 /\ get_revoke_type g = Ok (t2_type s).
Proof.
  intros data g. unfold certificate_load. split.
  - intros H. inv_bind H. rename a into g0. inv_bind H. destruct a; [|discriminate]. apply Ok_inj in H. rename E0 into M.
    pose proof M as M'. unfold revocation_meaningful in M'. cbn [g_type g_packets N.eqb Pos.eqb negb] in M'.
    destruct (g_packets g0) as [|p [|]] eqn:GP; try discriminate. destruct (p_tag p =? 2) eqn:T; [|discriminate]. cbn [negb] in M'.
    inv_bind M'. rename a into s. apply Ok_inj in M'. assert (B : p_body p = PSig s) by (unfold as_sig in E0; destruct (p_body p); congruence).
    exists g0, p, s. split; [exact E|]. split; [exact GP|]. split; [lia|]. split; [exact B|]. split; [now apply mem_In|]. split; [unfold with_type; rewrite GP; symmetry; exact H|].
    rewrite <- H. unfold get_revoke_type. rewrite M. cbn [bind g_packets]. unfold vec_at. cbn [nth_error bind]. unfold as_sig. rewrite B. reflexivity.
  - intros (g0 & p & s & R & GP & T & B & I & -> & _). rewrite R. cbn [bind]. unfold revocation_meaningful, with_type. cbn [g_type g_packets N.eqb Pos.eqb negb].
    rewrite GP, T. cbn [N.eqb Pos.eqb negb]. unfold as_sig. rewrite B. cbn [bind]. apply mem_In in I. rewrite I. reflexivity.
Qed.
(** Everything else is refused by an exception. *)
Theorem C78_certificate_refused : forall data g0, pgp_read pgp_new data = Ok g0 ->
  (exists g, certificate_load data = Ok g) \/ certificate_load data = Throw ERuntime.
Proof.
  intros data g0 R. pose proof (pgp_read_typed _ _ _ R) as TY. unfold certificate_load. rewrite R. cbn [bind].
  unfold revocation_meaningful. cbn [g_type g_packets N.eqb Pos.eqb negb]. destruct (g_packets g0) as [|p [|]]; [now right| |now right].
  apply Forall_cons_iff in TY as [TY _]. destruct (p_tag p =? 2) eqn:T; [|now right]. cbn [negb].
  destruct (as_sig_typed p TY ltac:(lia)) as (s & A & _). rewrite A. cbn [bind]. destruct (mem _ _); [left; eauto|now right].
Qed.

(** ** Detached signatures *)
(** DetachedSignature(data) succeeds exactly when the data holds one packet. *)
Theorem C78_detached_partial : forall data g, detached_load data = Ok g <->
  exists g0 p, pgp_read pgp_new data = Ok g0 /\ g_packets g0 = [p] /\ g = with_type 6 g0.
Proof.
  intros data g. unfold detached_load, detached_meaningful. split.
  - intros H. inv_bind H. rename a into g0. cbn [g_type g_packets N.eqb Pos.eqb andb] in H. destruct (Nat.eqb _ _) eqn:L; [|discriminate]. apply Ok_inj in H.
    apply Nat.eqb_eq in L. destruct (g_packets g0) as [|p [|]] eqn:GP; try discriminate. exists g0, p. split; [exact E|]. split; [exact GP|]. rewrite <- H. unfold with_type. now rewrite GP.
  - intros (g0 & p & R & GP & ->). rewrite R. cbn [bind g_type g_packets]. rewrite GP. unfold with_type. rewrite GP. reflexivity.
Qed.
(** That packet need not be a signature, nor the block be called one.  Any other packet of any
    block is loaded as a detached signature, and verifying with it is undefined behaviour. *)
Theorem C78_detached_refuted : forall type keys p body text key data, 1 <= type <= 6 -> Forall armor_key_ok keys -> sequence 0 [p] ->
  write_packets [p] = Ok body -> octets body -> body <> [] -> len body < 2 ^ 62 -> pgp_write (mkPgp true type keys [p]) ArmorYes = Ok text ->
  (forall s, p_body p <> PSig s) -> meaningful key = Ok true ->
  exists sig, detached_load text = Ok sig /\ verify_detached key data sig = UB.
Proof.
  intros type keys p body text key data T K S W O N L E NS M. exists (mkPgp true 6 keys [p]). split.
  - apply C78_detached_partial. exists (mkPgp true type keys [p]), p. split; [|now split].
    now apply (C14_armor_roundtrip_partial (mkPgp true type keys [p]) text body).
  - eapply C46_packet_refuted; [exact M|reflexivity|reflexivity|exact NS].
Qed.

(** ** Cleartext signatures *)
(** A cleartext signature that was written is loaded with the same header, the same signature and
    a text with the same signed octets. *)
Theorem C78_cleartext_partial : forall c body text p,
  len (cs_message c) < 2 ^ 61 -> (forall l, In l (getlines (cs_message c)) -> exists x, ends_tamely l x) -> ends_visibly (cs_message c) ->
  Forall armor_key_ok (cs_hash c) -> g_type (cs_sig c) = 6 -> g_armored (cs_sig c) = true ->
  Forall armor_key_ok (g_keys (cs_sig c)) -> (forall k, In k (g_keys (cs_sig c)) -> starts_with end_signature (fst k ++ str ": " ++ snd k) = false) ->
  g_packets (cs_sig c) = [p] -> sequence 0 [p] -> write_packets [p] = Ok body -> octets body -> body <> [] -> len body < 2 ^ 62 ->
  cs_write c = Ok text ->
  exists m, cleartext_load text = Ok (mkCleartext (cs_hash c) m (cs_sig c)) /\
    forall s, input_01 (data_to_text m) s = input_01 (data_to_text (cs_message c)) s.
Proof.
  intros c body text p L T V HK T6 AR GK GE GP S W O N LB H. rewrite <- GP in S, W.
  destruct (C39_roundtrip_partial c body text L T V HK T6 AR GK GE S W O N LB H) as (m & R & I). exists m. split; [|exact I].
  unfold cleartext_load. change (cs_read [] (mkPgp true 6 [] []) text) with (cs_read [] pgp_new text). rewrite R. cbn [bind cs_sig].
  unfold detached_meaningful. now rewrite T6, GP.
Qed.
(** Whatever text is loaded, the signature is a block of type SIGNATURE with one packet. *)
Theorem C78_cleartext_kind : forall text c, cleartext_load text = Ok c -> g_type (cs_sig c) = 6 /\ exists p, g_packets (cs_sig c) = [p].
Proof.
  intros text c H. unfold cleartext_load in H. inv_bind H. destruct (detached_meaningful (cs_sig a)) eqn:D; [|discriminate]. apply Ok_inj in H. subst a.
  unfold detached_meaningful in D. apply andb_prop in D as [D1 D2]. split; [lia|]. apply Nat.eqb_eq in D2. destruct (g_packets (cs_sig c)) as [|p [|]]; try discriminate. eauto.
Qed.

(** ** Examples: a secret key with one user and its public form, written both ways; a key with a
    revocation only; a revocation certificate; a user ID packet that is loaded as a signature. *)
Definition C78_keys : list (bytes * bytes) := [(str "Version", str "1")].
Lemma C78_keys_ok : Forall armor_key_ok C78_keys.
Proof.
  repeat constructor; cbn [fst snd]; try (intros X; vm_compute in X; decompose [or] X; discriminate || contradiction).
  - exists 49, []. split; [reflexivity|]. intros X. vm_compute in X. decompose [or] X; discriminate || contradiction.
  - exists [], 49. split; [reflexivity|]. intros X. vm_compute in X. decompose [or] X; discriminate || contradiction.
Qed.
Lemma C78_block prim sub k : p_tag k = prim -> ~ has_version 3 k -> key_block prim sub [k; ex_user "a"].
Proof.
  intros T V. exists k, [], [[ex_user "a"]], []. split; [reflexivity|]. split; [exact T|]. split; [constructor|]. split.
  - constructor; [|constructor]. exists (ex_user "a"), []. split; [reflexivity|]. split; [now left|constructor].
  - split; [constructor; exists (ex_user "a"), []; auto|]. split; [constructor|]. intros X. contradiction.
Qed.
Lemma C78_user_sequence n : sequence n [ex_user "a"].
Proof.
  apply (sequence_new n 13 _ (str "a")); [reflexivity|reflexivity|split; [reflexivity|intros [X _]; vm_compute in X; apply X; reflexivity]| |intros; exact I|intros; exact I].
  split; [right; right; right; now left|discriminate].
Qed.
Definition C78_secret : pgp := mkPgp true 3 C78_keys [ex_sec 5; ex_user "a"].
Example C78_ex : exists body text, transferable (g_type C78_secret) (g_packets C78_secret) /\ Forall armor_key_ok (g_keys C78_secret) /\
  sequence 0 (g_packets C78_secret) /\ write_packets (g_packets C78_secret) = Ok body /\ octets body /\ body <> [] /\ len body < 2 ^ 62 /\
  pgp_write C78_secret ArmorYes = Ok text /\ pgp_write C78_secret ArmorNo = Ok body /\ ~ line_begins armor_begin body /\
  exists g', public_load text = Ok g' /\ public_meaningful g' = Ok false /\ key_load body = Ok (mkPgp false 3 [] (g_packets C78_secret)).
Proof.
  assert (T : transferable 3 [ex_sec 5; ex_user "a"]).
  { right. split; [reflexivity|]. apply C78_block; [reflexivity|]. intros (k & [X|(s & X)] & V); [discriminate|]. injection X as <- _. discriminate. }
  assert (S : sequence 0 [ex_sec 5; ex_user "a"]).
  { apply (sequence_new 0 5 _ [4; 0; 0; 3; 232; 1; 0; 6; 35; 0; 3; 5; 0; 0; 3; 5; 0; 8]); [reflexivity|vm_compute; reflexivity|split; [reflexivity|intros [X _]; vm_compute in X; apply X; reflexivity]| |intros; vm_compute; auto|apply C78_user_sequence].
    split; [now left|]. split; [|repeat split]. split; [cbn; lia|]. split; [reflexivity|]. split; [repeat (apply Forall_cons; [apply C10_fits; reflexivity|]); apply Forall_nil|]. split; reflexivity. }
  eexists _, _. split; [exact T|]. split; [apply C78_keys_ok|]. split; [exact S|]. split; [vm_compute; reflexivity|].
  split; [apply octetsb_spec; vm_compute; reflexivity|]. split; [discriminate|]. split; [vm_compute; reflexivity|]. split; [vm_compute; reflexivity|]. split; [vm_compute; reflexivity|].
  assert (NB : ~ line_begins armor_begin [197; 18; 4; 0; 0; 3; 232; 1; 0; 6; 35; 0; 3; 5; 0; 0; 3; 5; 0; 8; 205; 1; 97]).
  { intros (b & a & E & _). apply (f_equal (existsb (N.eqb 45))) in E. rewrite !existsb_app in E.
    vm_compute (existsb (N.eqb 45) armor_begin) in E. rewrite orb_true_r in E. discriminate. }
  split; [exact NB|]. eexists. split; [|split].
  - eapply (C78_armored C78_secret); [exact T|apply C78_keys_ok|exact S|vm_compute; reflexivity|apply octetsb_spec; vm_compute; reflexivity|discriminate|vm_compute; reflexivity|vm_compute; reflexivity].
  - reflexivity.
  - apply (C78_binary C78_secret); [exact T|exact S|vm_compute; reflexivity|vm_compute; reflexivity|exact NB].
Qed.
(** The octets of a public key with its revocation: loading them leaves the packet list. *)
Example C78_bare_ex : exists data, octets data /\ len data = 45 /\ key_load data = UB.
Proof.
  eexists. split; [|split].
  3:{ eapply (C78_range_refuted _ (mkPgp false 0 [] [ex_pub 6; ex_sig 32]) 2).
      - apply (C14_binary_partial (mkPgp false 0 [] [ex_pub 6; ex_sig 32])).
        + apply (sequence_new 0 6 _ [4; 0; 0; 3; 232; 1; 0; 6; 35; 0; 3; 5]); [reflexivity|vm_compute; reflexivity|split; [reflexivity|intros [X _]; vm_compute in X; apply X; reflexivity]| |intros; vm_compute; auto|].
          * split; [now left|]. split; [cbn; lia|]. split; [reflexivity|]. split; [repeat (apply Forall_cons; [apply C10_fits; reflexivity|]); apply Forall_nil|]. split; reflexivity.
          * intros n. eexists [194; 29], _. split; [vm_compute; reflexivity|]. split; [reflexivity|].
            split; [repeat split; vm_compute; intuition discriminate|]. split; [|split; [discriminate|exact I]].
            split; [reflexivity|]. cbn [sig_fits]. split; [reflexivity|]. split; [reflexivity|].
            split; [repeat (apply Forall_cons; [apply C10_fits; reflexivity|]); apply Forall_nil|]. left.
            cbn [allP snd sub_fits sub_kept]. unfold word32. repeat split; reflexivity.
        + vm_compute; reflexivity.
        + vm_compute; reflexivity.
        + intros (b & a & E & _). apply (f_equal (existsb (N.eqb 45))) in E. rewrite !existsb_app in E.
          vm_compute (existsb (N.eqb 45) armor_begin) in E. rewrite orb_true_r in E. discriminate.
      - now right.
      - apply C33_bare. }
  - apply octetsb_spec. vm_compute. reflexivity.
  - reflexivity.
Qed.
(** The text of a message block with a user ID packet, loaded as a detached signature. *)
Example C78_detached_ex : exists body text sig, write_packets [ex_user "a"] = Ok body /\ pgp_write (mkPgp true 1 C78_keys [ex_user "a"]) ArmorYes = Ok text /\
  (forall s, p_body (ex_user "a") <> PSig s) /\ meaningful C78_secret = Ok true /\ detached_load text = Ok sig /\ verify_detached C78_secret [1; 2] sig = UB.
Proof.
  assert (exists text, pgp_write (mkPgp true 1 C78_keys [ex_user "a"]) ArmorYes = Ok text) as (text & W) by (eexists; vm_compute; reflexivity).
  assert (M : meaningful C78_secret = Ok true) by (vm_compute; reflexivity).
  destruct (C78_detached_refuted 1 C78_keys (ex_user "a") [205; 1; 97] text C78_secret [1; 2]) as (sig & L & V);
    [lia|exact C78_keys_ok|apply C78_user_sequence|vm_compute; reflexivity|apply octetsb_spec; reflexivity|discriminate|reflexivity|exact W|discriminate|exact M|].
  eexists _, text, sig. split; [vm_compute; reflexivity|]. split; [exact W|]. split; [discriminate|]. split; [exact M|]. split; [exact L|exact V].
Qed.
(** A certificate, and texts that are refused: a signature that revokes nothing, two packets. *)
Example C78_certificate_ex : exists w w' g, write_packets [ex_sig 40] = Ok w /\ write_packets [ex_sig 16] = Ok w' /\
  certificate_load w = Ok g /\ get_revoke_type g = Ok 40 /\ certificate_load w' = Throw ERuntime /\ certificate_load (w ++ w) = Throw ERuntime.
Proof. eexists _, _, _. do 5 (split; [vm_compute; reflexivity|]). vm_compute; reflexivity. Qed.
Example C78_cleartext_ex : exists text c, cs_write (mkCleartext C39_keys C39_ex_text C39_sig) = Ok text /\ cleartext_load text = Ok c.
Proof. eexists _, _. split; [vm_compute; reflexivity|vm_compute; reflexivity]. Qed.

Print Assumptions C78_key. Print Assumptions C78_refused_partial. Print Assumptions C78_range_refuted. Print Assumptions C78_armored. Print Assumptions C78_binary.
Print Assumptions C78_kind_refuted. Print Assumptions C78_certificate. Print Assumptions C78_certificate_refused. Print Assumptions C78_detached_partial.
Print Assumptions C78_detached_refuted. Print Assumptions C78_cleartext_partial. Print Assumptions C78_cleartext_kind.
