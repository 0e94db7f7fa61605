(** Properties C44, C45, C46, C63, C64: signing and verification. *)
From Verif Require Import Proofs.SignP Proofs.ProthP Props.C21_C22 Props.C23_C26 Props.C32 Props.C33_C35 Props.C41_C43_C60.
Local Open Scope N_scope.

(** ** C44 *)

(** [a] holds the secret key, the passphrase, the hash; [k] and [sec] are its primary key,
    which signs; [g] is any transferable key with the same primary key, for instance the
    public one.  Whenever a signature is returned, it is accepted. *)
Definition matching (a : sign_args) (k : key) (sec : secret) (pri : list N) (g : pgp) : Prop :=
  a_version a = 4 /\ signs_with (a_pri a) k sec /\ decrypt_secret_keys sec (a_pass a) = Ok pri /\
  key_pair (k_pka k) pri (k_mpi k) /\ Forall mpi_fits (k_mpi k) /\
  meaningful g = Ok true /\ has_primary g k.

Lemma args_meaningful a : args_valid a = Ok true -> meaningful (a_pri a) = Ok true.
Proof.
  unfold args_valid, secret_meaningful. intros E. apply bind_ok in E as (m & M & E). apply Ok_inj in E.
  destruct (g_type (a_pri a) =? 3); destruct m; try discriminate; exact M.
Qed.
Lemma document_verifies a k sec pri g mm input type now id digest draws s' draws' : matching a k sec pri g ->
  (forall s l m, input (with_values s l m) = input s) ->
  (forall s x, input s = Ok x -> exists d, hash_use (t2_hash s) d = Ok x) ->
  get_keyid k = Ok id ->
  input (create_sig (a_version a) type (k_pka k) (a_hash a) id now) = Ok digest ->
  finish (create_sig (a_version a) type (k_pka k) (a_hash a) id now) digest k sec (a_pass a) (a_hash a) draws = Ok (Some s', draws') ->
  verify_document mm g (detached_of s') input = Ok 1%Z /\ input s' = Ok digest /\
  verify_with_pka digest (a_hash a) (k_pka k) (k_mpi k) (t2_mpi s') = Ok 1%Z.
Proof.
  intros (V & SW & D & KP & F & M & HP) IV IH KI I FI. rewrite V in *.
  apply finish_ok in FI as (pri' & vals & D' & S & NE & ->). rewrite D in D'. apply Ok_inj in D'. subst pri'.
  destruct (IH _ _ I) as (d & HU). cbn [create_sig t2_hash] in HU.
  assert (C : In (k_pka k) [1; 3; 17]) by (destruct SW as (? & ? & _ & _ & C); exact C).
  assert (C2 : k_pka k = 1 \/ k_pka k = 17).
  { destruct C as [C|[C|[C|[]]]]; auto. rewrite <- C in S. apply Ok_inj in S. congruence. }
  pose proof (with_pka_verifies d digest (k_pka k) pri (k_mpi k) (a_hash a) draws vals draws' HU C2 KP F S) as W.
  split; [|split; [now rewrite IV|exact W]].
  rewrite (verify_document_at mm g _ input id digest k M HP C); auto.
  - pose proof (keyid_len k id F KI). lia.
  - now rewrite IV.
Qed.
Ltac step E := let x := fresh "x" in let H := fresh "H" in apply bind_ok in E as (x & H & E).

Theorem C44_detached_partial : forall a k sec pri g now data draws sig rest,
  matching a k sec pri g -> sign_detached a now data draws = Ok (sig, rest) -> g_packets sig <> [] ->
  verify_detached g data sig = Ok 1%Z.
Proof.
  intros a k sec pri g now data draws sig rest M E NE. unfold sign_detached in E. apply bind_ok in E as (v & V & E).
  destruct v; [|apply Ok_inj in E; injection E as <- <-; now destruct NE]. cbn [negb] in E.
  pose proof M as (_ & SW & _). destruct (signs_found _ _ _ (args_meaningful a V) SW) as (p & F & A). rewrite F in E. cbn [bind] in E.
  apply bind_ok in E as (rc & _ & E). destruct (rc =? 0)%Z; [|apply Ok_inj in E; injection E as <- <-; now destruct NE].
  cbn [negb] in E. rewrite A in E. cbn [bind] in E. apply bind_ok in E as (id & KI & E). apply bind_ok in E as (digest & I & E).
  apply bind_ok in E as ((r & d') & FI & E). apply Ok_inj in E. destruct r as [s'|].
  - assert (sig = detached_of s') as -> by congruence. unfold verify_detached.
    eapply document_verifies; eauto.
    + intros. apply to_sign_00_values.
    + intros s x H. now apply hashed_with_use in H.
  - assert (sig = detached_new) as -> by congruence. now destruct NE.
Qed.
Theorem C44_cleartext_partial : forall a k sec pri g now text draws c rest,
  matching a k sec pri g -> sign_cleartext a now text draws = Ok (c, rest) -> g_packets (cs_sig c) <> [] ->
  verify_cleartext g c = Ok 1%Z /\ cs_message c = text.
Proof.
  intros a k sec pri g now text draws c rest M E NE. unfold sign_cleartext in E. apply bind_ok in E as (v & V & E).
  destruct v; [|apply Ok_inj in E; injection E as <- <-; now destruct NE]. cbn [negb] in E.
  pose proof M as (_ & SW & _). destruct (signs_found _ _ _ (args_meaningful a V) SW) as (p & F & A). rewrite F in E. cbn [bind] in E.
  rewrite A in E. cbn [bind] in E. apply bind_ok in E as (id & KI & E). apply bind_ok in E as (digest & I & E).
  apply bind_ok in E as ((r & d') & FI & E). destruct r as [s'|].
  - apply bind_ok in E as (name & _ & E). apply Ok_inj in E.
    assert (c = mkCleartext [(str "Hash", name)] text (detached_of s')) as -> by congruence. split; [|reflexivity].
    unfold verify_cleartext. cbn [cs_sig cs_message].
    eapply (document_verifies a k sec pri g (-1)%Z (to_sign_01 (data_to_text text))); eauto.
    + intros. apply to_sign_01_values.
    + intros s x H. now apply hashed_with_use in H.
  - apply Ok_inj in E. assert (c = cleartext_new) as -> by congruence. now destruct NE.
Qed.
Theorem C44_timestamp_partial : forall a k sec pri g time draws sig rest,
  matching a k sec pri g -> sign_timestamp a time draws = Ok (sig, rest) -> g_packets sig <> [] ->
  verify_timestamp g sig = Ok 1%Z.
Proof.
  intros a k sec pri g time draws sig rest M E NE. unfold sign_timestamp in E. apply bind_ok in E as (v & V & E).
  destruct v; [|apply Ok_inj in E; injection E as <- <-; now destruct NE]. cbn [negb] in E.
  pose proof M as (_ & SW & _). destruct (signs_found _ _ _ (args_meaningful a V) SW) as (p & F & A). rewrite F in E. cbn [bind] in E.
  rewrite A in E. cbn [bind] in E. apply bind_ok in E as (id & KI & E). apply bind_ok in E as (digest & I & E).
  apply bind_ok in E as ((r & d') & FI & E). apply Ok_inj in E. destruct r as [s'|].
  - assert (sig = detached_of s') as -> by congruence. unfold verify_timestamp.
    eapply document_verifies; eauto.
    + intros. apply to_sign_40_values.
    + intros s x H. now apply hashed_with_use in H.
  - assert (sig = detached_new) as -> by congruence. now destruct NE.
Qed.
(** One-pass signed messages: the packets that are verified. *)
Lemma signed_verifies g k k' q id hash digest filename now data s :
  find_signing_key g = Ok (Some q) -> as_key q = Ok k' -> same_public k' k -> get_keyid k = Ok id ->
  to_sign_00 data s = Ok digest -> t2_hash s = hash -> t2_pka s = k_pka k ->
  verify_with_pka digest hash (k_pka k) (k_mpi k) (t2_mpi s) = Ok 1%Z ->
  verify_signed g [new_packet 4 (POnePass 3 0 hash (k_pka k) id 1); new_packet 11 (PLiteral 98 filename now data);
                   new_packet 2 (PSig s)] = Ok 1%Z.
Proof.
  intros FS AK SP KI I TH TP W. pose proof SP as (_ & _ & _ & S4). unfold new_packet.
  unfold verify_signed. cbn [vec_at nth_error bind pred length Nat.ltb Nat.leb p_tag N.eqb Pos.eqb andb].
  unfold verify_one_pass. rewrite FS. cbn [bind]. rewrite AK. cbn [bind].
  cbn [one_pass_count p_tag N.eqb Pos.eqb length Nat.eqb Nat.sub pred Nat.ltb Nat.leb].
  cbn [one_pass_loop vec_at nth_error bind as_one_pass p_body].
  rewrite (same_keyid k' k SP), KI. cbn [bind]. rewrite beq_refl.
  cbn [Nat.sub firstn skipn signed_data p_tag N.eqb Pos.eqb as_literal p_body bind as_sig]. rewrite app_nil_r, I. cbn [bind].
  unfold verify_key. rewrite S4, TH, TP, W. reflexivity.
Qed.
Theorem C44_binary_partial : forall zip unzip fuel fuel' a k sec pri g filename data now now' draws m rest,
  matching a k sec pri g ->
  sign_binary zip unzip fuel a filename data 0 now now' draws = Ok (m, rest) -> g_packets (m_pgp m) <> [] ->
  verify_binary (S fuel') unzip g (m_pgp m) = Ok 1%Z.
Proof.
  intros zip unzip fuel fuel' a k sec pri g filename data now now' draws m rest M E NE. unfold sign_binary in E. apply bind_ok in E as (v & V & E).
  destruct v; [|apply Ok_inj in E; injection E as <- <-; now destruct NE]. cbn [negb] in E.
  pose proof M as (_ & SW & _ & _ & _ & MG & HP). destruct (signs_found _ _ _ (args_meaningful a V) SW) as (p & F & A). rewrite F in E. cbn [bind] in E.
  rewrite A in E. cbn [bind] in E. apply bind_ok in E as (id & KI & E). apply bind_ok in E as (digest & I & E).
  apply bind_ok in E as ((r & d') & FI & E). destruct r as [s'|].
  2:{ apply Ok_inj in E. assert (m = message_new) as -> by congruence. now destruct NE. }
  change (0 =? 0) with true in E. cbv iota in E. apply Ok_inj in E. injection E as <- _.
  destruct (document_verifies a k sec pri g 0%Z (to_sign_00 data) 0 now' id digest draws s' d' M) as (_ & I' & W); auto.
  { intros. apply to_sign_00_values. } { intros s x H. now apply hashed_with_use in H. }
  assert (C : In (k_pka k) [1; 3; 17]) by (destruct SW as (? & ? & _ & _ & C); exact C).
  destruct (primary_found g k MG HP C) as (q & k' & FS & AK & SP & _).
  assert (T : t2_hash s' = a_hash a /\ t2_pka s' = k_pka k).
  { apply finish_ok in FI as (? & ? & _ & _ & _ & ->). split; reflexivity. }
  cbn [verify_binary m_pgp g_type g_packets]. rewrite MG. cbn [bind negb].
  cbn [map new_packet p_tag]. change (message_match false 1 [4; 11; 2] OPENM) with (Ok true). cbn [bind negb].
  change (message_match false 1 [4; 11; 2] ENCM) with (Ok false). cbn [bind].
  change (message_match false 1 [4; 11; 2] SIGM) with (Ok true). cbn [bind].
  eapply (signed_verifies g k k' q); eauto; apply T.
Qed.

(** With the public key extracted from the secret one. *)
Theorem C44_public_partial : forall a k sec pri now data draws sig rest,
  a_version a = 4 -> signs_with (a_pri a) k sec -> decrypt_secret_keys sec (a_pass a) = Ok pri ->
  key_pair (k_pka k) pri (k_mpi k) -> Forall mpi_fits (k_mpi k) ->
  Forall typed (g_packets (a_pri a)) -> Forall writable (g_packets (a_pri a)) ->
  sign_detached a now data draws = Ok (sig, rest) -> g_packets sig <> [] ->
  exists g, get_public_key (a_pri a) = Ok g /\ verify_detached g data sig = Ok 1%Z.
Proof.
  intros a k sec pri now data draws sig rest V SW D KP F T W E NE.
  assert (AV : args_valid a = Ok true).
  { unfold sign_detached in E. apply bind_ok in E as (v & AV & E). destruct v; [exact AV|].
    apply Ok_inj in E. injection E as <- <-. now destruct NE. }
  assert (M : secret_meaningful (a_pri a) = Ok true).
  { unfold args_valid in AV. apply bind_ok in AV as (m & M & AV). apply Ok_inj in AV. destruct m; [exact M|discriminate]. }
  destruct (C34_public _ T W M) as (g & G & MG & _ & _ & P & _). exists g. split; [exact G|].
  eapply (C44_detached_partial a k sec pri); eauto. repeat (split; [assumption|]). split.
  - unfold public_meaningful in MG. destruct (g_type g =? 2); [exact MG|discriminate].
  - pose proof SW as (p & r & EP & B & _). rewrite EP in P. inversion P as [|? q ? qs PQ P' E1 E2]. subst.
    exists q, qs. split; [auto|]. apply args_meaningful in AV.
    destruct (meaningful_first _ AV) as (p' & r' & EP' & T'). assert (p' = p) as -> by congruence.
    assert (p_tag p = 5).
    { rewrite EP in T. apply Forall_cons_iff in T as [T _]. destruct T' as [T'|T']; [exact T'|].
      unfold typed in T. rewrite T' in T. destruct T as (? & T). congruence. }
    unfold public_of in PQ. rewrite H in PQ. destruct PQ as (_ & k1 & s1 & k' & B1 & B2 & SP).
    exists k'. split; [auto|]. congruence.
Qed.

(** It does not hold for RSA keys marked sign-only: no signature comes out. *)
Theorem C44_sign_only_refuted : forall a k sec now data draws sig rest,
  signs_with (a_pri a) k sec -> k_pka k = 3 -> sign_detached a now data draws = Ok (sig, rest) -> g_packets sig = [].
Proof.
  intros a k sec now data draws sig rest SW P E. unfold sign_detached in E. apply bind_ok in E as (v & V & E).
  destruct v; [|apply Ok_inj in E; injection E as <- <-; reflexivity]. cbn [negb] in E.
  destruct (signs_found _ _ _ (args_meaningful a V) SW) as (p & F & A). rewrite F in E. cbn [bind] in E.
  apply bind_ok in E as (rc & _ & E). destruct (rc =? 0)%Z; [|apply Ok_inj in E; injection E as <- <-; reflexivity].
  cbn [negb] in E. rewrite A in E. cbn [bind] in E. apply bind_ok in E as (id & KI & E). apply bind_ok in E as (digest & I & E).
  apply bind_ok in E as ((r & d') & FI & E). apply Ok_inj in E. destruct r as [s'|].
  - apply finish_ok in FI as (? & vals & _ & S & NE & _). rewrite P in S. apply Ok_inj in S. congruence.
  - assert (sig = detached_new) as -> by congruence. reflexivity.
Qed.
(** What a version 3 detached signature looks like: the key ID and time were put in subpackets,
    which version 3 does not have, so no key ID is found. *)
Lemma detached_shape a now data draws sig rest : sign_detached a now data draws = Ok (sig, rest) -> g_packets sig <> [] ->
  exists p k sec id vals l, find_signing_key (a_pri a) = Ok (Some p) /\ as_secret p = Ok (k, sec) /\ get_keyid k = Ok id /\
    sig = detached_of (with_values (create_sig (a_version a) 0 (k_pka k) (a_hash a) id now) l vals).
Proof.
  intros E NE. unfold sign_detached in E. apply bind_ok in E as (v & V & E).
  destruct v; [|apply Ok_inj in E; injection E as <- <-; now destruct NE]. cbn [negb] in E.
  apply bind_ok in E as (o & F & E). destruct o as [p|]; [|apply Ok_inj in E; injection E as <- <-; now destruct NE].
  apply bind_ok in E as (rc & _ & E). destruct (rc =? 0)%Z; [|apply Ok_inj in E; injection E as <- <-; now destruct NE].
  cbn [negb] in E. apply bind_ok in E as ((k & sec) & A & E). apply bind_ok in E as (id & KI & E). apply bind_ok in E as (digest & I & E).
  apply bind_ok in E as ((r & d') & FI & E). apply Ok_inj in E. destruct r as [s'|].
  - apply finish_ok in FI as (? & vals & _ & _ & _ & ->). exists p, k, sec, id, vals, (prefix digest 2).
    repeat (split; [assumption|]). congruence.
  - assert (sig = detached_new) as -> by congruence. now destruct NE.
Qed.
Theorem C44_version3_refuted : forall a g now data draws sig rest,
  a_version a = 3 -> meaningful g = Ok true ->
  sign_detached a now data draws = Ok (sig, rest) -> g_packets sig <> [] -> verify_detached g data sig = Ok (-1)%Z.
Proof.
  intros a g now data draws sig rest V M E NE. destruct (detached_shape _ _ _ _ _ _ E NE) as (p & k & sec & id & vals & l & _ & _ & _ & ->).
  rewrite V. unfold verify_detached, verify_document. rewrite M. reflexivity.
Qed.
(** A key whose signing key is not the primary key: its signatures are not recognised. *)
Theorem C44_subkey_refuted : forall a g p k sec id id' now data draws sig rest,
  a_version a = 4 -> find_signing_key (a_pri a) = Ok (Some p) -> as_secret p = Ok (k, sec) -> get_keyid k = Ok id ->
  len id = 8 -> meaningful g = Ok true -> keyid g = Ok id' -> id <> id' ->
  sign_detached a now data draws = Ok (sig, rest) -> g_packets sig <> [] -> verify_detached g data sig = Ok 0%Z.
Proof.
  intros a g p k sec id id' now data draws sig rest V F A KI L M K' D E NE.
  destruct (detached_shape _ _ _ _ _ _ E NE) as (p1 & k1 & sec1 & id1 & vals & l & F1 & A1 & KI1 & ->).
  assert (p1 = p) as -> by congruence. assert (k1 = k) as -> by congruence. assert (id1 = id) as -> by congruence.
  rewrite V. unfold verify_detached, verify_document. rewrite M. cbn [bind negb].
  set (s := with_values _ _ _). change (detached_meaningful (detached_of s)) with true.
  change (sig_keyid s) with (@Ok bytes id). cbn [negb vec_at detached_of g_packets nth_error bind as_sig new_packet p_body].
  change (sig_keyid s) with (@Ok bytes id). cbn [bind]. rewrite L. change (8 =? 0) with false. cbv iota. rewrite K'. cbn [bind].
  replace (beq id' id) with false; [reflexivity|]. symmetry. apply beq_neq. congruence.
Qed.
(** A subkey never certifies its primary key: no secret key has a public subkey packet. *)
Theorem C44_binding_refuted : forall a now signee draws r, Forall typed (g_packets (a_pri a)) ->
  sign_primary_key_binding a now signee draws = Ok r -> fst r = None.
Proof.
  intros a now signee draws r T E. unfold sign_primary_key_binding in E. apply bind_ok in E as (v & V & E).
  destruct v; [|apply Ok_inj in E; subst r; reflexivity]. cbn [negb] in E.
  apply bind_ok in E as (o & F & E). destruct o as [p|]; [|apply Ok_inj in E; subst r; reflexivity].
  apply bind_ok in E as ((k & sec) & A & E). destruct (find _ (g_packets signee)); [|apply Ok_inj in E; subst r; reflexivity].
  destruct (find (fun q => p_tag q =? 14) (g_packets (a_pri a))) as [q|] eqn:Q; [exfalso|apply Ok_inj in E; subst r; reflexivity].
  apply find_some in Q as [I Q].
  assert (M : secret_meaningful (a_pri a) = Ok true).
  { unfold args_valid in V. apply bind_ok in V as (m & M & V). apply Ok_inj in V. destruct m; [exact M|discriminate]. }
  unfold secret_meaningful, meaningful in M. destruct (g_type (a_pri a) =? 3) eqn:T3; [|discriminate].
  replace (g_type (a_pri a)) with 3 in M by lia. apply C33_exact in M; [|exact T]. destruct M as [[X _]|[_ B]]; [discriminate|].
  destruct B as (k0 & revs & us & subs & E1 & K & R & U & _ & S & _). rewrite E1 in I.
  destruct I as [<-|I]; [lia|]. apply in_app_or in I as [I|I].
  { rewrite Forall_forall in R. destruct (R _ I). lia. }
  apply in_app_or in I as [I|I]; apply in_concat in I as (l & Il & I).
  - rewrite Forall_forall in U. destruct (U _ Il) as (u & sigs & -> & TU & G). destruct I as [<-|I]; [lia|].
    rewrite Forall_forall in G. destruct (G _ I). lia.
  - rewrite Forall_forall in S. destruct (S _ Il) as (u & sigs & -> & TU & G & _). destruct I as [<-|I]; [lia|].
    rewrite Forall_forall in G. destruct (G _ I). lia.
Qed.

(** Example: a DSA key on a toy group, made to sign. *)
Definition toy_key : key := mkKey 4 1000 17 [23; 11; 4; 8] 0.
Definition toy_sec : secret := mkSecret 0 0 None [] [0; 3; 7; 0; 10].
Definition toy_pri : pgp := mkPgp true 3 [] [new_packet 5 (PSecret toy_key toy_sec); ex_user "a"; ex_sig 16].
Definition toy_pub : pgp := mkPgp true 2 [] [new_packet 6 (PKey toy_key); ex_user "a"; ex_sig 16].
Definition toy_args : sign_args := mkArgs toy_pri [] 4 2.
Definition toy_signature : pgp :=
  detached_of (mkTag2 4 0 17 2 [7; 6] [177; 144] 0 [] [(false, Sub2 1234567890)] [(false, Sub16 [38; 25; 250; 203; 37; 239; 15; 202])]).
Example toy_matching : matching toy_args toy_key toy_sec [7] toy_pub.
Proof.
  split; [reflexivity|]. split.
  { do 2 eexists. split; [reflexivity|]. split; [reflexivity|]. cbn. auto. }
  split; [reflexivity|]. split.
  { unfold key_pair. cbn [toy_key k_pka N.eqb Pos.eqb]. exists 23, 11, 4, 8, 7, [], []. split; [reflexivity|]. split; [reflexivity|]. exact dsa_toy_key. }
  split; [repeat (apply Forall_cons; [unfold mpi_fits; apply N.log2_lt_pow2; reflexivity|]); constructor|].
  split; [reflexivity|]. do 2 eexists. split; [reflexivity|]. exists toy_key. split; [now left|]. repeat split.
Qed.
Example toy_detached : sign_detached toy_args 1234567890 (str "hello") [3; 5] = Ok (toy_signature, [5]) /\
  verify_detached toy_pub (str "hello") toy_signature = Ok 1%Z /\ verify_detached toy_pub (str "hellp") toy_signature = Ok 0%Z.
Proof. split; [|split]; vm_compute; reflexivity. Qed.
Example toy_public : Forall typed (g_packets toy_pri) /\ Forall writable (g_packets toy_pri).
Proof.
  split; [typed_all|]. apply Forall_cons; [|repeat constructor]. cbn [writable p_body new_packet].
  split; [|eexists; reflexivity]. split; [cbn; lia|]. split; [reflexivity|]. split; [|split; reflexivity].
  repeat (apply Forall_cons; [unfold mpi_fits; apply N.log2_lt_pow2; reflexivity|]). constructor.
Qed.
Example toy_others : exists c m t,
  sign_cleartext toy_args 1234567890 (str "hello") [3] = Ok (c, []) /\ g_packets (cs_sig c) <> [] /\
  sign_binary (fun _ _ => None) (fun _ _ => None) 2 toy_args (str "f") (str "hello") 0 5 1234567890 [3] = Ok (m, []) /\ g_packets (m_pgp m) <> [] /\
  sign_timestamp toy_args 1234567890 [3; 5] = Ok (t, []) /\ g_packets t <> [].
Proof.
  eexists _, _, _. split; [vm_compute; reflexivity|]. split; [discriminate|]. split; [vm_compute; reflexivity|].
  split; [discriminate|]. split; [vm_compute; reflexivity|]. discriminate.
Qed.
(** The refuted cases occur: version 3, and a signing subkey under a primary key of another
    algorithm. *)
Definition toy_sub : pgp :=
  mkPgp true 3 [] [new_packet 5 (PSecret (mkKey 4 1000 2 [35; 5] 0) (mkSecret 0 0 None [] [0; 3; 5; 0; 8])); ex_user "a";
                   new_packet 7 (PSecret toy_key toy_sec); ex_sig 24].
Example toy_refuted :
  (exists sig, sign_detached (mkArgs toy_pri [] 3 2) 5 (str "hello") [3] = Ok (sig, []) /\ g_packets sig <> []) /\
  (exists sig, sign_detached (mkArgs toy_sub [] 4 2) 5 (str "hello") [3] = Ok (sig, []) /\ g_packets sig <> [] /\
     verify_detached toy_sub (str "hello") sig = Ok 0%Z).
Proof.
  split; eexists; (split; [vm_compute; reflexivity|]). { discriminate. } split; [discriminate|]. vm_compute. reflexivity.
Qed.

(** RSA keys with a modulus long enough for the hash always produce a signature. *)
Theorem C44_rsa : forall a k sec n e d more more' g now data draws bits der,
  args_valid a = Ok true -> revoke_check (a_pri a) = Ok 0%Z -> matching a k sec (d :: more') g ->
  k_version k = 4 -> k_pka k = 1 -> k_mpi k = n :: e :: more ->
  map_at hash_length (a_hash a) = Ok bits -> map_at asn1_der (a_hash a) = Ok der ->
  len der / 2 + 3 + bits / 8 <= bitsize n / 8 ->
  exists sig, sign_detached a now data draws = Ok (sig, draws) /\ verify_detached g data sig = Ok 1%Z.
Proof.
  intros a k sec n e d more more' g now data draws bits der AV RC MA V PK K HL AD L.
  pose proof MA as (V4 & SW & D & KP & F & _).
  enough (exists sig, sign_detached a now data draws = Ok (sig, draws) /\ g_packets sig <> []) as (sig & S & NE).
  { exists sig. split; [exact S|]. eapply C44_detached_partial; eauto. }
  unfold sign_detached. rewrite AV. cbn [bind negb].
  destruct (signs_found _ _ _ (args_meaningful a AV) SW) as (p & FS & A). rewrite FS. cbn [bind]. rewrite RC. cbn [bind].
  change (negb (0 =? 0)%Z) with false. cbv iota. rewrite A. cbn [bind].
  destruct (keyid_v4 k V) as (fp & id & _ & KI & _). rewrite KI. cbn [bind]. rewrite V4.
  assert (X : exists x, input_00 data (create_sig 4 0 (k_pka k) (a_hash a) id now) = Ok x) by (eexists; reflexivity). destruct X as (x & X).
  assert (HI : In (a_hash a) hashes).
  { unfold map_at, asn1_der in AD. cbn [hashes In].
    repeat match type of AD with (if ?b then _ else _) = _ => destruct b eqn:?; [apply N.eqb_eq in Heqb; rewrite <- Heqb; cbn; tauto|clear Heqb] end. discriminate. }
  destruct (hash_use_ok (a_hash a) x HI) as (digest & H). unfold to_sign_00, hashed_with. rewrite X. cbn [bind create_sig t2_hash]. rewrite H. cbn [bind].
  unfold finish. rewrite D. cbn [bind]. unfold sign_with_pka. rewrite PK, K. cbn [N.eqb Pos.eqb orb vec_at nth_error bind].
  assert (B : bitsize n <= 65528) by (apply bitsize_le; [lia|]; rewrite K in F; now apply Forall_cons_iff in F as [F _]).
  assert (BL : bitsize n / 8 < 2 ^ 32) by (apply N.div_lt_upper_bound; lia).
  destruct (C22_length (a_hash a) bits der digest (bitsize n / 8) HL AD (hash_use_len _ _ _ _ H HL) BL L) as (em & ? & ? & EM & _).
  rewrite N.shiftr_div_pow2. change (2 ^ 3) with 8. rewrite EM. cbn [bind].
  unfold key_pair in KP. rewrite PK, K in KP. cbn [N.eqb Pos.eqb] in KP.
  destruct KP as (n' & e' & d' & m1 & m2 & E1 & E2 & RK). injection E1 as <- <- <-. injection E2 as <- <-.
  rewrite K in F. apply Forall_cons_iff in F as [Fn _].
  pose proof EM as EM'. replace (bitsize n / 8) with (N.shiftr (bitsize n) 3) in EM' by (now rewrite N.shiftr_div_pow2).
  destruct (emsa_below _ _ _ _ _ H Fn EM') as [R BB].
  destruct (C41_verify_octets n e d more more' em (be_val em) [] RK R BB) as (s & SG & _). rewrite SG. cbn [bind].
  eexists. split; [reflexivity|]. discriminate.
Qed.
(** Example: a modulus of 299 bits, and MD5. *)
Definition big_p : N := 9444732965739290427553 * 2 ^ 76 + 1.
Definition big_q : N := 9444732965739290427661 * 2 ^ 76 + 1.
Definition big_d : N := 339505996055747681060197984157396060324351988048409703136212046513455846676019788569553579.
Lemma big_rsa : rsa_key (big_p * big_q) 3 big_d.
Proof.
  exists big_p, big_q. split.
  { apply (proth _ 9444732965739290427553 76 3); [reflexivity|reflexivity|split; [reflexivity|vm_compute; discriminate]|vm_compute; reflexivity]. }
  split.
  { apply (proth _ 9444732965739290427661 76 3); [reflexivity|reflexivity|split; [reflexivity|vm_compute; discriminate]|vm_compute; reflexivity]. }
  split; [vm_compute; discriminate|]. repeat split; vm_compute; reflexivity.
Qed.
Definition big_key : key := mkKey 4 1000 1 [big_p * big_q; 3] 0.
Definition big_sec : secret := mkSecret 0 0 None [] (write_MPI big_d ++ sum16 (write_MPI big_d)).
Definition big_pri : pgp := mkPgp true 3 [] [new_packet 5 (PSecret big_key big_sec); ex_user "a"; ex_sig 16].
Definition big_pub : pgp := mkPgp true 2 [] [new_packet 6 (PKey big_key); ex_user "a"; ex_sig 16].
Definition big_args : sign_args := mkArgs big_pri [] 4 1.
Example big_ex : args_valid big_args = Ok true /\ revoke_check big_pri = Ok 0%Z /\
  matching big_args big_key big_sec [big_d] big_pub /\ exists bits der, map_at hash_length 1 = Ok bits /\ map_at asn1_der 1 = Ok der /\
  len der / 2 + 3 + bits / 8 <= bitsize (big_p * big_q) / 8.
Proof.
  split; [reflexivity|]. split; [reflexivity|]. split.
  - split; [reflexivity|]. split; [do 2 eexists; split; [reflexivity|]; split; [reflexivity|]; cbn; auto|].
    split; [vm_compute; reflexivity|]. split.
    { unfold key_pair. cbn [big_key k_pka k_mpi N.eqb Pos.eqb]. do 5 eexists. split; [reflexivity|]. split; [reflexivity|]. exact big_rsa. }
    split; [repeat (apply Forall_cons; [unfold mpi_fits; apply N.log2_lt_pow2; reflexivity|]); constructor|].
    split; [reflexivity|]. do 2 eexists. split; [reflexivity|]. exists big_key. split; [now left|]. repeat split.
  - do 2 eexists. split; [reflexivity|]. split; [reflexivity|]. vm_compute. discriminate.
Qed.

(** ** C45 *)

Lemma signing_ok g p : find_signing_key g = Ok (Some p) ->
  In p (g_packets g) /\ In (p_tag p) [5; 6; 7; 14] /\ exists k, as_key p = Ok k /\ In (k_pka k) [1; 3; 17].
Proof.
  unfold find_signing_key. intros E. apply bind_ok in E as (m & _ & E). destruct m; [|discriminate].
  induction (g_packets g) as [|q r IH]; cbn [find_signing] in E; [discriminate|].
  destruct (is_key_packet (p_tag q)) eqn:T.
  - apply bind_ok in E as (k & A & E). destruct (can_sign (k_pka k)) eqn:C.
    + apply Ok_inj in E. assert (q = p) as <- by congruence. split; [now left|]. split.
      * unfold is_key_packet, is_primary_key, is_subkey, mem in T. cbn [existsb] in T. cbn [In]. lia.
      * exists k. split; [exact A|]. now apply can_sign_iff.
    + destruct (IH E) as (I & R). split; [now right|exact R].
  - destruct (IH E) as (I & R). split; [now right|exact R].
Qed.
Lemma as_key_inv p k : as_key p = Ok k -> p_body p = PKey k \/ exists x, p_body p = PSecret k x.
Proof. unfold as_key. destruct (p_body p); try discriminate; intros H; apply Ok_inj in H; subst; eauto. Qed.
Lemma as_sig_inv p s : as_sig p = Ok s -> p_body p = PSig s.
Proof. unfold as_sig. destruct (p_body p); try discriminate; intros H; apply Ok_inj in H; now subst. Qed.
Lemma signed_under_intro g p k s i digest : find_signing_key g = Ok (Some p) -> as_key p = Ok k ->
  hashed_with s i = Ok digest -> verify_key digest k s = Ok 1%Z -> exists x, i = Ok x /\ signed_under g s x.
Proof.
  intros F A H V. apply signing_ok in F as (I & T & k' & A' & C). assert (k' = k) as -> by congruence.
  unfold hashed_with in H. apply bind_ok in H as (x & -> & H). exists x. split; [reflexivity|].
  exists p, k, digest. repeat (split; [assumption || now apply as_key_inv|]). now apply with_pka_accepts in V.
Qed.
(** The trailer appended to the signed data depends on the signature only. *)
Lemma addtrailer_app d s x : addtrailer d s = Ok x -> exists t, addtrailer [] s = Ok t /\ x = d ++ t.
Proof.
  unfold addtrailer. intros E. apply bind_ok in E as (t & T & E). rewrite T. cbn [bind].
  destruct (t2_version s =? 3); [apply Ok_inj in E; eauto|]. destruct (t2_version s =? 4); [apply Ok_inj in E; eauto|discriminate].
Qed.
Lemma document_signed mm g sig input mk : (forall s, input s = hashed_with s (mk s)) -> mm <> 1%Z ->
  verify_document mm g sig input = Ok 1%Z ->
  exists p s x, g_packets sig = [p] /\ p_body p = PSig s /\ mk s = Ok x /\ signed_under g s x.
Proof.
  intros MK NM E. unfold verify_document in E. apply bind_ok in E as (m & _ & E). destruct m; [|discriminate]. cbn [negb] in E.
  destruct (detached_meaningful sig) eqn:D; [|discriminate]. cbn [negb] in E.
  apply bind_ok in E as (p & P & E). apply bind_ok in E as (s & S & E). apply bind_ok in E as (id & ID & E).
  destruct (len id =? 0); [discriminate|]. apply bind_ok in E as (id' & _ & E). destruct (beq id' id); [|discriminate]. cbn [negb] in E.
  apply bind_ok in E as (digest & I & E). destruct (beq (prefix digest 2) (t2_left16 s)); [|cbn [negb] in E; congruence]. cbn [negb] in E.
  apply bind_ok in E as (o & F & E). destruct o as [q|]; [|discriminate]. apply bind_ok in E as (k & A & E).
  rewrite MK in I. destruct (signed_under_intro g q k s (mk s) digest F A I E) as (x & X & SU).
  exists p, s, x. split; [|split; [now apply as_sig_inv|auto]].
  unfold detached_meaningful in D. apply andb_true_iff in D as [_ D]. apply Nat.eqb_eq in D.
  destruct (g_packets sig) as [|a [|? ?]]; try discriminate. cbn in P. apply Ok_inj in P. now subst.
Qed.
(** Detached signatures: the octets are the data and the trailer of the signature (for what
    the trailer says see C29). *)
Theorem C45_detached : forall g data sig, verify_detached g data sig = Ok 1%Z ->
  exists p s t, g_packets sig = [p] /\ p_body p = PSig s /\ addtrailer [] s = Ok t /\ signed_under g s (data ++ t).
Proof.
  intros g data sig E. apply (document_signed _ _ _ _ (fun s => input_00 data s)) in E as (p & s & x & P & B & X & SU); [|reflexivity|discriminate].
  apply addtrailer_app in X as (t & T & ->). eauto 8.
Qed.
Theorem C45_cleartext : forall g c, verify_cleartext g c = Ok 1%Z ->
  exists p s x, g_packets (cs_sig c) = [p] /\ p_body p = PSig s /\
    input_01 (data_to_text (cs_message c)) s = Ok x /\ signed_under g s x.
Proof. intros g c E. now apply (document_signed _ _ _ _ (fun s => input_01 (data_to_text (cs_message c)) s)) in E. Qed.
Theorem C45_timestamp : forall g sig, verify_timestamp g sig = Ok 1%Z ->
  exists p s t, g_packets sig = [p] /\ p_body p = PSig s /\ t2_type s = 64 /\ addtrailer [] s = Ok t /\ signed_under g s t.
Proof.
  intros g sig E. apply (document_signed _ _ _ _ input_40) in E as (p & s & x & P & B & X & SU); [|reflexivity|discriminate].
  unfold input_40 in X. destruct (t2_type s =? 64) eqn:T; [|discriminate]. exists p, s, x. repeat (split; [assumption || lia|]). auto.
Qed.

(** One-pass signed messages: some signature packet behind the signed packets. *)
Lemma vec_at_firstn {A} (l : list A) n x : vec_at l n = Ok x -> l = firstn n l ++ x :: skipn (S n) l.
Proof.
  revert l. induction n as [|n IH]; intros [|a l] E; try discriminate; cbn in E.
  - apply Ok_inj in E. now subst.
  - cbn [firstn skipn app]. f_equal. now apply IH.
Qed.
Lemma one_pass_signed g p k ps msg : find_signing_key g = Ok (Some p) -> as_key p = Ok k ->
  forall n opsp sp, one_pass_loop n k ps msg opsp sp = Ok 1%Z -> (msg <= sp)%nat ->
  exists a b q c s d t, ps = a ++ b ++ q :: c /\ length a = msg /\ p_body q = PSig s /\ signed_data b = Ok d /\
    addtrailer [] s = Ok t /\ signed_under g s (d ++ t).
Proof.
  intros F A. induction n as [|n IH]; intros opsp sp E L; cbn [one_pass_loop] in E; [discriminate|].
  apply bind_ok in E as (o & _ & E). apply bind_ok in E as (id & _ & E). apply bind_ok in E as (id' & _ & E).
  destruct (beq id id'); [|apply (IH _ _ E); lia].
  apply bind_ok in E as (d & D & E). apply bind_ok in E as (q & Q & E). apply bind_ok in E as (s & S & E).
  apply bind_ok in E as (digest & H & E). apply bind_ok in E as (rc & V & E). destruct (rc =? 0)%Z eqn:R; [apply (IH _ _ E); lia|].
  apply Ok_inj in E. subst rc. destruct (signed_under_intro _ _ _ _ _ _ F A H V) as (x & X & SU).
  apply addtrailer_app in X as (t & T & ->).
  pose proof (vec_at_firstn _ _ _ Q) as P. apply vec_at_inv in Q as (a0 & b0 & PS & LA).
  exists (firstn msg ps), (firstn (sp - msg) (skipn msg ps)), q, (skipn (Datatypes.S sp) ps), s, d, t.
  split.
  - rewrite P at 1. rewrite app_assoc. f_equal. rewrite <- (firstn_skipn msg (firstn sp ps)) at 1. f_equal.
    + rewrite firstn_firstn. f_equal. lia.
    + apply skipn_firstn_comm.
  - split; [|split; [now apply as_sig_inv|auto]]. rewrite firstn_length, PS, app_length. cbn [length]. lia.
Qed.
(** [m'] is inside the compressed message [m]. *)
Inductive inside (unzip : N -> bytes -> option bytes) : pgp -> pgp -> Prop :=
| inside_here m : inside unzip m m
| inside_compressed m p alg d data fuel m' m'' : g_packets m = [p] -> p_body p = PCompressed alg d ->
    codec unzip alg d = Ok data -> message_read unzip fuel data = Ok m' -> inside unzip (m_pgp m') m'' -> inside unzip m m''.

Lemma signed_message_signed g ps : (2 * one_pass_count ps < length ps)%nat -> verify_signed g ps = Ok 1%Z ->
  exists a b q c s d t, ps = a ++ b ++ q :: c /\ Forall (fun p => p_tag p = 4) a /\ a <> [] /\ p_body q = PSig s /\
    signed_data b = Ok d /\ addtrailer [] s = Ok t /\ signed_under g s (d ++ t).
Proof.
  intros L E. unfold verify_signed in E. apply bind_ok in E as (front & FR & E). apply bind_ok in E as (back & _ & E).
  destruct ((2 <? length ps)%nat && (p_tag front =? 4) && (p_tag back =? 2)) eqn:C; [|discriminate].
  apply andb_true_iff in C as [C _]. apply andb_true_iff in C as [_ C].
  unfold verify_one_pass in E. apply bind_ok in E as (o & F & E). destruct o as [p|]; [|discriminate].
  apply bind_ok in E as (k & A & E). destruct (one_pass_count ps =? length ps)%nat eqn:C1; [discriminate|].
  destruct (length ps - one_pass_count ps <? pred (one_pass_count ps))%nat eqn:C2; [discriminate|].
  assert (Q : forall l, exists a r, l = a ++ r /\ length a = one_pass_count l /\ Forall (fun p => p_tag p = 4) a).
  { induction l as [|x l (a & r & E' & La & Fa)]; [exists [], []; auto|]. cbn [one_pass_count]. destruct (p_tag x =? 4) eqn:T.
    - exists (x :: a), r. cbn [app length]. rewrite La. split; [now rewrite E' at 1|]. split; auto. constructor; [lia|auto].
    - exists [], (x :: l). repeat split; auto. }
  destruct (one_pass_signed g p k ps (one_pass_count ps) F A _ _ _ E ltac:(lia)) as (a & b & q & c & s & d & t & PS & LA & B & R).
  destruct (Q ps) as (a' & r & PS' & La & Fa). assert (a = a').
  { assert (H : firstn (length a) ps = a) by (rewrite PS, firstn_app, Nat.sub_diag, firstn_all; apply app_nil_r).
    assert (H' : firstn (length a') ps = a') by (rewrite PS', firstn_app, Nat.sub_diag, firstn_all; apply app_nil_r). congruence. }
  subst a'. exists a, b, q, c, s, d, t. split; [exact PS|]. split; [exact Fa|]. split; [|auto].
  intros ->. destruct ps as [|x ps]; [discriminate|]. cbn in FR. apply Ok_inj in FR. subst x. cbn [one_pass_count] in LA.
  rewrite C in LA. discriminate.
Qed.
Fixpoint leading (tags : list N) : nat := match tags with t :: r => if t =? 4 then S (leading r) else O | [] => O end.
Lemma leading_app a b : (leading (a ++ b) <= leading a + leading b)%nat.
Proof. induction a as [|x a IH]; cbn; [lia|]. destruct (x =? 4); cbn; lia. Qed.
Lemma leading_count ps : leading (map p_tag ps) = one_pass_count ps.
Proof. induction ps as [|p ps IH]; [reflexivity|]. cbn. now rewrite IH. Qed.
Lemma leading_esks tags : esk_sequence tags -> leading tags = O /\ tags <> [].
Proof.
  induction 1 as [a H|a b _ [IH NE] H]; [destruct H; split; [reflexivity|discriminate|reflexivity|discriminate]|].
  destruct a as [|x a]; [easy|]. split; [|discriminate]. cbn in *. destruct (x =? 4); [discriminate|reflexivity].
Qed.
Lemma balanced : (forall t, openpgp_message t -> (2 * leading t < length t)%nat) /\
  (forall t, signed_message t -> (2 * leading t < length t)%nat) /\
  (forall t, one_pass_signed_message t -> (2 * leading t < length t)%nat).
Proof.
  apply message_mutind; intros.
  - destruct H as [a []|a b H []]; cbn; try lia; apply leading_esks in H as [H NE]; destruct a as [|x a]; try easy;
      cbn in *; (destruct (x =? 4); [discriminate|]); lia.
  - assumption.
  - destruct H. cbn. lia.
  - destruct H. cbn. lia.
  - cbn. lia.
  - assumption.
  - cbn [app leading]. change (4 =? 4) with true. cbv iota. cbn [length]. rewrite app_length. cbn [length].
    pose proof (leading_app a [2]) as P. cbn in P. lia.
Qed.
(** Binary messages: true means that the message is a literal packet, or a one-pass signed
    message with an accepted signature, possibly inside compressed packets. *)
Theorem C45_binary_partial : forall unzip fuel g m, verify_binary fuel unzip g m = Ok 1%Z ->
  exists m', inside unzip m m' /\
    ((exists p, g_packets m' = [p] /\ p_tag p = 11) \/
     (exists a b q c s d t, g_packets m' = a ++ b ++ q :: c /\ Forall (fun p => p_tag p = 4) a /\ a <> [] /\ p_body q = PSig s /\
        signed_data b = Ok d /\ addtrailer [] s = Ok t /\ signed_under g s (d ++ t))).
Proof.
  intros unzip. induction fuel as [|fuel IH]; intros g m E; cbn [verify_binary] in E; [discriminate|].
  apply bind_ok in E as (b & _ & E). destruct b; [|discriminate]. cbn [negb] in E.
  apply bind_ok in E as (b & _ & E). destruct b; [|discriminate]. cbn [negb] in E.
  apply bind_ok in E as (b & _ & E). destruct b; [discriminate|].
  apply bind_ok in E as (b & SM & E). destruct b.
  { exists m. split; [constructor|]. right. apply signed_message_signed in E; [exact E|].
    apply C32_sound in SM as (_ & sy & S & H). cbn in S. assert (signed_message = sy) as <- by congruence.
    destruct balanced as (_ & B & _). apply B in H. now rewrite leading_count, map_length in H. }
  apply bind_ok in E as (b & CM & E). destruct b.
  { apply C32_sound in CM as (_ & sy & S & H). cbn in S. assert (compressed_message = sy) as <- by congruence.
    apply bind_ok in E as (p & P & E). apply bind_ok in E as ((alg & d) & A & E). apply bind_ok in E as (data & D & E).
    apply bind_ok in E as (m1 & M1 & E). apply IH in E as (m2 & I & R). exists m2. split; [|exact R].
    assert (PP : g_packets m = [p]).
    { apply vec_at_0 in P as (r & P). rewrite P in H |- *. destruct r as [|x r]; [reflexivity|]. cbn in H. inversion H. }
    eapply inside_compressed; eauto. unfold as_compressed in A. destruct (p_body p); try discriminate. apply Ok_inj in A. congruence. }
  apply bind_ok in E as (b & LM & E). destruct b; [|discriminate].
  apply C32_sound in LM as (_ & sy & S & H). cbn in S. assert (literal_message = sy) as <- by congruence.
  exists m. split; [constructor|]. left. destruct (g_packets m) as [|p [|? ?]]; cbn in H; inversion H. exists p. auto.
Qed.
(** A message that is not signed at all is accepted, with every key. *)
Theorem C45_literal_refuted : forall unzip fuel g m p, meaningful g = Ok true -> g_type m = 1 -> g_packets m = [p] -> p_tag p = 11 ->
  verify_binary (S fuel) unzip g m = Ok 1%Z.
Proof.
  intros unzip fuel g m p M T P T11. cbn [verify_binary]. rewrite M, T, P. cbn [bind negb map]. rewrite T11. reflexivity.
Qed.
(** With a DSA key, anyone can sign anything: integers 1 and 0 are accepted for all data. *)
Theorem C45_forged_refuted : forall g k p q y v more data now, meaningful g = Ok true -> has_primary g k ->
  k_version k = 4 -> k_pka k = 17 -> k_mpi k = p :: q :: y :: v :: more ->
  N.odd p = true -> 1 < p -> 1 < q ->
  exists s, t2_type s = 0 /\ t2_hashed s = [(false, Sub2 now)] /\ t2_mpi s = [1; 0] /\
    verify_detached g data (detached_of s) = Ok 1%Z.
Proof.
  intros g k p q y v more data now M HP V PK K O P Q. destruct (keyid_v4 k V) as (fp & id & _ & KI & _ & L & _).
  set (s := fun l => mkTag2 4 0 17 2 [1; 0] l 0 [] [(false, Sub2 now)] [(false, Sub16 id)]).
  assert (I0 : exists x, input_00 data (s []) = Ok x) by (eexists; reflexivity). destruct I0 as (x & I0).
  assert (I : forall l, input_00 data (s l) = Ok x) by (intros l; rewrite <- I0; reflexivity).
  destruct (hash_use_ok 2 x ltac:(cbn; auto)) as (digest & H).
  assert (D : forall l, to_sign_00 data (s l) = Ok digest).
  { intros l. unfold to_sign_00, hashed_with. rewrite I. exact H. }
  exists (s (prefix digest 2)). repeat (split; [reflexivity|]).
  unfold verify_detached. rewrite (verify_document_at 0 g _ (to_sign_00 data) id digest k); auto.
  2:{ rewrite PK. cbn. auto. } 2:{ lia. }
  cbn [t2_hash t2_pka t2_mpi s]. rewrite K. unfold verify_with_pka. cbn [N.eqb Pos.eqb orb]. unfold dsa_verify_raw.
  pose proof (hash_use_len 2 x digest 160 H eq_refl) as LD. change (160 / 8) with 20 in LD.
  destruct digest as [|c r]; [cbn in LD; lia|]. cbn [rawtompi bind]. now rewrite C43_forgery_refuted.
Qed.
(** The type of the signature is not looked at: a signature that binds a subkey (and likewise
    certifications and revocations), made with the same key, is accepted as a signature of
    the document made of the key packets' octets. *)
Theorem C63_type_refuted : forall g k sub s id digest, meaningful g = Ok true -> has_primary g k ->
  In (k_pka k) [1; 3; 17] -> get_keyid k = Ok id -> len id = 8 -> sig_keyid s = Ok id ->
  to_sign_18 k sub s = Ok digest -> t2_left16 s = prefix digest 2 ->
  verify_detached g (overkey k ++ overkey sub) (detached_of s) =
  verify_with_pka digest (t2_hash s) (t2_pka s) (k_mpi k) (t2_mpi s).
Proof.
  intros g k sub s id digest M HP C KI L SI D L16. unfold verify_detached. eapply verify_document_at; eauto. lia.
Qed.
Example C45_ex : verify_detached toy_pub (str "hello") toy_signature = Ok 1%Z /\
  (exists c, sign_cleartext toy_args 1234567890 (str "hello") [3] = Ok (c, []) /\ verify_cleartext toy_pub c = Ok 1%Z) /\
  (exists s, verify_detached toy_pub (str "anything") (detached_of s) = Ok 1%Z).
Proof.
  split; [vm_compute; reflexivity|]. split; [eexists; split; [vm_compute; reflexivity|vm_compute; reflexivity]|].
  destruct (C45_forged_refuted toy_pub toy_key 23 11 4 8 [] (str "anything") 5) as (s & _ & _ & _ & H); eauto; try reflexivity.
  do 2 eexists. split; [reflexivity|]. exists toy_key. split; [now left|]. repeat split.
Qed.
Example C63_ex : exists s rest, 
  (d <- to_sign_18 toy_key toy_key (create_sig 4 24 17 2 [38; 25; 250; 203; 37; 239; 15; 202] 5) ;;
   finish (create_sig 4 24 17 2 [38; 25; 250; 203; 37; 239; 15; 202] 5) d toy_key toy_sec [] 2 [3; 5]) = Ok (Some s, rest) /\
  verify_detached toy_pub (overkey toy_key ++ overkey toy_key) (detached_of s) = Ok 1%Z.
Proof. do 2 eexists. split; [vm_compute; reflexivity|vm_compute; reflexivity]. Qed.

(** Certifications (Verify::primary_key) and revocations (Verify::revoke). *)
Lemma certification_signed g q k : find_signing_key g = Ok (Some q) -> as_key q = Ok k -> forall ps o id,
  certification_loop k ps o id = Ok 1%Z ->
  exists k' u p s x, In p ps /\ p_body p = PSig s /\
    (Some k' = o \/ exists pk, In pk ps /\ as_key pk = Ok k') /\ (Some u = id \/ In u ps /\ (p_tag u = 13 \/ p_tag u = 17)) /\
    input_cert (t2_type s) k' (p_tag u) (p_body u) s = Ok x /\ In (t2_type s) [16; 17; 18; 19] /\ signed_under g s x.
Proof.
  intros F A. induction ps as [|p ps IH]; intros o id E; cbn [certification_loop] in E; [discriminate|].
  assert (W : forall o' id', certification_loop k ps o' id' = Ok 1%Z ->
    (forall k', Some k' = o' -> Some k' = o \/ as_key p = Ok k') -> (forall u, Some u = id' -> Some u = id \/ (u = p /\ (p_tag p = 13 \/ p_tag p = 17))) ->
    exists k' u p0 s x, In p0 (p :: ps) /\ p_body p0 = PSig s /\
    (Some k' = o \/ exists pk, In pk (p :: ps) /\ as_key pk = Ok k') /\ (Some u = id \/ In u (p :: ps) /\ (p_tag u = 13 \/ p_tag u = 17)) /\
    input_cert (t2_type s) k' (p_tag u) (p_body u) s = Ok x /\ In (t2_type s) [16; 17; 18; 19] /\ signed_under g s x).
  { intros o' id' E' HO HI. apply IH in E' as (k' & u & p0 & s & x & I & B & K & U & X). exists k', u, p0, s, x.
    split; [now right|]. split; [exact B|]. split; [|split; [|exact X]].
    - destruct K as [K|(pk & I' & K)]; [|right; exists pk; split; [now right|auto]].
      destruct (HO _ K) as [?|?]; [now left|right; exists p; split; [now left|auto]].
    - destruct U as [U|[U T]]; [|right; split; [now right|auto]]. destruct (HI _ U) as [?|[-> ?]]; [now left|right; split; [now left|auto]]. }
  destruct (is_primary_key (p_tag p)).
  { apply bind_ok in E as (k' & K & E). apply (W _ _ E); intros; [right; congruence|discriminate]. }
  destruct (is_user (p_tag p)) eqn:T.
  { apply (W _ _ E); intros; [auto|]. right. split; [congruence|]. unfold is_user, mem in T. cbn [existsb] in T. lia. }
  destruct (p_tag p =? 2); [|apply (W _ _ E); auto].
  apply bind_ok in E as (s & S & E). apply bind_ok in E as (rc & R & E). destruct (rc =? 0)%Z; [apply (W _ _ E); auto|].
  apply Ok_inj in E. subst rc. destruct o as [k'|]; [|discriminate]. unfold verify_certification in R.
  apply bind_ok in R as (a & _ & R). apply bind_ok in R as (b & _ & R). destruct (beq a b); [|discriminate]. cbn [negb] in R.
  apply bind_ok in R as (digest & D & R). destruct id as [u|]; [|discriminate].
  assert (H : exists t, t2_type s = t /\ In t [16; 17; 18; 19] /\ hashed_with s (input_cert t k' (p_tag u) (p_body u) s) = Ok digest).
  { exists (t2_type s). split; [reflexivity|]. unfold to_sign_cert in D. destruct (t2_type s) as [|t]; [discriminate|].
    do 5 (try destruct t as [t|t|]); try discriminate D; (split; [cbn; tauto|exact D]). }
  destruct H as (t & Ht & I & H). destruct (signed_under_intro _ _ _ _ _ _ F A H R) as (x & X & SU).
  exists k', u, p, s, x. split; [now left|]. split; [now apply as_sig_inv|]. split; [now left|]. split; [now left|].
  rewrite Ht. auto.
Qed.
Theorem C45_certification : forall signer signee, verify_primary_key signer signee = Ok 1%Z ->
  exists pk k u p s x, In pk (g_packets signee) /\ as_key pk = Ok k /\ In u (g_packets signee) /\ (p_tag u = 13 \/ p_tag u = 17) /\
    In p (g_packets signee) /\ p_body p = PSig s /\ In (t2_type s) [16; 17; 18; 19] /\
    input_cert (t2_type s) k (p_tag u) (p_body u) s = Ok x /\ signed_under signer s x.
Proof.
  intros signer signee E. unfold verify_primary_key in E. apply bind_ok in E as (m & _ & E). destruct m; [|discriminate]. cbn [negb] in E.
  apply bind_ok in E as (m & _ & E). destruct m; [|discriminate]. cbn [negb] in E. apply bind_ok in E as (id & _ & E).
  destruct (len id =? 0); [discriminate|]. apply bind_ok in E as (o & F & E). destruct o as [q|]; [|discriminate].
  apply bind_ok in E as (k & A & E). apply (certification_signed _ _ _ F A) in E as (k' & u & p & s & x & I & B & K & U & X & T & SU).
  destruct K as [K|(pk & Ik & K)]; [discriminate|]. destruct U as [U|[U TU]]; [discriminate|]. eauto 20.
Qed.
Lemma any_signed g q k s which digest mk : find_signing_key g = Ok (Some q) -> as_key q = Ok k ->
  (forall p d, digest p = Ok d -> hashed_with s (mk p) = Ok d) -> forall ps, any_verifies which digest k s ps = Ok 1%Z ->
  exists p x, In p ps /\ which (p_tag p) = true /\ mk p = Ok x /\ signed_under g s x.
Proof.
  intros F A H. induction ps as [|p ps IH]; intros E; cbn [any_verifies] in E; [discriminate|].
  destruct (which (p_tag p)) eqn:W.
  - apply bind_ok in E as (d & D & E). apply bind_ok in E as (rc & R & E). destruct (rc =? 0)%Z.
    + destruct (IH E) as (p' & x & I & Y). exists p', x. split; [now right|exact Y].
    + apply Ok_inj in E. subst rc. apply H in D. destruct (signed_under_intro _ _ _ _ _ _ F A D R) as (x & X & SU).
      exists p, x. split; [now left|auto].
  - destruct (IH E) as (p' & x & I & Y). exists p', x. split; [now right|exact Y].
Qed.
(** A revocation: of the primary key, of some subkey of it, or of some user of it. *)
Theorem C45_revoke : forall g cert, verify_revoke g cert = Ok 1%Z ->
  exists c s, g_packets cert = [c] /\ p_body c = PSig s /\
    ((t2_type s = 32 /\ exists p r k x, g_packets g = p :: r /\ as_key p = Ok k /\ addtrailer (overkey k) s = Ok x /\ signed_under g s x) \/
     (t2_type s = 40 /\ exists p k x, In p (g_packets g) /\ (p_tag p = 7 \/ p_tag p = 14) /\ as_key p = Ok k /\
        addtrailer (overkey k) s = Ok x /\ signed_under g s x) \/
     (t2_type s = 48 /\ exists p k x, In p (g_packets g) /\ (p_tag p = 13 \/ p_tag p = 17) /\
        input_cert 48 k (p_tag p) (p_body p) s = Ok x /\ signed_under g s x)).
Proof.
  intros g cert E. unfold verify_revoke in E. apply bind_ok in E as (m & _ & E). destruct m; [|discriminate]. cbn [negb] in E.
  apply bind_ok in E as (m & M & E). destruct m; [|discriminate]. cbn [negb] in E.
  apply bind_ok in E as (c & C & E). apply bind_ok in E as (s & S & E). apply bind_ok in E as (a & _ & E). apply bind_ok in E as (b & _ & E).
  destruct (beq a b); [|discriminate]. cbn [negb] in E. apply bind_ok in E as (o & F & E). destruct o as [q|]; [|discriminate].
  apply bind_ok in E as (k & A & E). exists c, s. split.
  { unfold revocation_meaningful in M. destruct (g_type cert =? 2); [|discriminate]. cbn [negb] in M.
    destruct (g_packets cert) as [|c' [|? ?]]; try discriminate. cbn in C. apply Ok_inj in C. now subst. }
  split; [now apply as_sig_inv|].
  destruct (t2_type s =? 32) eqn:T1.
  { left. split; [lia|]. apply bind_ok in E as (p & P & E). apply bind_ok in E as (k0 & K0 & E). apply bind_ok in E as (d & D & E).
    destruct (signed_under_intro _ _ _ _ _ _ F A D E) as (x & X & SU). apply vec_at_0 in P as (r & P). exists p, r, k0, x. auto. }
  destruct (t2_type s =? 40) eqn:T2.
  { right. left. split; [lia|].
    apply (any_signed g q k s _ _ (fun p => k' <- as_key p ;; input_28 (p_tag p) k' s) F A) in E as (p & x & I & W & X & SU).
    - apply bind_ok in X as (k' & K & X). exists p, k', x. split; [exact I|]. unfold is_subkey, mem in W. cbn [existsb] in W.
      split; [lia|]. split; [exact K|]. split; [|exact SU]. unfold input_28 in X. destruct (mem _ _); [|discriminate].
      destruct (t2_type s =? 40); [exact X|discriminate].
    - intros p d H. apply bind_ok in H as (k' & K & H). rewrite K. exact H. }
  destruct (t2_type s =? 48) eqn:T3; [|discriminate]. right. right. split; [lia|].
  apply (any_signed g q k s _ _ (fun p => input_cert 48 k (p_tag p) (p_body p) s) F A) in E as (p & x & I & W & X & SU); [|auto].
  exists p, k, x. split; [exact I|]. unfold is_user, mem in W. cbn [existsb] in W. split; [lia|]. auto.
Qed.

(** ** C46 *)

Definition verdict (z : Z) : Prop := z = (-1)%Z \/ z = 0%Z \/ z = 1%Z.
Ltac verdicts := unfold verdict; auto.
Lemma document_verdict mm g sig input z : verdict mm -> verify_document mm g sig input = Ok z -> verdict z.
Proof.
  intros MM E. unfold verify_document in E. apply bind_ok in E as (m & _ & E). destruct m; [|apply Ok_inj in E; subst; verdicts]. cbn [negb] in E.
  destruct (detached_meaningful sig) eqn:D; [|apply Ok_inj in E; subst; verdicts]. cbn [negb] in E.
  apply bind_ok in E as (p & P & E). apply bind_ok in E as (s & S & E). apply bind_ok in E as (id & ID & E).
  destruct (len id =? 0); [apply Ok_inj in E; subst; verdicts|]. apply bind_ok in E as (id' & _ & E).
  destruct (beq id' id); [|apply Ok_inj in E; subst; verdicts]. cbn [negb] in E.
  apply bind_ok in E as (digest & I & E). destruct (beq (prefix digest 2) (t2_left16 s)); [|cbn [negb] in E; apply Ok_inj in E; now subst]. cbn [negb] in E.
  apply bind_ok in E as (o & F & E). destruct o as [q|]; [|apply Ok_inj in E; subst; verdicts]. apply bind_ok in E as (k & A & E).
  now apply with_pka_values in E.
Qed.
Lemma one_pass_verdict k ps msg : forall n opsp sp z, one_pass_loop n k ps msg opsp sp = Ok z -> verdict z.
Proof.
  induction n as [|n IH]; intros opsp sp z E; cbn [one_pass_loop] in E; [apply Ok_inj in E; subst; verdicts|].
  apply bind_ok in E as (o & _ & E). apply bind_ok in E as (id & _ & E). apply bind_ok in E as (id' & _ & E).
  destruct (beq id id'); [|apply (IH _ _ _ E)].
  apply bind_ok in E as (d & D & E). apply bind_ok in E as (q & Q & E). apply bind_ok in E as (s & S & E).
  apply bind_ok in E as (digest & H & E). apply bind_ok in E as (rc & V & E). destruct (rc =? 0)%Z eqn:R; [apply (IH _ _ _ E)|].
  apply Ok_inj in E. subst z. now apply with_pka_values in V.
Qed.
Lemma binary_verdict unzip : forall fuel g m z, verify_binary fuel unzip g m = Ok z -> verdict z.
Proof.
  induction fuel as [|fuel IH]; intros g m z E; cbn [verify_binary] in E; [discriminate|].
  apply bind_ok in E as (b & _ & E). destruct b; [|apply Ok_inj in E; subst; verdicts]. cbn [negb] in E.
  apply bind_ok in E as (b & _ & E). destruct b; [|apply Ok_inj in E; subst; verdicts]. cbn [negb] in E.
  apply bind_ok in E as (b & _ & E). destruct b; [apply Ok_inj in E; subst; verdicts|].
  apply bind_ok in E as (b & SM & E). destruct b.
  { unfold verify_signed in E. apply bind_ok in E as (front & FR & E). apply bind_ok in E as (back & _ & E).
    destruct (_ && _); [|apply Ok_inj in E; subst; verdicts].
    unfold verify_one_pass in E. apply bind_ok in E as (o & F & E). destruct o as [p|]; [|apply Ok_inj in E; subst; verdicts].
    apply bind_ok in E as (k & A & E). destruct (_ =? _)%nat; [apply Ok_inj in E; subst; verdicts|].
    destruct (_ <? _)%nat; [apply Ok_inj in E; subst; verdicts|]. now apply one_pass_verdict in E. }
  apply bind_ok in E as (b & CM & E). destruct b.
  { apply bind_ok in E as (p & P & E). apply bind_ok in E as ((alg & d) & A & E). apply bind_ok in E as (data & D & E).
    apply bind_ok in E as (m1 & M1 & E). now apply IH in E. }
  apply bind_ok in E as (b & LM & E). destruct b; apply Ok_inj in E; subst; verdicts.
Qed.
Lemma certification_verdict k : forall ps o id z, certification_loop k ps o id = Ok z -> verdict z.
Proof.
  induction ps as [|p ps IH]; intros o id z E; cbn [certification_loop] in E; [apply Ok_inj in E; subst; verdicts|].
  destruct (is_primary_key (p_tag p)); [apply bind_ok in E as (k' & K & E); now apply IH in E|].
  destruct (is_user (p_tag p)); [now apply IH in E|]. destruct (p_tag p =? 2); [|now apply IH in E].
  apply bind_ok in E as (s & S & E). apply bind_ok in E as (rc & R & E). destruct (rc =? 0)%Z; [now apply IH in E|].
  apply Ok_inj in E. subst rc. destruct o as [k'|]; [|discriminate]. unfold verify_certification in R.
  apply bind_ok in R as (a & _ & R). apply bind_ok in R as (b & _ & R). destruct (beq a b); [|apply Ok_inj in R; subst; verdicts]. cbn [negb] in R.
  apply bind_ok in R as (digest & D & R). now apply with_pka_values in R.
Qed.
Lemma any_verdict which digest k s : forall ps z, any_verifies which digest k s ps = Ok z -> verdict z.
Proof.
  induction ps as [|p ps IH]; intros z E; cbn [any_verifies] in E; [apply Ok_inj in E; subst; verdicts|].
  destruct (which (p_tag p)); [|now apply IH]. apply bind_ok in E as (d & D & E). apply bind_ok in E as (rc & R & E).
  destruct (rc =? 0)%Z; [now apply IH|]. apply Ok_inj in E. subst. now apply with_pka_values in R.
Qed.
(** Every answer is 1, 0 or -1. *)
Theorem C46_verdicts : forall unzip fuel g data sig c m signee cert z,
  verify_detached g data sig = Ok z \/ verify_cleartext g c = Ok z \/ verify_timestamp g sig = Ok z \/
  verify_binary fuel unzip g m = Ok z \/ verify_primary_key g signee = Ok z \/ verify_revoke g cert = Ok z ->
  z = (-1)%Z \/ z = 0%Z \/ z = 1%Z.
Proof.
  intros unzip fuel g data sig c m signee cert z [E|[E|[E|[E|[E|E]]]]].
  - apply document_verdict in E; verdicts.
  - apply document_verdict in E; verdicts.
  - apply document_verdict in E; verdicts.
  - now apply binary_verdict in E.
  - unfold verify_primary_key in E. apply bind_ok in E as (b & _ & E). destruct b; [|apply Ok_inj in E; subst; auto]. cbn [negb] in E.
    apply bind_ok in E as (b & _ & E). destruct b; [|apply Ok_inj in E; subst; auto]. cbn [negb] in E. apply bind_ok in E as (id & _ & E).
    destruct (len id =? 0); [apply Ok_inj in E; subst; auto|]. apply bind_ok in E as (o & F & E).
    destruct o as [q|]; [|apply Ok_inj in E; subst; auto]. apply bind_ok in E as (k & A & E). now apply certification_verdict in E.
  - unfold verify_revoke in E. apply bind_ok in E as (b & _ & E). destruct b; [|apply Ok_inj in E; subst; auto]. cbn [negb] in E.
    apply bind_ok in E as (b & _ & E). destruct b; [|apply Ok_inj in E; subst; auto]. cbn [negb] in E.
    apply bind_ok in E as (p & _ & E). apply bind_ok in E as (s & _ & E). apply bind_ok in E as (a & _ & E). apply bind_ok in E as (b & _ & E).
    destruct (beq a b); [|apply Ok_inj in E; subst; auto]. cbn [negb] in E. apply bind_ok in E as (o & F & E).
    destruct o as [q|]; [|apply Ok_inj in E; subst; auto]. apply bind_ok in E as (k & A & E).
    destruct (t2_type s =? 32).
    { apply bind_ok in E as (? & _ & E). apply bind_ok in E as (? & _ & E). apply bind_ok in E as (? & _ & E). now apply with_pka_values in E. }
    destruct (t2_type s =? 40); [now apply any_verdict in E|]. destruct (t2_type s =? 48); [now apply any_verdict in E|].
    apply Ok_inj in E. subst. auto.
Qed.

Lemma map_at_safe {A} (l : list (N * A)) k : safe (map_at l k).
Proof. induction l as [|(x, a) l IH]; cbn; [exact I|]. now destruct (x =? k). Qed.
Lemma with_pka_safe digest k s : checkable k s -> safe (verify_key digest k s).
Proof.
  unfold verify_key, verify_with_pka, checkable. intros C.
  assert (H : ((t2_pka s =? 1) || (t2_pka s =? 3)) = true \/ t2_pka s = 17 \/ (((t2_pka s =? 1) || (t2_pka s =? 3)) = false /\ (t2_pka s =? 17) = false)) by lia.
  destruct H as [H|[H|[H H']]].
  - rewrite H. assert (C' : exists n e m v w, k_mpi k = n :: e :: m /\ t2_mpi s = v :: w /\ N.odd n = true).
    { destruct (t2_pka s) as [|t]; [discriminate|]. do 2 (try destruct t as [t|t|]); try discriminate; assumption. }
    destruct C' as (n & e & m & v & w & -> & -> & O). cbn [vec_at nth_error bind]. apply safe_bind.
    + unfold emsa_encode. apply safe_bind; [apply map_at_safe|].
      intros der Hd. apply safe_bind; [apply map_at_safe|].
      intros bits _. cbv zeta. destruct (_ <? _); [|exact I]. apply safe_bind; [|intros; exact I].
      unfold asn1_der in Hd. cbn [map_at] in Hd.
      repeat match type of Hd with (if ?b then _ else _) = _ => destruct b; [apply Ok_inj in Hd; subst der; vm_compute; exact I|] end. discriminate.
    + intros em _. apply safe_bind; [|intros; exact I]. unfold rsa_verify_raw. apply safe_bind; [unfold rawtompi; destruct em; exact I|].
      intros x _. unfold rsa_verify, rsa_encrypt. cbn [vec_at nth_error bind]. rewrite mpz_powm_ok by auto. exact I.
  - rewrite H in *. cbn [N.eqb Pos.eqb orb]. destruct C as (p & q & g & y & m & r & v & w & -> & -> & O & Q).
    apply safe_bind; [|intros; exact I]. unfold dsa_verify_raw. apply safe_bind; [unfold rawtompi; destruct digest; exact I|].
    intros x _. unfold dsa_verify. cbn [vec_at nth_error bind].
    assert (P0 : p <> 0) by (intros ->; discriminate).
    assert (T : forall b : bool, safe (if b then Ok false else
      w0 <- invert v q ;; u1 <- mpz_mod (x * w0) q ;; u2 <- mpz_mod (r * w0) q ;; gu <- mpz_powm g u1 p ;; yu <- mpz_powm y u2 p ;;
      v0 <- mpz_mod (gu * yu) p ;; v0 <- mpz_mod v0 q ;; Ok (v0 =? r))).
    { intros []; [exact I|]. unfold invert, mpz_mod. replace (q =? 0) with false by lia. replace (p =? 0) with false by lia. cbn [bind].
      rewrite !mpz_powm_ok by auto. exact I. }
    destruct (0 <? r); cbn [bind]; apply T.
  - rewrite H, H'. exact I.
Qed.

Lemma keyid_safe k : (k_version k < 4 -> k_mpi k <> []) -> safe (get_keyid k).
Proof.
  intros H. destruct (k_version k <? 4) eqn:L.
  - unfold get_keyid. rewrite L. destruct (k_mpi k); [exfalso; apply H; [lia|reflexivity]|]. cbn [vec_at nth_error bind]. apply safe_substr.
  - destruct (N.eq_dec (k_version k) 4) as [V|V].
    + destruct (keyid_v4 k V) as (fp & id & _ & -> & _). exact I.
    + unfold get_keyid. rewrite L. replace (k_version k =? 4) with false by lia. exact I.
Qed.
Lemma typed_key p : typed p -> In (p_tag p) [5; 6; 7; 14] -> exists k, as_key p = Ok k.
Proof.
  unfold typed, as_key. intros T C. cbn [In] in C.
  destruct C as [C|[C|[C|[C|[]]]]]; rewrite <- C in T; [destruct T as (k & s & ->)|destruct T as (k & ->)|destruct T as (k & s & ->)|destruct T as (k & ->)]; eauto.
Qed.
Lemma hash_use_safe h d : safe (hash_use h d).
Proof.
  unfold hash_use, hash_alg. destruct h as [|h]; [exact I|]. do 4 (try destruct h as [h|h|]); exact I.
Qed.
Lemma addtrailer_safe d s : safe (addtrailer d s).
Proof.
  unfold addtrailer, get_up_to_hashed. destruct (t2_version s =? 3); [exact I|]. destruct (t2_version s =? 4); exact I.
Qed.
Lemma hashed_safe s i : safe i -> safe (hashed_with s i).
Proof. intros H. apply safe_bind; [exact H|]. intros. apply hash_use_safe. Qed.
Lemma raw_safe c : safe (raw c).
Proof.
  destruct c; cbn [raw]; try exact I. unfold secret_raw. apply safe_bind; [|intros; exact I].
  destruct (_ || _); [|exact I]. destruct (sk_s2k _); exact I.
Qed.
Lemma input_cert_safe ty k tag id s : safe (input_cert ty k tag id s).
Proof.
  unfold input_cert, certification. destruct (_ =? ty); [|exact I]. apply safe_bind; [|intros; apply addtrailer_safe].
  destruct (_ =? 3); [apply raw_safe|]. destruct (_ =? 4); [|exact I]. apply safe_bind; [apply raw_safe|].
  intros. destruct (tag =? 13); [exact I|]. destruct (tag =? 17); exact I.
Qed.
Lemma sig_keyid_safe s : safe (sig_keyid s).
Proof.
  unfold sig_keyid. destruct (_ =? 3); [exact I|]. destruct (_ =? 4); [|exact I]. destruct (find_issuer _); [exact I|]. destruct (find_issuer _); exact I.
Qed.

(** A key as the parser makes it (or any with packets of the right classes), not of the form
    of C33_range_refuted, whose key packets have the values signature [s] asks for. *)
Definition fit_for (g : pgp) (s : tag2) : Prop :=
  forall p k, In p (g_packets g) -> In (p_tag p) [5; 6; 7; 14] -> as_key p = Ok k ->
    (k_version k < 4 -> k_mpi k <> []) /\ (In (k_pka k) [1; 3; 17] -> checkable k s).
Definition sound_key (g : pgp) : Prop := Forall typed (g_packets g) /\ ~ bare (g_type g) (g_packets g).
Lemma sound_answers g : sound_key g -> exists b, meaningful g = Ok b.
Proof. intros [T B]. destruct (meaningful_answers (g_type g) (g_packets g) T); [assumption|contradiction]. Qed.
Lemma typed_sig p : typed p -> p_tag p = 2 -> exists s, as_sig p = Ok s /\ p_body p = PSig s.
Proof. unfold typed, as_sig. intros T E. rewrite E in T. destruct T as (s & B). rewrite B. eauto. Qed.
Lemma sound_keyid g s : sound_key g -> fit_for g s -> safe (keyid g).
Proof.
  intros S F. unfold keyid, primary. destruct (sound_answers g S) as (b & M). rewrite M. cbn [bind]. destruct b; [|exact I].
  destruct (meaningful_first g M) as (p & r & E & T). rewrite E. cbn [vec_at nth_error bind].
  destruct S as [TY _]. rewrite E in TY. apply Forall_cons_iff in TY as [TY _].
  assert (IT : In (p_tag p) [5; 6; 7; 14]) by (cbn; destruct T; auto). destruct (typed_key p TY IT) as (k & A). rewrite A. cbn [bind].
  apply keyid_safe. apply (F p k); auto. rewrite E. now left.
Qed.
Lemma signing_safe g : sound_key g -> safe (find_signing_key g).
Proof.
  intros S. unfold find_signing_key. destruct (sound_answers g S) as (b & ->). cbn [bind]. destruct b; [|exact I]. destruct S as [S _].
  induction (g_packets g) as [|p r IH]; [exact I|]. apply Forall_cons_iff in S as [T S]. cbn [find_signing].
  destruct (is_key_packet (p_tag p)) eqn:K; [|auto]. destruct (typed_key p T) as (k & A).
  { unfold is_key_packet, is_primary_key, is_subkey, mem in K. cbn [existsb] in K. cbn [In]. lia. }
  rewrite A. cbn [bind]. destruct (can_sign _); [exact I|auto].
Qed.
Lemma document_safe mm g sig input : sound_key g -> (forall s, safe (input s)) ->
  Forall typed (g_packets sig) -> Forall (fun p => p_tag p = 2) (g_packets sig) ->
  (forall p s, In p (g_packets sig) -> p_body p = PSig s -> fit_for g s) ->
  safe (verify_document mm g sig input).
Proof.
  intros S IS T TG FF. unfold verify_document. destruct (sound_answers g S) as (b & ->). cbn [bind]. destruct b; [|exact I]. cbn [negb].
  destruct (detached_meaningful sig) eqn:D; [|exact I]. cbn [negb].
  unfold detached_meaningful in D. apply andb_true_iff in D as [_ D]. apply Nat.eqb_eq in D.
  destruct (g_packets sig) as [|p [|? ?]]; try discriminate. cbn [vec_at nth_error bind].
  apply Forall_cons_iff in T as [T _]. apply Forall_cons_iff in TG as [TG _]. destruct (typed_sig p T TG) as (s & A & B). rewrite A. cbn [bind].
  specialize (FF p s (or_introl eq_refl) B).
  apply safe_bind; [apply sig_keyid_safe|]. intros id _. destruct (len id =? 0); [exact I|].
  apply safe_bind; [now apply (sound_keyid g s)|]. intros id' _. destruct (beq id' id); [|exact I]. cbn [negb].
  apply safe_bind; [apply IS|]. intros digest _. destruct (beq _ _); [|exact I]. cbn [negb].
  apply safe_bind; [now apply signing_safe|]. intros o O. destruct o as [q|]; [|exact I].
  apply signing_ok in O as (I' & TQ & k & K & C). rewrite K. cbn [bind]. apply with_pka_safe. now apply (FF q k).
Qed.
(** Under these conditions there is no access outside the key's or signature's values. *)
Theorem C46_documents_partial : forall g data sig c, sound_key g ->
  Forall typed (g_packets sig) -> Forall (fun p => p_tag p = 2) (g_packets sig) ->
  (forall p s, In p (g_packets sig) -> p_body p = PSig s -> fit_for g s) -> cs_sig c = sig ->
  safe (verify_detached g data sig) /\ safe (verify_cleartext g c) /\ safe (verify_timestamp g sig).
Proof.
  intros g data sig c S T TG FF <-. split; [|split]; apply document_safe; auto; intros s; apply hashed_safe.
  - apply addtrailer_safe.
  - apply addtrailer_safe.
  - unfold input_40. destruct (_ =? 64); [apply addtrailer_safe|exact I].
Qed.
Theorem C46_certification_partial : forall g signee, sound_key g -> sound_key signee ->
  (forall p s, In p (g_packets signee) -> p_body p = PSig s -> fit_for g s) -> (exists s, fit_for g s) ->
  safe (verify_primary_key g signee).
Proof.
  intros g signee S S' FF (s0 & F0). unfold verify_primary_key. destruct (sound_answers g S) as (b & ->). cbn [bind]. destruct b; [|exact I]. cbn [negb].
  destruct (sound_answers signee S') as (b & M). rewrite M. cbn [bind]. destruct b; [|exact I]. cbn [negb].
  apply safe_bind; [now apply (sound_keyid g s0)|]. intros id _. destruct (len id =? 0); [exact I|].
  apply safe_bind; [now apply signing_safe|]. intros o O. destruct o as [q|]; [|exact I].
  apply signing_ok in O as (I' & TQ & k & K & C). rewrite K. cbn [bind].
  destruct (meaningful_first signee M) as (p & r & E & TP). destruct S' as [TY _]. rewrite E in *. apply Forall_cons_iff in TY as [T0 TY].
  cbn [certification_loop]. replace (is_primary_key (p_tag p)) with true by (destruct TP as [-> | ->]; reflexivity).
  destruct (typed_key p T0) as (k0 & ->); [cbn; destruct TP; auto|]. cbn [bind].
  assert (FF' : forall p s, In p r -> p_body p = PSig s -> fit_for g s) by (intros; eapply FF; [right; eassumption|assumption]).
  clear - FF' TY K I' TQ C. revert k0 FF' TY. generalize (@None packet). induction r as [|p r IH]; intros u k0 FF TY; [exact I|].
  apply Forall_cons_iff in TY as [T0 TY]. cbn [certification_loop].
  assert (FF' : forall p s, In p r -> p_body p = PSig s -> fit_for g s) by (intros; eapply FF; [right; eassumption|assumption]).
  destruct (is_primary_key (p_tag p)) eqn:P.
  { destruct (typed_key p T0) as (k1 & ->); [|cbn [bind]; auto]. unfold is_primary_key, mem in P. cbn [existsb] in P. cbn [In]. lia. }
  destruct (is_user (p_tag p)); [auto|]. destruct (p_tag p =? 2) eqn:T2; [|auto].
  destruct (typed_sig p T0 ltac:(lia)) as (s & A & B). rewrite A. cbn [bind]. pose proof (FF p s (or_introl eq_refl) B q k I' TQ K) as [F1 F2].
  apply safe_bind; [|intros rc _; destruct (rc =? 0)%Z; [auto|exact I]].
  unfold verify_certification. apply safe_bind; [now apply keyid_safe|]. intros a _. apply safe_bind; [apply sig_keyid_safe|]. intros b _.
  destruct (beq a b); [|exact I]. cbn [negb]. apply safe_bind; [|intros; apply with_pka_safe; auto].
  destruct u as [u|]; [|exact I].
  unfold to_sign_cert. destruct (t2_type s) as [|t]; [exact I|].
  do 5 (try destruct t as [t|t|]); try exact I; apply hashed_safe, input_cert_safe.
Qed.
(** Other signatures and keys are undefined behaviour: a detached signature object may hold
    any packet; *)
Theorem C46_packet_refuted : forall g sig p data, meaningful g = Ok true -> g_type sig = 6 -> g_packets sig = [p] ->
  (forall s, p_body p <> PSig s) -> verify_detached g data sig = UB.
Proof.
  intros g sig p data M T P B. unfold verify_detached, verify_document, detached_meaningful. rewrite M, T, P. cbn [bind negb N.eqb Pos.eqb length Nat.eqb andb].
  cbn [vec_at nth_error bind]. unfold as_sig. destruct (p_body p); try reflexivity. now edestruct B.
Qed.
(** a DSA signature made to look like one of an RSA key indexes past the key's two values; *)
Theorem C46_algorithm_refuted : forall g k n e data now r v, meaningful g = Ok true -> has_primary g k ->
  k_version k = 4 -> k_pka k = 1 -> k_mpi k = [n; e] -> 0 < r < e -> e <> 0 ->
  exists s, t2_pka s = 17 /\ t2_mpi s = [r; v] /\ t2_hashed s = [(false, Sub2 now)] /\
    verify_detached g data (detached_of s) = UB.
Proof.
  intros g k n e data now r v M HP V PK K R E0. destruct (keyid_v4 k V) as (fp & id & _ & KI & _ & L & _).
  set (s := fun l => mkTag2 4 0 17 2 [r; v] l 0 [] [(false, Sub2 now)] [(false, Sub16 id)]).
  assert (I0 : exists x, input_00 data (s []) = Ok x) by (eexists; reflexivity). destruct I0 as (x & I0).
  assert (I : forall l, input_00 data (s l) = Ok x) by (intros l; rewrite <- I0; reflexivity).
  destruct (hash_use_ok 2 x ltac:(cbn; auto)) as (digest & H).
  assert (D : forall l, to_sign_00 data (s l) = Ok digest).
  { intros l. unfold to_sign_00, hashed_with. rewrite I. exact H. }
  exists (s (prefix digest 2)). repeat (split; [reflexivity|]).
  unfold verify_detached. rewrite (verify_document_at 0 g _ (to_sign_00 data) id digest k); auto.
  2:{ rewrite PK. cbn. auto. } 2:{ lia. }
  cbn [t2_hash t2_pka t2_mpi s]. rewrite K. unfold verify_with_pka. cbn [N.eqb Pos.eqb orb]. unfold dsa_verify_raw.
  pose proof (hash_use_len 2 x digest 160 H eq_refl) as LD. change (160 / 8) with 20 in LD.
  destruct digest as [|c d]; [cbn in LD; lia|]. cbn [rawtompi bind]. unfold dsa_verify. cbn [vec_at nth_error bind].
  replace (0 <? r) with true by lia. replace (r <? e) with true by lia. cbn [bind negb andb].
  unfold invert, mpz_mod. replace (e =? 0) with false by lia. reflexivity.
Qed.
Example C46_ex : sound_key toy_pub /\ Forall typed (g_packets toy_signature) /\
  (forall p s, In p (g_packets toy_signature) -> p_body p = PSig s -> fit_for toy_pub s).
Proof.
  split; [|split; [typed_all|]].
  - split; [typed_all|]. intros (k & revs & E & _ & F & _). injection E as <- <-. apply Forall_cons_iff in F as [[T _] _]. discriminate.
  - intros p s [<-|[]] B. injection B as <-. intros q k I T A. cbn in I. destruct I as [<-|[<-|[<-|[]]]]; try discriminate A.
    cbn in A. apply Ok_inj in A. subst k. split; [discriminate|]. intros _. cbn. do 8 eexists. repeat split; discriminate.
Qed.
Example C46_certification_ex : sound_key toy_pub /\
  (forall p s, In p (g_packets toy_pub) -> p_body p = PSig s -> fit_for toy_pub s) /\ (exists s, fit_for toy_pub s) /\
  verify_primary_key toy_pub toy_pub = Ok 0%Z.
Proof.
  destruct C46_ex as (S & _ & F). split; [exact S|]. split; [|split; [eexists; eapply F; [now left|reflexivity]|vm_compute; reflexivity]].
  intros p s I B. cbn in I. destruct I as [<-|[<-|[<-|[]]]]; try discriminate B. injection B as <-.
  intros q k I T A. cbn in I. destruct I as [<-|[<-|[<-|[]]]]; try discriminate A.
  cbn in A. apply Ok_inj in A. subst k. split; [discriminate|]. intros _. cbn. do 5 eexists. repeat split.
Qed.
Example C46_refuted_ex : exists s, verify_detached (mkPgp true 2 [] [ex_pub 6; ex_user "a"]) (str "hello") (detached_of s) = UB.
Proof.
  destruct (C46_algorithm_refuted (mkPgp true 2 [] [ex_pub 6; ex_user "a"]) ex_key 35 5 (str "hello") 7 1 1) as (s & _ & _ & _ & H);
    try reflexivity; try lia; eauto.
  do 2 eexists. split; [reflexivity|]. exists ex_key. split; [now left|]. repeat split.
Qed.


(** ** C64: signing with a passphrase that does not open the key *)

(** The secret values are then an empty list, whose first element is used. *)
Theorem C64_rsa_refuted : forall a k sec n e more now data draws bits der,
  args_valid a = Ok true -> revoke_check (a_pri a) = Ok 0%Z -> a_version a = 4 -> signs_with (a_pri a) k sec ->
  decrypt_secret_keys sec (a_pass a) = Ok [] -> Forall mpi_fits (k_mpi k) ->
  k_version k = 4 -> k_pka k = 1 -> k_mpi k = n :: e :: more ->
  map_at hash_length (a_hash a) = Ok bits -> map_at asn1_der (a_hash a) = Ok der ->
  len der / 2 + 3 + bits / 8 <= bitsize n / 8 ->
  sign_detached a now data draws = UB.
Proof.
  intros a k sec n e more now data draws bits der AV RC V4 SW D F V PK K HL AD L.
  unfold sign_detached. rewrite AV. cbn [bind negb].
  destruct (signs_found _ _ _ (args_meaningful a AV) SW) as (p & FS & A). rewrite FS. cbn [bind]. rewrite RC. cbn [bind].
  change (negb (0 =? 0)%Z) with false. cbv iota. rewrite A. cbn [bind].
  destruct (keyid_v4 k V) as (fp & id & _ & KI & _). rewrite KI. cbn [bind]. rewrite V4.
  assert (X : exists x, input_00 data (create_sig 4 0 (k_pka k) (a_hash a) id now) = Ok x) by (eexists; reflexivity). destruct X as (x & X).
  assert (HI : In (a_hash a) hashes).
  { unfold map_at, asn1_der in AD. cbn [hashes In].
    repeat match type of AD with (if ?b then _ else _) = _ => destruct b eqn:?; [apply N.eqb_eq in Heqb; rewrite <- Heqb; cbn; tauto|clear Heqb] end. discriminate. }
  destruct (hash_use_ok (a_hash a) x HI) as (digest & H). unfold to_sign_00, hashed_with. rewrite X. cbn [bind create_sig t2_hash]. rewrite H. cbn [bind].
  unfold finish. rewrite D. cbn [bind]. unfold sign_with_pka. rewrite PK, K. cbn [N.eqb Pos.eqb orb vec_at nth_error bind].
  assert (B : bitsize n <= 65528) by (apply bitsize_le; [lia|]; rewrite K in F; now apply Forall_cons_iff in F as [F _]).
  assert (BL : bitsize n / 8 < 2 ^ 32) by (apply N.div_lt_upper_bound; lia).
  destruct (C22_length (a_hash a) bits der digest (bitsize n / 8) HL AD (hash_use_len _ _ _ _ H HL) BL L) as (em & ? & ? & EM & _ & _ & EQ).
  rewrite N.shiftr_div_pow2. change (2 ^ 3) with 8. rewrite EM, EQ. reflexivity.
Qed.
(** DSA, likewise, for a random number that gives r <> 0. *)
Theorem C64_dsa_refuted : forall digest m p q g y more hash k draws, rawtompi digest = Ok m -> N.odd p = true -> 1 < q -> k < q ->
  (g ^ k mod p) mod q <> 0 ->
  sign_with_pka digest 17 [] (p :: q :: g :: y :: more) hash (k :: draws) = UB.
Proof.
  intros digest m p q g y more hash k draws M O Q K R. unfold sign_with_pka. cbn [N.eqb Pos.eqb orb]. unfold dsa_sign_raw. rewrite M. cbn [bind].
  unfold dsa_sign. change (0 =? 0) with true. cbv iota. cbn [length dsa_rounds vec_at nth_error N.to_nat Pos.to_nat Pos.iter_op Nat.add bind].
  unfold vec_at. change (N.to_nat 1) with 1%nat. cbn [nth_error bind].
  assert (B : bitsize q <> 0 /\ q < 2 ^ bitsize q).
  { unfold bitsize. split; [lia|]. apply N.lt_le_trans with (2 ^ N.size q); [apply N.size_gt|]. apply N.pow_le_mono_r; lia. }
  unfold random. replace (bitsize q =? 0) with false by lia. cbn [bind].
  rewrite N.mod_small by lia. rewrite mpz_mod_ok by lia. rewrite N.mod_small by lia. cbn [bind].
  unfold dsa_try, vec_at. change (N.to_nat 2) with 2%nat. change (N.to_nat 1) with 1%nat. change (N.to_nat 0) with 0%nat. cbn [nth_error bind].
  rewrite mpz_powm_ok by exact O. cbn [bind]. rewrite mpz_mod_ok by lia. cbn [bind].
  replace ((g ^ k mod p) mod q =? 0) with false by lia. unfold invert. replace (q =? 0) with false by lia. reflexivity.
Qed.
(** A protected DSA key: with its passphrase it signs, with another one the call is undefined. *)
Definition toy_protected : result sign_args :=
  y <- encrypt_secret_keys (cast_protection 254 2) (str "pw") [7] ;;
  Ok (mkArgs (mkPgp true 3 [] [new_packet 5 (PSecret toy_key (with_secret (cast_protection 254 2) y)); ex_user "a"; ex_sig 16]) (str "pw") 4 2).
Example C64_ex :
  (a <- toy_protected ;; ' (g, _) <- sign_detached a 1234567890 (str "hello") [3; 5] ;; verify_detached toy_pub (str "hello") g) = Ok 1%Z /\
  (a <- toy_protected ;; args_valid (mkArgs (a_pri a) (str "wrong") 4 2)) = Ok true /\
  (a <- toy_protected ;; sign_detached (mkArgs (a_pri a) (str "wrong") 4 2) 1234567890 (str "hello") [3; 5]) = UB.
Proof. split; [vm_compute; reflexivity|]. split; [vm_compute; reflexivity|vm_compute; reflexivity]. Qed.
(** The RSA hypotheses are met by a key whose stored sum is wrong. *)
Definition big_broken : sign_args :=
  mkArgs (mkPgp true 3 [] [new_packet 5 (PSecret big_key (mkSecret 0 0 None [] [0; 3; 5; 0; 9])); ex_user "a"; ex_sig 16]) [] 4 1.
Example C64_rsa_ex : args_valid big_broken = Ok true /\ revoke_check (a_pri big_broken) = Ok 0%Z /\
  decrypt_secret_keys (mkSecret 0 0 None [] [0; 3; 5; 0; 9]) [] = Ok [] /\
  sign_detached big_broken 1 (str "x") [] = UB.
Proof. split; [vm_compute; reflexivity|]. split; [vm_compute; reflexivity|]. split; [vm_compute; reflexivity|vm_compute; reflexivity]. Qed.

Print Assumptions C44_detached_partial.
Print Assumptions C44_cleartext_partial.
Print Assumptions C44_timestamp_partial.
Print Assumptions C44_binary_partial.
Print Assumptions C44_public_partial.
Print Assumptions C44_sign_only_refuted.
Print Assumptions C44_version3_refuted.
Print Assumptions C44_subkey_refuted.
Print Assumptions C44_binding_refuted.
Print Assumptions C44_rsa.
Print Assumptions C45_detached.
Print Assumptions C45_cleartext.
Print Assumptions C45_timestamp.
Print Assumptions C45_binary_partial.
Print Assumptions C45_literal_refuted.
Print Assumptions C45_forged_refuted.
Print Assumptions C63_type_refuted.
Print Assumptions C45_certification.
Print Assumptions C45_revoke.
Print Assumptions C46_verdicts.
Print Assumptions C46_documents_partial.
Print Assumptions C46_certification_partial.
Print Assumptions C46_packet_refuted.
Print Assumptions C46_algorithm_refuted.
Print Assumptions C64_rsa_refuted.
Print Assumptions C64_dsa_refuted.
