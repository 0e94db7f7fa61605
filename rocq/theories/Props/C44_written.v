(** Property C44, continued: signatures that are written, read back and then verified. *)
From Verif Require Import Proofs.SignP Proofs.MadeP Proofs.CryptP Proofs.ArmorP Proofs.MessageIOP Spec.Armor Props.C10_C12 Props.C14_C15 Props.C44_C46 Props.C65_C66.
Local Open Scope N_scope.

Lemma version_ok : Forall armor_key_ok version_cc.
Proof.
  constructor; [|constructor]. unfold armor_key_ok. cbn [fst snd].
  split; [intros X; vm_compute in X; decompose [or] X; discriminate || contradiction|].
  split; [intros X; vm_compute in X; decompose [or] X; discriminate || contradiction|].
  split; [intros X; vm_compute in X; decompose [or] X; discriminate || contradiction|].
  split; [exists 99, [99]; split; [reflexivity|]; intros X; vm_compute in X; decompose [or] X; discriminate || contradiction|].
  split; [exists [99], 99; split; [reflexivity|]; intros X; vm_compute in X; decompose [or] X; discriminate || contradiction|]. reflexivity.
Qed.
(** A detached signature in its armored form.  The key's integers have at most 16384 bits. *)
Theorem C44_detached_written_partial : forall a k sec pri g now data draws sig rest,
  matching a k sec pri g -> Forall moderate (k_mpi k) -> now < 2 ^ 32 ->
  sign_detached a now data draws = Ok (sig, rest) -> g_packets sig <> [] ->
  exists text, pgp_write sig ArmorYes = Ok text /\ pgp_read pgp_new text = Ok sig /\ verify_detached g data sig = Ok 1%Z.
Proof.
  intros a k sec pri g now data draws sig rest M MO T E NE. pose proof (C44_detached_partial a k sec pri g now data draws sig rest M E NE) as V.
  unfold sign_detached in E. apply bind_ok in E as (v & AV & E).
  destruct v; [|apply Ok_inj in E; injection E as <- <-; now destruct NE]. cbn [negb] in E.
  pose proof M as (V4 & SW & D & KP & F & _). destruct (signs_found _ _ _ (args_meaningful a AV) SW) as (p & FS & A). rewrite FS in E. cbn [bind] in E.
  apply bind_ok in E as (rc & _ & E). destruct (rc =? 0)%Z; [|apply Ok_inj in E; injection E as <- <-; now destruct NE].
  cbn [negb] in E. rewrite A in E. cbn [bind] in E. apply bind_ok in E as (id & KI & E). apply bind_ok in E as (digest & I & E).
  apply bind_ok in E as ((r & d') & FI & E). apply Ok_inj in E. destruct r as [s'|].
  2:{ assert (sig = detached_new) as -> by congruence. now destruct NE. }
  assert (sig = detached_of s') as -> by congruence.
  apply finish_ok in FI as (pri' & vals & D' & S & NEV & ->). rewrite D in D'. apply Ok_inj in D'. subst pri'. rewrite V4 in *.
  apply hashed_with_use in I as (x & HU). cbn [create_sig t2_hash] in HU.
  assert (C : In (k_pka k) [1; 3; 17]) by (destruct SW as (? & ? & _ & _ & C); exact C).
  assert (C2 : k_pka k = 1 \/ k_pka k = 17).
  { destruct C as [C|[C|[C|[]]]]; auto. rewrite <- C in S. apply Ok_inj in S. congruence. }
  destruct (made_fits x digest k pri draws vals d' 0 (a_hash a) id now HU C2 KP MO S (keyid_len k id F KI) T) as (SF & LS & O).
  specialize (O (keyid_octets k id KI) eq_refl). set (s := with_values _ _ _) in *.
  destruct (new_written 2 (PSig s) _ eq_refl) as (w & W & LW).
  assert (SQ : sequence 0 [new_packet 2 (PSig s)]).
  { eapply sequence_new; [reflexivity|reflexivity| | | |intros; exact Logic.I].
    - unfold readable_length. lia. - split; [reflexivity|exact SF]. - intros h _. cbn [placed]. discriminate. }
  assert (WP : write_packets (g_packets (detached_of s)) = Ok w) by (cbn [detached_of g_packets write_packets]; rewrite W; cbn [bind]; now rewrite app_nil_r).
  assert (OW : octets w) by exact (new_write_octets 2 (PSig s) _ w eq_refl O W).
  destruct (C14_armor_data_partial 6 version_cc w ltac:(lia)) as (text & AT & RT); auto.
  { exact version_ok. } { intros ->. cbn in LW. lia. } { lia. }
  exists text. unfold pgp_write. rewrite WP. cbn [bind detached_of g_type g_keys]. split; [exact AT|]. split; [|exact V].
  rewrite RT, (C10_sequence_roundtrip_partial _ _ SQ WP). reflexivity.
Qed.
(** A signed message: the octets read back are the packets that were signed. *)
Lemma binary_shape zip unzip fuel a k sec pri g filename data now now' draws m rest :
  matching a k sec pri g -> Forall moderate (k_mpi k) -> now < 2 ^ 32 -> now' < 2 ^ 32 -> len filename < 256 ->
  readable_length NEW (6 + len filename + len data) ->
  sign_binary zip unzip fuel a filename data 0 now now' draws = Ok (m, rest) -> g_packets (m_pgp m) <> [] ->
  exists id s, m = mkMessage (mkPgp true 1 version_cc [new_packet 4 (POnePass 3 0 (a_hash a) (k_pka k) id 1);
                     new_packet 11 (PLiteral 98 filename now data); new_packet 2 (PSig s)]) None /\
    sequence 0 (g_packets (m_pgp m)) /\ len id = 8 /\ octets id /\ In (k_pka k) [1; 17] /\ In (a_hash a) hashes /\
    octets (tag2_raw s) /\ len (tag2_raw s) <= 4126.
Proof.
  intros M MO T T' LF RL E NE. unfold sign_binary in E. apply bind_ok in E as (v & AV & E).
  destruct v; [|apply Ok_inj in E; injection E as <- <-; now destruct NE]. cbn [negb] in E.
  pose proof M as (V4 & SW & D & KP & F & _). destruct (signs_found _ _ _ (args_meaningful a AV) SW) as (p & FS & A). rewrite FS in E. cbn [bind] in E.
  rewrite A in E. cbn [bind] in E. apply bind_ok in E as (id & KI & E). apply bind_ok in E as (digest & I & E).
  apply bind_ok in E as ((r & d') & FI & E). destruct r as [s'|].
  2:{ apply Ok_inj in E. assert (m = message_new) as -> by congruence. now destruct NE. }
  change (0 =? 0) with true in E. cbv iota in E. apply Ok_inj in E. injection E as <- _.
  apply finish_ok in FI as (pri' & vals & D' & S & NEV & ->). rewrite D in D'. apply Ok_inj in D'. subst pri'. rewrite V4 in *.
  apply hashed_with_use in I as (x & HU). cbn [create_sig t2_hash] in HU.
  assert (C : In (k_pka k) [1; 3; 17]) by (destruct SW as (? & ? & _ & _ & C); exact C).
  assert (C2 : k_pka k = 1 \/ k_pka k = 17).
  { destruct C as [C|[C|[C|[]]]]; auto. rewrite <- C in S. apply Ok_inj in S. congruence. }
  pose proof (keyid_len k id F KI) as LI.
  destruct (made_fits x digest k pri draws vals d' 0 (a_hash a) id now' HU C2 KP MO S LI T') as (SF & LS & O).
  specialize (O (keyid_octets k id KI) eq_refl). set (s := with_values _ _ _) in *.
  exists id, s. split; [reflexivity|]. split; [now apply signed_sequence|]. split; [exact LI|]. split; [now apply keyid_octets in KI|].
  split; [cbn [In]; intuition|]. split; [|now split].
  unfold hash_use, hash_alg in HU. destruct (a_hash a) as [|q]; [discriminate|]. repeat (destruct q as [q|q|]; try discriminate HU); cbn; tauto.
Qed.
Theorem C44_binary_written_partial : forall zip unzip unzip' fuel fuel' a k sec pri g filename data now now' draws m rest,
  matching a k sec pri g -> Forall moderate (k_mpi k) -> now < 2 ^ 32 -> now' < 2 ^ 32 -> len filename < 256 ->
  readable_length NEW (6 + len filename + len data) ->
  sign_binary zip unzip fuel a filename data 0 now now' draws = Ok (m, rest) -> g_packets (m_pgp m) <> [] ->
  exists w, message_raw zip m = Ok w /\ len w < 2 ^ 63 /\
    message_read_raw unzip' (S fuel') w = Ok (g_packets (m_pgp m), None) /\
    verify_binary (S fuel') unzip' g (m_pgp m) = Ok 1%Z.
Proof.
  intros zip unzip unzip' fuel fuel' a k sec pri g filename data now now' draws m rest M MO T T' LF RL E NE.
  pose proof (C44_binary_partial zip unzip fuel fuel' a k sec pri g filename data now now' draws m rest M E NE) as V.
  destruct (binary_shape _ _ _ _ _ _ _ _ _ _ _ _ _ _ _ M MO T T' LF RL E NE) as (id & s & -> & SQ & LI & _ & _ & _ & _ & LS).
  unfold message_raw. cbn [m_pgp m_comp g_packets write_packets] in *.
  destruct (new_written 4 (POnePass 3 0 (a_hash a) (k_pka k) id 1) _ eq_refl) as (w1 & W1 & L1).
  destruct (new_written 11 (PLiteral 98 filename now data) _ eq_refl) as (w2 & W2 & L2).
  destruct (new_written 2 (PSig s) _ eq_refl) as (w3 & W3 & L3).
  rewrite W1, W2, W3. cbn [bind]. rewrite app_nil_r. eexists. split; [reflexivity|].
  split.
  { rewrite !len_app. rewrite !len_cons, !len_app, LI in L1. rewrite !len_cons, !len_app, len_be in L2. unfold readable_length in RL.
    change (len [1]) with 1 in L1. lia. }
  split; [|exact V]. cbn [message_read_raw].
  rewrite (C10_sequence_roundtrip_partial _ _ SQ); [reflexivity|]. cbn [write_packets]. rewrite W1, W2, W3. cbn [bind]. now rewrite app_nil_r.
Qed.

(** Examples: the DSA key of C44. *)
Example C44_written_ex : matching toy_args toy_key toy_sec [7] toy_pub /\ Forall moderate (k_mpi toy_key) /\
  (exists sig rest, sign_detached toy_args 1234567890 (str "hello") [3; 5] = Ok (sig, rest) /\ g_packets sig <> []) /\
  (exists m rest, sign_binary (fun _ _ => None) (fun _ _ => None) 2 toy_args (str "f") (str "hello") 0 5 1234567890 [3] = Ok (m, rest) /\ g_packets (m_pgp m) <> []).
Proof.
  split; [exact toy_matching|]. split.
  { repeat (apply Forall_cons; [unfold moderate; apply N.log2_lt_pow2; reflexivity|]); constructor. }
  split; (do 2 eexists; split; [vm_compute; reflexivity|discriminate]).
Qed.

Print Assumptions C44_detached_written_partial.
Print Assumptions C44_binary_written_partial.
