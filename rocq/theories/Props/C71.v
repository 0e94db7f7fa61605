(** Property C71: misuse is reported by std::runtime_error - not by another exception, not by
    undefined behaviour, and not by a result. *)
From Verif Require Import Proofs.SigcalcP Proofs.SignatureP Proofs.KeyP Proofs.MergeP Model.MessageIO Model.Verify Proofs.MessageP Props.C32 Props.C33_C35.

Notation refuses x := (x = Throw ERuntime).

(** A signature that is neither version 3 nor 4 has no signed octets, times or issuer. *)
Theorem C71_signature_version : forall s, t2_version s <> 3 -> t2_version s <> 4 ->
  (forall data, refuses (to_sign_00 data s)) /\ (forall data, refuses (to_sign_01 data s)) /\ refuses (to_sign_02 s) /\
  (forall type k tag id, refuses (to_sign_cert type k tag id s)) /\ (forall k tag id, refuses (to_sign_30 k tag id s)) /\
  (forall p k, refuses (to_sign_18 p k s)) /\ (forall p k, refuses (to_sign_19 p k s)) /\
  (forall k, refuses (to_sign_1f k s)) /\ (forall tag k, refuses (to_sign_20 tag k s)) /\
  (forall tag k, refuses (to_sign_28 tag k s)) /\ refuses (to_sign_40 s) /\
  refuses (get_times s) /\ refuses (sig_keyid s).
Proof.
  intros s H3 H4.
  assert (E3 : (t2_version s =? 3) = false) by lia. assert (E4 : (t2_version s =? 4) = false) by lia.
  assert (A : forall d, addtrailer d s = Throw ERuntime).
  { intros d. unfold addtrailer, get_up_to_hashed. rewrite E3, E4. reflexivity. }
  assert (C : forall type k tag id, input_cert type k tag id s = Throw ERuntime).
  { intros. unfold input_cert, certification. rewrite E3, E4. cbn [bind]. now destruct (t2_type s =? type). }
  repeat apply conj; intros;
    unfold to_sign_00, to_sign_01, to_sign_02, to_sign_cert, to_sign_10, to_sign_11, to_sign_12, to_sign_13, to_sign_30,
      to_sign_18, to_sign_19, to_sign_1f, to_sign_20, to_sign_28, to_sign_40, hashed_with, input_00, input_01, input_02,
      input_18, input_1f, input_20, input_28, input_40, get_times, sig_keyid; rewrite ?C, ?A, ?E3, ?E4; try reflexivity.
  - do 5 try (destruct type as [|type]; try reflexivity; do 5 try (destruct type as [type|type|]; try reflexivity)).
  - destruct (mem _ _); [destruct (t2_type s =? _)|]; reflexivity.
  - destruct (mem _ _); [destruct (t2_type s =? _)|]; reflexivity.
  - destruct (t2_type s =? _); reflexivity.
Qed.
(** The signed octets of a signature are only given by the function for its own type. *)
Theorem C71_signature_type : forall s k tag id,
  (t2_type s <> 0x10 -> refuses (to_sign_10 k tag id s)) /\ (t2_type s <> 0x11 -> refuses (to_sign_11 k tag id s)) /\
  (t2_type s <> 0x12 -> refuses (to_sign_12 k tag id s)) /\ (t2_type s <> 0x13 -> refuses (to_sign_13 k tag id s)) /\
  (forall cert, t2_type s <> cert -> refuses (to_sign_cert cert k tag id s)) /\
  (forall cert, ~ 0x10 <= cert <= 0x13 -> refuses (to_sign_cert cert k tag id s)) /\
  (t2_type s <> 0x20 -> refuses (to_sign_20 tag k s)) /\ (t2_type s <> 0x28 -> refuses (to_sign_28 tag k s)) /\
  (t2_type s <> 0x30 -> refuses (to_sign_30 k tag id s)) /\ (t2_type s <> 0x40 -> refuses (to_sign_40 s)).
Proof.
  intros s k tag id.
  assert (C : forall type, t2_type s <> type -> hashed_with s (input_cert type k tag id s) = Throw ERuntime).
  { intros. unfold hashed_with, input_cert. now replace (t2_type s =? type) with false by lia. }
  assert (O : forall cert, ~ 0x10 <= cert <= 0x13 -> to_sign_cert cert k tag id s = Throw ERuntime).
  { intros cert H. unfold to_sign_cert. destruct cert as [|p]; [reflexivity|]. do 5 try (destruct p as [p|p|]; try reflexivity); lia. }
  repeat apply conj; try (intros; now apply C); auto.
  - intros cert H. destruct (N.le_gt_cases 16 cert) as [L|L]; [destruct (N.le_gt_cases cert 19) as [L'|L']|]; [|apply O; lia..].
    assert (cert = 16 \/ cert = 17 \/ cert = 18 \/ cert = 19) as [->|[->|[->| ->]]] by lia; now apply C.
  - intros H. unfold to_sign_20, hashed_with, input_20. replace (t2_type s =? 32) with false by lia. now destruct (mem _ _).
  - intros H. unfold to_sign_28, hashed_with, input_28. replace (t2_type s =? 40) with false by lia. now destruct (mem _ _).
  - intros H. unfold to_sign_40, hashed_with, input_40. now replace (t2_type s =? 64) with false by lia.
Qed.
(** A key revocation is about a primary key, a subkey revocation about a subkey; version 3 has
    no standalone signatures. *)
Theorem C71_signature_key : forall s k tag,
  (tag <> 5 -> tag <> 6 -> refuses (to_sign_20 tag k s)) /\ (tag <> 7 -> tag <> 14 -> refuses (to_sign_28 tag k s)) /\
  (t2_version s = 3 -> refuses (to_sign_02 s)).
Proof.
  intros s k tag. repeat apply conj; intros; unfold to_sign_20, to_sign_28, to_sign_02, hashed_with, input_20, input_28, input_02, mem.
  - cbn [existsb]. replace (tag =? 5) with false by lia. now replace (tag =? 6) with false by lia.
  - cbn [existsb]. replace (tag =? 7) with false by lia. now replace (tag =? 14) with false by lia.
  - rewrite H. reflexivity.
Qed.
(** A version 4 signature without a creation time in its hashed area has no times, whatever
    its unhashed area says. *)
Lemma scan_no_time l : (forall c x, ~ In (c, Sub2 x) l) -> forall a b e, fst (fst (scan_times true l (a, b, e))) = a.
Proof.
  unfold scan_times. induction l as [|[c x] l IH]; intros H a b e; [reflexivity|]. cbn [fold_left snd].
  assert (IH' := IH (fun c x Hx => H c x (or_intror Hx))).
  destruct x; try apply IH'. exfalso. eapply H. left. reflexivity.
Qed.
Lemma scan_unhashed l : forall a b e, fst (fst (scan_times false l (a, b, e))) = a.
Proof.
  unfold scan_times. induction l as [|[c x] l IH]; intros a b e; [reflexivity|]. cbn [fold_left snd]. destruct x; apply IH.
Qed.
Theorem C71_creation_time : forall s, t2_version s = 4 -> (forall c x, ~ In (c, Sub2 x) (t2_hashed s)) ->
  refuses (get_times s).
Proof.
  intros s V H. unfold get_times. rewrite V. cbn [N.eqb Pos.eqb].
  pose proof (scan_no_time _ H 0 0 0) as A. destruct (scan_times true (t2_hashed s) (0, 0, 0)) as [[a b] e]. cbn [fst] in A. subst a.
  pose proof (scan_unhashed (t2_unhashed s) 0 b e) as A. destruct (scan_times false (t2_unhashed s) (0, b, e)) as [[a' b'] e']. cbn [fst] in A. now subst a'.
Qed.
(** Reading a version 4 signature whose first hashed subpacket is of a type the library does
    not know throws, even if the subpacket is not marked critical. *)
Definition subpacket_types : list N := [2;3;4;5;6;7;9;10;11;12;16;20;21;22;23;24;25;26;27;28;29;30;31;32].
Theorem C71_unknown_subpacket : forall l t more type pka hash rest,
  l < 192 -> ~ In (t mod 128) subpacket_types -> len (l :: t :: more) < 65536 ->
  refuses (tag2_of ([4; type; pka; hash] ++ be 2 (len (l :: t :: more)) ++ (l :: t :: more) ++ rest)).
Proof.
  intros l t more type pka hash rest Hl Ht Hlen. set (hd := l :: t :: more) in *.
  set (data := [4; type; pka; hash] ++ be 2 (len hd) ++ hd ++ rest).
  assert (L : 0 <? len data = true) by (unfold data; cbn [app]; unfold len; cbn [length]; lia).
  unfold tag2_of. rewrite L. unfold tag2_read. rewrite tag2_read_n_S.
  assert (A0 : at_ data 0 = Ok 4) by reflexivity. rewrite A0. cbn [bind N.eqb Pos.eqb].
  assert (A1 : at_ data (0 + 1) = Ok type) by (apply (at_app [4]); reflexivity).
  assert (A2 : at_ data (0 + 2) = Ok pka) by (apply (at_app [4; type]); reflexivity).
  assert (A3 : at_ data (0 + 3) = Ok hash) by (apply (at_app [4; type; pka]); reflexivity).
  assert (S4 : substr data (0 + 4) 2 = Ok (be 2 (len hd))).
  { apply (substr_app [4; type; pka; hash] (be 2 (len hd)) (hd ++ rest)); [reflexivity|]. unfold len. now rewrite be_length. }
  assert (T : u16 (toint256 (be 2 (len hd))) = len hd).
  { rewrite toint256_be by lia. change (256 ^ N.of_nat 2) with 65536. rewrite N.mod_small by exact Hlen. unfold u16. now apply N.mod_small. }
  assert (S6 : substr data (0 + 4 + 2) (len hd) = Ok hd).
  { unfold data. rewrite app_assoc. apply substr_app; [|reflexivity]. unfold len. rewrite app_length, be_length. reflexivity. }
  unfold tag2_v4. rewrite A1, A2, A3, S4. cbn [bind]. rewrite T, S6. cbn [bind].
  assert (R : forall n, read_subpackets (tag2_embed (length data)) (S n) hd 0 = Throw ERuntime); [|now rewrite R].
  intros n. cbn [read_subpackets]. unfold hd. 
  replace (0 <? len (l :: t :: more)) with true by (unfold len; cbn [length]; lia).
  unfold read_subpacket. cbn [at_ hd_error]. rewrite at_0. cbn [bind].
  assert (U : u8 l = l) by (unfold u8; apply N.mod_small; lia). rewrite U. replace (l <? 192) with true by lia.
  unfold read_one_octet_lengths. rewrite at_0. cbn [bind N.add]. rewrite at_cons. cbn [Pos.pred_N]. rewrite at_0. cbn [bind].
  assert (M : N.land t 127 = t mod 128) by exact (N.land_ones t 7). rewrite M. clear -Ht.
  assert (X : forall x, ~ In x subpacket_types -> @sub_new tag2 x = Throw ERuntime); [|now rewrite X].
  intros x Hx. unfold sub_new. destruct x as [|p]; [reflexivity|].
  do 6 try (destruct p as [p|p|]; try reflexivity); exfalso; apply Hx; cbn; tauto.
Qed.
(** Salted specifiers cut before the end of the salt. *)
Theorem C71_short_salt : forall t h salt, len salt < 8 ->
  refuses (s2k_read S2K1 (t :: h :: salt) 0) /\ refuses (s2k_read S2K3 (t :: h :: salt) 0).
Proof.
  intros t h salt H. unfold s2k_read. rewrite at_0. cbn [bind N.add].
  rewrite at_cons. cbn [Pos.pred_N]. rewrite at_0. cbn [bind].
  assert (S : substr (t :: h :: salt) 2 8 = Ok salt).
  { rewrite substr_cons. cbn [Pos.pred_N]. rewrite substr_cons. cbn [Pos.pred_N]. apply substr_0_all. lia. }
  rewrite S. cbn [bind]. now replace (len salt =? 8) with false by lia.
Qed.
(** A protected secret key without its specifier. *)
Theorem C71_missing_s2k : forall s pass, sk_con s = 254 \/ sk_con s = 255 -> sk_s2k s = None ->
  refuses (calculate_key s pass).
Proof.
  intros s pass C N. unfold calculate_key. rewrite N. replace (sk_con s =? 0) with false by lia.
  now replace ((sk_con s =? 254) || (sk_con s =? 255)) with true by lia.
Qed.
(** What is not a transferable key has no key ID, fingerprint, version or parts to merge. *)
Theorem C71_not_a_key : forall g, meaningful g = Ok false ->
  refuses (keyid g) /\ refuses (fingerprint g) /\ refuses (version g).
Proof. intros g H. unfold keyid, fingerprint, version, primary. rewrite H. auto. Qed.
Theorem C71_not_mergeable : forall type ps, key_meaningful type (map snd ps) = Ok false -> refuses (get_pkey type ps).
Proof. intros type ps H. unfold get_pkey. now rewrite H. Qed.
(** Packets that are not an OpenPGP message (RFC 4880 section 11.3) are never read as one: an
    exception, or the undefined behaviour of C32_range_refuted. *)
Theorem C71_not_a_message : forall unzip fuel data g, pgp_read pgp_new data = Ok g ->
  ~ openpgp_message (map p_tag (g_packets g)) ->
  refuses (message_read unzip fuel data) \/ message_read unzip fuel data = UB.
Proof.
  intros unzip fuel data g R N. unfold message_read. rewrite R. cbn [bind].
  pose proof (C32_ends false 1 (map p_tag (g_packets g)) OPENM) as A.
  destruct (message_match false 1 (map p_tag (g_packets g)) OPENM) as [b|e| |] eqn:E; try contradiction A; cbn [bind]; auto.
  destruct b; [|now left]. exfalso. apply C32_sound in E as (_ & sy & S & H). cbn in S. injection S as <-. contradiction.
Qed.

(** Examples: a version 5 signature; a certification under the function for another type; an
    unhashed creation time; a cut salt; packets that are no key. *)
Definition ex_v (v type : N) : tag2 := mkTag2 v type 1 1 [7] [0; 0] 0 [1;2;3;4;5;6;7;8] [] [(false, Sub2 7); (false, Sub16 [1;2;3;4;5;6;7;8])].
Example C71_signature_ex : t2_version (ex_v 5 16) = 5 /\ refuses (to_sign_00 (str "a") (ex_v 5 0)) /\ refuses (sig_keyid (ex_v 5 16)) /\
  refuses (to_sign_13 ex_key 13 (PRaw (str "a")) (ex_v 4 16)) /\ safe (to_sign_10 ex_key 13 (PRaw (str "a")) (ex_v 4 16)) /\
  refuses (to_sign_20 14 ex_key (ex_v 4 32)) /\ refuses (get_times (ex_v 4 16)).
Proof. repeat apply conj; try reflexivity; vm_compute; exact I. Qed.
Example C71_unknown_ex : ~ In (100 mod 128) subpacket_types /\
  refuses (tag2_of ([4; 0; 1; 8] ++ be 2 (len [3; 100; 1; 2]) ++ [3; 100; 1; 2] ++ [0; 0; 5; 5; 0; 1; 1])) /\
  safe (tag2_of ([4; 0; 1; 8] ++ be 2 (len [5; 2; 0; 0; 1; 2]) ++ [5; 2; 0; 0; 1; 2] ++ [0; 0; 5; 5; 0; 1; 1])).
Proof. repeat apply conj; try reflexivity; [cbn; intuition discriminate|..]; vm_compute; exact I. Qed.
Example C71_others_ex : refuses (s2k_read S2K1 [1; 8; 1; 2; 3] 0) /\
  refuses (calculate_key (mkSecret 254 9 None [] []) (str "p")) /\
  refuses (keyid (mkPgp true 2 [] [ex_sig 16; ex_pub 6])) /\ refuses (get_pkey 2 [(0, ex_sig 16); (1, ex_pub 6)]) /\
  exists g, pgp_read pgp_new [204; 1; 65; 203; 6; 98; 0; 0; 0; 0; 0] = Ok g /\ ~ openpgp_message (map p_tag (g_packets g)) /\
    refuses (message_read (fun _ _ => None) 3 [204; 1; 65; 203; 6; 98; 0; 0; 0; 0; 0]).
Proof.
  repeat apply conj; try reflexivity. eexists. split; [vm_compute; reflexivity|]. split; [|vm_compute; reflexivity].
  intros H. apply (C32_complete _ OPENM openpgp_message eq_refl) in H. vm_compute in H. discriminate.
Qed.

Print Assumptions C71_signature_version.
Print Assumptions C71_signature_type.
Print Assumptions C71_signature_key.
Print Assumptions C71_creation_time.
Print Assumptions C71_unknown_subpacket.
Print Assumptions C71_short_salt.
Print Assumptions C71_missing_s2k.
Print Assumptions C71_not_a_key.
Print Assumptions C71_not_mergeable.
Print Assumptions C71_not_a_message.
