(** Properties C13 and C58: packet contents. *)
From Verif Require Import Proofs.PacketRT.

(** ** C13 *)

(** What precedes does not matter, for every tag except 1 (session key), 17 (user
    attribute) and version 3 signatures: same contents, same exception, same undefined
    behaviour. *)
Theorem C13_prefix_partial : forall tag pre data pos length,
  tag <> 1 -> tag <> 17 -> (tag = 2 -> at_ data pos <> Ok 3) ->
  tag_read tag (pre ++ data) (len pre + pos) length = tag_read tag data pos length.
Proof. intros. apply tag_read_shift. repeat split; auto. Qed.

(** A packet of one of these tags (signature, one-pass, public key, compressed, encrypted,
    marker, trust, user ID, MDC, private) is parsed with contents [c] inside any stream
    exactly if its body alone is parsed with contents [c]. *)
Theorem C13_own_body_partial : forall tag pre body post c,
  In tag [2;4;6;8;9;10;12;13;14;18;19;60;61;62;63] -> (tag = 2 -> nth_error body 0 <> Some 3) ->
  (tag_read tag (pre ++ body ++ post) (len pre) (len body) = Ok c <->
   tag_read tag body 0 (len body) = Ok c).
Proof.
  intros tag pre body post c Ht H3.
  assert (A : tag = 2 -> len body <> 0 -> at_ body 0 <> Ok 3).
  { intros E Hl. specialize (H3 E). destruct body as [|x b]; [cbn in Hl; lia|]. rewrite at_0. cbn in H3. congruence. }
  destruct body as [|x b].
  { cbn [len length N.of_nat]. unfold tag_read. reflexivity. }
  set (body := x :: b) in *. assert (L : len body <> 0) by (subst body; rewrite len_cons; lia).
  rewrite <- (N.add_0_r (len pre)). rewrite tag_read_shift.
  - apply tag_read_local; auto.
  - split; [|split].
    + intros ->; cbn in Ht; intuition discriminate.
    + intros ->; cbn in Ht; intuition discriminate.
    + intros E. rewrite at_app_l by lia. auto.
Qed.

(** For every tag, contents written by the library are read the same whatever follows, and
    (other than tags 1, 17 and version 3 signatures) whatever precedes: C58 below. *)

(** The property fails for tag 3: a body that ends inside its S2K specifier takes salt and
    count from the octets that follow. *)
Theorem C13_tag3_refuted : forall salt count post, len salt = 8 ->
  tag_read 3 ([4;9;3;8] ++ salt ++ count :: post) 0 4 =
  Ok (PSymSession 4 9 (Some (mkS2k S2K3 3 8 salt count)) None).
Proof.
  intros salt count post H. rewrite (tag_read_pos 3 _ _ _ _ _ eq_refl) by lia.
  cbn [actual_read app].
  assert (S : s2k_read S2K3 (4 :: 9 :: 3 :: 8 :: salt ++ count :: post) (0 + 2) = Ok (mkS2k S2K3 3 8 salt count, 13)).
  { unfold s2k_read. rds. rewrite H. cbn [N.eqb Pos.eqb]. rds. reflexivity. }
  unfold tag3_read. rds. cbn [s2k_class_of bind]. rewrite S. reflexivity.
Qed.

(** It fails for tag 5 (and 7): a secret key packet whose body ends at its public part
    takes everything behind it as secret data. *)
Theorem C13_tag5_refuted : forall post, len post < 2 ^ 32 ->
  let body := [4;0;0;0;1;1;0;1;1;0;1;1] in
  tag_read 5 (body ++ 0 :: post) 0 (len body) = Ok (PSecret (mkKey 4 1 1 [1;1] 0) (mkSecret 0 0 None [] post)).
Proof.
  intros post H body. rewrite (tag_read_pos 5 _ _ _ _ _ eq_refl) by discriminate.
  cbn [actual_read app]. unfold secret_read.
  assert (K : key_read (body ++ 0 :: post) 0 = Ok (mkKey 4 1 1 [1;1] 0, len body)).
  { apply (key_roundtrip (mkKey 4 1 1 [1;1] 0) (0 :: post)). unfold key_fits. cbn [k_version k_time k_pka k_mpi k_expire].
    split; [lia|]. split; [reflexivity|]. split; [|split; reflexivity].
    assert (mpi_fits 1) by (apply (N.lt_le_trans _ (2 ^ 1)); [reflexivity|apply N.pow_le_mono_r; lia]).
    repeat constructor; auto. }
  rewrite K. cbn [bind]. rewrite at_app by reflexivity. cbn [bind N.eqb orb].
  replace (body ++ 0 :: post) with ((body ++ [0]) ++ post) by (rewrite <- app_assoc; reflexivity).
  rewrite substr_app_end; [reflexivity|reflexivity|].
  change (sub64 (len body) (len body + 1 - 0)) with (two64 - 1). unfold two64. lia.
Qed.

(** It fails for tag 11: a literal packet with a body of five octets takes the date's last
    octet and the literal text from what follows. *)
Theorem C13_tag11_refuted : forall x post, len post < 2 ^ 32 ->
  exists time, tag_read 11 ([98;0;1;2;3] ++ x :: post) 0 5 = Ok (PLiteral 98 [] time post).
Proof.
  intros x post H. eexists. rewrite (tag_read_pos 11 _ _ _ _ _ eq_refl) by discriminate.
  cbn [actual_read app]. unfold tag11_read. do 3 rd_step.
  change (98 :: 0 :: 1 :: 2 :: 3 :: x :: post) with ([98; 0] ++ [] ++ 1 :: 2 :: 3 :: x :: post) at 1.
  rewrite substr_app by reflexivity. cbn [bind].
  change (98 :: 0 :: 1 :: 2 :: 3 :: x :: post) with ([98; 0] ++ [1;2;3;x] ++ post) at 1.
  rewrite substr_app by reflexivity. cbn [bind].
  change (98 :: 0 :: 1 :: 2 :: 3 :: x :: post) with ([98; 0;1;2;3;x] ++ post).
  rewrite substr_app_end; [reflexivity|reflexivity|].
  change (sub64 5 (6 + 0)) with (two64 - 1). unfold two64. lia.
Qed.

(** ** C58 *)

(** Every packet type: contents that fit the format are read back from their own octets,
    inside any stream; session keys, user attributes and version 3 signatures only at the
    start of the data. *)
Theorem C58_packet_roundtrip_partial : forall pre post tag c w,
  fits days_kept tag c -> raw c = Ok w -> len w < 2 ^ 64 ->
  match c with
  | PSession _ _ _ _ | PAttributes _ => pre = []
  | PSig s => t2_version s = 3 -> pre = []
  | _ => True
  end ->
  tag_read tag (pre ++ w ++ post) (len pre) (len w) = Ok c.
Proof. intros. now apply packet_roundtrip. Qed.

(** Missing part, session keys: exactly which positions work.  The integers but the last
    must end before offset [len w] of the whole data, so with one integer (RSA) a packet
    at offset [len w - 10] or later is not read back. *)
Theorem C58_session_position : forall pre post keyid pka ms w, len keyid = 8 -> Forall mpi_fits ms ->
  raw (PSession 3 keyid pka ms) = Ok w ->
  (tag_read 1 (pre ++ w ++ post) (len pre) (len w) = Ok (PSession 3 keyid pka ms) <->
   ms = [] \/ len pre + len (concat (map write_MPI (removelast ms))) < len (concat (map write_MPI ms))).
Proof.
  intros pre post keyid pka ms w Hk Hm Hw. apply Ok_inj in Hw. subst w.
  exact (session_iff pre post keyid pka ms Hk Hm).
Qed.
(** So the second of two session key packets with one integer each and of the same size is
    never read back. *)
Theorem C58_second_recipient_refuted : forall pre post keyid pka m w, len keyid = 8 -> mpi_fits m ->
  raw (PSession 3 keyid pka [m]) = Ok w -> len w <= len pre ->
  tag_read 1 (pre ++ w ++ post) (len pre) (len w) <> Ok (PSession 3 keyid pka [m]).
Proof.
  intros pre post keyid pka m w Hk Hm Hw Hl E.
  apply (C58_session_position pre post keyid pka [m] w Hk) in E; auto.
  apply Ok_inj in Hw. subst w. destruct E as [E|E]; [discriminate|]. cbn [removelast] in E.
  revert Hl E. rewrite len_cons, len_app, len_cons. cbn [map concat len length N.of_nat]. lia.
Qed.
(** User attributes, the same. *)
Theorem C58_attribute_position : forall pre post l w,
  Forall (fun i => im_version i = 1 /\ im_encoding i = 1 /\ len (im_image i) < 2 ^ 31) l ->
  raw (PAttributes l) = Ok w ->
  (tag_read 17 (pre ++ w ++ post) (len pre) (len w) = Ok (PAttributes l) <->
   l = [] \/ len pre + len (attrs_raw (removelast l)) < len w).
Proof.
  intros pre post l w Hl Hw. apply Ok_inj in Hw. subst w. exact (attrs_iff pre post l Hl).
Qed.
Theorem C58_attribute_position_refuted : forall pre post i w,
  im_version i = 1 /\ im_encoding i = 1 /\ len (im_image i) < 2 ^ 31 ->
  raw (PAttributes [i]) = Ok w -> len w <= len pre ->
  tag_read 17 (pre ++ w ++ post) (len pre) (len w) <> Ok (PAttributes [i]).
Proof.
  intros pre post i w Hi Hw Hl E. apply (C58_attribute_position pre post [i] w) in E; auto.
  destruct E as [E|E]; [discriminate|]. cbn [removelast] in E. lia.
Qed.
(** Version 2 and 3 keys: a validity period with an octet of 128 or more is misread. *)
Theorem C58_v3_key_days_refuted : forall k post, key_fits days_16 k -> k_version k < 4 ->
  ~ days_kept (k_expire k) ->
  exists k', key_read (key_raw k ++ post) 0 = Ok (k', len (key_raw k)) /\ k_expire k' <> k_expire k.
Proof.
  intros k post Hk Hv Hd. eexists. split; [now apply key_v3_read|]. cbn [k_expire].
  destruct Hk as (_ & _ & _ & _ & He). apply N.ltb_lt in Hv. rewrite Hv in He. now apply expire_lost.
Qed.

(** Hypotheses are met: an encrypted secret subkey, a literal, a session key, a v3 key. *)
Lemma small_fits m : m < 2 ^ 100 -> mpi_fits m.
Proof. intros. apply (N.lt_le_trans _ (2 ^ 100)); [auto|]. apply N.pow_le_mono_r; lia. Qed.
Example C58_example_secret : exists w,
  let c := PSecret (mkKey 4 1234567890 16 [23;5;7] 0)
    (mkSecret 254 9 (Some (mkS2k S2K3 3 8 [1;2;3;4;5;6;7;8] 96)) (repeat 5 16) (repeat 9 30)) in
  fits days_kept 7 c /\ raw c = Ok w /\ len w < 2 ^ 64.
Proof.
  eexists. cbn zeta. split; [|split; [vm_compute; reflexivity|reflexivity]].
  cbn [fits]. split; [auto|]. unfold key_fits, secret_fits, s2k_fits, word32.
  cbn [k_version k_time k_pka k_mpi k_expire sk_con sk_sym sk_s2k sk_iv N.eqb Pos.eqb orb].
  split; [split; [lia|]; split; [reflexivity|]; split; [|split; reflexivity];
          repeat (apply Forall_cons; [apply small_fits; reflexivity|]); apply Forall_nil|].
  split; [reflexivity|]. eexists; repeat split.
Qed.
Example C58_example_literal : fits days_kept 11 (PLiteral 98 (str "a.txt") 1234567890 (str "hello")).
Proof. repeat split. Qed.
Example C58_example_session : fits days_kept 1 (PSession 3 [1;2;3;4;5;6;7;8] 1 [12345]).
Proof. split; [reflexivity|]. split; [reflexivity|]. split; [reflexivity|]. constructor; [apply small_fits; reflexivity|constructor]. Qed.
Example C58_example_days : key_fits days_16 (mkKey 3 1 1 [3;5] 365) /\ days_kept 365 /\
  key_fits days_16 (mkKey 3 1 1 [3;5] 730) /\ ~ days_kept 730.
Proof.
  assert (F : Forall mpi_fits [3;5]) by (repeat (apply Forall_cons; [apply small_fits; reflexivity|]); apply Forall_nil).
  unfold key_fits, word32, days_kept, days_16. cbn [k_version k_time k_pka k_mpi k_expire].
  repeat split; auto; try reflexivity; try lia.
Qed.
Example C13_example : tag_read 4 [3;0;8;1;1;2;3;4;5;6;7;8;1] 0 13 = Ok (POnePass 3 0 8 1 [1;2;3;4;5;6;7;8] 1).
Proof. reflexivity. Qed.

Print Assumptions C13_prefix_partial.
Print Assumptions C13_own_body_partial.
Print Assumptions C13_tag3_refuted.
Print Assumptions C13_tag5_refuted.
Print Assumptions C13_tag11_refuted.
Print Assumptions C58_packet_roundtrip_partial.
Print Assumptions C58_session_position.
Print Assumptions C58_second_recipient_refuted.
Print Assumptions C58_attribute_position.
Print Assumptions C58_attribute_position_refuted.
Print Assumptions C58_v3_key_days_refuted.
