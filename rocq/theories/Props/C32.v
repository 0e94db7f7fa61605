(** Property C32: the OpenPGP message grammar. *)
From Verif Require Import Proofs.MessageP.

(** The symbol of the grammar a request asks for. *)
Definition symbol (tok : token) : option (list N -> Prop) :=
  match tok with
  | OPENM => Some openpgp_message | ENCM => Some encrypted_message | SIGM => Some signed_message
  | COMM => Some compressed_message | LITM => Some literal_message | _ => None
  end.

(** Every accepted sequence is a sentence of the grammar. *)
Theorem C32_sound : forall strict type tags tok, message_match strict type tags tok = Ok true ->
  type = 1 /\ exists sy, symbol tok = Some sy /\ sy tags.
Proof.
  intros strict type tags tok E. unfold message_match in E. destruct (type =? 1) eqn:T; [|discriminate]. cbn [negb] in E.
  split; [lia|]. destruct (len tags =? 0); [discriminate|].
  destruct tok; try discriminate E; (destruct (tokens tags) as [s|] eqn:TK; [|discriminate]);
    (eexists; split; [reflexivity|]); apply tokens_yield in TK; exact (loop_sound _ _ _ _ _ E TK).
Qed.
(** Every sentence is accepted. *)
Theorem C32_complete : forall tags tok sy, symbol tok = Some sy -> sy tags -> message_match false 1 tags tok = Ok true.
Proof.
  intros tags tok sy E D.
  assert (M : star false (toks tags) [tok] /\ ~ In NONE (toks tags)).
  { destruct (star_all false) as (So & Ss & _). destruct messages_ok as (Ko & Ks & _).
    assert (A : allowed false []) by now left.
    destruct tok; try discriminate E; cbn in E; (pose proof (f_equal (fun o => match o with Some x => x | None => openpgp_message end) E) as E'; cbn in E'; subst sy).
    - specialize (So tags D [] [] (Forall_nil _) A). rewrite app_nil_r in So. auto.
    - pose proof (star_encrypted false tags [] [] D (Forall_nil _)) as H. rewrite app_nil_r in H. auto using encrypted_ok.
    - specialize (Ss tags D [] [] (Forall_nil _) A). rewrite app_nil_r in Ss. auto.
    - destruct D. split; [|cbn; intuition discriminate]. apply star_one. reflexivity.
    - destruct D. split; [|cbn; intuition discriminate]. apply star_one. reflexivity. }
  destruct M as [S N]. unfold message_match. cbn [N.eqb Pos.eqb negb].
  assert (NE : tags <> []) by (intros ->; inversion S; subst; match goal with H : step _ _ _ |- _ => cbn in H; discriminate end).
  replace (len tags =? 0) with false by (destruct tags; [congruence|rewrite len_cons; lia]).
  rewrite tokens_ok by auto. destruct tok; try discriminate E; (eapply loop_star; [exact S|apply total_le|reflexivity]).
Qed.
(** So a sequence of packets is meaningful exactly when it is an OpenPGP message. *)
Theorem C32_meaningful : forall g, g_type g = 1 ->
  (message_meaningful false g = Ok true <-> openpgp_message (map p_tag (g_packets g))).
Proof.
  intros g T. unfold message_meaningful. rewrite T. split; intros H.
  - apply C32_sound in H as (_ & sy & E & H). cbn in E. now assert (openpgp_message = sy) as -> by congruence.
  - now apply (C32_complete _ OPENM openpgp_message).
Qed.
(** The search ends. *)
Theorem C32_ends : forall strict type tags tok, answers (message_match strict type tags tok).
Proof.
  intros strict type tags tok. unfold message_match. destruct (type =? 1); [|exact I]. cbn [negb].
  destruct (len tags =? 0) eqn:L; [exact I|]. destruct (tokens tags) as [s|] eqn:TK; [|destruct tok; exact I].
  assert (s <> []). { apply tokens_toks in TK as [-> _]. destruct tags; [discriminate|]. cbn. discriminate. }
  destruct tok; try exact I; (apply loop_answers; [apply total_le|assumption]).
Qed.

(** A sequence that is not a sentence is not always rejected: encrypted session keys without
    data make the search read the list's end. *)
Theorem C32_range_refuted : forall strict tags, esk_sequence tags -> message_match strict 1 tags OPENM = UB.
Proof.
  intros strict tags E. pose proof (star_esks strict tags E [] [] (Forall_nil _)) as S. rewrite app_nil_r in S. cbn [app] in S.
  unfold message_match. cbn [N.eqb Pos.eqb negb].
  assert (NE : tags <> []). { intros ->. inversion S; subst. match goal with H : step _ _ _ |- _ => cbn in H; discriminate end. }
  replace (len tags =? 0) with false by (destruct tags; [congruence|rewrite len_cons; lia]).
  rewrite tokens_ok by now apply esks_ok. eapply loop_star_ub; [exact S|apply total_le|cbn; lia|]. destruct strict; reflexivity.
Qed.
(** And every one-pass signed message increments the list's end (harmless only because the
    usual lists are circular). *)
Theorem C32_increment_refuted : forall tags, one_pass_signed_message tags -> message_match true 1 tags OPENM = UB.
Proof.
  intros tags E. destruct (star_all true) as (_ & _ & S). specialize (S tags E [] [] (Forall_nil _)). rewrite app_nil_r in S. cbn [app] in S.
  unfold message_match. cbn [N.eqb Pos.eqb negb].
  assert (NE : tags <> []). { intros ->. inversion S; subst. match goal with H : step _ _ _ |- _ => cbn in H; discriminate end. }
  replace (len tags =? 0) with false by (destruct tags; [congruence|rewrite len_cons; lia]).
  destruct messages_ok as (_ & _ & K). rewrite tokens_ok by auto. eapply loop_star_ub; [exact S|apply total_le|cbn; lia|]. reflexivity.
Qed.

Example C32_nested : openpgp_message [4; 2; 4; 1; 3; 18; 2; 2] /\ message_match false 1 [4; 2; 4; 1; 3; 18; 2; 2] OPENM = Ok true.
Proof.
  assert (openpgp_message [4; 2; 4; 1; 3; 18; 2; 2]).
  { apply om_signed, sm_one_pass. apply (opsm [2; 4; 1; 3; 18; 2]). apply om_signed. apply (sm_plain [4; 1; 3; 18; 2]).
    apply om_signed, sm_one_pass. apply (opsm [1; 3; 18]). apply om_encrypted. apply (em_esks [1; 3] [18]); [|constructor].
    apply (esks_more [1] [3]); repeat constructor. }
  split; [assumption|]. vm_compute. reflexivity.
Qed.
Example C32_rejects : message_match false 1 [11; 8] OPENM = Ok false /\ message_match false 1 [18; 11] OPENM = Ok false /\
  message_match false 1 [4; 11; 2] LITM = Ok false /\ message_match false 1 [6; 13] OPENM = Ok false /\
  message_match false 1 [2] OPENM = UB /\ message_match false 1 [4; 11] OPENM = UB.
Proof. repeat split; vm_compute; reflexivity. Qed.

Print Assumptions C32_sound.
Print Assumptions C32_complete.
Print Assumptions C32_meaningful.
Print Assumptions C32_ends.
Print Assumptions C32_range_refuted.
Print Assumptions C32_increment_refuted.
