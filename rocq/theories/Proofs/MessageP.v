(** Proofs about Model/Message.v. *)
From Verif Require Export Proofs.Lib Model.Message Spec.Grammar.

(** What a token stands for. *)
Definition derives (t : token) (w : list N) : Prop :=
  match t with
  | OPENM => openpgp_message w | ENCM => encrypted_message w | SIGM => signed_message w
  | COMM => compressed_message w | LITM => literal_message w | ESK => esk w | ESKS => esk_sequence w
  | ENCD => encrypted_data w | OPSM => one_pass_signed_message w
  | CDP => w = [8] | LDP => w = [11] | PKESKP => w = [1] | SKESKP => w = [3] | SEDP => w = [9]
  | SEIPDP => w = [18] | OPSP => w = [4] | SP => w = [2] | NONE => False
  end.
Fixpoint yields (s : list token) (w : list N) : Prop :=
  match s with
  | [] => w = []
  | t :: r => exists a b, w = a ++ b /\ derives t a /\ yields r b
  end.

Definition sound (f : rule) : Prop := forall t r l, f t r = Ok (Some l) -> forall w, yields (t :: r) w -> yields l w.
Ltac some H := try discriminate H; apply Ok_inj in H; match type of H with Some ?x = Some ?y => assert (x = y) as <- by congruence; clear H end.
Ltac unary := let t := fresh in let r := fresh in let l := fresh in let E := fresh "E" in
  intros t r l E w Y; destruct t; cbn in E; some E; destruct Y as (a & b & -> & D & Y); cbn in D;
  exists a, b; (split; [reflexivity|split; [cbn; subst; now constructor|assumption]]).
Lemma sound_open : sound rule_open. Proof. unary. Qed.
Lemma sound_compressed : sound rule_compressed. Proof. unary. Qed.
Lemma sound_literal : sound rule_literal. Proof. unary. Qed.
Lemma sound_esk : sound rule_esk. Proof. unary. Qed.
Lemma sound_data : sound rule_data. Proof. unary. Qed.
Lemma sound_esks : sound rule_esks.
Proof.
  intros t r l E w (a & b & -> & D & Y). destruct t; cbn in E, D; try discriminate E.
  - some E. exists a, b. split; [reflexivity|split; [now constructor|exact Y]].
  - destruct r as [|t2 r2]; [discriminate|]. destruct t2; some E. destruct Y as (a2 & b2 & -> & D2 & Y). cbn in D2.
    exists (a ++ a2), b2. rewrite app_assoc. split; [reflexivity|split; [now constructor|exact Y]].
Qed.
Lemma sound_encrypted : sound rule_encrypted.
Proof.
  intros t r l E w (a & b & -> & D & Y). destruct t; cbn in E, D; try discriminate E.
  - destruct r as [|t2 r2]; [discriminate|]. destruct t2; some E. destruct Y as (a2 & b2 & -> & D2 & Y). cbn in D2.
    exists (a ++ a2), b2. rewrite app_assoc. split; [reflexivity|split; [now constructor|exact Y]].
  - some E. exists a, b. split; [reflexivity|split; [now constructor|exact Y]].
Qed.
Lemma sound_one_pass strict : sound (rule_one_pass strict).
Proof.
  intros t r l E w (a & b & -> & D & Y). unfold rule_one_pass in E. destruct r as [|t2 r2]; [destruct strict, t; discriminate|].
  destruct t; try discriminate E. destruct t2; try discriminate E. destruct r2 as [|t3 r3]; [discriminate|]. destruct t3; some E.
  destruct Y as (a2 & b2 & -> & D2 & a3 & b3 & -> & D3 & Y). cbn in D, D2, D3. subst.
  exists ([4] ++ a2 ++ [2]), b3. split; [now rewrite <- !app_assoc|split; [now constructor|exact Y]].
Qed.
Lemma sound_signed : sound rule_signed.
Proof.
  intros t r l E w (a & b & -> & D & Y). destruct t; cbn in E, D; try discriminate E.
  - some E. exists a, b. split; [reflexivity|split; [now constructor|exact Y]].
  - destruct r as [|t2 r2]; [discriminate|]. destruct t2; some E. destruct Y as (a2 & b2 & -> & D2 & Y). cbn in D2. subst.
    exists ([2] ++ a2), b2. rewrite <- app_assoc. split; [reflexivity|split; [now constructor|exact Y]].
Qed.
Lemma first_sound rs : Forall sound rs -> sound (first_rule rs).
Proof.
  induction 1 as [|f rs F _ IH]; intros t r l E w Y; cbn [first_rule] in E; [discriminate|].
  apply bind_ok in E as ([x|] & X & E); [|eauto]. apply Ok_inj in E. assert (x = l) as -> by congruence. eauto.
Qed.
Lemma rules_sound strict : sound (first_rule (rules strict)).
Proof.
  apply first_sound. repeat apply Forall_cons; auto using sound_open, sound_compressed, sound_literal, sound_esk, sound_esks,
    sound_data, sound_encrypted, sound_one_pass, sound_signed.
Qed.
Lemma reduce_sound strict : forall s s', reduce strict s = Ok (Some s') -> forall w, yields s w -> yields s' w.
Proof.
  induction s as [|t r IH]; intros s' E w Y; cbn [reduce] in E; [discriminate|].
  apply bind_ok in E as ([x|] & X & E).
  - apply Ok_inj in E. assert (x = s') as -> by congruence. eapply rules_sound; eauto.
  - apply bind_ok in E as ([y|] & R & E); [|discriminate]. apply Ok_inj in E. assert (s' = t :: y) as -> by congruence.
    destruct Y as (a & b & -> & D & Y). exists a, b. eauto.
Qed.

Lemma loop_sound strict tok : forall f s w, match_loop f strict tok s = Ok true -> yields s w -> derives tok w.
Proof.
  assert (Base : forall s w, (match s with [t] => token_eqb t tok | _ => false end) = true -> yields s w -> derives tok w).
  { intros s w C Y. destruct s as [|t [|]]; try discriminate. destruct Y as (a & b & -> & D & ->). rewrite app_nil_r.
    destruct t, tok; discriminate || exact D. }
  induction f as [|f IH]; intros s w E Y; cbn [match_loop] in E; (destruct (match s with [t] => _ | _ => _ end) eqn:C; [eauto|]).
  - discriminate.
  - apply bind_ok in E as ([x|] & X & E); [|discriminate]. eapply IH; [exact E|]. eapply reduce_sound; eauto.
Qed.

Lemma tokens_yield : forall tags s, tokens tags = Some s -> yields s tags.
Proof.
  induction tags as [|t r IH]; intros s E; cbn [tokens] in E.
  - assert (s = []) as -> by congruence. reflexivity.
  - destruct (tag_token t) as [a|] eqn:A; [|discriminate]. destruct (tokens r) as [l|]; [|discriminate].
    assert (s = a :: l) as -> by congruence. exists [t], r. split; [reflexivity|]. split; [|now apply IH].
    destruct t as [|p]; [discriminate|]. do 5 (try destruct p as [p|p|]; try discriminate A); cbn in A;
      (assert (HA := f_equal (fun o => match o with Some x => x | None => NONE end) A)); cbn in HA; subst a; reflexivity.
Qed.

(** ** Completeness *)
Definition tok_of (t : N) : token := match tag_token t with Some a => a | None => NONE end.
Definition toks (w : list N) : list token := map tok_of w.
Lemma toks_app a b : toks (a ++ b) = toks a ++ toks b. Proof. apply map_app. Qed.
Definition step (strict : bool) (s s' : list token) : Prop := reduce strict s = Ok (Some s').
Inductive star (strict : bool) : list token -> list token -> Prop :=
| star_refl s : star strict s s
| star_step s s' s'' : step strict s s' -> star strict s' s'' -> star strict s s''.
Lemma star_trans strict a b c : star strict a b -> star strict b c -> star strict a c.
Proof. induction 1; [auto|]. intros. eapply star_step; eauto. Qed.
Lemma star_one strict a b : step strict a b -> star strict a b.
Proof. intros. eapply star_step; [eassumption|constructor]. Qed.

Definition prefix_token (t : token) : Prop := t = SP \/ t = OPSP.
Lemma prefix_skip strict t x r : prefix_token t -> x <> OPENM -> first_rule (rules strict) t (x :: r) = Ok None.
Proof. intros [-> | ->] X; destruct x; try reflexivity; congruence. Qed.
Lemma reduce_prefix strict h r : h <> OPENM -> forall L, Forall prefix_token L ->
  reduce strict (L ++ h :: r) = (y <- reduce strict (h :: r) ;; match y with Some l => Ok (Some (L ++ l)) | None => Ok None end).
Proof.
  intros Hh. induction L as [|t L IH]; intros F.
  - cbn [app]. destruct (reduce strict (h :: r)) as [[?|]| | |]; reflexivity.
  - inversion F as [|? ? Ft FL]; subst. rewrite <- app_comm_cons. cbn [reduce]. fold (reduce strict).
    assert (Sk : first_rule (rules strict) t (L ++ h :: r) = Ok None).
    { destruct L as [|t2 L2]; [now apply prefix_skip|]. rewrite <- app_comm_cons. apply prefix_skip; [auto|].
      inversion FL as [|? ? [-> | ->] ?]; discriminate. }
    rewrite Sk. cbn [bind]. rewrite IH by auto. change (x <- first_rule (rules strict) h r ;; _) with (reduce strict (h :: r)).
    destruct (reduce strict (h :: r)) as [[?|]| | |]; reflexivity.
Qed.
Lemma step_prefix strict L h r s' : Forall prefix_token L -> h <> OPENM -> step strict (h :: r) s' ->
  step strict (L ++ h :: r) (L ++ s').
Proof. intros F H E. unfold step in *. rewrite reduce_prefix by auto. now rewrite E. Qed.

Lemma star_esk strict L R a : Forall prefix_token L -> esk a -> star strict (L ++ toks a ++ R) (L ++ ESK :: R).
Proof. intros F E. destruct E; apply star_one, step_prefix; auto; try discriminate; reflexivity. Qed.
Lemma star_esks strict a : esk_sequence a -> forall L R, Forall prefix_token L ->
  star strict (L ++ toks a ++ R) (L ++ ESKS :: R).
Proof.
  induction 1 as [a E|a b _ IH E]; intros L R F.
  - eapply star_trans; [apply star_esk; auto|]. apply star_one, step_prefix; auto; [discriminate|reflexivity].
  - rewrite toks_app, <- app_assoc. eapply star_trans; [apply IH; auto|].
    apply star_step with (s' := L ++ ESKS :: ESK :: R).
    + apply step_prefix; auto; [discriminate|]. destruct E; reflexivity.
    + apply star_one, step_prefix; auto; [discriminate|reflexivity].
Qed.
Lemma star_encrypted strict a L R : encrypted_message a -> Forall prefix_token L ->
  star strict (L ++ toks a ++ R) (L ++ ENCM :: R).
Proof.
  intros E F. destruct E as [a D|a b Q D].
  - eapply star_step with (s' := L ++ ENCD :: R); [|apply star_one]; [destruct D|]; (apply step_prefix; auto; [discriminate|reflexivity]).
  - rewrite toks_app, <- app_assoc. eapply star_trans; [apply star_esks; auto|].
    apply star_step with (s' := L ++ ESKS :: ENCD :: R).
    + apply step_prefix; auto; [discriminate|]. destruct D; reflexivity.
    + apply star_one, step_prefix; auto; [discriminate|reflexivity].
Qed.

Definition allowed (strict : bool) (R : list token) : Prop := strict = false \/ R <> [].
Lemma star_all strict :
  (forall a, openpgp_message a -> forall L R, Forall prefix_token L -> allowed strict R ->
     star strict (L ++ toks a ++ R) (L ++ OPENM :: R)) /\
  (forall a, signed_message a -> forall L R, Forall prefix_token L -> allowed strict R ->
     star strict (L ++ toks a ++ R) (L ++ SIGM :: R)) /\
  (forall a, one_pass_signed_message a -> forall L R, Forall prefix_token L ->
     star strict (L ++ toks a ++ R) (L ++ OPSM :: R)).
Proof.
  apply message_mutind.
  - intros a E L R F A. eapply star_trans; [apply star_encrypted; auto|]. apply star_one, step_prefix; auto; [discriminate|reflexivity].
  - intros a _ IH L R F A. eapply star_trans; [apply IH; auto|]. apply star_one, step_prefix; auto; [discriminate|reflexivity].
  - intros a E L R F A. destruct E. eapply star_step with (s' := L ++ COMM :: R); [|apply star_one];
      (apply step_prefix; auto; [discriminate|reflexivity]).
  - intros a E L R F A. destruct E. eapply star_step with (s' := L ++ LITM :: R); [|apply star_one];
      (apply step_prefix; auto; [discriminate|reflexivity]).
  - intros a _ IH L R F A. rewrite toks_app, <- app_assoc. change (toks [2]) with [SP]. rewrite app_assoc.
    eapply star_trans; [apply IH; [apply Forall_app; split; [auto|repeat constructor; now left]|auto]|].
    rewrite <- app_assoc. apply star_one, step_prefix; auto; [discriminate|reflexivity].
  - intros a _ IH L R F A. eapply star_trans; [apply IH; auto|]. apply star_one, step_prefix; auto; [discriminate|].
    unfold step. cbn [reduce]. destruct A as [-> | A].
    + destruct R; reflexivity.
    + destruct R; [congruence|]. reflexivity.
  - intros a _ IH L R F. rewrite !toks_app, <- !app_assoc. change (toks [4]) with [OPSP]. change (toks [2]) with [SP]. rewrite app_assoc.
    eapply star_trans; [apply IH; [apply Forall_app; split; [auto|repeat constructor; now right]|right; discriminate]|].
    rewrite <- app_assoc. apply star_one, step_prefix; auto; [discriminate|reflexivity].
Qed.

(** ** Termination *)
Definition weight (t : token) : nat :=
  match t with
  | OPENM => 1 | ENCM | SIGM | COMM | LITM => 2 | OPSM => 3 | ESK => 3 | ESKS => 2 | ENCD => 3
  | CDP | LDP => 3 | PKESKP | SKESKP | SEDP | SEIPDP => 4 | OPSP | SP => 2 | NONE => 1
  end%nat.
Fixpoint total (s : list token) : nat := match s with [] => 0 | t :: r => weight t + total r end%nat.
Lemma total_le s : (total s <= 4 * length s)%nat.
Proof. induction s as [|t s IH]; [cbn; lia|]. cbn [total length]. destruct t; cbn [weight]; lia. Qed.
Lemma first_less strict t r l : first_rule (rules strict) t r = Ok (Some l) -> (total l < total (t :: r))%nat.
Proof.
  intros E. destruct t; cbn in E;
    try (destruct r as [|t2 r2]; [destruct strict; cbn in E|destruct t2; try destruct r2 as [|t3 r3]; try destruct t3; cbn in E]);
    some E; cbn [total weight]; lia.
Qed.
Lemma reduce_less strict : forall s s', reduce strict s = Ok (Some s') -> (total s' < total s)%nat.
Proof.
  induction s as [|t r IH]; intros s' E; cbn [reduce] in E; [discriminate|].
  apply bind_ok in E as ([x|] & X & E).
  - apply Ok_inj in E. assert (x = s') as -> by congruence. eapply first_less; eauto.
  - apply bind_ok in E as ([y|] & Y & E); [|discriminate]. apply Ok_inj in E. assert (s' = t :: y) as -> by congruence.
    apply IH in Y. cbn [total]. lia.
Qed.
Lemma loop_star strict tok s s' : star strict s s' -> forall f, (total s <= f)%nat -> s' = [tok] -> match_loop f strict tok s = Ok true.
Proof.
  induction 1 as [s|s s1 s2 S1 _ IH]; intros f Hf E.
  - subst. destruct f; cbn [match_loop]; destruct tok; reflexivity.
  - pose proof (reduce_less _ _ _ S1). destruct f as [|f]; [lia|]. cbn [match_loop].
    destruct (match s with [t] => _ | _ => _ end); [reflexivity|]. rewrite S1. cbn [bind]. apply IH; [lia|exact E].
Qed.
Lemma star_less strict s s' : star strict s s' -> (total s' <= total s)%nat.
Proof. induction 1 as [|? ? ? E]; [lia|]. apply reduce_less in E. lia. Qed.
Lemma loop_star_ub strict tok s s' : star strict s s' -> forall f, (total s <= f)%nat -> (weight tok < total s')%nat ->
  reduce strict s' = UB -> match_loop f strict tok s = UB.
Proof.
  assert (Ne : forall x, (weight tok < total x)%nat -> (match x with [t] => token_eqb t tok | _ => false end) = false).
  { intros x X. destruct x as [|t [|]]; try reflexivity. cbn [total] in X. destruct t, tok; try reflexivity; cbn [weight] in X; lia. }
  induction 1 as [s|s s1 s2 S1 St IH]; intros f Hf W U.
  - destruct f as [|f]; [lia|]. cbn [match_loop]. rewrite Ne by auto. now rewrite U.
  - pose proof (reduce_less _ _ _ S1). pose proof (star_less _ _ _ St). destruct f as [|f]; [lia|]. cbn [match_loop].
    rewrite Ne by lia. rewrite S1. cbn [bind]. apply IH; auto. lia.
Qed.

(** Nothing but an answer or undefined behaviour. *)
Definition answers {A} (r : result A) : Prop := match r with Ok _ | UB => True | _ => False end.
Lemma first_answers strict t r : answers (first_rule (rules strict) t r).
Proof.
  destruct t; cbn; try exact I.
  all: destruct r as [|t2 r2]; [destruct strict; exact I|]; destruct t2; try destruct r2 as [|t3 r3]; try destruct t3; exact I.
Qed.
Lemma reduce_answers strict s : answers (reduce strict s).
Proof.
  induction s as [|t r IH]; [exact I|]. cbn [reduce]. pose proof (first_answers strict t r) as F.
  destruct (first_rule (rules strict) t r) as [[|]| | |]; try exact F; cbn [bind].
  destruct (reduce strict r) as [[|]| | |]; exact IH || exact I.
Qed.
Lemma reduce_nonempty strict s s' : reduce strict s = Ok (Some s') -> s' <> [].
Proof.
  destruct s as [|t r]; cbn [reduce]; intros E; [discriminate|]. apply bind_ok in E as ([x|] & X & E).
  - apply Ok_inj in E. assert (x = s') as -> by congruence. clear E. destruct t; cbn in X;
    try (destruct r as [|t2 r2]; [destruct strict; cbn in X|destruct t2; try destruct r2 as [|t3 r3]; try destruct t3; cbn in X]);
    some X; discriminate.
  - apply bind_ok in E as ([y|] & Y & E); congruence.
Qed.
Lemma loop_answers strict tok : forall f s, (total s <= f)%nat -> s <> [] -> answers (match_loop f strict tok s).
Proof.
  induction f as [|f IH]; intros s Hf N; cbn [match_loop].
  - destruct s as [|t s]; [congruence|]. cbn [total] in Hf. destruct t; cbn [weight] in Hf; lia.
  - destruct (match s with [t] => _ | _ => _ end); [exact I|]. pose proof (reduce_answers strict s) as A.
    destruct (reduce strict s) as [[s'|]| | |] eqn:E; try exact A; cbn [bind].
    pose proof (reduce_less _ _ _ E). apply IH; [lia|]. eapply reduce_nonempty; eauto.
Qed.

Lemma tokens_toks : forall w s, tokens w = Some s -> s = toks w /\ length s = length w.
Proof.
  induction w as [|t r IH]; intros s E; cbn [tokens] in E; [assert (s = []) as -> by congruence; now split|].
  unfold toks. cbn [map]. unfold tok_of at 1. destruct (tag_token t) as [a|]; [|discriminate]. destruct (tokens r) as [l|]; [|discriminate].
  assert (s = a :: l) as -> by congruence. destruct (IH l eq_refl) as [-> L]. split; [reflexivity|cbn [length]; now rewrite L].
Qed.
Lemma tokens_ok w : ~ In NONE (toks w) -> tokens w = Some (toks w).
Proof.
  induction w as [|t r IH]; intros N; [reflexivity|]. cbn [tokens toks map]. unfold toks in *. cbn [map In] in N.
  unfold tok_of in *. destruct (tag_token t); [|exfalso; apply N; now left]. rewrite IH; [reflexivity|]. intros H. apply N. now right.
Qed.
Lemma not_none_app a b : ~ In NONE (toks a) -> ~ In NONE (toks b) -> ~ In NONE (toks (a ++ b)).
Proof. intros A B. rewrite toks_app, in_app_iff. tauto. Qed.
Lemma esk_ok a : esk a -> ~ In NONE (toks a). Proof. destruct 1; cbn; intuition discriminate. Qed.
Lemma esks_ok a : esk_sequence a -> ~ In NONE (toks a).
Proof. induction 1; [now apply esk_ok|]. apply not_none_app; auto using esk_ok. Qed.
Lemma data_ok a : encrypted_data a -> ~ In NONE (toks a). Proof. destruct 1; cbn; intuition discriminate. Qed.
Lemma encrypted_ok a : encrypted_message a -> ~ In NONE (toks a).
Proof. destruct 1; [now apply data_ok|]. apply not_none_app; auto using esks_ok, data_ok. Qed.
Lemma messages_ok :
  (forall a, openpgp_message a -> ~ In NONE (toks a)) /\ (forall a, signed_message a -> ~ In NONE (toks a)) /\
  (forall a, one_pass_signed_message a -> ~ In NONE (toks a)).
Proof.
  apply message_mutind; auto using encrypted_ok.
  - intros a H. destruct H. cbn. intuition discriminate.
  - intros a H. destruct H. cbn. intuition discriminate.
  - intros a _ IH. apply not_none_app; auto. cbn. intuition discriminate.
  - intros a _ IH. apply not_none_app; [cbn; intuition discriminate|]. apply not_none_app; auto. cbn. intuition discriminate.
Qed.
