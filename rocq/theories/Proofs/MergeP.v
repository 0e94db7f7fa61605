(** Key::merge. *)
From Verif Require Import Proofs.Lib Proofs.KeyGrammarP.
From Verif Require Export Spec.KeyMerge.

Lemma alike_refl p : alike p p. Proof. split; reflexivity. Qed.
Lemma alike_sym p q : alike p q -> alike q p. Proof. intros [A B]. split; congruence. Qed.
Lemma alike_trans p q r : alike p q -> alike q r -> alike p r. Proof. intros [A B] [C D]. split; congruence. Qed.
Lemma has_in np p : In p np -> has np p. Proof. intros H. exists p. split; [exact H|apply alike_refl]. Qed.
Lemma has_incl np np' p : incl np np' -> has np p -> has np' p. Proof. intros H (q & I & A). exists q. split; auto. Qed.
Lemma has_app_l np l p : has np p -> has (np ++ l) p. Proof. apply has_incl. intros x. rewrite in_app_iff. auto. Qed.
Lemma has_app np l p : has (np ++ l) p <-> has np p \/ has l p.
Proof.
  split.
  - intros (q & I & A). rewrite in_app_iff in I. destruct I; [left|right]; exists q; auto.
  - intros [(q & I & A)|(q & I & A)]; exists q; rewrite in_app_iff; auto.
Qed.
Lemma has_alike np p q : alike p q -> has np p -> has np q.
Proof. intros A (x & I & B). exists x. split; [exact I|]. eapply alike_trans; eassumption. Qed.

Lemma beq_iff a b : beq a b = true <-> a = b. Proof. split; [apply beq_eq|intros ->; apply beq_refl]. Qed.
Lemma same_spec p q : has_body p -> has_body q -> exists b, same_packet p q = Ok b /\ (b = true <-> alike p q).
Proof.
  intros [a A] [b B]. unfold same_packet, alike. destruct (tag_of p =? tag_of q) eqn:T.
  - rewrite A, B. cbn [bind]. eexists. split; [reflexivity|]. rewrite beq_iff. split; [intros ->; split; [lia|reflexivity]|intros [_ E]; now apply Ok_inj].
  - exists false. split; [reflexivity|]. split; [discriminate|]. intros [E _]. lia.
Qed.
Lemma found_spec p : has_body p -> forall np, Forall has_body np -> exists b, found np p = Ok b /\ (b = true <-> has np p).
Proof.
  intros P. induction np as [|q np IH]; intros F; cbn [found].
  - exists false. split; [reflexivity|]. split; [discriminate|]. intros (x & [] & _).
  - apply Forall_cons_iff in F as [Q F]. destruct (same_spec q p Q P) as (b & -> & B). cbn [bind]. destruct b.
    + exists true. split; [reflexivity|]. split; [|reflexivity]. intros _. exists q. split; [now left|]. now apply B.
    + destruct (IH F) as (c & -> & C). exists c. split; [reflexivity|]. rewrite C. split; [intros (x & I & A); exists x; split; [now right|exact A]|].
      intros (x & [->|I] & A); [|exists x; auto]. apply B in A. discriminate.
Qed.
Lemma elements_spec k : has_body k -> forall m, Forall (fun x => has_body (fst x)) m ->
  exists l, elements m k = Ok l /\ forall x, In x l <-> exists a, In (a, x) m /\ alike a k.
Proof.
  intros K. induction m as [|[a b] m IH]; intros F; cbn [elements].
  - exists []. split; [reflexivity|]. intros x. split; [intros []|intros (? & [] & _)].
  - apply Forall_cons_iff in F as [A F]. destruct (same_spec a k A K) as (e & -> & E). destruct (IH F) as (l & -> & L). cbn [bind].
    eexists. split; [reflexivity|]. intros x. destruct e.
    + cbn [In]. rewrite L. split.
      * intros [->|(y & I & Y)]; [exists a; split; [now left|now apply E]|exists y; auto].
      * intros (y & [Z|I] & Y); [left; congruence|right; eauto].
    + rewrite L. split; [intros (y & I & Y); exists y; split; [now right|exact Y]|].
      intros (y & [Z|I] & Y); [|eauto]. assert (y = a) as -> by congruence. apply E in Y. discriminate.
Qed.
Lemma distinct_snoc np p : distinct np -> ~ has np p -> distinct (np ++ [p]).
Proof.
  intros D H i j a b A B E.
  assert (X : forall i a, nth_error (np ++ [p]) i = Some a -> (nth_error np i = Some a) \/ (i = length np /\ a = p)).
  { clear. intros i a A. destruct (Nat.lt_ge_cases i (length np)) as [L|L].
    - rewrite nth_error_app1 in A by exact L. auto.
    - rewrite nth_error_app2 in A by exact L. right. destruct (i - length np)%nat as [|n] eqn:Z; cbn in A.
      + split; [lia|congruence].
      + destruct n; discriminate. }
  destruct (X _ _ A) as [A'|[-> ->]], (X _ _ B) as [B'|[-> ->]].
  - eapply D; eassumption.
  - destruct H. exists a. split; [eapply nth_error_In; eassumption|exact E].
  - destruct H. exists b. split; [eapply nth_error_In; eassumption|now apply alike_sym].
  - reflexivity.
Qed.
Lemma distinct_app_l a b : distinct (a ++ b) -> distinct a.
Proof.
  intros D i j p q A B. apply (D i j); rewrite nth_error_app1; [exact A| |exact B|]; apply nth_error_Some; congruence.
Qed.

Lemma push_new_spec : forall l np, Forall has_body np -> Forall has_body l -> distinct np ->
  exists add, push_new np l = Ok (np ++ add) /\ incl add l /\ (forall x, In x l -> has (np ++ add) x) /\ distinct (np ++ add).
Proof.
  induction l as [|p l IH]; intros np F L D; cbn [push_new].
  - exists []. rewrite app_nil_r. repeat split; auto using incl_refl. intros x [].
  - apply Forall_cons_iff in L as [P L]. destruct (found_spec p P np F) as (b & -> & B). cbn [bind]. destruct b.
    + destruct (IH np F L D) as (add & -> & I & H & D'). exists add. repeat split; auto.
      * intros x X. right. auto.
      * intros x [<-|X]; [apply has_app_l, B; reflexivity|auto].
    + destruct (IH (np ++ [p])) as (add & -> & I & H & D'); auto.
      { apply Forall_app. auto. } { apply distinct_snoc; [exact D|]. intros X. apply B in X. discriminate. }
      exists (p :: add). rewrite <- app_assoc in *. cbn [app] in *. repeat split; auto.
      * intros x [<-|X]; [now left|right; auto].
      * intros x [<-|X]; [apply has_in; rewrite in_app_iff; right; now left|auto].
Qed.

(** A packet and the signatures put below it. *)
Definition group : Type := (ptr * list ptr)%type.
Definition flat (gs : list group) : list ptr := concat (map (fun g => fst g :: snd g) gs).
Lemma flat_app a b : flat (a ++ b) = flat a ++ flat b.
Proof. unfold flat. now rewrite map_app, concat_app. Qed.
Lemma flat_snoc a o l : flat (a ++ [(o, l)]) = flat a ++ o :: l.
Proof. rewrite flat_app. unfold flat at 2. cbn [map concat fst snd]. now rewrite app_nil_r. Qed.
Lemma in_flat x gs : In x (flat gs) <-> exists g, In g gs /\ (x = fst g \/ In x (snd g)).
Proof.
  unfold flat. rewrite in_concat. split.
  - intros (l & I & X). apply in_map_iff in I as (g & <- & G). exists g. split; [exact G|]. destruct X; auto.
  - intros (g & G & X). exists (fst g :: snd g). split; [apply in_map_iff; eauto|]. destruct X; [left|right]; auto.
Qed.

Section Flatten.
  Context (sp ua : sig_pairs) (T : N -> Prop) (base : list ptr).
  Context (T2 : ~ T 2) (T17 : T 13 -> T 17).
  Context (Bb : Forall has_body base) (BT : Forall (fun p => ~ T (tag_of p)) base).
  Context (SP : forall a s, In (a, s) sp -> has_body a /\ has_body s /\ T (tag_of a) /\ tag_of s = 2).
  Context (UA : forall a x, In (a, x) ua -> has_body a /\ has_body x /\ tag_of a = 13 /\ tag_of x = 17).

  Definition all (gs : list group) := base ++ flat gs.
  Record inv (gs : list group) : Prop := {
    inv_body : Forall has_body (all gs);
    inv_distinct : distinct (all gs);
    inv_heads : forall g, In g gs -> T (tag_of (fst g));
    inv_sound : forall g s, In g gs -> In s (snd g) -> exists a, In (a, s) sp /\ alike a (fst g);
    inv_full : forall g a s, In g gs -> In (a, s) sp -> alike a (fst g) -> has (all gs) s }.
  Definition inv_atts gs := forall g a x, In g gs -> In (a, x) ua -> alike a (fst g) -> tag_of (fst g) = 13 -> has (all gs) x.
  Definition headed (gs : list group) (p : ptr) : Prop := exists g, In g gs /\ alike (fst g) p.

  Lemma sp_keys : Forall (fun x => has_body (fst x)) sp.
  Proof. apply Forall_forall. intros [a s] I. now apply SP in I. Qed.
  Lemma ua_keys : Forall (fun x => has_body (fst x)) ua.
  Proof. apply Forall_forall. intros [a s] I. now apply UA in I. Qed.
  Lemma headed_app gs gs' p : headed gs p -> headed (gs ++ gs') p.
  Proof. intros (g & I & A). exists g. rewrite in_app_iff. auto. Qed.
  Lemma all_app gs gs' x : has (all gs) x -> has (all (gs ++ gs')) x.
  Proof. unfold all. rewrite flat_app, app_assoc. apply has_app_l. Qed.
  Lemma has_headed gs p : inv gs -> T (tag_of p) -> has (all gs) p -> headed gs p.
  Proof.
    intros I P (q & Q & A). unfold all in Q. rewrite in_app_iff, in_flat in Q. destruct Q as [Q|(g & G & [->|S])].
    - rewrite Forall_forall in BT. destruct (BT _ Q). destruct A as [-> _]. exact P.
    - exists g. auto.
    - destruct (inv_sound _ I _ _ G S) as (a & X & _). destruct (SP _ _ X) as (_ & _ & _ & Y). destruct A as [A _]. rewrite A in Y. destruct T2. congruence.
  Qed.
  Lemma headed_has gs p : headed gs p -> has (all gs) p.
  Proof. intros (g & G & A). exists (fst g). split; [|exact A]. unfold all. rewrite in_app_iff, in_flat. right. exists g. auto. Qed.

  (** Adding a new packet with its signatures. *)
  Lemma add_group gs p e : inv gs -> has_body p -> T (tag_of p) -> ~ has (all gs) p -> elements sp p = Ok e ->
    exists l, push_new (all gs ++ [p]) e = Ok (all (gs ++ [(p, l)])) /\ inv (gs ++ [(p, l)]).
  Proof.
    intros I P TP N E. destruct (elements_spec p P sp sp_keys) as (l & E' & L). assert (l = e) as -> by congruence. clear E'.
    assert (Fe : Forall has_body e). { apply Forall_forall. intros x X. apply L in X as (a & X & _). now apply SP in X. }
    destruct (push_new_spec e (all gs ++ [p])) as (add & -> & A & H & D); auto.
    { apply Forall_app. split; [apply I|auto]. } { apply distinct_snoc; [apply I|exact N]. }
    exists add. assert (Q : all (gs ++ [(p, add)]) = (all gs ++ [p]) ++ add).
    { unfold all. rewrite flat_snoc, <- !app_assoc. reflexivity. }
    rewrite Q. split; [reflexivity|]. constructor; rewrite ?Q.
    - apply Forall_app. split; [apply Forall_app; split; [apply I|auto]|]. apply Forall_forall. intros x X. rewrite Forall_forall in Fe. auto.
    - exact D.
    - intros g G. apply in_app_iff in G as [G|[<-|[]]]; [now apply (inv_heads _ I)|exact TP].
    - intros g s G S. apply in_app_iff in G as [G|[<-|[]]]; [now apply (inv_sound _ I)|]. cbn [fst snd] in *. apply L, A, S.
    - intros g a s G S K. apply in_app_iff in G as [G|[<-|[]]].
      + rewrite <- app_assoc. apply has_app_l. eapply (inv_full _ I); eassumption.
      + apply H, L. exists a. split; assumption.
  Qed.
  Lemma push_atts_spec (T13 : T 13) : forall l gs, inv gs -> Forall has_body l -> Forall (fun x => tag_of x = 17) l ->
    exists more, push_atts sp (all gs) l = Ok (all (gs ++ more)) /\ inv (gs ++ more) /\
      (forall x, In x l -> headed (gs ++ more) x) /\ forall g, In g more -> In (fst g) l.
  Proof.
    induction l as [|p l IH]; intros gs I F A; cbn [push_atts].
    - exists []. rewrite app_nil_r. split; [reflexivity|]. split; [exact I|]. split; [intros x []|intros g []].
    - apply Forall_cons_iff in F as [P F]. apply Forall_cons_iff in A as [A0 A].
      destruct (found_spec p P (all gs)) as (b & -> & B); [apply I|]. cbn [bind]. destruct b; cbn [bind].
      + destruct (IH gs I F A) as (more & -> & I' & H & X). exists more. split; [reflexivity|]. split; [exact I'|]. split.
        * intros x [<-|Y]; [|auto]. apply headed_app, has_headed; [exact I|rewrite A0; auto|now apply B].
        * intros g G. right. auto.
      + destruct (elements_spec p P sp sp_keys) as (e & E & L). rewrite E. cbn [bind].
        destruct (add_group gs p e I P) as (s & -> & I'); auto. { rewrite A0. auto. } { intros X. apply B in X. discriminate. }
        cbn [bind]. destruct (IH _ I' F A) as (more & -> & I'' & H & X). exists ((p, s) :: more).
        change ((p, s) :: more) with ([(p, s)] ++ more). rewrite app_assoc. split; [reflexivity|]. split; [exact I''|]. split.
        * intros x [<-|Y]; [|auto]. apply headed_app. exists (p, s). split; [rewrite in_app_iff; right; now left|apply alike_refl].
        * intros g [<-|G]; [now left|right; auto].
  Qed.
  (** A user with the attributes. *)
  Lemma atts_kept gs p s more : inv_atts gs -> T 13 -> tag_of p = 13 ->
    (forall g, In g more -> tag_of (fst g) = 17) ->
    (forall a x, In (a, x) ua -> alike a p -> headed ((gs ++ [(p, s)]) ++ more) x) ->
    inv_atts ((gs ++ [(p, s)]) ++ more).
  Proof.
    intros I T13 P M H g a x G X A K. rewrite !in_app_iff in G. destruct G as [[G|[<-|[]]]|G].
    - apply all_app, all_app. eapply I; eassumption.
    - apply headed_has. eapply H; eassumption.
    - apply M in G. lia.
  Qed.
  Lemma elements_ua p e : has_body p -> elements ua p = Ok e ->
    (forall x, In x e <-> exists a, In (a, x) ua /\ alike a p) /\ Forall has_body e /\ Forall (fun x => tag_of x = 17) e.
  Proof.
    intros P E. destruct (elements_spec p P ua ua_keys) as (l & E' & L). assert (l = e) as -> by congruence.
    split; [exact L|]. split; apply Forall_forall; intros x X; apply L in X as (a & X & _); now apply UA in X.
  Qed.

  Lemma flatten_spec : forall it gs, incl it sp -> inv gs -> inv_atts gs ->
    exists more, flatten sp ua it (all gs) = Ok (all (gs ++ more)) /\ inv (gs ++ more) /\ inv_atts (gs ++ more) /\
      (forall a s, In (a, s) it -> tag_of a <> 17 -> headed (gs ++ more) a) /\
      (forall g, In g more -> (exists s, In (fst g, s) sp) \/ (T 13 /\ exists a, In (a, fst g) ua)).
  Proof.
    induction it as [|[a s] it IH]; intros gs J I IA; cbn [flatten].
    - exists []. rewrite app_nil_r. repeat (split; [solve [auto]|]). split; [intros ? ? []|intros ? []].
    - assert (J' : incl it sp) by (intros x X; apply J; now right). assert (J0 : In (a, s) sp) by (apply J; now left).
      destruct (SP _ _ J0) as (A & _ & TA & _). destruct (tag_of a =? 17) eqn:E.
      { destruct (IH gs J' I IA) as (more & -> & I' & IA' & H & X). exists more. repeat (split; [solve [auto]|]). split; [|exact X].
        intros b t [Y|Y] N; [assert (b = a) as -> by congruence; lia|eauto]. }
      destruct (found_spec a A (all gs)) as (b & -> & B); [apply I|]. cbn [bind]. destruct b; cbn [bind].
      { destruct (IH gs J' I IA) as (more & -> & I' & IA' & H & X). exists more. repeat (split; [solve [auto]|]). split; [|exact X].
        intros b t [Y|Y] N; [|eauto]. assert (b = a) as -> by congruence. apply headed_app, has_headed; auto. now apply B. }
      destruct (elements_spec a A sp sp_keys) as (e & EE & L). rewrite EE. cbn [bind].
      destruct (add_group gs a e I A TA) as (l & -> & I'); auto. { intros X. apply B in X. discriminate. }
      cbn [bind].
      assert (exists more, (if tag_of a =? 13 then l0 <- elements ua a;; push_atts sp (all (gs ++ [(a, l)])) l0 else Ok (all (gs ++ [(a, l)])))
        = Ok (all ((gs ++ [(a, l)]) ++ more)) /\ inv ((gs ++ [(a, l)]) ++ more) /\ inv_atts ((gs ++ [(a, l)]) ++ more) /\
        forall g, In g more -> T 13 /\ exists x, In (x, fst g) ua) as (more & -> & I2 & IA2 & X2).
      { destruct (tag_of a =? 13) eqn:E13.
        - destruct (elements_spec a A ua ua_keys) as (e2 & E2 & L2). rewrite E2. cbn [bind].
          destruct (elements_ua a e2 A E2) as (_ & F2 & G2). assert (T13 : T 13) by (apply N.eqb_eq in E13; congruence).
          destruct (push_atts_spec T13 e2 _ I' F2 G2) as (more & -> & I2 & H2 & X2). exists more. split; [reflexivity|]. split; [exact I2|]. split.
          + apply atts_kept; auto; [lia| |].
            * intros g G. rewrite Forall_forall in G2. auto.
            * intros b x X Y. apply H2, L2. eauto.
          + intros g G. split; [exact T13|]. apply X2, L2 in G as (b & G & _). eauto.
        - exists []. rewrite app_nil_r. split; [reflexivity|]. split; [exact I'|]. split; [|intros ? []].
          intros g b x G X Y Z. apply in_app_iff in G as [G|[<-|[]]]; [apply all_app; eapply IA; eassumption|]. cbn in Z. lia. }
      cbn [bind]. destruct (IH _ J' I2 IA2) as (more2 & -> & I3 & IA3 & H & X). exists ([(a, l)] ++ more ++ more2).
      assert (Q : gs ++ [(a, l)] ++ more ++ more2 = ((gs ++ [(a, l)]) ++ more) ++ more2) by now rewrite <- !app_assoc.
      rewrite Q. repeat (split; [solve [auto]|]). split.
      + intros b t [Y|Y] N; [|eauto]. assert (b = a) as -> by congruence. apply headed_app, headed_app. exists (a, l).
        split; [rewrite in_app_iff; right; now left|apply alike_refl].
      + intros g G. rewrite !in_app_iff in G. destruct G as [[<-|[]]|[G|G]]; [left; exists s; exact J0|right; auto|auto].
  Qed.

  Lemma push_users_spec (T13 : T 13) : forall l gs, Forall has_body l -> Forall (fun p => tag_of p = 13) l ->
    (forall a s, In (a, s) sp -> tag_of a = 13 -> headed gs a) -> inv gs -> inv_atts gs ->
    exists more, push_users sp ua (all gs) l = Ok (all (gs ++ more)) /\ inv (gs ++ more) /\ inv_atts (gs ++ more) /\
      (forall a, In a l -> headed (gs ++ more) a) /\
      (forall g, In g more -> In (fst g) l \/ exists a, In (a, fst g) ua).
  Proof.
    induction l as [|p l IH]; intros gs F A C I IA; cbn [push_users].
    - exists []. rewrite app_nil_r. repeat (split; [solve [auto]|]). split; [intros ? []|intros ? []].
    - apply Forall_cons_iff in F as [P F]. apply Forall_cons_iff in A as [A0 A].
      destruct (found_spec p P (all gs)) as (b & -> & B); [apply I|]. cbn [bind]. destruct b; cbn [bind].
      { destruct (IH gs F A C I IA) as (more & -> & I' & IA' & H & X). exists more. repeat (split; [solve [auto]|]). split.
        - intros x [<-|Y]; [|auto]. apply headed_app, has_headed; [exact I|rewrite A0; auto|now apply B].
        - intros g G. destruct (X g G) as [Y|Y]; [left; now right|auto]. }
      assert (NP : ~ has (all gs) p) by (intros X; apply B in X; discriminate).
      destruct (elements_spec p P sp sp_keys) as (e & EE & L).
      assert (e = []) as ->.
      { destruct e as [|x e]; [reflexivity|]. exfalso. destruct (proj1 (L x) (or_introl eq_refl)) as (a & Y & Z).
        apply NP, headed_has. destruct (C a x Y) as (g & G & K); [destruct Z; congruence|]. exists g. split; [exact G|]. eapply alike_trans; eassumption. }
      destruct (add_group gs p [] I P) as (s & ES & I'); auto. { now rewrite A0. }
      cbn [push_new] in ES. apply Ok_inj in ES. rewrite ES.
      destruct (elements_spec p P ua ua_keys) as (e2 & E2 & L2). rewrite E2. cbn [bind].
      destruct (elements_ua p e2 P E2) as (_ & F2 & G2).
      destruct (push_atts_spec T13 e2 _ I' F2 G2) as (more & -> & I2 & H2 & X2). cbn [bind].
      assert (IA2 : inv_atts ((gs ++ [(p, s)]) ++ more)).
      { apply atts_kept; auto.
        - intros g G. rewrite Forall_forall in G2. auto.
        - intros b x X Y. apply H2, L2. eauto. }
      destruct (IH ((gs ++ [(p, s)]) ++ more) F A) as (more2 & -> & I3 & IA3 & H & X); auto.
      { intros a t Y Z. apply headed_app, headed_app. eauto. }
      exists ([(p, s)] ++ more ++ more2).
      assert (Q : gs ++ [(p, s)] ++ more ++ more2 = ((gs ++ [(p, s)]) ++ more) ++ more2) by now rewrite <- !app_assoc.
      rewrite Q. repeat (split; [solve [auto]|]). split.
      + intros b [<-|Y]; [|eauto]. apply headed_app, headed_app. exists (p, s).
        split; [rewrite in_app_iff; right; now left|apply alike_refl].
      + intros g G. rewrite !in_app_iff in G. destruct G as [[<-|[]]|[G|G]].
        * left. now left.
        * right. apply X2, L2 in G as (b & G & _). eauto.
        * destruct (X g G); [left; now right|auto].
  Qed.
End Flatten.

(** The tables of get_pkey. *)
Lemma mm_insert_in x y m : In x (mm_insert y m) <-> x = y \/ In x m.
Proof.
  induction m as [|z m IH]; cbn [mm_insert]; [cbn; intuition congruence|].
  destruct (_ <? _); cbn [In]; [intuition congruence|]. rewrite IH. intuition congruence.
Qed.
Lemma mm_join_in x : forall n m, In x (mm_join m n) <-> In x m \/ In x n.
Proof.
  unfold mm_join. induction n as [|y n IH]; intros m; cbn [fold_left In]; [intuition|].
  rewrite IH, mm_insert_in. intuition congruence.
Qed.

(** The packet signatures at the end of [pre] belong to. *)
Definition owner (pre : list ptr) (o : ptr) : Prop :=
  tag_of o <> 2 /\ exists p1 mid, pre = p1 ++ o :: mid /\ Forall (fun p => tag_of p = 2) mid.
Lemma snoc_inj (A : Type) (a b : list A) x y : a ++ [x] = b ++ [y] -> a = b /\ x = y. Proof. apply app_inj_tail. Qed.
Lemma owner_sig pre p o : tag_of p = 2 -> (owner (pre ++ [p]) o <-> owner pre o).
Proof.
  intros P. unfold owner. split.
  - intros (O & p1 & mid & E & F). split; [exact O|]. destruct mid as [|m mid] using rev_ind.
    + apply snoc_inj in E as [_ ->]. contradiction.
    + exists p1, mid. apply Forall_app in F as [F _]. split; [|exact F]. rewrite app_comm_cons, app_assoc in E. now apply snoc_inj in E.
  - intros (O & p1 & mid & -> & F). split; [exact O|]. exists p1, (mid ++ [p]). split; [now rewrite <- app_assoc|]. apply Forall_app. auto.
Qed.
Lemma owner_new pre p o : tag_of p <> 2 -> (owner (pre ++ [p]) o <-> o = p).
Proof.
  intros P. unfold owner. split.
  - intros (O & p1 & mid & E & F). destruct mid as [|m mid _] using rev_ind; [now apply snoc_inj in E|].
    rewrite app_comm_cons, app_assoc in E. apply snoc_inj in E as [_ ->]. apply Forall_app in F as [_ F]. inversion F; contradiction.
  - intros ->. split; [exact P|]. exists pre, []. auto.
Qed.
Lemma attached_snoc pre p o s : attached (pre ++ [p]) o s <-> attached pre o s \/ (tag_of p = 2 /\ s = p /\ owner pre o).
Proof.
  unfold attached, owner. split.
  - intros (O & S & p1 & mid & post & E & F). destruct post as [|x post _] using rev_ind.
    + right. rewrite app_comm_cons, app_assoc in E. apply snoc_inj in E as [-> ->]. repeat split; auto. exists p1, mid. auto.
    + left. split; [exact O|]. split; [exact S|]. exists p1, mid, post. split; [|exact F].
      replace (p1 ++ o :: mid ++ s :: post ++ [x]) with ((p1 ++ o :: mid ++ s :: post) ++ [x]) in E by (rewrite <- !app_assoc; cbn; now rewrite <- app_assoc).
      now apply snoc_inj in E.
  - intros [(O & S & p1 & mid & post & -> & F)|(P & -> & O & p1 & mid & -> & F)].
    + split; [exact O|]. split; [exact S|]. exists p1, mid, (post ++ [p]). split; [|exact F]. rewrite <- !app_assoc. cbn. now rewrite <- app_assoc.
    + split; [exact O|]. split; [exact P|]. exists p1, mid, []. split; [now rewrite <- app_assoc|exact F].
Qed.

Definition is_primary (t : N) := t = 5 \/ t = 6.
Definition is_user_tag (t : N) := t = 13 \/ t = 17.
Definition is_sub (t : N) := t = 7 \/ t = 14.
Record tables (pre : list ptr) (pk : pkey) : Prop := {
  tb_key : exists r, pre = pk_key pk :: r;
  tb_keySigs : forall a s, In (a, s) (pk_keySigs pk) <-> attached pre a s /\ is_primary (tag_of a);
  tb_uids : forall a s, In (a, s) (pk_uids pk) <-> attached pre a s /\ is_user_tag (tag_of a);
  tb_subs : forall a s, In (a, s) (pk_subKeys pk) <-> attached pre a s /\ is_sub (tag_of a);
  tb_atts : forall a x, In (a, x) (pk_atts pk) -> In a pre /\ tag_of a = 13 /\ In x pre /\ tag_of x = 17;
  tb_atts' : forall x, In x pre -> tag_of x = 17 -> exists a, In (a, x) (pk_atts pk);
  tb_list : forall p, In p (pk_list pk) <-> In p pre /\ tag_of p = 13 }.
(** The three variables of the loop after [pre]. *)
Definition reached (pre : list ptr) (pk : pkey) (u i s : option ptr) : Prop :=
  (forall o, i = Some o -> In o pre /\ tag_of o = 13) /\
  match u, s with
  | None, None => forall o, owner pre o <-> o = pk_key pk
  | Some o, None => is_user_tag (tag_of o) /\ forall o', owner pre o' <-> o' = o
  | None, Some o => is_sub (tag_of o) /\ forall o', owner pre o' <-> o' = o
  | Some _, Some _ => False
  end.
Ltac tags := unfold is_primary, is_user_tag, is_sub in *; lia.
Lemma in_snoc (A : Type) (l : list A) x y : In x (l ++ [y]) <-> x = y \/ In x l.
Proof. rewrite in_app_iff. cbn. intuition congruence. Qed.

(** A packet that is not a signature leaves the attachments as they are. *)
Lemma attached_new pre p o s : tag_of p <> 2 -> (attached (pre ++ [p]) o s <-> attached pre o s).
Proof. intros P. rewrite attached_snoc. intuition. Qed.
Lemma attached_sig pre p o s w : tag_of p = 2 -> (forall o, owner pre o <-> o = w) ->
  (attached (pre ++ [p]) o s <-> attached pre o s \/ (o, s) = (w, p)).
Proof. intros P W. rewrite attached_snoc, W. intuition congruence. Qed.

Lemma pkey_loop_spec : forall rest pre pk u i s pk', tables pre pk -> is_primary (tag_of (pk_key pk)) -> reached pre pk u i s ->
  pkey_loop pk u i s rest = Ok pk' -> tables (pre ++ rest) pk' /\ pk_key pk' = pk_key pk.
Proof.
  induction rest as [|p rest IH]; intros pre pk u i s pk' TB TK [RI R] E; cbn [pkey_loop] in E.
  - apply Ok_inj in E as ->. rewrite app_nil_r. auto.
  - destruct pk as [k ks us ss ua l]. cbn [pk_key] in *. replace (pre ++ p :: rest) with ((pre ++ [p]) ++ rest) by (rewrite <- app_assoc; reflexivity).
    assert (KK : exists r, pre ++ [p] = k :: r) by (destruct TB as [[r ->] _ _ _ _ _ _]; eexists; reflexivity).
    destruct TB as [K1 K2 K3 K4 K5 K6 K7]; cbn [pk_key pk_keySigs pk_uids pk_subKeys pk_atts pk_list] in *.
    assert (RI' : forall o, i = Some o -> In o (pre ++ [p]) /\ tag_of o = 13) by (intros o O; rewrite in_snoc; apply RI in O; tauto).
    destruct (tag_of p =? 2) eqn:E2.
    { apply N.eqb_eq in E2. destruct u as [o|], s as [o'|]; try discriminate.
      - destruct R as [TO R]. apply IH with (pre := pre ++ [p]) in E; auto.
        + constructor; cbn [pk_key pk_keySigs pk_uids pk_subKeys pk_atts pk_list]; auto; intros.
          * rewrite (attached_sig pre p _ _ o E2 R), K2. split; [tauto|]. intros [[?|X] ?]; [tauto|]. assert (a = o) as -> by congruence. tags.
          * rewrite mm_insert_in, (attached_sig pre p _ _ o E2 R), K3. split; [intros [X|[X Y]]; [split; [auto|]; assert (a = o) as -> by congruence; exact TO|tauto]|tauto].
          * rewrite (attached_sig pre p _ _ o E2 R), K4. split; [tauto|]. intros [[?|X] ?]; [tauto|]. assert (a = o) as -> by congruence. tags.
          * rewrite !in_snoc. apply K5 in H. tauto.
          * rewrite in_snoc in H. destruct H as [->|H]; [lia|auto].
          * rewrite in_snoc, K7. split; [tauto|]. intros [[->|?] ?]; [lia|tauto].
        + split; [exact RI'|]. split; [exact TO|]. intros o'. now rewrite owner_sig.
      - destruct R as [TO R]. apply IH with (pre := pre ++ [p]) in E; auto.
        + constructor; cbn [pk_key pk_keySigs pk_uids pk_subKeys pk_atts pk_list]; auto; intros.
          * rewrite (attached_sig pre p _ _ o' E2 R), K2. split; [tauto|]. intros [[?|X] ?]; [tauto|]. assert (a = o') as -> by congruence. tags.
          * rewrite (attached_sig pre p _ _ o' E2 R), K3. split; [tauto|]. intros [[?|X] ?]; [tauto|]. assert (a = o') as -> by congruence. tags.
          * rewrite mm_insert_in, (attached_sig pre p _ _ o' E2 R), K4. split; [intros [X|[X Y]]; [split; [auto|]; assert (a = o') as -> by congruence; exact TO|tauto]|tauto].
          * rewrite !in_snoc. apply K5 in H. tauto.
          * rewrite in_snoc in H. destruct H as [->|H]; [lia|auto].
          * rewrite in_snoc, K7. split; [tauto|]. intros [[->|?] ?]; [lia|tauto].
        + split; [exact RI'|]. split; [exact TO|]. intros o. now rewrite owner_sig.
      - apply IH with (pre := pre ++ [p]) in E; auto.
        + constructor; cbn [pk_key pk_keySigs pk_uids pk_subKeys pk_atts pk_list]; auto; intros.
          * rewrite mm_insert_in, (attached_sig pre p _ _ k E2 R), K2. split; [intros [X|[X Y]]; [split; [auto|]; assert (a = k) as -> by congruence; exact TK|tauto]|tauto].
          * rewrite (attached_sig pre p _ _ k E2 R), K3. split; [tauto|]. intros [[?|X] ?]; [tauto|]. assert (a = k) as -> by congruence. tags.
          * rewrite (attached_sig pre p _ _ k E2 R), K4. split; [tauto|]. intros [[?|X] ?]; [tauto|]. assert (a = k) as -> by congruence. tags.
          * rewrite !in_snoc. apply K5 in H. tauto.
          * rewrite in_snoc in H. destruct H as [->|H]; [lia|auto].
          * rewrite in_snoc, K7. split; [tauto|]. intros [[->|?] ?]; [lia|tauto].
        + split; [exact RI'|]. intros o. now rewrite owner_sig. }
    assert (P2 : tag_of p <> 2) by lia.
    destruct (tag_of p =? 17) eqn:E17.
    { apply N.eqb_eq in E17. destruct i as [o|]; [|discriminate]. destruct (RI o eq_refl) as [IO TO]. apply IH with (pre := pre ++ [p]) in E; auto.
      - constructor; cbn [pk_key pk_keySigs pk_uids pk_subKeys pk_atts pk_list]; auto; intros.
        + rewrite attached_new; auto.
        + rewrite attached_new; auto.
        + rewrite attached_new; auto.
        + rewrite !in_snoc. rewrite mm_insert_in in H. destruct H as [H|H]; [|apply K5 in H; tauto].
          assert (a = o) as -> by congruence. assert (x = p) as -> by congruence. auto.
        + rewrite in_snoc in H. destruct H as [->|H]; [exists o; rewrite mm_insert_in; auto|].
          destruct (K6 x H H0) as (a & A). exists a. rewrite mm_insert_in. auto.
        + rewrite in_snoc, K7. split; [tauto|]. intros [[->|?] ?]; [lia|tauto].
      - split; [exact RI'|]. split; [tags|]. intros o'. now rewrite owner_new. }
    destruct (tag_of p =? 13) eqn:E13.
    { apply N.eqb_eq in E13. apply IH with (pre := pre ++ [p]) in E; auto.
      - constructor; cbn [pk_key pk_keySigs pk_uids pk_subKeys pk_atts pk_list]; auto; intros.
        + rewrite attached_new; auto.
        + rewrite attached_new; auto.
        + rewrite attached_new; auto.
        + rewrite !in_snoc. apply K5 in H. tauto.
        + rewrite in_snoc in H. destruct H as [->|H]; [lia|auto].
        + rewrite !in_snoc, K7. split; [|tauto]. intros [->|?]; tauto.
      - split; [intros o O; assert (o = p) as -> by congruence; rewrite in_snoc; auto|]. split; [tags|]. intros o'. now rewrite owner_new. }
    destruct ((tag_of p =? 7) || (tag_of p =? 14)) eqn:ES; [|discriminate].
    assert (TP : is_sub (tag_of p)) by (apply Bool.orb_true_iff in ES; rewrite !N.eqb_eq in ES; exact ES).
    apply IH with (pre := pre ++ [p]) in E; auto.
    + constructor; cbn [pk_key pk_keySigs pk_uids pk_subKeys pk_atts pk_list]; auto; intros.
      * rewrite attached_new; auto.
      * rewrite attached_new; auto.
      * rewrite attached_new; auto.
      * rewrite !in_snoc. apply K5 in H. tauto.
      * rewrite in_snoc in H. destruct H as [->|H]; [lia|auto].
      * rewrite in_snoc, K7. split; [tauto|]. intros [[->|?] ?]; [lia|tauto].
    + split; [discriminate|]. split; [exact TP|]. intros o'. now rewrite owner_new.
Qed.

(** When the loop does not throw. *)
Fixpoint walk (i : bool) (ts : list N) : bool :=
  match ts with
  | [] => true
  | t :: r =>
    if t =? 2 then walk i r else if t =? 17 then i && walk i r
    else if t =? 13 then walk true r else if (t =? 7) || (t =? 14) then walk false r else false
  end.
Lemma walk_ok : forall ps pk u i s, walk (match i with Some _ => true | None => false end) (map tag_of ps) = true -> (u = None \/ s = None) ->
  exists pk', pkey_loop pk u i s ps = Ok pk'.
Proof.
  induction ps as [|p ps IH]; intros [k ks us ss ua l] u i s W X; cbn [pkey_loop walk map] in *; [eauto|].
  destruct (tag_of p =? 2); [destruct u, s; try (destruct X; discriminate); apply IH; auto|].
  destruct (tag_of p =? 17); [destruct i; [|discriminate]; apply IH; auto|].
  destruct (tag_of p =? 13); [apply IH; auto|]. destruct (_ || _); [apply IH; auto|discriminate].
Qed.
Lemma walk_tags : forall ts i, walk i ts = true -> Forall (fun t => t = 2 \/ is_user_tag t \/ is_sub t) ts.
Proof.
  induction ts as [|t ts IH]; intros i W; cbn [walk] in W; constructor.
  - unfold is_user_tag, is_sub. destruct (t =? 2) eqn:A; [lia|]. destruct (t =? 17) eqn:B; [lia|]. destruct (t =? 13) eqn:C; [lia|].
    destruct ((t =? 7) || (t =? 14)) eqn:D; [|discriminate]. apply Bool.orb_true_iff in D. lia.
  - destruct (t =? 2); [eauto|]. destruct (t =? 17); [apply andb_prop in W as [_ W]; eauto|]. destruct (t =? 13); [eauto|].
    destruct (_ || _); [eauto|discriminate].
Qed.
Lemma walk_sigs i r : forall ts, Forall (eq 2) ts -> walk i (ts ++ r) = walk i r.
Proof. induction 1 as [|t ts <- _ IH]; [reflexivity|exact IH]. Qed.
Lemma walk_users r : forall ts, Forall (fun t => t = 2 \/ is_user_tag t) ts -> walk true (ts ++ r) = walk true r.
Proof. induction 1 as [|t ts [->|[->| ->]] _ IH]; [reflexivity|exact IH..]. Qed.
Lemma walk_subs : forall ts i, Forall (fun t => t = 2 \/ is_sub t) ts -> walk i ts = true.
Proof. induction ts as [|t ts IH]; intros i F; [reflexivity|]. apply Forall_cons_iff in F as [[->|[->| ->]] F]; cbn [walk N.eqb Pos.eqb orb]; auto. Qed.

(** What the grammar says about the packets below one another. *)
Definition fits_below (o s : packet) : Prop :=
  (is_primary (p_tag o) -> signature_of (eq 32) s) /\
  (is_user_tag (p_tag o) -> signature_of (fun t => certifies t \/ (p_tag o = 13 /\ t = 48)) s) /\
  signature_of (fun _ => True) s.
Fixpoint good (o : packet) (l : list packet) : Prop :=
  match l with
  | [] => True
  | p :: r => if p_tag p =? 2 then fits_below o p /\ good o r else good p r
  end.
Lemma good_skip : forall a o x b, good o (a ++ x :: b) -> p_tag x <> 2 -> good x b.
Proof.
  induction a as [|p a IH]; intros o x b G X; cbn [app good] in G.
  - assert (p_tag x =? 2 = false) as E by lia. now rewrite E in G.
  - destruct (p_tag p =? 2); [destruct G as [_ G]|]; eapply IH; eassumption.
Qed.
Lemma good_sigs : forall a o s b, good o (a ++ s :: b) -> Forall (fun p => p_tag p = 2) a -> p_tag s = 2 -> fits_below o s.
Proof.
  induction a as [|p a IH]; intros o s b G F S; cbn [app good] in G.
  - rewrite S in G. apply G.
  - apply Forall_cons_iff in F as [P F]. rewrite P in G. eapply IH; [apply G|exact F|exact S].
Qed.
Lemma good_app_sigs o r : forall a, Forall (fun p => p_tag p = 2) a -> Forall (fits_below o) a -> good o r -> good o (a ++ r).
Proof.
  induction a as [|p a IH]; intros F G R; cbn [app good]; [exact R|]. apply Forall_cons_iff in F as [P F]. apply Forall_cons_iff in G as [Q G].
  rewrite P. cbn [N.eqb Pos.eqb]. auto.
Qed.
Lemma sigs_tag P l : Forall (signature_of P) l -> Forall (fun p => p_tag p = 2) l.
Proof. apply Forall_impl. now intros p [H _]. Qed.
Lemma sig_weak (P Q : N -> Prop) p : (forall t, P t -> Q t) -> signature_of P p -> signature_of Q p.
Proof. intros H [A (s & B & C)]. split; [exact A|]. eauto. Qed.
Lemma below_user u s : is_user_tag (p_tag u) -> signature_of (fun t => certifies t \/ (p_tag u = 13 /\ t = 48)) s -> fits_below u s.
Proof.
  intros T S. split; [intros; tags|]. split; [auto|]. eapply sig_weak; [|exact S]. auto.
Qed.
Lemma below_sub q s : is_sub (p_tag q) -> signature_of (fun _ => True) s -> fits_below q s.
Proof. intros T S. split; [intros; tags|]. split; [intros; tags|exact S]. Qed.
Lemma good_subs sub : is_sub sub -> forall subs o, Forall (subkey_part sub) subs -> good o (concat subs).
Proof.
  intros T. induction subs as [|l subs IH]; intros o F; [exact I|]. apply Forall_cons_iff in F as [(q & sigs & -> & Q & FS & _) F].
  cbn [concat app good]. assert (p_tag q =? 2 = false) as E by tags. rewrite E. apply good_app_sigs; [eapply sigs_tag; eassumption| |auto].
  eapply Forall_impl; [|exact FS]. intros s S. apply below_sub; [now rewrite Q|exact S].
Qed.
Lemma good_users r : (forall o, good o r) -> forall us o, Forall user_part us -> good o (concat us ++ r).
Proof.
  intros R. induction us as [|l us IH]; intros o F; [apply R|]. apply Forall_cons_iff in F as [(u & sigs & -> & U & FS) F].
  cbn [concat app good]. assert (p_tag u =? 2 = false) as E by lia. rewrite E, <- app_assoc. apply good_app_sigs; [eapply sigs_tag; eassumption| |auto].
  eapply Forall_impl; [|exact FS]. intros s S. apply below_user; [exact U|exact S].
Qed.
Lemma good_block primary sub k r : is_primary primary -> is_sub sub -> key_block primary sub (k :: r) -> good k r.
Proof.
  intros P S (k0 & revs & us & subs & E & K & FR & FU & _ & FS & _).
  assert (k0 = k) as -> by congruence. assert (r = revs ++ concat us ++ concat subs) as -> by congruence. clear E.
  apply good_app_sigs; [eapply sigs_tag; eassumption| |].
  - eapply Forall_impl; [|exact FR]. intros s X. split; [auto|]. split; [intros; rewrite K in *; tags|]. eapply sig_weak; [|exact X]. auto.
  - apply good_users; [|exact FU]. intros o. eapply good_subs; eassumption.
Qed.

(** Every subkey is followed by a binding signature. *)
Lemma split_after (A : Type) (x : list A) : forall y l1 q l2, x ++ y = l1 ++ q :: l2 -> ~ In q x -> exists l, l1 = x ++ l /\ y = l ++ q :: l2.
Proof.
  induction x as [|a x IH]; intros y l1 q l2 E N; [exists l1; auto|].
  destruct l1 as [|b l1]; cbn [app] in E; [destruct N; left; congruence|].
  assert (a = b) as -> by congruence. destruct (IH y l1 q l2) as (l & -> & ->); [congruence|intros X; apply N; now right|]. exists l. auto.
Qed.
Lemma bound_subs sub : is_sub sub -> forall subs l1 q l2, Forall (subkey_part sub) subs -> concat subs = l1 ++ q :: l2 -> is_sub (p_tag q) ->
  exists mid b post, l2 = mid ++ b :: post /\ Forall (fun p => p_tag p = 2) mid /\ signature_of (eq 24) b.
Proof.
  intros T. induction subs as [|l subs IH]; intros l1 q l2 F E Q; [destruct l1; discriminate|].
  apply Forall_cons_iff in F as [(k & sigs & -> & K & FS & X) F]. destruct l1 as [|y l1].
  - cbn [concat app] in E. apply Exists_exists in X as (b & I & B). apply in_split in I as (s1 & s2 & ->).
    exists s1, b, (s2 ++ concat subs). split; [|split; [|exact B]].
    + rewrite <- app_assoc in E. cbn [app] in E. congruence.
    + apply Forall_app in FS as [FS _]. eapply sigs_tag; eassumption.
  - cbn [concat app] in E. destruct (split_after _ sigs (concat subs) l1 q l2) as (l & -> & E'); [congruence| |eauto].
    intros I. rewrite Forall_forall in FS. apply FS in I as [I _]. tags.
Qed.
Lemma bound_block primary sub ps l1 q l2 : is_primary primary -> is_sub sub -> key_block primary sub ps -> ps = l1 ++ q :: l2 -> is_sub (p_tag q) ->
  exists mid b post, l2 = mid ++ b :: post /\ Forall (fun p => p_tag p = 2) mid /\ signature_of (eq 24) b.
Proof.
  intros P S (k & revs & us & subs & -> & K & FR & FU & _ & FS & _) E Q.
  replace (k :: revs ++ concat us ++ concat subs) with ((k :: revs ++ concat us) ++ concat subs) in E by (cbn; now rewrite <- app_assoc).
  apply split_after in E as (l & -> & E); [exact (bound_subs sub S subs l q l2 FS E Q)|].
  intros [->|I]; [tags|]. apply in_app_iff in I as [I|I].
  - rewrite Forall_forall in FR. apply FR in I as [I _]. tags.
  - apply in_concat in I as (x & X & I). rewrite Forall_forall in FU. apply FU in X as (u & sigs & -> & U & F). destruct I as [->|I]; [tags|].
    rewrite Forall_forall in F. apply F in I as [I _]. tags.
Qed.

(** A proper key. *)
Lemma map_split (A B : Type) (f : A -> B) : forall l a x b, map f l = a ++ x :: b -> exists a' x' b', l = a' ++ x' :: b' /\ a = map f a' /\ x = f x' /\ b = map f b'.
Proof.
  intros l a x b E. apply map_eq_app in E as (a' & l' & -> & <- & E). apply map_eq_cons in E as (x' & b' & -> & <- & <-). eauto 10.
Qed.
Definition tag_pair (type primary sub : N) : Prop := (type = 2 /\ primary = 6 /\ sub = 14) \/ (type = 3 /\ primary = 5 /\ sub = 7).
Lemma proper_typed type ps : proper type ps -> Forall typed (map snd ps).
Proof. intros (F & _). rewrite Forall_map. eapply Forall_impl; [|exact F]. now intros p [T _]. Qed.
Lemma proper_block type ps : proper type ps -> exists primary sub, tag_pair type primary sub /\ key_block primary sub (map snd ps).
Proof.
  intros P. pose proof (proper_typed _ _ P) as T. destruct P as (_ & M & _). apply transferable_iff in M; [|exact T].
  destruct M as [[-> B]|[-> B]]; [exists 6, 14|exists 5, 7]; split; auto; [left|right]; auto.
Qed.
Lemma tag_pair_is type primary sub : tag_pair type primary sub -> is_primary primary /\ is_sub sub.
Proof. unfold tag_pair. intros. tags. Qed.
Lemma proper_head type ps : proper type ps -> exists k r, ps = k :: r /\ is_primary (tag_of k).
Proof.
  intros P. destruct (proper_block _ _ P) as (primary & sub & T & k & revs & us & subs & E & K & _).
  destruct ps as [|p r]; [discriminate|]. exists p, r. split; [reflexivity|]. cbn [map] in E. assert (snd p = k) by congruence. unfold tag_of.
  apply tag_pair_is in T. unfold tag_of. subst. apply T.
Qed.
Lemma map_tags ps : map tag_of ps = map p_tag (map snd ps).
Proof. rewrite map_map. reflexivity. Qed.
Lemma user_tags us : Forall user_part us -> Forall (fun t => t = 2 \/ is_user_tag t) (map p_tag (concat us)).
Proof.
  intros F. rewrite Forall_map. apply Forall_concat. eapply Forall_impl; [|exact F]. intros l (u & sigs & -> & U & S).
  constructor; [right; exact U|]. eapply Forall_impl; [|exact S]. intros s [X _]. auto.
Qed.
Lemma sub_tags sub subs : is_sub sub -> Forall (subkey_part sub) subs -> Forall (fun t => t = 2 \/ is_sub t) (map p_tag (concat subs)).
Proof.
  intros T F. rewrite Forall_map. apply Forall_concat. eapply Forall_impl; [|exact F]. intros l (q & sigs & -> & U & S & _).
  constructor; [right; now rewrite U|]. eapply Forall_impl; [|exact S]. intros s [X _]. auto.
Qed.
Lemma proper_walk type k r : proper type (k :: r) -> walk false (map tag_of r) = true.
Proof.
  intros P. destruct (proper_block _ _ P) as (primary & sub & T & k0 & revs & us & subs & E & K & FR & FU & X & FS & _).
  destruct (tag_pair_is _ _ _ T) as [TP TS]. destruct P as (_ & _ & AF). rewrite map_tags. cbn [map] in E.
  assert (Er : map snd r = revs ++ concat us ++ concat subs) by congruence. rewrite Er, !map_app.
  rewrite walk_sigs. 2: { rewrite Forall_map. eapply Forall_impl; [|exact FR]. now intros s [-> _]. }
  destruct us as [|l us]; [inversion X|]. apply Forall_cons_iff in FU as [(u & sigs & -> & U & S) FU].
  assert (U13 : p_tag u = 13).
  { destruct U as [U|U]; [exact U|]. exfalso. cbn [concat app] in Er. apply map_split in Er as (a & u' & b & -> & -> & -> & _).
    destruct (AF (k :: a) u' b eq_refl U) as (v & V & V13). destruct V as [<-|V].
    - assert (snd k = k0) by congruence. unfold tag_of in V13. subst. tags.
    - apply (in_map snd) in V. rewrite Forall_forall in FR. apply FR in V as [V _]. unfold tag_of in V13. lia. }
  cbn [concat app map]. rewrite U13. cbn [walk N.eqb Pos.eqb].
  rewrite map_app, <- app_assoc, walk_users by (rewrite Forall_map; eapply Forall_impl; [|exact S]; intros s [Y _]; auto).
  rewrite walk_users by now apply user_tags. apply walk_subs. eapply sub_tags; eassumption.
Qed.
Lemma proper_pkey type ps : proper type ps -> exists pk, get_pkey type ps = Ok pk /\ tables ps pk.
Proof.
  intros P. destruct (proper_head _ _ P) as (k & r & -> & K). pose proof (proper_walk _ _ _ P) as W.
  unfold get_pkey. destruct P as (_ & M & _). rewrite M. cbn [bind]. change (vec_at (k :: r) 0) with (Ok k). cbn [bind].
  change (skipn 1 (k :: r)) with r. destruct (walk_ok r (mkPkey k [] [] [] [] []) None None None W) as (pk & E); [auto|].
  exists pk. split; [exact E|]. apply pkey_loop_spec with (pre := [k]) in E as [E _]; [exact E| |exact K|].
  - assert (N : forall a s, ~ attached [k] a s).
    { intros a s (A & S & pre & mid & post & X & _). apply (f_equal (@length _)) in X. rewrite app_length in X. cbn in X. rewrite app_length in X. cbn in X. lia. }
    constructor; cbn [pk_key pk_keySigs pk_uids pk_subKeys pk_atts pk_list]; [eauto|..].
    + intros a s. split; [intros []|intros [X _]; now apply N in X].
    + intros a s. split; [intros []|intros [X _]; now apply N in X].
    + intros a s. split; [intros []|intros [X _]; now apply N in X].
    + intros a x [].
    + intros x [<-|[]] X. tags.
    + intros p. split; [intros []|]. intros [[<-|[]] X]. tags.
  - split; [discriminate|]. cbn [pk_key]. intros o. split.
    + intros (O & p1 & mid & X & _). destruct p1 as [|? [|? ?]]; cbn in X; [congruence|destruct mid; discriminate|discriminate].
    + intros ->. split; [tags|]. exists [], []. auto.
Qed.
Lemma proper_body type ps p : proper type ps -> In p ps -> typed (snd p) /\ has_body p /\ known_version p.
Proof. intros (F & _) I. rewrite Forall_forall in F. auto. Qed.
Lemma attached_in ps o s : attached ps o s -> In o ps /\ In s ps.
Proof.
  intros (_ & _ & pre & mid & post & -> & _). split; rewrite in_app_iff; right; [now left|]. right. rewrite in_app_iff. right. now left.
Qed.
Lemma proper_tags type k r p : proper type (k :: r) -> In p r -> tag_of p = 2 \/ is_user_tag (tag_of p) \/ is_sub (tag_of p).
Proof.
  intros P I. pose proof (walk_tags _ _ (proper_walk _ _ _ P)) as F. rewrite Forall_forall in F. apply F. now apply in_map.
Qed.
Lemma proper_primary type k r o : proper type (k :: r) -> In o (k :: r) -> is_primary (tag_of o) -> o = k.
Proof. intros P [<-|I] T; [reflexivity|]. destruct (proper_tags _ _ _ _ P I) as [?|[?|?]]; tags. Qed.
Lemma sig_owner : forall r k p, tag_of k <> 2 -> In p r -> tag_of p = 2 -> exists o, attached (k :: r) o p.
Proof.
  intros r k p K I T. apply in_split in I as (a & b & ->).
  assert (O : exists o, owner (k :: a) o).
  { clear - K. induction a as [|x a IH] using rev_ind.
    - exists k. split; [exact K|]. exists [], []. auto.
    - destruct (N.eq_dec (tag_of x) 2) as [E|E].
      + destruct IH as [o O]. exists o. change (k :: a ++ [x]) with ((k :: a) ++ [x]). now apply owner_sig.
      + exists x. change (k :: a ++ [x]) with ((k :: a) ++ [x]). now apply owner_new. }
  destruct O as (o & O & p1 & mid & E & F). exists o. split; [exact O|]. split; [exact T|]. exists p1, mid, b. split; [|exact F].
  change (k :: a ++ p :: b) with ((k :: a) ++ p :: b). now rewrite E, <- app_assoc.
Qed.
Lemma proper_bound type ps q : proper type ps -> In q ps -> is_sub (tag_of q) -> exists b, attached ps q b /\ signature_of (eq 24) (snd b).
Proof.
  intros P I Q. destruct (proper_block _ _ P) as (primary & sub & T & B). destruct (tag_pair_is _ _ _ T) as [TP TS].
  apply in_split in I as (l1 & l2 & ->). rewrite map_app in B. cbn [map] in B.
  destruct (bound_block _ _ _ _ _ _ TP TS B eq_refl Q) as (mid & b & post & E & F & S).
  apply map_split in E as (mid' & b' & post' & -> & -> & -> & ->). exists b'. split; [|exact S].
  split; [tags|]. destruct S as [S _]. split; [exact S|]. exists l1, mid', post'. split; [reflexivity|]. rewrite Forall_map in F. exact F.
Qed.
Lemma proper_below type ps o s : proper type ps -> attached ps o s -> fits_below (snd o) (snd s).
Proof.
  intros P (O & S & pre & mid & post & E & F). destruct (proper_block _ _ P) as (primary & sub & T & B). destruct (tag_pair_is _ _ _ T) as [TP TS].
  destruct (proper_head _ _ P) as (k & r & -> & _). cbn [map] in B. apply good_block in B; [|assumption|assumption].
  assert (G : good (snd o) (map snd (mid ++ s :: post))).
  { destruct pre as [|x pre]; cbn [app] in E.
    - assert (k = o) as -> by congruence. assert (r = mid ++ s :: post) as -> by congruence. exact B.
    - assert (r = pre ++ o :: mid ++ s :: post) as -> by congruence. rewrite map_app in B. cbn [map] in B. eapply good_skip; [exact B|exact O]. }
  rewrite map_app in G. cbn [map] in G. eapply good_sigs; [exact G| |exact S]. now rewrite Forall_map.
Qed.
Lemma proper_user type ps : proper type ps -> exists u, In u ps /\ tag_of u = 13.
Proof.
  intros P. destruct (proper_block _ _ P) as (primary & sub & T & k & revs & us & subs & E & K & FR & FU & X & _).
  apply Exists_exists in X as (l & L & u & sigs & -> & U). assert (I : In u (map snd ps)).
  { rewrite E. right. rewrite !in_app_iff, in_concat. right. left. exists (u :: sigs). split; [exact L|now left]. }
  apply in_map_iff in I as (u' & <- & I). eauto.
Qed.

(** The list merge builds. *)
Definition either (ps ps' : list ptr) (o s : ptr) : Prop := attached ps o s \/ attached ps' o s.
Record merged (ps ps' : list ptr) (k : ptr) (ks : list ptr) (gu gs : list group) : Prop := {
  mg_head : exists r, ps = k :: r;
  mg_distinct : distinct (flat ((k, ks) :: gu ++ gs));
  mg_ks : forall s, In s ks -> exists a, either ps ps' a s /\ is_primary (tag_of a);
  mg_ks' : forall a s, either ps ps' a s -> is_primary (tag_of a) -> has (flat ((k, ks) :: gu ++ gs)) s;
  mg_gu : forall g, In g gu -> is_user_tag (tag_of (fst g)) /\ In (fst g) (ps ++ ps') /\
    forall s, In s (snd g) -> exists a, either ps ps' a s /\ alike a (fst g);
  mg_gs : forall g, In g gs -> is_sub (tag_of (fst g)) /\ In (fst g) (ps ++ ps') /\
    forall s, In s (snd g) -> exists a, either ps ps' a s /\ alike a (fst g);
  mg_users : forall u, In u (ps ++ ps') -> is_user_tag (tag_of u) -> headed gu u;
  mg_subs : forall a s, either ps ps' a s -> is_sub (tag_of a) -> headed gs a;
  mg_full : forall g a s, In g (gu ++ gs) -> either ps ps' a s -> alike a (fst g) -> has (flat ((k, ks) :: gu ++ gs)) s }.

Lemma key_sigs_tag ps ps' a s : either ps ps' a s -> tag_of s = 2. Proof. now intros [(_ & X & _)|(_ & X & _)]. Qed.
Lemma tables_join (f : pkey -> sig_pairs) (P : N -> Prop) ps ps' pk1 pk2 :
  (forall a s, In (a, s) (f pk1) <-> attached ps a s /\ P (tag_of a)) ->
  (forall a s, In (a, s) (f pk2) <-> attached ps' a s /\ P (tag_of a)) ->
  forall a s, In (a, s) (mm_join (f pk1) (f pk2)) <-> either ps ps' a s /\ P (tag_of a).
Proof. intros A B a s. rewrite mm_join_in, A, B. unfold either. tauto. Qed.
Lemma has_flat_headed G p : (forall g, In g G -> forall s, In s (snd g) -> tag_of s <> tag_of p) -> has (flat G) p -> headed G p.
Proof.
  intros H (q & Q & A). apply in_flat in Q as (g & I & [->|S]); [exists g; auto|]. destruct (H g I q S). apply A.
Qed.

Lemma merge_shape type type' ps ps' : proper type ps -> proper type' ps' -> same_key ps ps' ->
  exists k ks gu gs, merge type type' ps ps' = (m <- key_meaningful type (map snd (flat ((k, ks) :: gu ++ gs))) ;; Ok (flat ((k, ks) :: gu ++ gs), m)) /\
    merged ps ps' k ks gu gs.
Proof.
  intros P P' (k & r & k' & r' & -> & -> & KK).
  destruct (proper_pkey _ _ P) as (pk1 & E1 & T1). destruct (proper_pkey _ _ P') as (pk2 & E2 & T2).
  unfold merge. rewrite E1, E2. cbn [bind].
  assert (pk_key pk1 = k) as -> by (destruct T1 as [[? X] _ _ _ _ _ _]; congruence).
  assert (pk_key pk2 = k') as -> by (destruct T2 as [[? X] _ _ _ _ _ _]; congruence).
  set (ps := k :: r) in *. set (ps' := k' :: r') in *.
  assert (Bd : forall p, In p (ps ++ ps') -> has_body p).
  { intros p I. apply in_app_iff in I as [I|I]; [eapply (proper_body _ _ _ P)|eapply (proper_body _ _ _ P')]; exact I. }
  assert (Ke : has_body k) by (apply Bd; now left). assert (Ke' : has_body k') by (apply Bd; rewrite in_app_iff; right; now left).
  assert (Kt : is_primary (tag_of k)) by (destruct (proper_head _ _ P) as (? & ? & X & ?); assert (k = x) as -> by (unfold ps in X; congruence); assumption).
  destruct (same_spec k k' Ke Ke') as (b & -> & B). cbn [bind]. rewrite (proj2 B KK). cbn [negb].
  assert (Ein : forall a s, either ps ps' a s -> In a (ps ++ ps') /\ In s (ps ++ ps')).
  { intros a s [X|X]; apply attached_in in X as [X Y]; rewrite !in_app_iff; auto. }
  pose proof (tables_join pk_keySigs is_primary ps ps' pk1 pk2 (tb_keySigs _ _ T1) (tb_keySigs _ _ T2)) as J1.
  pose proof (tables_join pk_uids is_user_tag ps ps' pk1 pk2 (tb_uids _ _ T1) (tb_uids _ _ T2)) as J2.
  pose proof (tables_join pk_subKeys is_sub ps ps' pk1 pk2 (tb_subs _ _ T1) (tb_subs _ _ T2)) as J3.
  set (tk := mm_join (pk_keySigs pk1) (pk_keySigs pk2)) in *. set (tu := mm_join (pk_uids pk1) (pk_uids pk2)) in *.
  set (ts := mm_join (pk_subKeys pk1) (pk_subKeys pk2)) in *. set (ua := mm_join (pk_atts pk1) (pk_atts pk2)) in *.
  set (ul := pk_list pk1 ++ pk_list pk2) in *.
  assert (UA : forall a x, In (a, x) ua -> In a ul /\ tag_of a = 13 /\ In x (ps ++ ps') /\ tag_of x = 17).
  { intros a x X. unfold ua in X. apply mm_join_in in X as [X|X]; unfold ul; rewrite !in_app_iff, (tb_list _ _ T1), (tb_list _ _ T2).
    - apply (tb_atts _ _ T1) in X. tauto.
    - apply (tb_atts _ _ T2) in X. tauto. }
  assert (UA' : forall x, In x (ps ++ ps') -> tag_of x = 17 -> exists a, In (a, x) ua).
  { intros x X T. unfold ua. apply in_app_iff in X as [X|X].
    - destruct (tb_atts' _ _ T1 x X T) as (a & A). exists a. rewrite mm_join_in. auto.
    - destruct (tb_atts' _ _ T2 x X T) as (a & A). exists a. rewrite mm_join_in. auto. }
  assert (UL : forall p, In p ul <-> In p (ps ++ ps') /\ tag_of p = 13).
  { intros p. unfold ul. rewrite !in_app_iff, (tb_list _ _ T1), (tb_list _ _ T2). tauto. }
  (* the signatures of the key *)
  destruct (push_new_spec (map snd tk) [k]) as (ks & E3 & I3 & H3 & D3).
  { auto. }
  { apply Forall_forall. intros s S. apply in_map_iff in S as ((a & s') & <- & S). apply J1 in S as [S _]. apply Bd, (Ein _ _ S). }
  { intros i j p q X Y _. destruct i as [|[|i]], j as [|[|j]]; cbn in *; congruence. }
  rewrite E3. cbn [bind]. cbn [app] in *.
  assert (KS : forall s, In s ks -> exists a, either ps ps' a s /\ is_primary (tag_of a)).
  { intros s S. apply I3, in_map_iff in S as ((a & s') & <- & S). apply J1 in S. eauto. }
  assert (Fb : Forall has_body (k :: ks)).
  { constructor; [exact Ke|]. apply Forall_forall. intros s S. apply KS in S as (a & S & _). apply Bd, (Ein _ _ S). }
  assert (Ft : Forall (fun p => ~ is_user_tag (tag_of p)) (k :: ks)).
  { constructor; [tags|]. apply Forall_forall. intros s S. apply KS in S as (a & S & _). apply key_sigs_tag in S. tags. }
  assert (UA2 : forall a x, In (a, x) ua -> has_body a /\ has_body x /\ tag_of a = 13 /\ tag_of x = 17).
  { intros a x X. apply UA in X as (X1 & X2 & X3 & X4). apply UL in X1 as [X1 _]. auto. }
  (* the users *)
  assert (SP1 : forall a s, In (a, s) tu -> has_body a /\ has_body s /\ is_user_tag (tag_of a) /\ tag_of s = 2).
  { intros a s X. apply J2 in X as [X Y]. destruct (Ein _ _ X). repeat split; auto. eapply key_sigs_tag; eassumption. }
  assert (X2 : ~ is_user_tag 2) by tags. assert (X17 : is_user_tag 13 -> is_user_tag 17) by tags.
  destruct (flatten_spec tu ua is_user_tag (k :: ks) X2 X17 Ft SP1 UA2 tu []) as (g1 & E4 & I4 & A4 & H4 & O4).
  { apply incl_refl. }
  { constructor; try (intros ? []; fail); unfold all, flat; cbn [map concat]; rewrite ?app_nil_r; try assumption; intros ? ? []. intros []. }
  { intros g a x []. }
  cbn [app] in E4, I4, A4, H4. unfold all in E4 at 1. unfold flat in E4 at 1. cbn [map concat] in E4. rewrite app_nil_r in E4. rewrite E4. cbn [bind].
  assert (T13 : is_user_tag 13) by tags.
  destruct (push_users_spec tu ua is_user_tag (k :: ks) X2 X17 Ft SP1 UA2 T13 ul g1) as (g2 & E5 & I5 & A5 & H5 & O5); auto.
  { apply Forall_forall. intros p X. apply UL in X as [X _]. auto. }
  { apply Forall_forall. intros p X. now apply UL in X. }
  { intros a s X Y. eapply H4; [exact X|lia]. }
  rewrite E5. cbn [bind]. set (gu := g1 ++ g2) in *.
  assert (HU : forall u, In u (ps ++ ps') -> is_user_tag (tag_of u) -> headed gu u).
  { intros u U [T|T]; [apply H5, UL; auto|]. destruct (UA' u U T) as (a & A). destruct (UA _ _ A) as (A1 & A2 & _).
    destruct (H5 a A1) as (g & G & GA). apply (has_headed tu is_user_tag (k :: ks) X2 Ft SP1); [exact I5|now rewrite T; tags|].
    eapply A5; [exact G|exact A|apply alike_sym, GA|]. destruct GA as [-> _]. exact A2. }
  (* the subkeys *)
  assert (GU : forall g, In g gu -> is_user_tag (tag_of (fst g)) /\ In (fst g) (ps ++ ps') /\
    forall s, In s (snd g) -> exists a, either ps ps' a s /\ alike a (fst g)).
  { intros g G. split; [now apply (inv_heads _ _ _ _ I5)|]. split.
    - apply in_app_iff in G as [G|G].
      + destruct (O4 g G) as [(s & X)|[_ (a & X)]]; [apply J2 in X as [X _]; apply (Ein _ _ X)|apply UA in X; tauto].
      + destruct (O5 g G) as [X|(a & X)]; [now apply UL in X|apply UA in X; tauto].
    - intros s S. destruct (inv_sound _ _ _ _ I5 g s G S) as (a & X & Y). apply J2 in X as [X _]. eauto. }
  set (base2 := k :: ks ++ flat gu).
  assert (Q2 : all (k :: ks) gu = base2) by (unfold all, base2; reflexivity).
  assert (Fb2 : Forall has_body base2) by (rewrite <- Q2; apply I5).
  assert (Ft2 : Forall (fun p => ~ is_sub (tag_of p)) base2).
  { unfold base2. constructor; [tags|]. apply Forall_app. split; apply Forall_forall.
    - intros s S. apply KS in S as (a & S & _). apply key_sigs_tag in S. tags.
    - intros x X. apply in_flat in X as (g & G & [->|S]); destruct (GU g G) as (Z & _ & Y); [tags|]. apply Y in S as (a & S & _). apply key_sigs_tag in S. tags. }
  assert (SP2 : forall a s, In (a, s) ts -> has_body a /\ has_body s /\ is_sub (tag_of a) /\ tag_of s = 2).
  { intros a s X. apply J3 in X as [X Y]. destruct (Ein _ _ X). repeat split; auto. eapply key_sigs_tag; eassumption. }
  assert (Y2 : ~ is_sub 2) by tags. assert (Y17 : is_sub 13 -> is_sub 17) by tags.
  destruct (flatten_spec ts ua is_sub base2 Y2 Y17 Ft2 SP2 UA2 ts []) as (gs & E6 & I6 & _ & H6 & O6).
  { apply incl_refl. }
  { assert (Z : all base2 [] = base2) by (unfold all, flat; cbn [map concat]; apply app_nil_r).
    constructor; rewrite ?Z; auto; try (rewrite <- Q2; apply I5); try (intros ? []; fail); intros ? ? []; intros []. }
  { intros g a x []. }
  cbn [app] in E6, I6, H6. unfold all in E6 at 1. unfold flat in E6 at 1. cbn [map concat] in E6. rewrite app_nil_r in E6.
  rewrite Q2, E6. cbn [bind].
  assert (Q3 : all base2 gs = flat ((k, ks) :: gu ++ gs)).
  { unfold all, base2. change (flat ((k, ks) :: gu ++ gs)) with (k :: ks ++ flat (gu ++ gs)). rewrite flat_app. cbn [app]. now rewrite <- app_assoc. }
  rewrite Q3. exists k, ks, gu, gs. split; [reflexivity|].
  assert (Up : forall x, has base2 x -> has (flat ((k, ks) :: gu ++ gs)) x) by (intros x X; rewrite <- Q3; now apply has_app_l).
  constructor.
  - exists r. reflexivity.
  - rewrite <- Q3. apply I6.
  - exact KS.
  - intros a s X Y. apply Up. unfold base2. change (k :: ks ++ flat gu) with ((k :: ks) ++ flat gu). apply has_app_l, H3.
    apply in_map_iff. exists (a, s). split; [reflexivity|]. apply J1. auto.
  - exact GU.
  - intros g G. split; [now apply (inv_heads _ _ _ _ I6)|]. split.
    + destruct (O6 g G) as [(s & X)|[X _]]; [|tags]. apply J3 in X as [X _]. apply (Ein _ _ X).
    + intros s S. destruct (inv_sound _ _ _ _ I6 g s G S) as (a & X & Y). apply J3 in X as [X _]. eauto.
  - exact HU.
  - intros a s X Y. eapply H6; [apply J3; eauto|tags].
  - intros g a s G X Y. apply in_app_iff in G as [G|G].
    + apply Up. rewrite <- Q2. eapply (inv_full _ _ _ _ I5); [exact G| |exact Y]. apply J2. split; [exact X|]. destruct Y as [-> _]. now apply GU.
    + rewrite <- Q3. eapply (inv_full _ _ _ _ I6); [exact G| |exact Y]. apply J3. split; [exact X|]. destruct Y as [-> _]. now apply (inv_heads _ _ _ _ I6).
Qed.
