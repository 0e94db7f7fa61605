(** Lemmas on objects behind pointers. *)
From Verif Require Export Proofs.Lib Model.Heap Spec.Copies.
Local Open Scope nat_scope.

Ltac ib H x := let E := fresh "E" in apply bind_ok in H; destruct H as (x & E & H).

Lemma put_length h a c : length (put h a c) = length h.
Proof. revert a. induction h as [|x r IH]; intros [|a]; cbn; auto. Qed.
Lemma put_same h a c : a < length h -> nth_error (put h a c) a = Some c.
Proof. revert a. induction h as [|x r IH]; intros [|a] L; cbn in *; try lia; [reflexivity|]. apply IH. lia. Qed.
Lemma put_other h a c b : b <> a -> nth_error (put h a c) b = nth_error h b.
Proof. revert a b. induction h as [|x r IH]; intros [|a] [|b] D; cbn; try reflexivity; try lia. apply IH. lia. Qed.
Lemma nth_app_l (h t : heap) a c : nth_error h a = Some c -> nth_error (h ++ t) a = Some c.
Proof. intros E. rewrite nth_error_app1; [exact E|]. apply nth_error_Some. congruence. Qed.

(** Values depend only on a set of objects closed under pointers. *)
Lemma all_ext {A} (f g : addr -> option A) l : (forall a, In a l -> f a = g a) -> all f l = all g l.
Proof. induction l as [|a r IH]; intros H; cbn; [reflexivity|]. rewrite (H a) by now left. rewrite IH; [reflexivity|]. intros b I. apply H. now right. Qed.
Lemma maybe_ext {A} (f g : addr -> option A) p : (forall a, In a (somes p) -> f a = g a) -> maybe f p = maybe g p.
Proof. destruct p as [a|]; cbn; intros H; [now rewrite (H a) by now left|reflexivity]. Qed.
Lemma sub_of_ext f g s : (forall e, In e (ptrs (CSub false s)) -> f e = g e) -> sub_of f s = sub_of g s.
Proof. destruct s; intros H; try reflexivity. cbn. erewrite maybe_ext; [reflexivity|]. intros a I. apply H. destruct embedded; exact I. Qed.
Lemma body_ext sg sg' h h' (P : addr -> Prop) b : (forall a, P a -> nth_error h' a = nth_error h a) -> (forall a c x, P a -> nth_error h a = Some c -> In x (ptrs c) -> P x) ->
  (forall e, P e -> sg' e = sg e) -> (forall a, In a (body_ptrs b) -> P a) -> body_value sg' h' b = body_value sg h b.
Proof.
  intros AG CL SG BP.
  assert (SV : forall a, P a -> sub_value sg' h' a = sub_value sg h a).
  { intros a Pa. unfold sub_value. rewrite (AG a Pa). destruct (nth_error h a) as [[| c s | | | ]|] eqn:E; try reflexivity.
    erewrite sub_of_ext; [reflexivity|]. intros e I. apply SG. apply (CL a (CSub c s) e Pa E). exact I. }
  destruct b; cbn [body_value body_ptrs] in *.
  - rewrite (all_ext (sub_value sg' h') (sub_value sg h) hashed), (all_ext (sub_value sg' h') (sub_value sg h) unhashed); [reflexivity| |]; intros a I; apply SV, BP; apply in_or_app; tauto.
  - rewrite (maybe_ext (s2k_value h') (s2k_value h)), (maybe_ext (string_value h') (string_value h)); [reflexivity| |]; intros a I; [unfold string_value|unfold s2k_value]; rewrite AG; try reflexivity; apply BP, in_or_app; tauto.
  - rewrite (maybe_ext (s2k_value h') (s2k_value h)); [reflexivity|]. intros a I. unfold s2k_value. rewrite AG; [reflexivity|]. now apply BP.
  - rewrite (all_ext (image_value h') (image_value h)); [reflexivity|]. intros a I. unfold image_value. rewrite AG; [reflexivity|]. now apply BP.
  - reflexivity.
Qed.
Lemma value_ext (P : addr -> Prop) h h' : (forall a, P a -> nth_error h' a = nth_error h a) -> (forall a c x, P a -> nth_error h a = Some c -> In x (ptrs c) -> P x) ->
  forall n a, P a -> value n h' a = value n h a.
Proof.
  intros AG CL. induction n as [|n IH]; intros a Pa; [reflexivity|]. cbn [value]. rewrite (AG a Pa). destruct (nth_error h a) as [[t f p b| | | |]|] eqn:E; try reflexivity.
  erewrite body_ext; [reflexivity|exact AG|exact CL| |].
  - intros e Pe. cbn. now rewrite IH.
  - intros x I. exact (CL a _ x Pa E I).
Qed.
(** They stay when objects are added. *)
Lemma all_mono {A} (f g : addr -> option A) l vs : (forall a v, f a = Some v -> g a = Some v) -> all f l = Some vs -> all g l = Some vs.
Proof.
  intros M. revert vs. induction l as [|a r IH]; intros vs; cbn; [auto|]. destruct (f a) eqn:E; [|discriminate]. destruct (all f r) eqn:F; [|discriminate].
  rewrite (M _ _ E), (IH _ eq_refl). auto.
Qed.
Lemma maybe_mono {A} (f g : addr -> option A) p v : (forall a v, f a = Some v -> g a = Some v) -> maybe f p = Some v -> maybe g p = Some v.
Proof. intros M. destruct p as [a|]; cbn; [|auto]. destruct (f a) eqn:E; [|discriminate]. now rewrite (M _ _ E). Qed.
Lemma sub_mono sg sg' h t a v : (forall e s, sg e = Some s -> sg' e = Some s) -> sub_value sg h a = Some v -> sub_value sg' (h ++ t) a = Some v.
Proof.
  intros M. unfold sub_value. destruct (nth_error h a) as [[| c s | | | ]|] eqn:E; try discriminate. rewrite (nth_app_l _ t _ _ E).
  destruct s; cbn; auto. destruct (maybe sg embedded) eqn:F; [|discriminate]. now rewrite (maybe_mono _ _ _ _ M F).
Qed.
Lemma s2k_mono h t a v : s2k_value h a = Some v -> s2k_value (h ++ t) a = Some v.
Proof. unfold s2k_value. destruct (nth_error h a) eqn:E; [|discriminate]. now rewrite (nth_app_l _ t _ _ E). Qed.
Lemma string_mono h t a v : string_value h a = Some v -> string_value (h ++ t) a = Some v.
Proof. unfold string_value. destruct (nth_error h a) eqn:E; [|discriminate]. now rewrite (nth_app_l _ t _ _ E). Qed.
Lemma image_mono h t a v : image_value h a = Some v -> image_value (h ++ t) a = Some v.
Proof. unfold image_value. destruct (nth_error h a) eqn:E; [|discriminate]. now rewrite (nth_app_l _ t _ _ E). Qed.
Lemma body_mono sg sg' h t b v : (forall e s, sg e = Some s -> sg' e = Some s) -> body_value sg h b = Some v -> body_value sg' (h ++ t) b = Some v.
Proof.
  intros M. destruct b; cbn [body_value]; auto.
  - destruct (all (sub_value sg h) hashed) eqn:E; [|discriminate]. destruct (all (sub_value sg h) unhashed) eqn:F; [|discriminate].
    rewrite (all_mono _ (sub_value sg' (h ++ t)) _ _ (fun a v => sub_mono sg sg' h t a v M) E), (all_mono _ (sub_value sg' (h ++ t)) _ _ (fun a v => sub_mono sg sg' h t a v M) F). auto.
  - destruct (maybe (s2k_value h) s2k) eqn:E; [|discriminate]. destruct (maybe (string_value h) esk) eqn:F; [|discriminate].
    rewrite (maybe_mono _ _ _ _ (s2k_mono h t) E), (maybe_mono _ _ _ _ (string_mono h t) F). auto.
  - destruct (maybe (s2k_value h) s2k) eqn:E; [|discriminate]. rewrite (maybe_mono _ _ _ _ (s2k_mono h t) E). auto.
  - destruct (all (image_value h) attrs) eqn:E; [|discriminate]. rewrite (all_mono _ _ _ _ (image_mono h t) E). auto.
Qed.
Lemma value_mono n h t : forall a v, value n h a = Some v -> value n (h ++ t) a = Some v.
Proof.
  induction n as [|n IH]; intros a v; [discriminate|]. cbn [value]. destruct (nth_error h a) as [[tg f p b| | | |]|] eqn:E; try discriminate. rewrite (nth_app_l _ t _ _ E).
  destruct (body_value (fun e => sig_of (value n h e)) h b) eqn:B; [|discriminate]. erewrite body_mono; [|..|exact B]; [auto|].
  intros e s. cbn. destruct (value n h e) eqn:V; [|discriminate]. now rewrite (IH _ _ V).
Qed.

(** Extending a heap by objects that point only to new objects. *)
Definition ext (h h1 : heap) : Prop := exists t, h1 = h ++ t /\ forall c x, In c t -> In x (ptrs c) -> length h <= x < length h1.
Lemma ext_refl h : ext h h.
Proof. exists []. rewrite app_nil_r. split; [reflexivity|]. intros c x []. Qed.
Lemma ext_length h h1 : ext h h1 -> length h <= length h1.
Proof. intros (t & -> & _). rewrite app_length. lia. Qed.
Lemma ext_trans h h1 h2 : ext h h1 -> ext h1 h2 -> ext h h2.
Proof.
  intros X Y. assert (LX := ext_length _ _ X). assert (LY := ext_length _ _ Y). destruct X as (t & E & X), Y as (u & F & Y). exists (t ++ u). split; [now rewrite F, E, app_assoc|].
  intros c x I J. apply in_app_or in I as [I|I]; [specialize (X c x I J); lia|specialize (Y c x I J); lia].
Qed.
Lemma ext_alloc h h1 c : ext h h1 -> (forall x, In x (ptrs c) -> length h <= x < length h1) -> ext h (h1 ++ [c]).
Proof.
  intros (t & -> & X) P. exists (t ++ [c]). split; [now rewrite app_assoc|]. intros d x I J. rewrite app_length. cbn. apply in_app_or in I as [I|[<-|[]]].
  - specialize (X d x I J). lia.
  - specialize (P x J). lia.
Qed.
Lemma put_app h t a c : length h <= a -> put (h ++ t) a c = h ++ put t (a - length h) c.
Proof. revert a. induction h as [|x r IH]; intros a L; cbn in *; [f_equal; lia|]. destruct a as [|a]; [lia|]. cbn. f_equal. apply IH. lia. Qed.
Lemma put_In t a c d : In d (put t a c) -> d = c \/ In d t.
Proof. revert a. induction t as [|x r IH]; intros [|a]; cbn; try tauto; [intros [->|I]; tauto|]. intros [->|I]; [tauto|]. apply IH in I. tauto. Qed.
Lemma ext_put h h1 a c : ext h h1 -> length h <= a -> (forall x, In x (ptrs c) -> length h <= x < length h1) -> ext h (put h1 a c).
Proof.
  intros (t & E & X) L P. exists (put t (a - length h) c). split; [rewrite E; now apply put_app|]. intros d x I J. rewrite put_length. apply put_In in I as [->|I]; [now apply P|now apply (X d)].
Qed.
Lemma ext_nth h h1 a c x : ext h h1 -> length h <= a -> nth_error h1 a = Some c -> In x (ptrs c) -> length h <= x < length h1.
Proof. intros (t & E & X) L N I. apply (X c x); [|exact I]. rewrite E, nth_error_app2 in N by exact L. now apply nth_error_In in N. Qed.
Lemma ext_value h h1 n a v : ext h h1 -> value n h a = Some v -> value n h1 a = Some v.
Proof. intros (t & -> & _). apply value_mono. Qed.

(** A cloning function: it adds an object and what it points to, and the new object has the value
    of the old one. *)
Definition clones {A} (vf : heap -> addr -> option A) (f : heap -> addr -> result (heap * addr)) : Prop :=
  forall h a h1 b, f h a = Ok (h1, b) -> ext h h1 /\ length h <= b < length h1 /\ forall v, vf h a = Some v -> vf h1 b = Some v.
Definition monotone {A} (vf : heap -> addr -> option A) : Prop := forall h h1 a v, ext h h1 -> vf h a = Some v -> vf h1 a = Some v.
(** One whose every value is kept. *)
Lemma clones_all {A} (vf : heap -> addr -> option A) f : clones vf f -> monotone vf -> forall l h h1 l1, clone_all f h l = Ok (h1, l1) ->
  ext h h1 /\ (forall x, In x l1 -> length h <= x < length h1) /\ forall vs, all (vf h) l = Some vs -> all (vf h1) l1 = Some vs.
Proof.
  intros C M. induction l as [|a r IH]; intros h h1 l1 H; cbn [clone_all] in H.
  - apply Ok_inj in H. injection H as <- <-. split; [apply ext_refl|]. split; [intros x []|auto].
  - ib H x. destruct x as [h2 a2]. ib H x. destruct x as [h3 r3]. apply Ok_inj in H. injection H as <- <-.
    apply C in E as (X & B & V). apply IH in E0 as (X3 & B3 & V3). assert (L := ext_length _ _ X). assert (L3 := ext_length _ _ X3).
    split; [now apply (ext_trans _ h2)|]. split; [intros x [<-|I]; [lia|]; specialize (B3 x I); lia|].
    intros vs. cbn [all]. destruct (vf h a) as [v|] eqn:VA; [|discriminate]. destruct (all (vf h) r) as [vr|] eqn:VR; [|discriminate]. intros [= <-].
    rewrite (M _ _ _ _ X3 (V _ eq_refl)). rewrite (V3 vr); [reflexivity|]. apply (all_mono (vf h)); [|exact VR]. intros x w. now apply M.
Qed.
Lemma clones_opt {A} (vf : heap -> addr -> option A) f : clones vf f -> forall p h h1 p1, clone_opt f h p = Ok (h1, p1) ->
  ext h h1 /\ (forall x, In x (somes p1) -> length h <= x < length h1) /\ forall v, maybe (vf h) p = Some v -> maybe (vf h1) p1 = Some v.
Proof.
  intros C [a|] h h1 p1 H; cbn [clone_opt] in H.
  - ib H x. destruct x as [h2 a2]. apply Ok_inj in H. injection H as <- <-. apply C in E as (X & B & V). split; [exact X|]. split; [intros x [<-|[]]; exact B|].
    intros v. cbn. destruct (vf h a) eqn:VA; [|discriminate]. now rewrite (V _ eq_refl).
  - apply Ok_inj in H. injection H as <- <-. split; [apply ext_refl|]. split; [intros x []|auto].
Qed.
Lemma maybe_ext_mono {A} (vf : heap -> addr -> option A) h h1 p v : monotone vf -> ext h h1 -> maybe (vf h) p = Some v -> maybe (vf h1) p = Some v.
Proof. intros M X. apply maybe_mono. intros a w. now apply M. Qed.
(** Allocation of an object without pointers. *)
Lemma alloc_leaf h c : ptrs c = [] -> ext h (h ++ [c]) /\ length h <= length h < length (h ++ [c]) /\ nth_error (h ++ [c]) (length h) = Some c.
Proof.
  intros P. split; [apply ext_alloc; [apply ext_refl|]; rewrite P; intros x []|]. rewrite app_length. cbn. split; [lia|]. rewrite nth_error_app2, Nat.sub_diag by lia. reflexivity.
Qed.
Lemma s2k_clones : clones s2k_value clone_s2k.
Proof.
  intros h a h1 b H. unfold clone_s2k, deref in H. destruct (nth_error h a) as [[| | s | | ]|] eqn:E; try discriminate H. cbn in H. apply Ok_inj in H. injection H as <- <-.
  destruct (alloc_leaf h (CS2k s) eq_refl) as (X & B & N). split; [exact X|]. split; [exact B|]. intros v. unfold s2k_value. now rewrite N, E.
Qed.
Lemma string_clones : clones string_value clone_string.
Proof.
  intros h a h1 b H. unfold clone_string, deref in H. destruct (nth_error h a) as [[| | | s | ]|] eqn:E; try discriminate H. cbn in H. apply Ok_inj in H. injection H as <- <-.
  destruct (alloc_leaf h (CString s) eq_refl) as (X & B & N). split; [exact X|]. split; [exact B|]. intros v. unfold string_value. now rewrite N, E.
Qed.
Lemma image_clones : clones image_value clone_image.
Proof.
  intros h a h1 b H. unfold clone_image, deref in H. destruct (nth_error h a) as [[| | | | s ]|] eqn:E; try discriminate H. cbn in H. apply Ok_inj in H. injection H as <- <-.
  destruct (alloc_leaf h (CImage s) eq_refl) as (X & B & N). split; [exact X|]. split; [exact B|]. intros v. unfold image_value. now rewrite N, E.
Qed.
Lemma s2k_monotone : monotone s2k_value.
Proof. intros h h1 a v (t & -> & _). apply s2k_mono. Qed.
Lemma string_monotone : monotone string_value.
Proof. intros h h1 a v (t & -> & _). apply string_mono. Qed.
Lemma image_monotone : monotone image_value.
Proof. intros h h1 a v (t & -> & _). apply image_mono. Qed.
Definition sig_at (k : nat) (h : heap) (e : addr) : option tag2 := sig_of (value k h e).
Lemma sig_monotone k : monotone (sig_at k).
Proof. intros h h1 a v X. unfold sig_at. destruct (value k h a) eqn:V; [|discriminate]. now rewrite (ext_value _ _ _ _ _ X V). Qed.
Definition sub_at (k : nat) (h : heap) (a : addr) : option (bool * sub tag2) := sub_value (sig_at k h) h a.
Lemma sub_monotone k : monotone (sub_at k).
Proof. intros h h1 a v X. assert (M := sig_monotone k). destruct (X) as (t & -> & _). apply sub_mono. intros e s. now apply M. Qed.

Section Level.
  Variable cl : heap -> addr -> result (heap * addr).
  Hypothesis CL : forall k, clones (value k) cl.
  Lemma sub_clones k : clones (sub_at k) (clone_sub cl).
  Proof.
    intros h a h1 b H. unfold clone_sub, deref in H. destruct (nth_error h a) as [[| c s | | | ]|] eqn:E; try discriminate H. cbn [bind] in H.
    destruct s; try (apply Ok_inj in H; injection H as <- <-; match goal with |- ext _ (_ ++ [?c]) /\ _ => destruct (alloc_leaf h c eq_refl) as (X & B & N) end;
      split; [exact X|]; split; [exact B|]; intros v; unfold sub_at, sub_value; now rewrite N, E).
    destruct embedded as [e|]; cbn [set_embedded] in H.
    - destruct (cl h e) as [[h2 e2]| | |] eqn:EC; cbn [bind] in H; try discriminate H. apply Ok_inj in H. injection H as <- <-.
      destruct (CL k _ _ _ _ EC) as (X & B & V). assert (L := ext_length _ _ X).
      assert (X2 : ext h (h2 ++ [CSub c (Sub32 (Some e2))])) by (apply ext_alloc; [exact X|]; intros x [<-|[]]; exact B).
      split; [exact X2|]. rewrite app_length. cbn [length]. split; [lia|]. intros v. unfold sub_at, sub_value. rewrite E. rewrite nth_error_app2, Nat.sub_diag by lia. cbn [nth_error sub_of maybe].
      unfold sig_at. destruct (value k h e) as [p|] eqn:VE; [|discriminate]. rewrite (value_mono _ _ _ _ _ (V _ eq_refl)). auto.
    - cbn [bind] in H. apply Ok_inj in H. injection H as <- <-. destruct (alloc_leaf h (CSub c (Sub32 None)) eq_refl) as (X & B & N).
      split; [exact X|]; split; [exact B|]; intros v; unfold sub_at, sub_value; now rewrite N, E.
  Qed.
  Lemma contents_copied k h b h1 b1 : copy_contents cl h b = Ok (h1, b1) ->
    ext h h1 /\ (forall x, In x (body_ptrs b1) -> length h <= x < length h1) /\ forall v, body_value (sig_at k h) h b = Some v -> body_value (sig_at k h1) h1 b1 = Some v.
  Proof.
    intros H. destruct b; cbn [copy_contents] in H.
    - ib H x. destruct x as [h2 hs]. ib H x. destruct x as [h3 us]. apply Ok_inj in H. injection H as <- <-.
      destruct (clones_all _ _ (sub_clones k) (sub_monotone k) _ _ _ _ E) as (X & B & V). destruct (clones_all _ _ (sub_clones k) (sub_monotone k) _ _ _ _ E0) as (X3 & B3 & V3).
      assert (L := ext_length _ _ X). assert (L3 := ext_length _ _ X3). split; [now apply (ext_trans _ h2)|]. split.
      { intros x I. cbn in I. apply in_app_or in I as [I|I]; [specialize (B x I)|specialize (B3 x I)]; lia. }
      intros v. cbn [body_value]. change (sub_value (sig_at k h) h) with (sub_at k h). change (sub_value (sig_at k h3) h3) with (sub_at k h3).
      destruct (all (sub_at k h) hashed) as [v1|] eqn:A1; [|discriminate]. destruct (all (sub_at k h) unhashed) as [v2|] eqn:A2; [|discriminate].
      rewrite (all_mono (sub_at k h2) (sub_at k h3) hs v1); [|intros a w; now apply sub_monotone|now apply V]. rewrite (V3 v2); [auto|]. apply (all_mono (sub_at k h)); [intros a w; now apply sub_monotone|exact A2].
    - ib H x. destruct x as [h2 p]. ib H x. destruct x as [h3 q]. apply Ok_inj in H. injection H as <- <-.
      destruct (clones_opt _ _ s2k_clones _ _ _ _ E) as (X & B & V). destruct (clones_opt _ _ string_clones _ _ _ _ E0) as (X3 & B3 & V3).
      assert (L := ext_length _ _ X). assert (L3 := ext_length _ _ X3). split; [now apply (ext_trans _ h2)|]. split.
      { intros x I. cbn in I. apply in_app_or in I as [I|I]; [specialize (B x I)|specialize (B3 x I)]; lia. }
      intros v. cbn [body_value]. destruct (maybe (s2k_value h) s2k) as [v1|] eqn:A1; [|discriminate]. destruct (maybe (string_value h) esk) as [v2|] eqn:A2; [|discriminate].
      rewrite (maybe_ext_mono _ _ _ _ _ s2k_monotone X3 (V _ eq_refl)). rewrite (V3 v2); [auto|]. now apply (maybe_ext_mono _ _ _ _ _ string_monotone X).
    - ib H x. destruct x as [h2 p]. apply Ok_inj in H. injection H as <- <-. destruct (clones_opt _ _ s2k_clones _ _ _ _ E) as (X & B & V).
      split; [exact X|]. split; [exact B|]. intros v. cbn [body_value]. destruct (maybe (s2k_value h) s2k) as [v1|] eqn:A1; [|discriminate]. now rewrite (V _ eq_refl).
    - ib H x. destruct x as [h2 l]. apply Ok_inj in H. injection H as <- <-. destruct (clones_all _ _ image_clones image_monotone _ _ _ _ E) as (X & B & V).
      split; [exact X|]. split; [exact B|]. intros v. cbn [body_value]. destruct (all (image_value h) attrs) as [v1|] eqn:A1; [|discriminate]. now rewrite (V _ eq_refl).
    - apply Ok_inj in H. injection H as <- <-. split; [apply ext_refl|]. split; [intros x []|auto].
  Qed.
End Level.
(** Packet::Tag::clone makes an object of the same value out of new objects. *)
Lemma clone_clones n : forall k, clones (value k) (clone n).
Proof.
  induction n as [|n IH]; intros k h a h1 b H; cbn [clone] in H; [discriminate|]. unfold deref in H. destruct (nth_error h a) as [[t f p bd| | | |]|] eqn:E; cbn [bind] in H; try discriminate H.
  ib H x. destruct x as [h2 b2]. cbn [alloc] in H. ib H x. apply Ok_inj in H. injection H as <- <-. rename E0 into E1, E1 into E2.
  destruct (contents_copied _ IH (pred k) _ _ _ _ E1) as (X & B & V). assert (L := ext_length _ _ X).
  set (c2 := CPacket t f p b2) in *. assert (X2 : ext h (h2 ++ [c2])) by (apply ext_alloc; [exact X|exact B]).
  assert (N2 : nth_error (h2 ++ [c2]) (length h2) = Some c2) by (rewrite nth_error_app2, Nat.sub_diag by lia; reflexivity).
  assert (Len : length (h2 ++ [c2]) = S (length h2)) by (rewrite app_length; cbn; lia).
  assert (V2 : forall v, value k h a = Some v -> value k (h2 ++ [c2]) (length h2) = Some v).
  { intros v. destruct k as [|k]; [discriminate|]. cbn [pred] in V. cbn [value]. rewrite E, N2. change (fun e => sig_of (value k h e)) with (sig_at k h). change (fun e => sig_of (value k (h2 ++ [c2]) e)) with (sig_at k (h2 ++ [c2])).
    subst c2. cbn iota beta. destruct (body_value (sig_at k h) h bd) as [w|]; [|discriminate]. erewrite body_mono; [| |exact (V _ eq_refl)]; [auto|].
    intros e s. unfold sig_at. destruct (value k h2 e) eqn:VE; [|discriminate]. now rewrite (value_mono _ _ _ _ _ VE). }
  assert (K : x = h2 ++ [c2] \/ (exists h3 b3, copy_contents (clone n) (h2 ++ [c2]) bd = Ok (h3, b3) /\ x = put h3 (length h2) (CPacket t f p b3))).
  { destruct bd; cbn [clone_contents] in E2; try (right; apply bind_ok in E2; destruct E2 as ([h3 b3] & EC & E2); apply Ok_inj in E2; exists h3, b3; split; [exact EC|now rewrite <- E2]);
      apply Ok_inj in E2; left; now rewrite <- E2. }
  destruct K as [->|(h3 & b3 & E3 & ->)].
  - split; [exact X2|]. split; [lia|exact V2].
  - destruct (contents_copied _ IH (pred k) _ _ _ _ E3) as (X3 & B3 & V3). assert (L3 := ext_length _ _ X3). rewrite Len in *.
    split; [|rewrite put_length; split; [lia|]].
    { apply ext_put; [now apply (ext_trans _ (h2 ++ [c2]))|lia|]. intros y I. specialize (B3 y I). lia. }
    intros v. destruct k as [|k]; [discriminate|]. cbn [pred] in V3. cbn [value]. rewrite E, put_same by lia. change (fun e => sig_of (value k h e)) with (sig_at k h). change (fun e => sig_of (value k ?h e)) with (sig_at k h).
    destruct (body_value (sig_at k h) h bd) as [w|] eqn:W; [|discriminate].
    assert (W2 : body_value (sig_at k (h2 ++ [c2])) (h2 ++ [c2]) bd = Some w).
    { destruct (X2) as (tt & EE & _). rewrite EE. apply (body_mono (sig_at k h)); [|exact W]. intros e s. apply sig_monotone. rewrite <- EE. exact X2. }
    specialize (V3 _ W2).
    set (P := fun y => S (length h2) <= y < length h3).
    assert (AG : forall y, P y -> nth_error (put h3 (length h2) (CPacket t f p b3)) y = nth_error h3 y) by (intros y Py; apply put_other; unfold P in Py; lia).
    assert (CP : forall y c z, P y -> nth_error h3 y = Some c -> In z (ptrs c) -> P z).
    { intros y c z Py N I. unfold P. assert (Q := ext_nth _ _ y c z X3). rewrite Len in Q. apply Q; [unfold P in Py; lia|exact N|exact I]. }
    rewrite (body_ext (sig_at k h3) _ h3 _ P b3 AG CP); [now rewrite V3| |exact B3].
    intros e Pe. unfold sig_at. now rewrite (value_ext P h3 _ AG CP).
Qed.

(** What is done through pointers in a set closed under pointers stays in the set. *)
Lemma history_within (P : addr -> Prop) lim : (forall a, lim <= a -> P a) -> forall from h h', history from h h' -> lim <= length h -> (forall a, In a from -> P a) ->
  (forall a c x, P a -> nth_error h a = Some c -> In x (ptrs c) -> P x) -> forall a, ~ P a -> nth_error h' a = nth_error h a.
Proof.
  intros PL from h h' H. induction H as [from h|from h c h' RC H IH|from h a c h' RA LA RC H IH]; intros L F C x NP.
  - reflexivity.
  - assert (RP : forall y, reach h from y -> P y) by (intros y RY; induction RY as [y I|y d z RY IY N J]; [now apply F|exact (C y d z IY N J)]).
    rewrite IH; [|rewrite app_length; lia| | |exact NP].
    + apply nth_error_app1. destruct (Nat.lt_ge_cases x (length h)) as [G|G]; [exact G|]. exfalso. apply NP, PL. lia.
    + intros y [<-|I]; [now apply PL|now apply F].
    + intros y d z PY N I. destruct (Nat.lt_ge_cases y (length h)) as [G|G].
      * rewrite nth_error_app1 in N by exact G. exact (C y d z PY N I).
      * rewrite nth_error_app2 in N by exact G. destruct (y - length h) as [|m]; cbn in N; [|now destruct m]. injection N as <-. apply RP, RC, I.
  - assert (RP : forall y, reach h from y -> P y) by (intros y RY; induction RY as [y I|y d z RY IY N J]; [now apply F|exact (C y d z IY N J)]).
    rewrite IH; [|now rewrite put_length|exact F| |exact NP].
    + apply put_other. intros ->. apply NP, RP, RA.
    + intros y d z PY N I. destruct (Nat.eq_dec y a) as [->|D]; [rewrite put_same in N by exact LA; injection N as <-; apply RP, RC, I|].
      rewrite put_other in N by exact D. exact (C y d z PY N I).
Qed.
Lemma ext_old h h1 a : ext h h1 -> a < length h -> nth_error h1 a = nth_error h a.
Proof. intros (t & -> & _) L. now apply nth_error_app1. Qed.
Lemma nth_lt (h : heap) a c : nth_error h a = Some c -> a < length h.
Proof. intros E. apply nth_error_Some. congruence. Qed.
(** New objects do not see what is done to old ones, and the other way round. *)
Lemma new_unaffected h h1 from seen : closed h -> ext h h1 -> (forall a, In a from -> a < length h) -> (forall a, In a seen -> length h <= a < length h1) -> unaffected h1 from seen.
Proof.
  intros CH X F S h2 H n a v I V. rewrite <- V. set (R := fun x => length h <= x < length h1).
  apply (value_ext R); [|intros y c z RY N J; exact (ext_nth _ _ _ _ _ X (proj1 RY) N J)|now apply S].
  intros y RY. apply (history_within (fun x => x < length h \/ length h1 <= x) (length h1)) with (from := from); [auto|exact H|lia|intros z J; left; now apply F| |unfold R in RY; lia].
  intros z c w PZ N J. assert (LZ := nth_lt _ _ _ N). left. destruct PZ as [PZ|PZ]; [|lia]. rewrite (ext_old _ _ _ X PZ) in N. exact (CH z c w N J).
Qed.
Lemma old_unaffected h h1 from seen : closed h -> ext h h1 -> (forall a, In a from -> length h <= a < length h1) -> (forall a, In a seen -> a < length h) -> unaffected h1 from seen.
Proof.
  intros CH X F S h2 H n a v I V. rewrite <- V. set (R := fun x => x < length h).
  apply (value_ext R); [| |now apply S].
  - intros y RY. apply (history_within (fun x => length h <= x) (length h)) with (from := from); [auto|exact H|exact (ext_length _ _ X)|intros z J; now apply F| |unfold R in RY; lia].
    intros z c w PZ N J. exact (proj1 (ext_nth _ _ _ _ _ X PZ N J)).
  - intros y c z RY N J. rewrite (ext_old _ _ _ X RY) in N. exact (CH y c z N J).
Qed.

(** Cloning ends for every object that stands for a value. *)
Definition total {A} (vf : heap -> addr -> option A) (f : heap -> addr -> result (heap * addr)) : Prop := forall h a v, vf h a = Some v -> exists h1 b, f h a = Ok (h1, b).
Lemma all_total {A} (vf : heap -> addr -> option A) f : clones vf f -> monotone vf -> total vf f -> forall l h vs, all (vf h) l = Some vs -> exists h1 l1, clone_all f h l = Ok (h1, l1).
Proof.
  intros C M T. induction l as [|a r IH]; intros h vs H; cbn [all clone_all] in *; [eauto|]. destruct (vf h a) as [v|] eqn:VA; [|discriminate]. destruct (all (vf h) r) as [vr|] eqn:VR; [|discriminate].
  destruct (T _ _ _ VA) as (h1 & b & E). rewrite E. cbn [bind]. destruct (C _ _ _ _ E) as (X & _ & _).
  destruct (IH h1 vr) as (h2 & l2 & E2); [apply (all_mono (vf h)); [intros x w; now apply M|exact VR]|]. rewrite E2. cbn [bind]. eauto.
Qed.
Lemma opt_total {A} (vf : heap -> addr -> option A) f : total vf f -> forall p h v, maybe (vf h) p = Some v -> exists h1 p1, clone_opt f h p = Ok (h1, p1).
Proof. intros T [a|] h v H; cbn [maybe clone_opt] in *; [|eauto]. destruct (vf h a) as [w|] eqn:VA; [|discriminate]. destruct (T _ _ _ VA) as (h1 & b & E). rewrite E. cbn [bind]. eauto. Qed.
Lemma s2k_total : total s2k_value clone_s2k.
Proof. intros h a v. unfold s2k_value, clone_s2k, deref. destruct (nth_error h a) as [[]|]; try discriminate. intros _. do 2 eexists. reflexivity. Qed.
Lemma string_total : total string_value clone_string.
Proof. intros h a v. unfold string_value, clone_string, deref. destruct (nth_error h a) as [[]|]; try discriminate. intros _. do 2 eexists. reflexivity. Qed.
Lemma image_total : total image_value clone_image.
Proof. intros h a v. unfold image_value, clone_image, deref. destruct (nth_error h a) as [[]|]; try discriminate. intros _. do 2 eexists. reflexivity. Qed.
Lemma contents_total cl k : (forall k, clones (value k) cl) -> total (value k) cl -> forall h b v, body_value (sig_at k h) h b = Some v -> exists h1 b1, copy_contents cl h b = Ok (h1, b1).
Proof.
  intros C T h b v H.
  assert (TS : total (sub_at k) (clone_sub cl)).
  { clear h b v H. intros h a v. unfold sub_at, sub_value, clone_sub, deref. destruct (nth_error h a) as [[| c s | | | ]|]; try discriminate. cbn [bind]. destruct s; try (intros _; do 2 eexists; reflexivity).
    destruct embedded as [e|]; cbn; [|intros _; do 2 eexists; reflexivity]. unfold sig_at. destruct (value k h e) as [p|] eqn:V; [|discriminate]. destruct (T _ _ _ V) as (h1 & b & E). rewrite E. cbn. intros _. do 2 eexists. reflexivity. }
  destruct b; cbn [body_value copy_contents] in *; [| | | |eauto].
  - change (sub_value (sig_at k h) h) with (sub_at k h) in H. destruct (all (sub_at k h) hashed) as [v1|] eqn:A1; [|discriminate]. destruct (all (sub_at k h) unhashed) as [v2|] eqn:A2; [|discriminate].
    destruct (all_total _ _ (sub_clones cl C k) (sub_monotone k) TS _ _ _ A1) as (h1 & l1 & E1). rewrite E1. cbn [bind]. destruct (clones_all _ _ (sub_clones cl C k) (sub_monotone k) _ _ _ _ E1) as (X & _ & _).
    destruct (all_total _ _ (sub_clones cl C k) (sub_monotone k) TS unhashed h1 v2) as (h2 & l2 & E2); [apply (all_mono (sub_at k h)); [intros x w; now apply sub_monotone|exact A2]|]. rewrite E2. cbn [bind]. eauto.
  - destruct (maybe (s2k_value h) s2k) as [v1|] eqn:A1; [|discriminate]. destruct (maybe (string_value h) esk) as [v2|] eqn:A2; [|discriminate].
    destruct (opt_total _ _ s2k_total _ _ _ A1) as (h1 & p1 & E1). rewrite E1. cbn [bind]. destruct (clones_opt _ _ s2k_clones _ _ _ _ E1) as (X & _ & _).
    destruct (opt_total _ _ string_total esk h1 v2) as (h2 & p2 & E2); [now apply (maybe_ext_mono _ _ _ _ _ string_monotone X)|]. rewrite E2. cbn [bind]. eauto.
  - destruct (maybe (s2k_value h) s2k) as [v1|] eqn:A1; [|discriminate]. destruct (opt_total _ _ s2k_total _ _ _ A1) as (h1 & p1 & E1). rewrite E1. cbn [bind]. eauto.
  - destruct (all (image_value h) attrs) as [v1|] eqn:A1; [|discriminate]. destruct (all_total _ _ image_clones image_monotone image_total _ _ _ A1) as (h1 & l1 & E1). rewrite E1. cbn [bind]. eauto.
Qed.
Lemma clone_total n : total (value n) (clone n).
Proof.
  induction n as [|n IH]; intros h a v H; [discriminate|]. cbn [value clone] in *. unfold deref. destruct (nth_error h a) as [[t f p b| | | |]|]; try discriminate. cbn [bind].
  change (fun e => sig_of (value n h e)) with (sig_at n h) in H. destruct (body_value (sig_at n h) h b) as [w|] eqn:B; [|discriminate].
  destruct (contents_total _ n (clone_clones n) IH _ _ _ B) as (h1 & b1 & E1). rewrite E1. cbn [bind alloc].
  destruct (contents_copied _ (clone_clones n) n _ _ _ _ E1) as (X & PB & V).
  assert (X2 : ext h (h1 ++ [CPacket t f p b1])) by (apply ext_alloc; [exact X|exact PB]).
  assert (W2 : body_value (sig_at n (h1 ++ [CPacket t f p b1])) (h1 ++ [CPacket t f p b1]) b = Some w).
  { destruct (X2) as (tt & EE & _). rewrite EE. apply (body_mono (sig_at n h)); [|exact B]. intros e s. apply sig_monotone. rewrite <- EE. exact X2. }
  destruct (contents_total _ n (clone_clones n) IH _ _ _ W2) as (h3 & b3 & E3).
  destruct b; cbn [clone_contents]; try rewrite E3; cbn [bind]; eauto.
Qed.
