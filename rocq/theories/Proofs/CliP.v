(** Lemmas about the command line. *)
From Verif Require Export Proofs.Lib Spec.CommandLine.
Local Open Scope N_scope.

Lemma beq_sym a b : beq a b = beq b a.
Proof. destruct (beq a b) eqn:E; symmetry; [apply beq_eq in E; subst; apply beq_refl|]. apply beq_neq in E. apply beq_neq. congruence. Qed.
Lemma find_key_In {A} (m : list (bytes * A)) k : (exists v, find_key m k = Some v) <-> In k (map fst m).
Proof.
  induction m as [|[k' v] r IH]; cbn [find_key map In fst]; [split; [intros [v H]; discriminate|intros []]|]. destruct (beq k' k) eqn:E.
  - apply beq_eq in E. subst. split; [now left|eauto].
  - apply beq_neq in E. rewrite IH. split; [now right|]. intros [H|H]; [congruence|exact H].
Qed.
Lemma find_key_None {A} (m : list (bytes * A)) k : find_key m k = None <-> ~ In k (map fst m).
Proof. rewrite <- find_key_In. destruct (find_key m k); split; intros H; try reflexivity; try discriminate; [exfalso; apply H; eauto|intros [v X]; discriminate]. Qed.
Lemma find_key_unique {A} (m : list (bytes * A)) k v : NoDup (map fst m) -> In (k, v) m -> find_key m k = Some v.
Proof.
  induction m as [|[k' v'] r IH]; cbn [find_key map fst]; intros ND H; [destruct H|]. inversion ND as [|? ? NI ND']; subst. destruct H as [H|H].
  - inversion H; subst. now rewrite beq_refl.
  - destruct (beq k' k) eqn:E; [apply beq_eq in E; subst; exfalso; apply NI; now apply (in_map fst) in H|now apply IH].
Qed.
Lemma has_key_In {A} (m : list (bytes * A)) k : has_key m k = true <-> In k (map fst m).
Proof. unfold has_key. rewrite <- find_key_In. destruct (find_key m k); split; intros H; eauto; try discriminate. destruct H; discriminate. Qed.
Lemma find_put {A} (m : list (bytes * A)) k v k' : find_key (put_key m k v) k' = if beq k k' then Some v else find_key m k'.
Proof. reflexivity. Qed.

(** The state of the loop as a function of the items seen. *)
Definition step (m : module) (s : list bytes * parsed) (i : item) : list bytes * parsed :=
  let '(pos, p) := s in
  match i with
  | Value o v => (pos, (put_key (fst p) o v, snd p))
  | Flag f => (pos, (fst p, put_key (snd p) f (negb (match find_key (m_flags m) f with Some d => d | None => true end))))
  | Word w => match pos with [] => (pos, p) | x :: pos' => (pos', (put_key (fst p) x w, snd p)) end
  end.
Definition end_of (s : list bytes * parsed) : option bytes * parsed := (match fst s with [] => None | x :: _ => Some x end, snd s).
Lemma loop_items m : (forall x, In x (map fst (m_flags m)) -> ~ In x (map fst (m_opts m))) -> forall items pos p tail, Forall (fits m) items ->
  parse_loop m false pos (flat_map spell items ++ tail) p =
  parse_loop m false (fst (fold_left (step m) items (pos, p))) tail (snd (fold_left (step m) items (pos, p))).
Proof.
  intros DJ. induction items as [|i r IH]; intros pos p tail F; [reflexivity|]. inversion F as [|? ? FI FR]; subst. cbn [flat_map fold_left]. rewrite <- app_assoc.
  destruct i as [o v|f|w]; cbn [spell app parse_loop step].
  - destruct FI as [ND IO]. apply beq_neq in ND. fold dashes. rewrite ND. apply has_key_In in IO. rewrite IO. rewrite IH by exact FR. reflexivity.
  - destruct FI as [ND IO]. apply beq_neq in ND. fold dashes. rewrite ND.
    replace (has_key (m_opts m) f) with false by (symmetry; apply Bool.not_true_is_false; intros X; apply has_key_In in X; exact (DJ _ IO X)).
    apply find_key_In in IO as [d E]. rewrite E. rewrite IH by exact FR. reflexivity.
  - destruct FI as (ND & NO & NF). apply beq_neq in ND. fold dashes. rewrite ND.
    replace (has_key (m_opts m) w) with false by (symmetry; apply Bool.not_true_is_false; intros X; apply has_key_In in X; exact (NO X)).
    apply find_key_None in NF. rewrite NF. destruct pos as [|x pos]; rewrite IH by exact FR; reflexivity.
Qed.
Lemma loop_rest m : forall ws pos p, parse_loop m true pos ws p = end_of (fold_left (step m) (map Word (filter (fun w => negb (beq w dashes)) ws)) (pos, p)).
Proof.
  induction ws as [|w r IH]; intros pos p; [reflexivity|]. cbn [parse_loop filter]. fold dashes. destruct (beq w dashes); cbn [negb]; [apply IH|]. cbn [map fold_left step]. destruct pos as [|x pos]; apply IH.
Qed.
Definition all_items (items : list item) (rest : option (list bytes)) : list item :=
  items ++ match rest with None => [] | Some ws => map Word (filter (fun w => negb (beq w dashes)) ws) end.
Lemma loop_line m items rest pos p : (forall x, In x (map fst (m_flags m)) -> ~ In x (map fst (m_opts m))) -> Forall (fits m) items ->
  parse_loop m false pos (line items rest) p = end_of (fold_left (step m) (all_items items rest) (pos, p)).
Proof.
  intros DJ F. unfold line, all_items. rewrite loop_items by assumption. rewrite fold_left_app. destruct (fold_left (step m) items (pos, p)) as [pos' p']. cbn [fst snd].
  destruct rest as [ws|]; [|reflexivity]. cbn [parse_loop]. unfold dashes at 1. rewrite beq_refl. apply loop_rest.
Qed.
Definition item_words (items : list item) : list bytes := flat_map (fun i => match i with Word w => [w] | _ => [] end) items.
Lemma all_words items rest : item_words (all_items items rest) = words items rest.
Proof. unfold item_words, all_items, words. rewrite flat_map_app. f_equal. destruct rest as [ws|]; [|reflexivity]. induction (filter (fun w => negb (beq w dashes)) ws) as [|w r IH]; [reflexivity|]. cbn. now f_equal. Qed.
Lemma last_value_snoc items i o : last_value (items ++ [i]) o = match i with Value o' v => if beq o' o then Some v else last_value items o | _ => last_value items o end.
Proof.
  induction items as [|j r IH]; cbn [app last_value].
  - destruct i as [o' v| |]; [destruct (beq o' o)| |]; reflexivity.
  - rewrite IH. destruct i as [o' v| |]; [destruct (beq o' o)| |]; reflexivity.
Qed.
Lemma last_value_all items rest o : last_value (all_items items rest) o = last_value items o.
Proof.
  unfold all_items. destruct rest as [ws|]; [|now rewrite app_nil_r]. induction (filter (fun w => negb (beq w dashes)) ws) as [|w r IH] using rev_ind; [now rewrite app_nil_r|].
  rewrite map_app, app_assoc. cbn [map]. rewrite last_value_snoc. exact IH.
Qed.
Lemma flags_all items rest f : In (Flag f) (all_items items rest) <-> In (Flag f) items.
Proof. unfold all_items. rewrite in_app_iff. split; [|now left]. intros [H|H]; [exact H|]. destruct rest as [ws|]; [|destruct H]. apply in_map_iff in H as (w & E & _). discriminate E. Qed.
Lemma skipn_S {A} (l : list A) n x r : skipn n l = x :: r -> skipn (S n) l = r /\ nth_error l n = Some x.
Proof. revert l; induction n as [|n IH]; intros l H; destruct l; try discriminate H; cbn in *; [inversion H; auto|]. now apply IH. Qed.

Section Fold.
  Variables (m : module).
  Hypothesis D : declarable m. Hypothesis U : keys_unique m.
  Let final items := fold_left (step m) items (m_pos m, defaults m).
  Lemma final_snoc items i : final (items ++ [i]) = step m (final items) i.
  Proof. unfold final. now rewrite fold_left_app. Qed.
  Lemma final_pos items : fst (final items) = skipn (length (item_words items)) (m_pos m).
  Proof.
    induction items as [|i r IH] using rev_ind; [reflexivity|]. rewrite final_snoc. unfold item_words. rewrite flat_map_app. fold (item_words r). rewrite app_length. destruct (final r) as [pos p]. cbn [fst] in IH. subst pos.
    destruct i as [o v|f|w]; cbn [flat_map app length]; rewrite ?Nat.add_0_r; try reflexivity. cbn [step].
    rewrite Nat.add_1_r. destruct (skipn (length (item_words r)) (m_pos m)) as [|x pos] eqn:E; cbn [fst].
    - symmetry. apply skipn_all2. assert (X := skipn_length (length (item_words r)) (m_pos m)). rewrite E in X. cbn in X. lia.
    - symmetry. now apply skipn_S in E.
  Qed.
  (** Every option given is one of the module's. *)
  Definition known (i : item) : Prop := match i with Value o _ => In o (map fst (m_opts m)) | Flag f => In f (map fst (m_flags m)) | Word _ => True end.
  Lemma final_opts items o d : Forall known items -> In (o, d) (m_opts m) -> find_key (fst (snd (final items))) o = Some (match last_value items o with Some v => v | None => d end).
  Proof.
    intros K I. induction items as [|i r IH] using rev_ind; [cbn; apply find_key_unique; [apply U|exact I]|]. apply Forall_app in K as [K KI]. specialize (IH K).
    rewrite final_snoc, last_value_snoc. pose proof (final_pos r) as FP. destruct (final r) as [pos p]. cbn [fst snd] in *. destruct i as [o' v|f|w]; cbn [step fst snd].
    - rewrite find_put. destruct (beq o' o); [reflexivity|exact IH].
    - exact IH.
    - destruct pos as [|x pos]; cbn [fst snd]; [exact IH|]. rewrite find_put. destruct (beq x o) eqn:E; [|exact IH]. apply beq_eq in E. subst x. exfalso.
      symmetry in FP. apply skipn_S in FP as [_ FP]. apply nth_error_In in FP. destruct D as (_ & _ & _ & _ & _ & DP & _). apply (proj1 (DP o FP)). now apply (in_map fst) in I.
  Qed.
  Lemma final_flags items f d : Forall known items -> In (f, d) (m_flags m) -> (In (Flag f) items -> find_key (snd (snd (final items))) f = Some (negb d)) /\ (~ In (Flag f) items -> find_key (snd (snd (final items))) f = Some d).
  Proof.
    intros K I. assert (FD : find_key (m_flags m) f = Some d) by (apply find_key_unique; [apply U|exact I]).
    induction items as [|i r IH] using rev_ind; [cbn [final fold_left snd defaults]; split; [intros []|intros _; exact FD]|]. apply Forall_app in K as [K KI]. specialize (IH K).
    rewrite final_snoc. destruct (final r) as [pos p]. cbn [fst snd] in *. rewrite in_app_iff. cbn [In]. destruct i as [o' v|f'|w]; cbn [step fst snd].
    - split; [intros [H|[H|[]]]; [now apply IH|discriminate]|intros H; apply IH; tauto].
    - rewrite find_put. destruct (beq f' f) eqn:E.
      + apply beq_eq in E. subst f'. rewrite FD. split; [reflexivity|]. intros H. exfalso. apply H. right. now left.
      + apply beq_neq in E. split; [intros [H|[H|[]]]; [now apply IH|congruence]|intros H; apply IH; tauto].
    - destruct pos as [|x pos]; cbn [fst snd]; (split; [intros [H|[H|[]]]; [now apply IH|discriminate]|intros H; apply IH; tauto]).
  Qed.
  Lemma final_words items i x : Forall known items -> nth_error (m_pos m) i = Some x -> find_key (fst (snd (final items))) x = nth_error (item_words items) i.
  Proof.
    intros K I. destruct D as (_ & _ & _ & _ & ND & DP & _). assert (NO := DP x (nth_error_In _ _ I)).
    induction items as [|j r IH] using rev_ind.
    { cbn [final fold_left fst snd defaults item_words flat_map]. rewrite (proj2 (find_key_None _ _) (proj1 NO)). now destruct i. }
    apply Forall_app in K as [K KI]. specialize (IH K). inversion KI as [|? ? KJ _]; subst.
    rewrite final_snoc. pose proof (final_pos r) as FP. unfold item_words. rewrite flat_map_app. fold (item_words r). destruct (final r) as [pos p]. cbn [fst snd] in *. destruct j as [o v|f|w]; cbn [step fst snd flat_map app]; rewrite ?app_nil_r.
    - rewrite find_put. destruct (beq o x) eqn:E; [|exact IH]. apply beq_eq in E. subst o. exfalso. now apply (proj1 NO).
    - exact IH.
    - destruct pos as [|y pos]; cbn [fst snd].
      + rewrite IH. symmetry. assert (L := skipn_length (length (item_words r)) (m_pos m)). rewrite <- FP in L. cbn in L. assert (i < length (m_pos m))%nat by (apply nth_error_Some; congruence). apply nth_error_app1. lia.
      + symmetry in FP. apply skipn_S in FP as [_ FP]. rewrite find_put. destruct (beq y x) eqn:E.
        * apply beq_eq in E. subst y. assert (EI : i = length (item_words r)) by (apply (proj1 (NoDup_nth_error (m_pos m)) ND); [apply nth_error_Some; congruence|congruence]).
          rewrite EI, nth_error_app2, Nat.sub_diag by lia. reflexivity.
        * rewrite IH. apply beq_neq in E. assert (NE : i <> length (item_words r)) by congruence. destruct (Nat.lt_ge_cases i (length (item_words r))) as [L|L]; [now rewrite nth_error_app1 by exact L|].
          rewrite (proj2 (nth_error_None (item_words r) i)) by exact L. rewrite nth_error_app2 by exact L. symmetry. apply nth_error_None. cbn [length]. lia.
  Qed.
  Lemma final_other items x : Forall known items -> ~ In x (map fst (m_opts m)) -> ~ In x (m_pos m) -> find_key (fst (snd (final items))) x = None.
  Proof.
    intros K NO NP. induction items as [|j r IH] using rev_ind; [cbn; now apply find_key_None|].
    apply Forall_app in K as [K KI]. specialize (IH K). inversion KI as [|? ? KJ _]; subst. rewrite final_snoc. pose proof (final_pos r) as FP. destruct (final r) as [pos p]. cbn [fst snd] in *. destruct j as [o v|f|w]; cbn [step fst snd].
    - rewrite find_put. destruct (beq o x) eqn:E; [apply beq_eq in E; subst; contradiction|exact IH].
    - exact IH.
    - destruct pos as [|y pos]; cbn [fst snd]; [exact IH|]. rewrite find_put. destruct (beq y x) eqn:E; [|exact IH]. apply beq_eq in E. subst y. symmetry in FP. apply skipn_S in FP as [_ FP]. apply nth_error_In in FP. contradiction.
  Qed.
  Lemma final_other_flag items x : Forall known items -> ~ In x (map fst (m_flags m)) -> find_key (snd (snd (final items))) x = None.
  Proof.
    intros K NO. induction items as [|j r IH] using rev_ind; [cbn; now apply find_key_None|].
    apply Forall_app in K as [K KI]. specialize (IH K). inversion KI as [|? ? KJ _]; subst. rewrite final_snoc. destruct (final r) as [pos p]. cbn [fst snd] in *. destruct j as [o v|f|w]; cbn [step fst snd].
    - exact IH.
    - rewrite find_put. destruct (beq f x) eqn:E; [apply beq_eq in E; subst; contradiction|exact IH].
    - destruct pos as [|y pos]; exact IH.
  Qed.
  Lemma known_all items rest : Forall (fits m) items -> Forall known (all_items items rest).
  Proof.
    intros F. unfold all_items. apply Forall_app. split; [eapply Forall_impl; [|exact F]; intros [o v|f|w]; cbn; tauto|].
    destruct rest as [ws|]; [|constructor]. apply Forall_forall. intros i H. apply in_map_iff in H as (w & <- & _). exact I.
  Qed.
  Lemma final_meaning items rest : Forall (fits m) items -> meaning m items rest (snd (final (all_items items rest))).
  Proof.
    intros F. pose proof (known_all items rest F) as K. unfold meaning, key_at. repeat split.
    - intros o d I. now rewrite (final_opts _ o d K I), last_value_all.
    - intros I. apply (flags_all items rest) in I. now rewrite (proj1 (final_flags _ f d K H) I).
    - intros I. assert (NI : ~ In (Flag f) (all_items items rest)) by (now rewrite flags_all). now rewrite (proj2 (final_flags _ f d K H) NI).
    - intros i x w I W. rewrite (final_words _ i x K I), all_words, W. reflexivity.
    - intros x NO NP. now rewrite (final_other _ x K NO NP).
    - intros x NO. now rewrite (final_other_flag _ x K NO).
  Qed.
  Lemma parse_line items rest : Forall (fits m) items ->
    parse_loop m false (m_pos m) (line items rest) (defaults m) =
    (match skipn (length (words items rest)) (m_pos m) with [] => None | x :: _ => Some x end, snd (final (all_items items rest))).
  Proof. intros F. rewrite loop_line by (try apply D; exact F). unfold end_of. rewrite <- all_words, <- final_pos. reflexivity. Qed.
End Fold.

(** Every command line is of one of two forms. *)
Lemma every_line m : forall argv, (exists items rest, Forall (fits m) items /\ argv = line items rest) \/
  (exists items o, Forall (fits m) items /\ o <> dashes /\ In o (map fst (m_opts m)) /\ argv = flat_map spell items ++ [o]).
Proof.
  assert (W : forall n argv, (length argv <= n)%nat -> (exists items rest, Forall (fits m) items /\ argv = line items rest) \/
  (exists items o, Forall (fits m) items /\ o <> dashes /\ In o (map fst (m_opts m)) /\ argv = flat_map spell items ++ [o])); [|intros argv; exact (W _ argv (le_n _))].
  induction n as [|n IH]; intros argv L; (destruct argv as [|a r]; [left; exists [], None; split; [constructor|reflexivity]|cbn in L]); [lia|].
  destruct (beq a dashes) eqn:ED; [apply beq_eq in ED; subst; left; exists [], (Some r); split; [constructor|reflexivity]|]. apply beq_neq in ED.
  assert (GO : forall i t, spell i ++ t = a :: r -> fits m i -> (length t <= n)%nat -> (exists items rest, Forall (fits m) items /\ a :: r = line items rest) \/
    (exists items o, Forall (fits m) items /\ o <> dashes /\ In o (map fst (m_opts m)) /\ a :: r = flat_map spell items ++ [o])).
  { intros i t E F LT. destruct (IH t LT) as [(items & rest & FI & ->)|(items & o & FI & NO & IO & ->)]; [left; exists (i :: items), rest|right; exists (i :: items), o].
    - split; [now constructor|]. rewrite <- E. unfold line. cbn [flat_map]. now rewrite app_assoc.
    - split; [now constructor|]. split; [exact NO|]. split; [exact IO|]. rewrite <- E. cbn [flat_map]. now rewrite app_assoc. }
  destruct (has_key (m_opts m) a) eqn:EO.
  - apply has_key_In in EO. destruct r as [|v r]; [right; exists [], a; repeat split; auto|]. apply (GO (Value a v) r); [reflexivity|now split|cbn in L; lia].
  - assert (NO : ~ In a (map fst (m_opts m))) by (intros X; apply has_key_In in X; congruence). destruct (find_key (m_flags m) a) eqn:EF.
    + apply (GO (Flag a) r); [reflexivity|split; [exact ED|]; apply find_key_In; eauto|lia].
    + apply find_key_None in EF. apply (GO (Word a) r); [reflexivity|now repeat split|lia].
Qed.

(** Sorting brings equal strings together. *)
Lemma blt_irrefl a : blt a a = false.
Proof. induction a as [|x a IH]; cbn; [reflexivity|now rewrite N.eqb_refl]. Qed.
Lemma blt_trans : forall a b c, blt a b = true -> blt b c = true -> blt a c = true.
Proof.
  induction a as [|x a IH]; intros [|y b] [|z c]; cbn; try congruence. destruct (N.eqb_spec x y), (N.eqb_spec y z), (N.eqb_spec x z); subst; try congruence; try (intros; apply N.ltb_lt; rewrite ?N.ltb_lt in *; lia).
  - apply IH.
  - rewrite !N.ltb_lt. lia.
Qed.
Lemma blt_total a b : blt a b = false -> blt b a = false -> a = b.
Proof.
  revert b. induction a as [|x a IH]; intros [|y b]; cbn; try congruence. rewrite (N.eqb_sym y x). destruct (N.eqb_spec x y); [intros; f_equal; auto|]. rewrite !N.ltb_ge. lia.
Qed.
(** [a] is not behind [b]. *)
Definition ble (a b : bytes) : Prop := blt b a = false.
Lemma ble_trans a b c : ble a b -> ble b c -> ble a c.
Proof.
  unfold ble. intros A B. destruct (blt c a) eqn:E; [|reflexivity]. destruct (blt b c) eqn:F.
  - rewrite (blt_trans _ _ _ F E) in A. discriminate.
  - rewrite (blt_total b c F B) in A. congruence.
Qed.
Fixpoint ordered_list (l : list bytes) : Prop := match l with [] => True | x :: r => (forall y, In y r -> ble x y) /\ ordered_list r end.
Lemma insert_In x l y : In y (insert_sorted x l) <-> y = x \/ In y l.
Proof. induction l as [|z r IH]; cbn; [intuition|]. destruct (blt z x); cbn; [rewrite IH|]; intuition. Qed.
Lemma insert_ordered x l : ordered_list l -> ordered_list (insert_sorted x l).
Proof.
  induction l as [|z r IH]; cbn; [intuition|]. intros [H O]. destruct (blt z x) eqn:E; cbn.
  - split; [|now apply IH]. intros y I. apply insert_In in I as [->|I]; [|now apply H]. unfold ble. destruct (blt x z) eqn:F; [|reflexivity]. rewrite <- (blt_irrefl z). symmetry. eapply blt_trans; eassumption.
  - split; [|now split]. intros y [<-|I]; [exact E|]. eapply ble_trans; [exact E|now apply H].
Qed.
Lemma insert_NoDup x l : NoDup (insert_sorted x l) <-> ~ In x l /\ NoDup l.
Proof.
  induction l as [|z r IH]; cbn; [split; [intros _; split; [auto|constructor]|intros _; constructor; [auto|constructor]]|].
  destruct (blt z x).
  - rewrite !NoDup_cons_iff, insert_In, IH. intuition congruence.
  - rewrite NoDup_cons_iff. reflexivity.
Qed.
Lemma sort_spec l : ordered_list (sort_strings l) /\ (NoDup (sort_strings l) <-> NoDup l) /\ forall y, In y (sort_strings l) <-> In y l.
Proof.
  induction l as [|x r (O & ND & I)]; cbn; [repeat split; auto; constructor|]. fold (sort_strings r). split; [now apply insert_ordered|]. split.
  - rewrite insert_NoDup, ND, I, NoDup_cons_iff. reflexivity.
  - intros y. rewrite insert_In, I. intuition congruence.
Qed.
Lemma neighbours l : ordered_list l -> neighbours_equal l = false <-> NoDup l.
Proof.
  induction l as [|x r IH]; [intros _; split; [constructor|reflexivity]|]. intros [H O]. specialize (IH O). destruct r as [|y r]; [split; [intros _; constructor; [auto|constructor]|reflexivity]|].
  change (neighbours_equal (x :: y :: r)) with (beq x y || neighbours_equal (y :: r)). rewrite Bool.orb_false_iff, IH, (NoDup_cons_iff x). split; intros [A B]; (split; [|exact B]).
  - intros [->|I]; [rewrite beq_refl in A; discriminate|]. apply beq_neq in A. apply A. destruct O as [O _]. specialize (O x I). specialize (H y (or_introl eq_refl)). now apply blt_total.
  - apply beq_neq. intros ->. apply A. now left.
Qed.
