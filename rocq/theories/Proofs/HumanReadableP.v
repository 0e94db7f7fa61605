(** Lemmas about Model.HumanReadable. *)
From Verif Require Import Proofs.Lib Model.HumanReadable Spec.Nesting.

Lemma hr_run_app h a b : hr_run h (a ++ b) = hr_run (hr_run h a) b.
Proof. apply fold_left_app. Qed.

Lemma hr_fixed h ops : hr_indent (hr_run h ops) = hr_indent h /\ hr_prefix (hr_run h ops) = hr_prefix h.
Proof.
  revert h; induction ops as [|o ops IH]; intros h; [auto|].
  change (hr_run h (o :: ops)) with (hr_run (hr_step h o) ops).
  destruct (IH (hr_step h o)) as [-> ->]. destruct o; auto.
Qed.

Lemma dup_times s n : duplicate_string s n = times n s.
Proof. induction n; cbn; auto. f_equal. exact IHn. Qed.

Lemma net_app a b : (net (a ++ b) = net a + net b)%Z.
Proof. induction a as [|[] a IH]; cbn [net app]; lia. Qed.

Lemma list_eq_dec_nil {A} (l : list A) : {l = []} + {l <> []}.
Proof. destruct l; [left | right]; congruence. Qed.

Lemma level_nesting h ops : hr_level h = 0%nat ->
  nesting ops (Z.of_nat (hr_level (hr_run h ops))).
Proof.
  intros H0. induction ops as [|o ops [(p & s & E & N1) N2]] using rev_ind.
  - cbn. rewrite H0. split; [exists [], []; auto|].
    intros p s E. symmetry in E. apply app_eq_nil in E as [-> ->]. cbn. lia.
  - rewrite hr_run_app. cbn [hr_run fold_left].
    assert (K : (Z.of_nat (hr_level (hr_step (hr_run h ops) o)) =
                 Z.max 0 (Z.of_nat (hr_level (hr_run h ops)) + net [o]))%Z).
    { generalize (hr_run h ops). intros k.
      destruct o; cbn [hr_step net hr_up hr_down hr_print hr_level]; destruct (hr_level k); lia. }
    fold (hr_run h ops). rewrite K. split.
    + destruct (Z.le_gt_cases 0 (Z.of_nat (hr_level (hr_run h ops)) + net [o])) as [G|G].
      * exists p, (s ++ [o]). split; [rewrite E; now rewrite app_assoc|].
        rewrite net_app. lia.
      * exists (ops ++ [o]), []. rewrite app_nil_r. split; auto. change (net []) with 0%Z. lia.
    + intros p' s' E'. destruct (list_eq_dec_nil s') as [->|Hne].
      * change (net []) with 0%Z; lia.
      * destruct (exists_last Hne) as (s'' & y & ->). rewrite app_assoc in E'.
        apply app_inj_tail in E' as [E' <-]. specialize (N2 _ _ E').
        rewrite net_app. lia.
Qed.

Lemma hr_rendered pre ind ops : rendered pre ind ops (hr_data (hr_run (hr_new pre ind) ops)).
Proof.
  induction ops as [|o ops IH] using rev_ind; [constructor|].
  rewrite hr_run_app. cbn [hr_run fold_left]. fold (hr_run (hr_new pre ind) ops).
  destruct o; cbn [hr_step hr_up hr_down hr_print hr_data].
  - constructor; auto.
  - constructor; auto.
  - destruct (hr_fixed (hr_new pre ind) ops) as [-> ->]. rewrite dup_times.
    apply (R_print pre ind ops s); auto. now apply level_nesting.
Qed.
