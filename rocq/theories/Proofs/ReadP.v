(** Reading at an offset, and reading of literal layouts. *)
From Verif Require Export Proofs.Lib Model.Includes Model.Mpi Model.Length Spec.Framing
  Proofs.IncludesP Proofs.MpiP Proofs.LengthP.

Lemma at_shift pre s p : at_ (pre ++ s) (len pre + p) = at_ s p.
Proof.
  unfold at_. rewrite len_app.
  replace (len pre + p <? len pre + len s) with (p <? len s) by lia.
  replace (len pre + p =? len pre + len s) with (p =? len s) by lia.
  replace (N.to_nat (len pre + p)) with (length pre + N.to_nat p)%nat by (rewrite <- len_nat; lia).
  rewrite nth_error_app2 by lia. replace (length pre + N.to_nat p - length pre)%nat with (N.to_nat p) by lia.
  reflexivity.
Qed.
Lemma substr_shift pre s p n : substr (pre ++ s) (len pre + p) n = substr s p n.
Proof.
  unfold substr. rewrite len_app.
  replace (len pre + len s <? len pre + p) with (len s <? p) by lia.
  replace (len pre + len s - (len pre + p)) with (len s - p) by lia.
  replace (N.to_nat (len pre + p)) with (length pre + N.to_nat p)%nat by (rewrite <- len_nat; lia).
  rewrite skipn_app, (skipn_all2 pre) by lia.
  replace (length pre + N.to_nat p - length pre)%nat with (N.to_nat p) by lia. reflexivity.
Qed.

(** Results whose position component is moved by [k]. *)
Definition shifted {A} (k : N) (r : result (A * N)) : result (A * N) :=
  ' (a, p) <- r ;; Ok (a, k + p).

Lemma at_shift' pre s q p : q = len pre + p -> at_ (pre ++ s) q = at_ s p.
Proof. intros ->; apply at_shift. Qed.
Lemma substr_shift' pre s q p n : q = len pre + p -> substr (pre ++ s) q n = substr s p n.
Proof. intros ->; apply substr_shift. Qed.

Lemma at_0 x s : at_ (x :: s) 0 = Ok x.
Proof. exact (at_app [] x s 0 eq_refl). Qed.
Lemma at_cons x s p : at_ (x :: s) (N.pos p) = at_ s (Pos.pred_N p).
Proof.
  change (x :: s) with ([x] ++ s). apply at_shift'. change (len [x]) with 1.
  destruct p; cbn [Pos.pred_N]; try reflexivity; lia.
Qed.
Lemma at_app_r a s p : len a <= p -> at_ (a ++ s) p = at_ s (p - len a).
Proof. intros. apply at_shift'. lia. Qed.
Lemma substr_cons x s p n : substr (x :: s) (N.pos p) n = substr s (Pos.pred_N p) n.
Proof.
  change (x :: s) with ([x] ++ s). apply substr_shift'. change (len [x]) with 1.
  destruct p; cbn [Pos.pred_N]; try reflexivity; lia.
Qed.
Lemma substr_app_r a s p n : len a <= p -> substr (a ++ s) p n = substr s (p - len a) n.
Proof. intros. apply substr_shift'. lia. Qed.
Lemma substr_0 a s n : n = len a -> substr (a ++ s) 0 n = Ok a.
Proof. intros. exact (substr_app [] a s 0 n eq_refl H). Qed.
Lemma substr_0_all a n : len a <= n -> substr a 0 n = Ok a.
Proof. intros. exact (substr_app_end [] a 0 n eq_refl H). Qed.

(** Step through a literal layout. *)
Ltac rd_norm := cbn [Pos.pred_N Pos.pred_double N.sub Pos.sub_mask Pos.double_mask Pos.succ_double_mask
  Pos.double_pred_mask Pos.pred_mask bind app N.of_nat Pos.of_succ_nat Pos.succ N.add Pos.add Pos.add_carry].
Ltac rd := repeat first
  [ rewrite at_0; rd_norm | rewrite at_cons; rd_norm | rewrite substr_cons; rd_norm
  | rewrite substr_0 by (autorewrite with len; first [reflexivity|lia]); rd_norm ].

(** The same with symbolic positions: step over the layout until the outermost read is done. *)
Lemma at_cons_r x s p : 1 <= p -> at_ (x :: s) p = at_ s (p - 1).
Proof. intros. change (x :: s) with ([x] ++ s). apply at_shift'. change (len [x]) with 1. lia. Qed.
Lemma substr_cons_r x s p n : 1 <= p -> substr (x :: s) p n = substr s (p - 1) n.
Proof. intros. change (x :: s) with ([x] ++ s). apply substr_shift'. change (len [x]) with 1. lia. Qed.
Lemma at_here x s p : p = 0 -> at_ (x :: s) p = Ok x.
Proof. intros ->. apply at_0. Qed.
Lemma substr_here a s p n : p = 0 -> n = len a -> substr (a ++ s) p n = Ok a.
Proof. intros -> ?. now apply substr_0. Qed.
Lemma substr_all a p n : p = 0 -> len a <= n -> substr a p n = Ok a.
Proof. intros -> ?. now apply substr_0_all. Qed.
Ltac rd_side := repeat first [rewrite len_app|rewrite len_cons|rewrite len_be|rewrite len_nil]; lia.
Ltac rd_step := match goal with
  | |- bind ?e _ = _ =>
    match e with
    | at_ (?x :: ?s) ?p => first [rewrite (at_here x s p) by rd_side; cbn [bind] | rewrite (at_cons_r x s p) by rd_side]
    | at_ (?a ++ ?s) ?p => rewrite (at_app_r a s p) by rd_side
    | substr (?a ++ ?s) ?p ?n => first [rewrite (substr_here a s p n) by rd_side; cbn [bind] | rewrite (substr_app_r a s p n) by rd_side]
    | substr (?x :: ?s) ?p ?n => rewrite (substr_cons_r x s p n) by rd_side
    | substr ?a ?p ?n => rewrite (substr_all a p n) by rd_side; cbn [bind]
    end
  end.
Ltac rds := repeat rd_step.

(** read_MPI. *)
Lemma read_MPI_shift pre s p : read_MPI (pre ++ s) (len pre + p) = shifted (len pre) (read_MPI s p).
Proof.
  unfold read_MPI, shifted. rewrite at_shift. destruct (at_ s p); cbn [bind]; auto.
  rewrite <- N.add_assoc, at_shift. destruct (at_ s (p + 1)); cbn [bind]; auto.
  rewrite <- N.add_assoc, substr_shift. destruct (substr s (p + 2) _); cbn [bind]; auto.
  destruct (rawtompi _); cbn [bind]; auto. now rewrite <- !N.add_assoc.
Qed.
