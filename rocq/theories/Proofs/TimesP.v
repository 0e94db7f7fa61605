(** Lemmas about texts of times. *)
From Verif Require Import Proofs.Lib Proofs.CliP Spec.Calendar Model.Cli.
Local Open Scope N_scope.

(** ** Numbers *)
Lemma number_acc s : forall a b, fold_left (fun a c => 10 * a + (c - 48)) (s : bytes) (a + b) = a * 10 ^ len s + fold_left (fun a c => 10 * a + (c - 48)) s b.
Proof.
  induction s as [|c s IH]; intros a b; [rewrite len_nil; cbn; lia|]. cbn [fold_left]. replace (10 * (a + b) + (c - 48)) with (10 * a + (10 * b + (c - 48))) by lia.
  rewrite IH, len_cons. rewrite N.add_comm with (m := len s) || idtac. replace (1 + len s) with (N.succ (len s)) by lia || idtac. replace (len s + 1) with (N.succ (len s)) by lia || idtac. rewrite N.pow_succ_r'. lia.
Qed.
Lemma number_cons c s : number (c :: s) = (c - 48) * 10 ^ len s + number s.
Proof. unfold number. cbn [fold_left]. replace (10 * 0 + (c - 48)) with ((c - 48) + 0) by lia. apply number_acc. Qed.
Lemma number_snoc s c : number (s ++ [c]) = 10 * number s + (c - 48).
Proof. unfold number. now rewrite fold_left_app. Qed.
Lemma number_below s : digits s -> number s < 10 ^ len s.
Proof.
  induction 1 as [|c s D _ IH]; [reflexivity|]. rewrite number_cons, len_cons. replace (1 + len s) with (N.succ (len s)) by lia || replace (len s + 1) with (N.succ (len s)) by lia. rewrite N.pow_succ_r'. remember (10 ^ len s) as p. nia.
Qed.
Lemma dec_ok f : forall n, n < 2 ^ N.of_nat f -> digits (dec_digits (S f) n) /\ number (dec_digits (S f) n) = n /\
  1 <= len (dec_digits (S f) n) /\ (0 < n -> 10 ^ (len (dec_digits (S f) n) - 1) <= n) /\ (n < 10 -> len (dec_digits (S f) n) = 1).
Proof.
  assert (SM : forall n, n < 10 -> digits [48 + n] /\ number [48 + n] = n /\ 1 <= len [48 + n] /\ (0 < n -> 10 ^ (len [48 + n] - 1) <= n) /\ (n < 10 -> len [48 + n] = 1)).
  { intros n L. split; [constructor; [lia|constructor]|]. split; [unfold number; cbn [fold_left]; lia|]. change (len [48 + n]) with 1. change (10 ^ (1 - 1)) with 1. repeat split; lia. }
  induction f as [|f IH]; intros n L.
  - assert (n = 0) as -> by (cbn in L; lia). apply (SM 0). reflexivity.
  - remember (S f) as g. cbn [dec_digits]. destruct (N.ltb_spec n 10) as [S|G]; [now apply SM|]. subst g.
    assert (LF : n / 10 < 2 ^ N.of_nat f).
    { rewrite Nnat.Nat2N.inj_succ, N.pow_succ_r' in L. remember (2 ^ N.of_nat f) as p. apply N.div_lt_upper_bound; lia. }
    destruct (IH _ LF) as (D & E & M & P & _). remember (dec_digits (S f) (n / 10)) as w.
    pose proof (N.mod_lt n 10 ltac:(lia)). pose proof (N.div_mod n 10 ltac:(lia)). assert (0 < n / 10) as P0 by lia. specialize (P P0).
    split; [apply Forall_app; split; [exact D|constructor; [lia|constructor]]|]. split; [rewrite number_snoc, E; lia|]. rewrite len_app. change (len [48 + n mod 10]) with 1.
    split; [lia|]. split; [|lia]. intros _. replace (len w + 1 - 1) with (N.succ (len w - 1)) by lia. rewrite N.pow_succ_r'. remember (10 ^ (len w - 1)) as p. lia.
Qed.
Lemma size_above n : n < 2 ^ N.of_nat (N.size_nat n).
Proof. destruct n as [|p]; [reflexivity|]. cbn [N.size_nat]. induction p as [p IH|p IH|]; cbn [Pos.size_nat]; try reflexivity; rewrite Nnat.Nat2N.inj_succ, N.pow_succ_r'; remember (2 ^ N.of_nat (Pos.size_nat p)) as q; lia. Qed.
Lemma decimal_digits n : digits (decimal n).
Proof. apply (dec_ok _ n), size_above. Qed.
Lemma decimal_number n : number (decimal n) = n.
Proof. apply (dec_ok _ n), size_above. Qed.
Lemma decimal_nonempty n : 1 <= len (decimal n).
Proof. apply (dec_ok _ n), size_above. Qed.
(** The number of digits. *)
Lemma decimal_len n k : 10 ^ k <= n < 10 ^ (k + 1) -> len (decimal n) = k + 1.
Proof.
  intros [A B]. destruct (dec_ok _ n (size_above n)) as (D & E & M & P & _). fold (decimal n) in *. pose proof (number_below _ D) as Q. rewrite E in Q.
  assert (0 < n) as P0 by (pose proof (N.pow_nonzero 10 k); lia). specialize (P P0).
  assert (k < len (decimal n)) by (apply (N.pow_lt_mono_r_iff 10); lia). assert (len (decimal n) - 1 < k + 1) by (apply (N.pow_lt_mono_r_iff 10); lia). lia.
Qed.
Lemma decimal_short n : n < 10 -> len (decimal n) = 1.
Proof. apply (dec_ok _ n), size_above. Qed.
Lemma number_zeros k s : number (repeat 48 k ++ s) = number s.
Proof. induction k as [|k IH]; [reflexivity|]. cbn [repeat app]. rewrite number_cons, IH. lia. Qed.
Lemma two_digits n : n < 100 -> writes 2 (padded 48 2 (decimal n)) n.
Proof.
  intros L. unfold padded. split; [apply Forall_app; split; [apply Forall_forall; intros x X; apply repeat_spec in X; subst; lia|apply decimal_digits]|].
  split; [|now rewrite number_zeros, decimal_number]. rewrite len_app. unfold len at 1. rewrite repeat_length.
  assert (len (decimal n) <= 2); [|lia]. destruct (N.lt_ge_cases n 10) as [S|G]; [rewrite decimal_short by easy; lia|]. rewrite (decimal_len n 1); cbn; lia.
Qed.
Lemma four_digits n : 1000 <= n < 10000 -> writes 4 (decimal n) n.
Proof. intros L. split; [apply decimal_digits|]. split; [apply (decimal_len n 3); cbn; lia|apply decimal_number]. Qed.

(** ** The order of texts *)
Lemma blt_digits a : forall b, digits a -> digits b -> length a = length b -> (blt a b = true <-> number a < number b) /\ (number a = number b -> a = b).
Proof.
  induction a as [|x a IH]; intros [|y b] A B L; try discriminate L; [split; [split; [discriminate|intros X; inversion X]|reflexivity]|].
  inversion A as [|? ? X A']; subst. inversion B as [|? ? Y B']; subst. injection L as L. destruct (IH b A' B' L) as [O E].
  pose proof (number_below _ A') as NA. pose proof (number_below _ B') as NB. assert (len a = len b) as LE by (unfold len; now rewrite L). rewrite !number_cons, LE in *. cbn [blt]. remember (10 ^ len b) as p.
  destruct (N.eqb_spec x y) as [->|NE].
  - split; [rewrite O; lia|]. intros H. f_equal. apply E. lia.
  - split; [|intros H; exfalso; nia]. rewrite N.ltb_lt. split; intros H; nia.
Qed.
Lemma blt_app a : forall a' x x', length a = length a' -> blt (a ++ x) (a' ++ x') = blt a a' || (beq a a' && blt x x').
Proof.
  induction a as [|c a IH]; intros [|c' a'] x x' L; try discriminate L; [reflexivity|]. injection L as L. cbn [app blt]. rewrite (IH a' x x' L).
  destruct (N.eqb_spec c c') as [->|NE].
  - f_equal. f_equal. destruct (beq a a') eqn:E; [apply beq_eq in E; subst; symmetry; apply beq_refl|]. symmetry. apply beq_neq. intros X. injection X as X. subst. now rewrite beq_refl in E.
  - assert (beq (c :: a) (c' :: a') = false) as -> by (apply beq_neq; intros X; injection X as X _; contradiction). now rewrite andb_false_l, orb_false_r.
Qed.
Lemma writes_blt k a n b m : writes k a n -> writes k b m -> blt a b = (n <? m) /\ beq a b = (n =? m) /\ length a = length b.
Proof.
  intros (DA & LA & NA) (DB & LB & NB). assert (L : length a = length b) by (unfold len in *; lia). destruct (blt_digits a b DA DB L) as [O E]. rewrite NA, NB in *.
  split; [apply eq_true_iff_eq; now rewrite O, N.ltb_lt|]. split; [|exact L]. destruct (N.eqb_spec n m) as [->|NE]; [rewrite (E eq_refl); apply beq_refl|].
  apply beq_neq. intros ->. apply NE. now rewrite <- NA, NB.
Qed.

(** ** The calendar *)
Lemma months_bound y m : m < 12 -> days_of_months y (N.to_nat m) + month_days y m <= year_days y.
Proof.
  intros L. assert (M : exists k, (k < 12)%nat /\ m = N.of_nat k) by (exists (N.to_nat m); lia). destruct M as (k & K & ->). rewrite Nnat.Nat2N.id. unfold year_days, month_days.
  do 12 (destruct k as [|k]; [cbn [days_of_months]; unfold month_days; destruct (leap y); vm_compute; discriminate|]). lia.
Qed.
Lemma months_mono y m m' : (m < m')%nat -> days_of_months y m + month_days y (N.of_nat m) <= days_of_months y m'.
Proof. induction 1 as [|j H IH]; [reflexivity|]. cbn [days_of_months]. lia. Qed.
Lemma years_mono k k' : (k < k')%nat -> days_of_years k + year_days (1970 + N.of_nat k) <= days_of_years k'.
Proof. induction 1 as [|j H IH]; [reflexivity|]. cbn [days_of_years]. lia. Qed.
Lemma years_many k : 365 * N.of_nat k <= days_of_years k.
Proof. induction k as [|k IH]; [reflexivity|]. cbn [days_of_years]. unfold year_days. destruct (leap _); lia. Qed.
(** Days are in the order of their dates. *)
Lemma date_lt y m d D y' m' d' D' : is_date y m d D -> is_date y' m' d' D' -> y < y' \/ (y = y' /\ (m < m' \/ (m = m' /\ d < d'))) -> D < D'.
Proof.
  intros (Y & M & Dd & E) (Y' & M' & Dd' & E') H. pose proof (months_bound y m M) as MB.
  destruct H as [H|[<- [H|[<- H]]]].
  - assert (N.to_nat (y - 1970) < N.to_nat (y' - 1970))%nat as K by lia. apply years_mono in K. rewrite Nnat.N2Nat.id in K. replace (1970 + (y - 1970)) with y in K by lia. lia.
  - assert (N.to_nat m < N.to_nat m')%nat as K by lia. apply (months_mono y) in K. rewrite Nnat.N2Nat.id in K. lia.
  - lia.
Qed.
Lemma date_order y m d D y' m' d' D' : is_date y m d D -> is_date y' m' d' D' -> (D < D' <-> y < y' \/ (y = y' /\ (m < m' \/ (m = m' /\ d < d')))) /\ (D = D' <-> y = y' /\ m = m' /\ d = d').
Proof.
  intros A B. pose proof (date_lt _ _ _ _ _ _ _ _ A B) as L. pose proof (date_lt _ _ _ _ _ _ _ _ B A) as G.
  assert (EQ : y = y' /\ m = m' /\ d = d' -> D = D') by (intros (-> & -> & ->); destruct A as (_ & _ & _ & ->), B as (_ & _ & _ & ->); reflexivity).
  split; split; intros H.
  - destruct (N.lt_trichotomy y y') as [|[|]]; [lia| |exfalso; assert (D' < D) by (apply G; lia); lia].
    destruct (N.lt_trichotomy m m') as [|[|]]; [lia| |exfalso; assert (D' < D) by (apply G; lia); lia].
    destruct (N.lt_trichotomy d d') as [|[|]]; [lia| |exfalso; assert (D' < D) by (apply G; lia); lia]. exfalso. assert (D = D') by (apply EQ; lia). lia.
  - now apply L.
  - destruct (N.lt_trichotomy y y') as [|[|]]; [exfalso; assert (D < D') by (apply L; lia); lia| |exfalso; assert (D' < D) by (apply G; lia); lia].
    destruct (N.lt_trichotomy m m') as [|[|]]; [exfalso; assert (D < D') by (apply L; lia); lia| |exfalso; assert (D' < D) by (apply G; lia); lia].
    destruct (N.lt_trichotomy d d') as [|[|]]; [exfalso; assert (D < D') by (apply L; lia); lia| |exfalso; assert (D' < D) by (apply G; lia); lia]. auto.
  - now apply EQ.
Qed.
Lemma month_short y m : month_days y m <= 31.
Proof. unfold month_days. destruct (N.to_nat m) as [|k]; [cbn; lia|]. do 12 (destruct k as [|k]; [cbn [nth]; destruct (leap y); lia|]). cbn. destruct k; lia. Qed.
(** Years of dates that fit 32 bits. *)
Lemma date_year y m d t : t < 2 ^ 32 -> is_date y m d (t / 86400) -> 1970 <= y < 2110 /\ m < 12 /\ 1 <= d <= 31.
Proof.
  intros L (Y & M & Dd & E). pose proof (month_short y m). split; [|lia]. split; [exact Y|]. pose proof (years_many (N.to_nat (y - 1970))). assert (t / 86400 <= 49711) by (apply N.lt_succ_r, N.div_lt_upper_bound; [lia|]; change (2 ^ 32) with 4294967296 in L; lia). lia.
Qed.

(** ** Words *)
Definition spaceless (w : bytes) : Prop := ~ In 32 w.
Lemma words_last w : forall acc, spaceless w -> words_of w acc = [acc ++ w].
Proof.
  induction w as [|c w IH]; intros acc S; cbn [words_of]; [now rewrite app_nil_r|]. destruct (N.eqb_spec c 32) as [->|_]; [destruct S; now left|].
  rewrite IH by (intros X; apply S; now right). now rewrite <- app_assoc.
Qed.
Lemma words_next w r : forall acc, spaceless w -> words_of (w ++ 32 :: r) acc = (acc ++ w) :: words_of r [].
Proof.
  induction w as [|c w IH]; intros acc S; cbn [words_of app]; [cbn; now rewrite app_nil_r|]. destruct (N.eqb_spec c 32) as [->|_]; [destruct S; now left|].
  rewrite IH by (intros X; apply S; now right). now rewrite <- app_assoc.
Qed.
Lemma spaceless_b w : existsb (N.eqb 32) w = false -> spaceless w.
Proof. intros E I. assert (existsb (N.eqb 32) w = true) by (apply existsb_exists; exists 32; now split). congruence. Qed.
Lemma digits_spaceless s : digits s -> spaceless s.
Proof. intros D I. unfold digits in D. rewrite Forall_forall in D. apply D in I. lia. Qed.

Definition word (w : bytes) : Prop := spaceless w /\ w <> [].
Lemma joined_words ws : ws <> [] -> Forall word ws -> words_of (joined ws) [] = ws.
Proof.
  induction ws as [|w [|v r] IH]; intros N F; [contradiction| |].
  - inversion F as [|? ? [S _]]; subst. now apply words_last.
  - inversion F as [|? ? [S _] F']; subst. change (joined (w :: v :: r)) with (w ++ 32 :: joined (v :: r)). rewrite words_next by exact S. cbn [app]. f_equal. apply IH; [discriminate|exact F'].
Qed.
Lemma joined_app a b : a <> [] -> b <> [] -> joined (a ++ b) = joined a ++ 32 :: joined b.
Proof.
  induction a as [|w [|v r] IH]; intros A B; [contradiction| |].
  - destruct b as [|u b]; [contradiction|]. reflexivity.
  - change (joined ((w :: v :: r) ++ b)) with (w ++ 32 :: joined ((v :: r) ++ b)). change (joined (w :: v :: r)) with (w ++ 32 :: joined (v :: r)). rewrite IH by (easy || discriminate). now rewrite <- app_assoc.
Qed.
Lemma joined_nil ws : Forall word ws -> joined ws = [] -> ws = [].
Proof. intros F E. destruct ws as [|w [|v r]]; [reflexivity| |]; inversion F as [|? ? [_ N]]; subst; cbn in E; [contradiction|]. now apply app_eq_nil in E as [E _]. Qed.
Lemma field_words n u : word u -> Forall word (field n u).
Proof.
  intros [S NE]. unfold field. destruct (n =? 0); [constructor|]. constructor; [|constructor; [|constructor]].
  - split; [apply digits_spaceless, decimal_digits|]. intros X. pose proof (decimal_nonempty n). rewrite X in *. cbn in *. lia.
  - split; [|intros X; now apply app_eq_nil in X as [X _]]. intros I. apply in_app_or in I as [I|I]; [now apply S|]. destruct (1 <? n); [|contradiction]. cbn in I. destruct I as [I|I]; [discriminate|contradiction].
Qed.
Lemma dt_field_joined ws n u : Forall word ws -> dt_field (joined ws) n u = joined (ws ++ field n u).
Proof.
  intros F. unfold dt_field, field. destruct (n =? 0); [now rewrite app_nil_r|]. destruct ws as [|w r]; [cbn [joined app]; reflexivity|].
  rewrite joined_app by discriminate. destruct (joined (w :: r)) as [|c x] eqn:E; [apply joined_nil in E; [discriminate|exact F]|]. cbn [app joined str]. reflexivity.
Qed.
Lemma amount_field n u x r : unit_of u = Some x -> unit_of (u ++ str "s") = Some x -> amount (field n u ++ r) = match amount r with Some a => Some (n * x + a) | None => None end.
Proof.
  intros U U'. unfold field. destruct (N.eqb_spec n 0) as [->|N0]; [cbn [app]; destruct (amount r); reflexivity|]. cbn [app amount].
  replace (unit_of (u ++ (if 1 <? n then str "s" else []))) with (Some x) by (destruct (1 <? n); [|rewrite app_nil_r]; auto). now rewrite decimal_number.
Qed.
