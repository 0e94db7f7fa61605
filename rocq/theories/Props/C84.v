(** C84: texts of times. *)
From Verif Require Import Proofs.Lib Proofs.CliP Proofs.CipherLib Proofs.TimesP Spec.Calendar Model.Cli.
Local Open Scope N_scope.

(** The date of every time a packet can hold: year, month and day of the calendar. *)
Theorem C84_date gm t : is_gmtime gm -> t < 2 ^ 32 ->
  exists y m d a b c, show_date gm (Z.of_N t) = Ok (a ++ str "-" ++ b ++ str "-" ++ c) /\ writes 4 a y /\ writes 2 b (m + 1) /\ writes 2 c d /\ is_date y m d (t / 86400).
Proof.
  intros G L. destruct (G t L) as (g & E & y & Y & D & _). destruct (date_year _ _ _ _ L D) as (By & Bm & Bd).
  exists y, (tm_mon g), (tm_mday g), (decimal y), (padded 48 2 (decimal (tm_mon g + 1))), (padded 48 2 (decimal (tm_mday g))).
  unfold show_date, full_year. rewrite E, Y. replace (1900 + (Z.of_N y - 1900))%Z with (Z.of_N y) by lia. replace ((-2147483648 <=? Z.of_N y) && (Z.of_N y <=? 2147483647))%Z with true by lia.
  cbn [bind]. unfold decimal_z. replace (Z.of_N y <? 0)%Z with false by lia. rewrite N2Z.id.
  split; [reflexivity|]. split; [apply four_digits; lia|]. split; [apply two_digits; lia|]. split; [apply two_digits; lia|exact D].
Qed.
(** The texts are ordered, as texts, like the days. *)
Theorem C84_order gm t t' s s' : is_gmtime gm -> t < 2 ^ 32 -> t' < 2 ^ 32 -> show_date gm (Z.of_N t) = Ok s -> show_date gm (Z.of_N t') = Ok s' ->
  (blt s s' = true <-> t / 86400 < t' / 86400) /\ (s = s' <-> t / 86400 = t' / 86400).
Proof.
  intros G L L' E E'. destruct (C84_date gm t G L) as (y & m & d & a & b & c & F & A & B & C & D). destruct (C84_date gm t' G L') as (y' & m' & d' & a' & b' & c' & F' & A' & B' & C' & D').
  rewrite E in F. apply Ok_inj in F. rewrite E' in F'. apply Ok_inj in F'. destruct (date_order _ _ _ _ _ _ _ _ D D') as [O Q]. rewrite O, Q.
  destruct (writes_blt _ _ _ _ _ A A') as (Ya & Yb & Yc). destruct (writes_blt _ _ _ _ _ B B') as (Ma & Mb & Mc). destruct (writes_blt _ _ _ _ _ C C') as (Da & Db & Dc).
  assert (LT : blt s s' = (y <? y') || ((y =? y') && ((m <? m') || ((m =? m') && (d <? d'))))).
  { subst s s'. rewrite blt_app, Ya, Yb by exact Yc. f_equal. f_equal. change (str "-" ++ b ++ str "-" ++ c) with (45 :: (b ++ 45 :: c)). change (str "-" ++ b' ++ str "-" ++ c') with (45 :: (b' ++ 45 :: c')).
    cbn [blt]. rewrite N.eqb_refl, blt_app, Ma, Mb by exact Mc. replace (m + 1 <? m' + 1) with (m <? m') by lia. replace (m + 1 =? m' + 1) with (m =? m') by lia. f_equal. f_equal. cbn [blt]. rewrite N.eqb_refl. exact Da. }
  split.
  - rewrite LT. lia.
  - subst s s'. split.
    + intros X. apply app_inj_len in X as [X1 X]; [|exact Yc]. injection X as X. apply app_inj_len in X as [X2 X]; [|exact Mc]. injection X as X. subst. rewrite beq_refl in *. lia.
    + intros (-> & -> & ->). rewrite N.eqb_refl in *. apply beq_eq in Yb, Mb, Db. now subst.
Qed.
(** No two times have the same text; every one has the text of its day, hour, minute and second. *)
Theorem C84_time gm t : is_gmtime gm -> t < 2 ^ 32 ->
  exists g y wd mo dd hh mm ss yy, gm (Z.of_N t) = Some g /\ is_date y (tm_mon g) (tm_mday g) (t / 86400) /\
    show_time gm (Z.of_N t) = Ok (wd ++ str " " ++ mo ++ str " " ++ dd ++ str " " ++ hh ++ str ":" ++ mm ++ str ":" ++ ss ++ str " UTC " ++ yy) /\
    nth_error day_names (N.to_nat ((t / 86400 + 4) mod 7)) = Some wd /\ nth_error month_names (N.to_nat (tm_mon g)) = Some mo /\ digits dd /\ number dd = tm_mday g /\
    writes 2 hh (t mod 86400 / 3600) /\ writes 2 mm (t mod 3600 / 60) /\ writes 2 ss (t mod 60) /\ writes 4 yy y.
Proof.
  assert (ND : day_names = dayofweek) by (vm_compute; reflexivity). assert (NM : month_names = month) by (vm_compute; reflexivity). rewrite ND, NM.
  intros G L. destruct (G t L) as (g & E & y & Y & D & W & H & M & S & T). destruct (date_year _ _ _ _ L D) as (By & Bm & Bd).
  destruct (nth_error dayofweek (N.to_nat ((t / 86400 + 4) mod 7))) as [wd|] eqn:EW; [|apply nth_error_None in EW; change (length dayofweek) with 7%nat in EW; pose proof (N.mod_lt (t / 86400 + 4) 7); lia].
  destruct (nth_error month (N.to_nat (tm_mon g))) as [mo|] eqn:EM; [|apply nth_error_None in EM; change (length month) with 12%nat in EM; lia].
  exists g, y, wd, mo, (decimal (tm_mday g)), (padded 48 2 (decimal (tm_hour g))), (padded 48 2 (decimal (tm_min g))), (padded 48 2 (decimal (tm_sec g))), (decimal y).
  split; [exact E|]. split; [exact D|]. split.
  - unfold show_time, entry, full_year. rewrite E, W, EW, EM, Y. cbn [bind]. replace (1900 + (Z.of_N y - 1900))%Z with (Z.of_N y) by lia. replace ((-2147483648 <=? Z.of_N y) && (Z.of_N y <=? 2147483647))%Z with true by lia.
    cbn [bind]. unfold decimal_z. replace (Z.of_N y <? 0)%Z with false by lia. now rewrite N2Z.id.
  - split; [reflexivity|]. split; [exact EM|]. split; [apply decimal_digits|]. split; [apply decimal_number|].
    replace (t mod 86400 / 3600) with (tm_hour g) by lia. replace (t mod 3600 / 60) with (tm_min g) by lia. replace (t mod 60) with (tm_sec g) by lia.
    repeat (split; [apply two_digits; lia|]). apply four_digits. lia.
Qed.
Theorem C84_unique gm t t' s : is_gmtime gm -> t < 2 ^ 32 -> t' < 2 ^ 32 -> show_time gm (Z.of_N t) = Ok s -> show_time gm (Z.of_N t') = Ok s -> t = t'.
Proof.
  intros G L L' E E'.
  destruct (C84_time gm t G L) as (g & y & wd & mo & dd & hh & mm & ss & yy & _ & D & F & W & M & Dd & Nd & H & Mi & S & Y).
  destruct (C84_time gm t' G L') as (g' & y' & wd' & mo' & dd' & hh' & mm' & ss' & yy' & _ & D' & F' & W' & M' & Dd' & Nd' & H' & Mi' & S' & Y').
  assert (SW : forall i w, nth_error day_names i = Some w -> spaceless w) by (intros i w N; apply nth_error_In in N; cbn in N; decompose [or] N; subst; try contradiction; apply spaceless_b; reflexivity).
  assert (SM : forall i w, nth_error month_names i = Some w -> spaceless w) by (intros i w N; apply nth_error_In in N; cbn in N; decompose [or] N; subst; try contradiction; apply spaceless_b; reflexivity).
  assert (MI : NoDup month_names) by (repeat (constructor; [cbn; intros I; decompose [or] I; try discriminate; contradiction|]); constructor).
  assert (SP : forall a b c, writes 2 a (number a) -> writes 2 b (number b) -> writes 2 c (number c) -> spaceless (a ++ str ":" ++ b ++ str ":" ++ c)).
  { intros a b c (A & _) (B & _) (C & _) I. rewrite !in_app_iff in I. apply digits_spaceless in A, B, C. cbn in I. decompose [or] I; try discriminate; try contradiction; auto. }
  assert (WS : forall w m d h i e y, spaceless w -> spaceless m -> digits d -> writes 2 h (number h) -> writes 2 i (number i) -> writes 2 e (number e) -> writes 4 y (number y) ->
    words_of (w ++ str " " ++ m ++ str " " ++ d ++ str " " ++ h ++ str ":" ++ i ++ str ":" ++ e ++ str " UTC " ++ y) [] = [w; m; d; h ++ str ":" ++ i ++ str ":" ++ e; str "UTC"; y]).
  { intros w m d h i e z A B C P Q R (T & _). replace (w ++ str " " ++ m ++ str " " ++ d ++ str " " ++ h ++ str ":" ++ i ++ str ":" ++ e ++ str " UTC " ++ z) with (w ++ 32 :: (m ++ 32 :: (d ++ 32 :: ((h ++ str ":" ++ i ++ str ":" ++ e) ++ 32 :: (str "UTC" ++ 32 :: z))))) by (change (str " ") with [32]; change (str " UTC ") with ([32] ++ str "UTC" ++ [32]); rewrite <- ?app_assoc; reflexivity).
    rewrite words_next by exact A. rewrite words_next by exact B. rewrite words_next by now apply digits_spaceless. rewrite words_next by now apply SP. rewrite words_next by (apply spaceless_b; reflexivity).
    rewrite words_last by now apply digits_spaceless. reflexivity. }
  assert (WN : forall k a n, writes k a n -> writes k a (number a)) by (intros k a n (A & B & _); now split).
  rewrite E in F. apply Ok_inj in F. rewrite E' in F'. apply Ok_inj in F'. pose proof (f_equal (fun x => words_of x []) F) as X. pose proof (f_equal (fun x => words_of x []) F') as X'. cbv beta in X, X'. rewrite X in X'.
  rewrite (WS wd mo dd hh mm ss yy) in X' by eauto. rewrite (WS wd' mo' dd' hh' mm' ss' yy') in X' by eauto. injection X' as _ X1 X2 X3 X4.
  assert (EM : tm_mon g = tm_mon g').
  { rewrite <- X1 in M'. apply N2Nat.inj. apply (proj1 (NoDup_nth_error month_names) MI); [apply nth_error_Some; now rewrite M|now rewrite M, M']. }
  assert (LEN : forall a n b m, writes 2 a n -> writes 2 b m -> length a = length b) by (intros a n b m (_ & A & _) (_ & B & _); unfold len in *; lia).
  apply app_inj_len in X3 as [-> X3]; [|eauto]. injection X3 as X3. apply app_inj_len in X3 as [-> X3]; [|eauto]. injection X3 as ->. subst dd' yy'.
  destruct H as (_ & _ & H), H' as (_ & _ & H'), Mi as (_ & _ & Mi), Mi' as (_ & _ & Mi'), S as (_ & _ & S), S' as (_ & _ & S'), Y as (_ & _ & Y), Y' as (_ & _ & Y').
  destruct (date_order _ _ _ _ _ _ _ _ D D') as [_ Q]. assert (t / 86400 = t' / 86400) by (apply Q; repeat split; congruence).
  assert (t mod 86400 / 3600 = t' mod 86400 / 3600) by congruence. assert (t mod 3600 / 60 = t' mod 3600 / 60) by congruence. assert (t mod 60 = t' mod 60) by congruence. lia.
Qed.
(** Durations: every one has a text, of fields in range and none of them zero, and the text says
    how long it is, to the second. *)
Theorem C84_duration dt : (- 2 ^ 63 < dt < 2 ^ 63)%Z -> dt <> 0%Z ->
  exists y d h m s, show_dt dt = Ok (joined ((if (dt <? 0)%Z then [str "-"] else []) ++ field y (str "year") ++ field d (str "day") ++ field h (str "hour") ++ field m (str "minute") ++ field s (str "second"))) /\
    d < 365 /\ h < 24 /\ m < 60 /\ s < 60 /\ Z.abs_N dt = y * (365 * 86400) + d * 86400 + h * 3600 + m * 60 + s.
Proof.
  intros B N0. exists (Z.to_N (Z.abs dt) / 31536000), (Z.to_N (Z.abs dt) / 86400 mod 365), (Z.to_N (Z.abs dt) / 3600 mod 24), (Z.to_N (Z.abs dt) / 60 mod 60), (Z.to_N (Z.abs dt) mod 60).
  split; [|split; [|split; [|split; [|split]]]]; try (apply N.mod_lt; discriminate).
  - unfold show_dt. replace (dt =? 0)%Z with false by lia. replace (dt =? -9223372036854775808)%Z with false by lia. remember (Z.to_N (Z.abs dt)) as n.
    assert (WD : forall u, In u (map str ["year"; "day"; "hour"; "minute"; "second"; "-"]%string) -> word u).
    { intros u I. cbn in I. decompose [or] I; subst; try contradiction; (split; [apply spaceless_b; reflexivity|discriminate]). }
    replace (if (dt <? 0)%Z then str "-" else []) with (joined (if (dt <? 0)%Z then [str "-"] else [])) by (destruct (dt <? 0)%Z; reflexivity).
    assert (W0 : Forall word (if (dt <? 0)%Z then [str "-"] else [])) by (destruct (dt <? 0)%Z; [constructor; [apply WD; cbn; tauto|constructor]|constructor]).
    cbv zeta. remember (if (dt <? 0)%Z then [str "-"] else []) as ws eqn:EQ. clear EQ. f_equal.
    rewrite !dt_field_joined by (repeat (apply Forall_app; split); auto; apply field_words, WD; cbn; tauto). f_equal. now rewrite <- !app_assoc.
  - replace (Z.abs_N dt) with (Z.to_N (Z.abs dt)) by lia. remember (Z.to_N (Z.abs dt)) as n. clear. lia.
Qed.
Theorem C84_duration_read dt : (- 2 ^ 63 < dt < 2 ^ 63)%Z -> exists s, show_dt dt = Ok s /\ duration s = Some dt.
Proof.
  intros B. destruct (Z.eq_dec dt 0) as [->|N0]; [eexists; split; reflexivity|]. destruct (C84_duration dt B N0) as (y & d & h & m & s & E & _ & _ & _ & _ & A). eexists. split; [exact E|]. clear E.
  assert (WD : forall u, In u (map str ["year"; "day"; "hour"; "minute"; "second"; "-"]%string) -> word u).
  { intros u I. cbn in I. decompose [or] I; subst; try contradiction; (split; [apply spaceless_b; reflexivity|discriminate]). }
  remember (field y (str "year") ++ field d (str "day") ++ field h (str "hour") ++ field m (str "minute") ++ field s (str "second")) as fs eqn:EF.
  assert (WF : Forall word fs) by (subst fs; repeat (apply Forall_app; split); apply field_words, WD; cbn; tauto).
  assert (AM : amount fs = Some (Z.abs_N dt)).
  { subst fs. rewrite (amount_field y _ (365 * 86400)), (amount_field d _ 86400), (amount_field h _ 3600), (amount_field m _ 60) by reflexivity. rewrite <- (app_nil_r (field s _)), (amount_field s _ 1) by reflexivity. cbn [amount]. f_equal. lia. }
  assert (NE : fs <> []) by (intros ->; cbn in AM; injection AM as AM; lia).
  assert (FD : exists w r, fs = w :: r /\ digits w).
  { clear - NE EF. assert (FF : forall n u r, (exists w r', r = w :: r' /\ digits w) \/ r = [] -> (exists w r', field n u ++ r = w :: r' /\ digits w) \/ field n u ++ r = []).
    { intros n u r R. unfold field. destruct (n =? 0); [exact R|]. left. do 2 eexists. split; [reflexivity|apply decimal_digits]. }
    destruct (FF y (str "year") (field d (str "day") ++ field h (str "hour") ++ field m (str "minute") ++ field s (str "second"))) as [(w & r & X & D)|X]; [|exists w, r; now subst|now subst].
    apply FF, FF, FF. rewrite <- (app_nil_r (field s _)). apply FF. now right. }
  destruct FD as (w & r & FE & DW).
  assert (ND : forall k, In k (map str ["now"; "-"]%string) -> beq w k = false).
  { intros k I. apply beq_neq. intros ->. unfold digits in DW. cbn in I. decompose [or] I; subst; try contradiction; inversion DW; lia. }
  unfold duration. destruct (dt <? 0)%Z eqn:S.
  - rewrite joined_words; [|discriminate|constructor; [apply WD; cbn; tauto|exact WF]]. cbn [app]. change (beq (str "-") (str "now")) with false. change (beq (str "-") (str "-")) with true. cbv iota. rewrite AM. cbn [option_map]. f_equal. lia.
  - cbn [app]. rewrite joined_words by assumption. rewrite FE, !ND by (cbn; tauto). rewrite <- FE, AM. cbn [option_map]. f_equal. lia.
Qed.
(** The most negative one is undefined. *)
Theorem C84_smallest_refuted : show_dt (- 2 ^ 63) = UB.
Proof. reflexivity. Qed.

(** A gmtime by counting, for the examples: the hypothesis can be met. *)
Fixpoint count_years (fuel : nat) (y d : N) : N * N := match fuel with O => (y, d) | S f => if d <? year_days y then (y, d) else count_years f (y + 1) (d - year_days y) end.
Fixpoint count_months (fuel : nat) (y m d : N) : N * N := match fuel with O => (m, d) | S f => if d <? month_days y m then (m, d) else count_months f y (m + 1) (d - month_days y m) end.
Definition counted (t : Z) : option tm :=
  let n := Z.to_N t in
  let '(y, d) := count_years 200 1970 (n / 86400) in
  let '(m, d) := count_months 11 y 0 d in
  Some (mkTm (n mod 60) (n / 60 mod 60) (n / 3600 mod 24) (d + 1) m (Z.of_N y - 1900) ((n / 86400 + 4) mod 7)).
Lemma count_years_ok f : forall k d D, days_of_years k + d = D -> D < 365 * N.of_nat (k + f) ->
  exists j r, count_years f (1970 + N.of_nat k) d = (1970 + N.of_nat j, r) /\ days_of_years j + r = D /\ r < year_days (1970 + N.of_nat j).
Proof.
  induction f as [|f IH]; intros k d D E L; [pose proof (years_many k); lia|]. cbn [count_years]. destruct (N.ltb_spec d (year_days (1970 + N.of_nat k))) as [S|G]; [eauto|].
  replace (1970 + N.of_nat k + 1) with (1970 + N.of_nat (S k)) by lia. apply IH; [cbn [days_of_years]; lia|]. replace (S k + f)%nat with (k + S f)%nat by lia. exact L.
Qed.
Lemma count_months_ok y f : forall k d D, days_of_months y k + d = D -> (k + f = 11)%nat -> D < year_days y ->
  exists j r, count_months f y (N.of_nat k) d = (N.of_nat j, r) /\ days_of_months y j + r = D /\ r < month_days y (N.of_nat j) /\ (j < 12)%nat.
Proof.
  induction f as [|f IH]; intros k d D E L Y.
  - assert (k = 11)%nat as -> by lia. exists 11%nat, d. split; [reflexivity|]. split; [exact E|]. split; [|lia]. assert (days_of_months y 11 + month_days y (N.of_nat 11) = year_days y) by (unfold year_days; cbn [days_of_months]; unfold month_days; destruct (leap y); reflexivity). lia.
  - cbn [count_months]. destruct (N.ltb_spec d (month_days y (N.of_nat k))) as [S|G]; [exists k, d; repeat split; auto; lia|].
    replace (N.of_nat k + 1) with (N.of_nat (S k)) by lia. apply IH; [cbn [days_of_months]; lia|lia|exact Y].
Qed.
Example C84_ex : is_gmtime counted /\ show_date counted 1234567890 = Ok (str "2009-02-13") /\ show_time counted 1234567890 = Ok (str "Fri Feb 13 23:31:30 UTC 2009") /\
  show_dt 31626061 = Ok (str "1 year 1 day 1 hour 1 minute 1 second") /\ show_dt (-7200) = Ok (str "- 2 hours").
Proof.
  split; [|repeat split; vm_compute; reflexivity]. intros t L. unfold counted. rewrite N2Z.id.
  assert (B : t / 86400 <= 49711) by (apply N.lt_succ_r, N.div_lt_upper_bound; [lia|]; change (2 ^ 32) with 4294967296 in L; lia).
  destruct (count_years_ok 200 0 (t / 86400) (t / 86400) eq_refl) as (j & r & EY & SY & RY); [change (N.of_nat (0 + 200)) with 200; lia|]. change (1970 + N.of_nat 0) with 1970 in EY. rewrite EY.
  destruct (count_months_ok (1970 + N.of_nat j) 11 0 r r eq_refl eq_refl RY) as (m & q & EM & SM & RM & M). change (N.of_nat 0) with 0 in EM. rewrite EM.
  eexists. split; [reflexivity|]. exists (1970 + N.of_nat j). cbn [tm_year tm_mon tm_mday tm_wday tm_hour tm_min tm_sec]. split; [reflexivity|]. split.
  - unfold is_date. replace (N.to_nat (1970 + N.of_nat j - 1970)) with j by lia. rewrite Nnat.Nat2N.id. repeat split; lia.
  - repeat split; try (apply N.mod_lt; discriminate). lia.
Qed.
Print Assumptions C84_date. Print Assumptions C84_order. Print Assumptions C84_time. Print Assumptions C84_unique. Print Assumptions C84_duration. Print Assumptions C84_duration_read. Print Assumptions C84_smallest_refuted. Print Assumptions C84_ex.
