(** Lemmas about cleartext signatures. *)
From Verif Require Export Proofs.ArmorP Proofs.SigcalcP Model.Cleartext Spec.Text.
From Verif Require Import Proofs.IncludesP.

Lemma unlines_map {A} (f : A -> bytes) ls : concat (map (fun l => f l ++ [10]) ls) = unlines (map f ls).
Proof. induction ls as [|l ls IH]; [reflexivity|]. cbn [map concat]. rewrite IH, unlines_cons, <- app_assoc. reflexivity. Qed.
Lemma concat_unlines ls : concat (map (fun l => l ++ [10]) ls) = unlines ls.
Proof. rewrite (unlines_map (fun l => l)). now rewrite map_id. Qed.
Lemma chop_app s c : len s < two64 - 1 -> chop (s ++ [c]) = s.
Proof.
  intros L. unfold chop. replace (sub64 (len (s ++ [c])) 1) with (len s).
  - now apply prefix_app.
  - rewrite len_app. change (len [c]) with 1. rewrite sub64_small; unfold two64 in *; lia.
Qed.
Lemma chop_nil : chop [] = [].
Proof. reflexivity. Qed.
Lemma joined_unlines : forall ls, ls <> [] -> unlines ls = joined ls ++ [10].
Proof.
  induction ls as [|l ls IH]; intros H; [congruence|]. rewrite unlines_cons. destruct ls as [|m ls].
  - reflexivity.
  - rewrite IH by discriminate. change (joined (l :: m :: ls)) with (l ++ [10] ++ joined (m :: ls)). now rewrite <- !app_assoc.
Qed.
Lemma joined_cons l m ls : joined (l :: m :: ls) = l ++ 10 :: joined (m :: ls).
Proof. reflexivity. Qed.
Lemma chop_unlines ls : len (unlines ls) < two64 -> chop (unlines ls) = joined ls.
Proof.
  intros L. destruct ls as [|l ls]; [reflexivity|]. rewrite joined_unlines in * by discriminate.
  apply chop_app. rewrite len_app in L. change (len [10]) with 1 in L. lia.
Qed.
(** A final empty line is not seen. *)
Definition seen (ls : list bytes) : list bytes := match last ls [1] with [] => removelast ls | _ => ls end.
Lemma seen_cons l m ls : seen (l :: m :: ls) = l :: seen (m :: ls).
Proof. unfold seen. change (last (l :: m :: ls) [1]) with (last (m :: ls) [1]). destruct (last (m :: ls) [1]); reflexivity. Qed.
Lemma getlines_joined : forall ls, Forall line ls -> getlines (joined ls) = seen ls.
Proof.
  induction ls as [|l ls IH]; intros F; [reflexivity|]. apply Forall_cons_iff in F as [H F]. destruct ls as [|m ls].
  - cbn. destruct l; [reflexivity|]. now apply getlines_last.
  - rewrite joined_cons, getlines_line by exact H. rewrite IH by exact F. now rewrite seen_cons.
Qed.
Lemma seen_id (ls : list bytes) : @last bytes ls [1] <> [] -> seen ls = ls.
Proof. unfold seen. destruct (@last bytes ls [1]); [intros H; now contradiction H|reflexivity]. Qed.
Lemma getlines_lines : forall t, Forall line (getlines t).
Proof.
  unfold getlines. assert (G : forall t cur, line cur -> Forall line (getlines_aux cur t)).
  { induction t as [|c t IH]; intros cur H; cbn [getlines_aux].
    - destruct cur; [constructor|]. constructor; [|constructor]. unfold line. rewrite <- in_rev. exact H.
    - destruct (c =? 10) eqn:E.
      + constructor; [unfold line; now rewrite <- in_rev|]. apply IH. intros [].
      + apply IH. intros [->|X]; [discriminate|contradiction]. }
  intros t. apply G. intros [].
Qed.
(** Every text is complete lines and a rest. *)
Lemma text_lines t : exists ls x, Forall line ls /\ line x /\ t = unlines ls ++ x.
Proof.
  induction t as [|c t (ls & x & F & X & E)].
  - exists [], []. split; [constructor|]. split; [intros []|reflexivity].
  - destruct (N.eq_dec c 10) as [->|N].
    + exists ([] :: ls), x. split; [constructor; [intros []|exact F]|]. split; [exact X|]. rewrite unlines_cons, E. reflexivity.
    + destruct ls as [|l ls].
      * exists [], (c :: x). split; [constructor|]. split; [intros [?|?]; [congruence|contradiction]|]. now rewrite E.
      * apply Forall_cons_iff in F as [L F]. exists ((c :: l) :: ls), x.
        split; [constructor; [intros [?|?]; [congruence|contradiction]|exact F]|]. split; [exact X|].
        rewrite E, !unlines_cons, <- !app_assoc. reflexivity.
Qed.
Lemma getlines_parts ls x : Forall line ls -> line x -> getlines (unlines ls ++ x) = ls ++ (match x with [] => [] | _ => [x] end).
Proof.
  intros F X. rewrite getlines_unlines by (now apply Forall_forall). f_equal. destruct x; [reflexivity|]. now apply getlines_last.
Qed.
Lemma unlines_app_joined ls x : unlines ls ++ x = joined (ls ++ [x]).
Proof.
  induction ls as [|l ls IH]; [reflexivity|]. rewrite unlines_cons. cbn [app]. rewrite <- app_assoc. cbn [app]. rewrite IH.
  destruct ls; reflexivity.
Qed.
Lemma last_app {A} (l : list A) x d : last (l ++ [x]) d = x.
Proof. induction l as [|a l IH]; [reflexivity|]. cbn [app]. destruct l; [reflexivity|exact IH]. Qed.
(** The lines of a text that does not end in a line feed. *)
Lemma getlines_open t : (forall b, t <> b ++ [10]) -> t = joined (getlines t) /\ @last bytes (getlines t) [1] <> [].
Proof.
  intros H. destruct (text_lines t) as (ls & x & F & X & ->). rewrite getlines_parts by assumption. destruct x as [|c x].
  - rewrite !app_nil_r. destruct ls as [|l ls]; [split; [reflexivity|discriminate]|].
    exfalso. rewrite app_nil_r in H. apply (H (joined (l :: ls))). apply joined_unlines. discriminate.
  - split; [apply unlines_app_joined|]. rewrite last_app. discriminate.
Qed.
Lemma len_unlines_cons l ls : len (unlines (l :: ls)) = len l + 1 + len (unlines ls).
Proof. rewrite unlines_cons, len_app, len_cons. lia. Qed.
Lemma len_getlines t : len (unlines (getlines t)) <= len t + 1.
Proof.
  destruct (text_lines t) as (ls & x & F & X & ->). rewrite getlines_parts by assumption. rewrite unlines_app, !len_app.
  destruct x; [cbn [unlines flat_map len]; unfold len; cbn [length]; lia|]. rewrite len_unlines_cons. change (len (unlines [])) with 0. lia.
Qed.
Lemma len_unlines_map f k ls : (forall l, len (f l) <= len l + k) -> len (unlines (map f ls)) <= (k + 1) * len (unlines ls).
Proof.
  intros H. induction ls as [|l ls IH]; [change (len (unlines (map f []))) with 0; lia|]. cbn [map]. rewrite !len_unlines_cons. specialize (H l). nia.
Qed.

(** Escaping. *)
Lemma escape_len l : len (escape_line l) <= len l + 2.
Proof.
  assert (E : escape_line l = l \/ escape_line l = 45 :: 32 :: l).
  { destruct l as [|c r]; [auto|]. unfold escape_line. destruct (N.eq_dec c 45) as [->|D]; [auto|].
    left. repeat match goal with |- context [match ?p with _ => _ end] => destruct p; try reflexivity end. congruence. }
  destruct E as [-> | ->]; rewrite ?len_cons; lia.
Qed.
Lemma escape_cases l : (exists r, l = 45 :: r /\ escape_line l = 45 :: 32 :: l) \/ ((forall r, l <> 45 :: r) /\ escape_line l = l).
Proof.
  destruct l as [|c r]; [right; split; [discriminate|reflexivity]|]. destruct (N.eq_dec c 45) as [->|D]; [left; eauto|right].
  split; [congruence|]. unfold escape_line. repeat match goal with |- context [match ?p with _ => _ end] => destruct p; try reflexivity end. congruence.
Qed.
Lemma unescape_other l : (forall r, l <> 45 :: r) -> unescape_line l = l.
Proof.
  destruct l as [|c r]; [reflexivity|]. intros H. unfold unescape_line. destruct (N.eq_dec c 45) as [->|D]; [congruence|].
  repeat match goal with |- context [match ?p with _ => _ end] => destruct p; try reflexivity end. congruence.
Qed.
Lemma unescape_escape l : unescape_line (escape_line l) = l.
Proof. destruct (escape_cases l) as [(r & -> & ->)|[H ->]]; [reflexivity|now apply unescape_other]. Qed.
Lemma escape_is_line l : line l -> line (escape_line l).
Proof. intros H. destruct (escape_cases l) as [(r & E & ->)|[_ ->]]; [|exact H]. intros [X|[X|X]]; [discriminate|discriminate|contradiction]. Qed.
Lemma escape_nil l : escape_line l = [] -> l = [].
Proof. destruct (escape_cases l) as [(r & E & ->)|[_ ->]]; [discriminate|auto]. Qed.
Lemma dash_escape_joined t : len t < 2 ^ 61 -> dash_escape t = joined (map escape_line (getlines t)).
Proof.
  intros L. unfold dash_escape. rewrite unlines_map. apply chop_unlines.
  assert (A := len_unlines_map escape_line 2 (getlines t) escape_len). assert (B := len_getlines t). unfold two64. lia.
Qed.
Lemma unescape_len l : len (unescape_line l) <= len l + 0.
Proof.
  destruct l as [|c r]; [cbn; lia|]. unfold unescape_line.
  repeat match goal with |- context [match ?p with _ => _ end] => destruct p; rewrite ?len_cons; try lia end.
Qed.
Lemma reverse_joined t : len t < 2 ^ 63 -> reverse_dash_escape t = joined (map unescape_line (getlines t)).
Proof.
  intros L. unfold reverse_dash_escape. rewrite unlines_map. apply chop_unlines.
  assert (A := len_unlines_map unescape_line 0 (getlines t) unescape_len). assert (B := len_getlines t). unfold two64. lia.
Qed.
Lemma last_map {A B} (f : A -> B) l d : last (map f l) (f d) = f (last l d).
Proof. induction l as [|a l IH]; [reflexivity|]. cbn [map]. destruct l; [reflexivity|exact IH]. Qed.
Lemma seen_map f ls : (forall l, f l = [] <-> l = []) -> seen (map f ls) = map f (seen ls).
Proof.
  intros H. induction ls as [|l ls IH]; [reflexivity|]. destruct ls as [|m ls].
  - unfold seen. cbn [map last removelast]. destruct l as [|c l]; [replace (f []) with (@nil N) by (symmetry; now apply H); reflexivity|].
    destruct (f (c :: l)) eqn:E; [apply (proj1 (H _)) in E; discriminate|]. cbn [map]. now rewrite E.
  - cbn [map] in *. rewrite !seen_cons. cbn [map]. f_equal. exact IH.
Qed.
Lemma len_joined ls : len (joined ls) <= len (unlines ls).
Proof. destruct ls as [|l ls]; [cbn; lia|]. rewrite joined_unlines by discriminate. rewrite len_app. lia. Qed.
Lemma escape_roundtrip t : len t < 2 ^ 61 -> (forall b, t <> b ++ [10]) -> reverse_dash_escape (dash_escape t) = t.
Proof.
  intros L H. rewrite dash_escape_joined by exact L. destruct (getlines_open t H) as [E N].
  rewrite reverse_joined.
  2:{ assert (A := len_unlines_map escape_line 2 (getlines t) escape_len). assert (B := len_getlines t).
      assert (C := len_joined (map escape_line (getlines t))). lia. }
  rewrite getlines_joined.
  2:{ apply Forall_forall. intros l I. apply in_map_iff in I as (m & <- & I). apply escape_is_line.
      assert (F := getlines_lines t). rewrite Forall_forall in F. auto. }
  rewrite seen_map; [|intros l; split; [apply escape_nil|intros ->; reflexivity]].
  rewrite seen_id by exact N. rewrite map_map. rewrite (map_ext _ (fun l => l)) by apply unescape_escape. rewrite map_id. congruence.
Qed.
Lemma line_split : forall l b X Y, line l -> l ++ 10 :: X = b ++ 10 :: Y ->
  (b = l /\ X = Y) \/ exists b', b = l ++ 10 :: b' /\ X = b' ++ 10 :: Y.
Proof.
  induction l as [|d l IH]; intros b X Y H E.
  - destruct b as [|e b]; cbn [app] in E; [left; split; [reflexivity|congruence]|]. right. exists b. cbn [app]. split; congruence.
  - destruct b as [|e b]; cbn [app] in E; [exfalso; apply H; left; congruence|].
    destruct (IH b X Y) as [[-> ->]|(b' & -> & ->)].
    + intros I. apply H. now right.
    + congruence.
    + left. split; [congruence|reflexivity].
    + right. exists b'. split; [cbn [app]; congruence|reflexivity].
Qed.
Lemma joined_in : forall ls before c after, Forall line ls -> joined ls = before ++ c :: after -> c <> 10 -> (before = [] \/ exists b, before = b ++ [10]) ->
  exists l r, In l ls /\ c :: after = l ++ r /\ (r = [] \/ exists r', r = 10 :: r').
Proof.
  induction ls as [|l ls IH]; intros before c after F E Hc B; [destruct before; discriminate|].
  apply Forall_cons_iff in F as [L F]. destruct ls as [|m ls].
  - cbn [joined] in E. destruct B as [-> |(b & ->)].
    + exists l, []. rewrite app_nil_r. split; [now left|]. split; [now rewrite E|auto].
    + exfalso. apply L. rewrite E. apply in_or_app. left. apply in_or_app. right. now left.
  - rewrite joined_cons in E. destruct B as [-> |(b & ->)].
    + exists l, (10 :: joined (m :: ls)). split; [now left|]. split; [now rewrite E|eauto].
    + rewrite <- app_assoc in E. cbn [app] in E. apply line_split in E as [[-> E]|(b' & -> & E)]; [| |exact L].
      * destruct (IH [] c after F E Hc) as (l' & r & I & R); [auto|]. exists l', r. split; [now right|exact R].
      * destruct (IH (b' ++ [10]) c after F) as (l' & r & I & R); [now rewrite <- app_assoc|exact Hc|eauto|]. exists l', r. split; [now right|exact R].
Qed.
Lemma escaped_dash t before after : len t < 2 ^ 61 -> dash_escape t = before ++ 45 :: after -> (before = [] \/ exists b, before = b ++ [10]) ->
  exists r, after = 32 :: r.
Proof.
  intros L E B. rewrite dash_escape_joined in E by exact L.
  assert (F : Forall line (map escape_line (getlines t))).
  { apply Forall_forall. intros l I. apply in_map_iff in I as (m & <- & I). apply escape_is_line.
    assert (F := getlines_lines t). rewrite Forall_forall in F. auto. }
  destruct (joined_in _ _ _ _ F E ltac:(discriminate) B) as (l & r & I & R & T).
  apply in_map_iff in I as (m & <- & I). destruct (escape_cases m) as [(x & -> & X)|[N X]]; rewrite X in R.
  - cbn [app] in R. exists ((45 :: x) ++ r). cbn [app]. congruence.
  - exfalso. destruct m as [|c m]; [|apply (N m); cbn [app] in R; congruence].
    destruct T as [-> |(r' & ->)]; cbn [app] in R; discriminate.
Qed.

(** ** Transport *)
(** Removing white space at the end of a line. *)
Fixpoint unblank (r : bytes) : bytes := match r with c :: r' => if mem_char c whitespace then unblank r' else r | [] => [] end.
Definition trimmed (l : bytes) : bytes := rev (unblank (rev l)).
Lemma unblank_spec r : exists w, r = w ++ unblank r /\ Forall (fun c => mem_char c whitespace = true) w /\
  (match unblank r with c :: _ => mem_char c whitespace = false | [] => True end).
Proof.
  induction r as [|c r (w & E & F & H)]; [exists []; split; [reflexivity|split; [constructor|exact I]]|].
  cbn [unblank]. destruct (mem_char c whitespace) eqn:M.
  - exists (c :: w). split; [cbn [app]; congruence|]. split; [constructor; assumption|exact H].
  - exists []. split; [reflexivity|]. split; [constructor|exact M].
Qed.
Lemma unblank_app w r : Forall (fun c => mem_char c whitespace = true) w -> unblank (w ++ r) = unblank r.
Proof. induction 1 as [|c w H _ IH]; [reflexivity|]. cbn [app unblank]. now rewrite H. Qed.
Lemma trim_trimmed l : len l < two64 - 1 -> trim_whitespace l false true = Ok (trimmed l).
Proof.
  intros L. destruct (trim_spec whitespace l false true L) as (a & t & b & E & S & F & A & B). cbn in A. subst a.
  unfold trim_whitespace. rewrite E. f_equal. cbn [app] in S, F. subst l. unfold trimmed. rewrite rev_app_distr.
  rewrite unblank_app by (now apply Forall_rev). rewrite <- (rev_involutive t) at 1. f_equal.
  destruct (rev t) as [|c r]; [reflexivity|]. cbn [unblank]. change (mem_char c whitespace = false) in B. now rewrite B.
Qed.
Lemma trimmed_ends x w : Forall blank w -> (forall y c, x = y ++ [c] -> ~ blank c) -> trimmed (x ++ w) = x.
Proof.
  intros F H. unfold trimmed. rewrite rev_app_distr, unblank_app.
  - rewrite <- (rev_involutive x) at 2. f_equal. destruct (rev x) as [|c r] eqn:E; [reflexivity|]. cbn [unblank].
    rewrite mem_char_not; [reflexivity|]. apply (H (rev r)). rewrite <- (rev_involutive x), E. reflexivity.
  - apply Forall_rev. eapply Forall_impl; [|exact F]. intros c. apply mem_char_blank.
Qed.
Lemma trimmed_prefix l : exists w, l = trimmed l ++ w /\ Forall blank w /\ (forall y c, trimmed l = y ++ [c] -> ~ blank c).
Proof.
  destruct (unblank_spec (rev l)) as (w & E & F & H). exists (rev w). split; [|split].
  - unfold trimmed. rewrite <- rev_app_distr, <- E. symmetry. apply rev_involutive.
  - apply Forall_rev. eapply Forall_impl; [|exact F]. intros c. apply mem_char_blank.
  - intros y c Ey. unfold trimmed in Ey. apply (f_equal (@rev N)) in Ey. rewrite rev_involutive, rev_app_distr in Ey. rewrite Ey in H.
    intros B. apply mem_char_blank in B. cbn [rev app] in H. congruence.
Qed.
Lemma strip_trim_same x w : spaces w -> (forall y c, x = y ++ [c] -> c <> 32 /\ c <> 9) -> strip_line (x ++ w) = x.
Proof.
  intros F H. unfold strip_line. rewrite rev_app_distr. rewrite <- (rev_involutive x) at 2. f_equal.
  assert (G : Forall (fun c => c = 32 \/ c = 9) (rev w)) by (now apply Forall_rev). clear F.
  induction G as [|c r [-> | ->] _ IH]; cbn [app drop_blanks]; [|exact IH|exact IH].
  destruct (rev x) as [|c r] eqn:E; [reflexivity|]. cbn [drop_blanks].
  destruct (H (rev r) c) as [H1 H2]; [rewrite <- (rev_involutive x), E; reflexivity|].
  replace (c =? 32) with false by lia. replace (c =? 9) with false by lia. reflexivity.
Qed.
Lemma strip_len l : len (strip_line l) <= len l + 0.
Proof.
  unfold strip_line, len. rewrite rev_length. rewrite <- (rev_length l). generalize (rev l) as r.
  induction r as [|c r IH]; cbn [drop_blanks]; [cbn; lia|]. destruct ((c =? 32) || (c =? 9)); cbn [length]; lia.
Qed.
Lemma trimmed_len l : len (trimmed l) <= len l + 0.
Proof. destruct (trimmed_prefix l) as (w & E & _). rewrite E at 2. rewrite len_app. lia. Qed.
Lemma strip_is_line l : line l -> line (strip_line l).
Proof.
  unfold line, strip_line. rewrite <- in_rev. intros H X. apply H. rewrite in_rev. revert X. generalize (rev l) as r.
  induction r as [|c r IH]; cbn [drop_blanks]; [auto|]. destruct ((c =? 32) || (c =? 9)); [right; auto|auto].
Qed.
Lemma trimmed_is_line l : line l -> line (trimmed l).
Proof. destruct (trimmed_prefix l) as (w & E & _). intros H X. apply H. rewrite E. apply in_or_app. auto. Qed.
(** A line that ends tamely: what is signed and what is transported. *)
Lemma tame_line l x : ends_tamely l x -> trimmed l = x /\ (strip_line l = x \/ strip_line l = x ++ [13]).
Proof.
  intros (w & W & E & H).
  assert (B : Forall blank w) by (eapply Forall_impl; [|exact W]; intros c [-> | ->]; unfold blank; cbn [In]; auto).
  assert (H' : forall y c, x = y ++ [c] -> c <> 32 /\ c <> 9).
  { intros y c Ex. assert (X := H y c Ex). split; intros ->; apply X; unfold blank; cbn [In]; auto. }
  destruct E as [-> | ->].
  - split; [now apply trimmed_ends|]. left. now apply strip_trim_same.
  - split.
    + apply trimmed_ends; [|exact H]. constructor; [unfold blank; cbn [In]; auto 10|exact B].
    + right. rewrite app_assoc. apply strip_trim_same; [exact W|]. intros y c Ey. apply app_inj_tail in Ey as [_ <-]. split; discriminate.
Qed.
Lemma canonical_tame l x : line l -> ends_tamely l x -> canonical_line (strip_line l) = canonical_line x.
Proof.
  intros L T. destruct (tame_line l x T) as [E [-> | ->]]; [reflexivity|]. rewrite canonical_cr. symmetry. apply canonical_plain.
  split.
  - rewrite <- E. now apply trimmed_is_line.
  - intros y Ey. destruct T as (w & _ & _ & H). apply (H y 13 Ey). unfold blank. cbn [In]. auto 10.
Qed.
Lemma data_to_text_joined t : len t < 2 ^ 62 -> data_to_text t = joined (map strip_line (getlines t)).
Proof.
  intros L. unfold data_to_text. rewrite unlines_map. apply chop_unlines.
  assert (A := len_unlines_map strip_line 0 (getlines t) strip_len). assert (B := len_getlines t). unfold two64. lia.
Qed.
Lemma map_lines f ls : (forall l, line l -> line (f l)) -> Forall line ls -> Forall line (map f ls).
Proof. intros H F. induction F; cbn [map]; constructor; auto. Qed.
Lemma canonical_data_to_text t : len t < 2 ^ 62 -> text_to_canonical (data_to_text t) = concat (map canonical_line (seen (map strip_line (getlines t)))).
Proof.
  intros L. unfold text_to_canonical. rewrite data_to_text_joined by exact L. rewrite getlines_joined; [reflexivity|].
  apply map_lines; [apply strip_is_line|apply getlines_lines].
Qed.
(** What the reader makes of a line the writer escaped. *)
Lemma trimmed_cons c l : ~ blank c -> trimmed (c :: l) = c :: trimmed l.
Proof.
  intros H. unfold trimmed. cbn [rev]. destruct (unblank_spec (rev l)) as (w & E & F & G). rewrite E at 1.
  rewrite <- app_assoc, unblank_app by exact F. rewrite <- rev_unit.  f_equal. destruct (unblank (rev l)) as [|d r]; cbn [app unblank].
  - now rewrite mem_char_not.
  - now rewrite G.
Qed.
Lemma trimmed_nil_cons c l : blank c -> trimmed l = [] -> trimmed (c :: l) = [].
Proof.
  unfold trimmed. intros B E. cbn [rev]. destruct (unblank_spec (rev l)) as (w & X & F & _).
  assert (U : unblank (rev l) = []) by (destruct (unblank (rev l)); [reflexivity|]; apply (f_equal (@length N)) in E; rewrite rev_length in E; discriminate).
  rewrite X, U, app_nil_r, unblank_app by exact F. cbn [unblank]. apply mem_char_blank in B. now rewrite B.
Qed.
Lemma trimmed_escape l : (exists r, l = 45 :: r /\ trimmed (escape_line l) = 45 :: 32 :: trimmed l) \/
  ((forall r, trimmed l <> 45 :: r) /\ trimmed (escape_line l) = trimmed l).
Proof.
  assert (ND : ~ blank 45) by (unfold blank; cbn [In]; lia).
  destruct (escape_cases l) as [(r & -> & ->)|[N ->]].
  - left. exists r. split; [reflexivity|]. rewrite (trimmed_cons 45) by exact ND. f_equal.
    destruct (trimmed_prefix (45 :: r)) as (w & E & B & H). change (32 :: 45 :: r) with ([32] ++ (45 :: r)). rewrite E at 1.
    rewrite app_assoc. apply trimmed_ends; [exact B|]. intros y c Ey. destruct y as [|d y].
    + exfalso. cbn [app] in Ey. rewrite trimmed_cons in Ey by exact ND. discriminate.
    + cbn [app] in Ey. apply (H y c). congruence.
  - right. split; [|reflexivity]. intros r E. destruct (trimmed_prefix l) as (w & X & _). rewrite E in X. cbn [app] in X. apply (N _ X).
Qed.
Lemma unescape_trimmed l : unescape_line (trimmed (escape_line l)) = trimmed l.
Proof. destruct (trimmed_escape l) as [(r & -> & ->)|[N ->]]; [reflexivity|now apply unescape_other]. Qed.
Lemma escape_not_begin l : starts_with begin_signature (trimmed (escape_line l)) = false.
Proof.
  destruct (trimmed_escape l) as [(r & -> & ->)|[N ->]]; [reflexivity|].
  destruct (starts_with begin_signature (trimmed l)) eqn:E; [|reflexivity]. exfalso. apply starts_with_iff in E as (r & E).
  apply (N _ E).
Qed.
Lemma lines_until_pass h eof ls rest : (forall l, In l ls -> len l < two64 - 1 /\ starts_with h (trimmed l) = false) ->
  lines_until h eof (ls ++ rest) = ' (a, x, r, f) <- lines_until h eof rest ;; Ok (map trimmed ls ++ a, x, r, f).
Proof.
  induction ls as [|l ls IH]; intros H; cbn [app map lines_until].
  - destruct (lines_until h eof rest) as [[[[a x] r] f]| | |]; reflexivity.
  - destruct (H l (or_introl eq_refl)) as [L E]. rewrite trim_trimmed by exact L. cbn [bind]. rewrite E, IH by (intros; apply H; now right).
    destruct (lines_until h eof rest) as [[[[a x] r] f]| | |]; reflexivity.
Qed.
Lemma lines_until_here h eof l rest : trim_whitespace l false true = Ok l -> starts_with h l = true ->
  lines_until h eof (l :: rest) = Ok ([], l, rest, true).
Proof. intros T E. cbn [lines_until]. rewrite T. cbn [bind]. now rewrite E. Qed.

Lemma lines_until_clean h eof ls rest : (forall l, In l ls -> trim_whitespace l false true = Ok l /\ starts_with h l = false) ->
  lines_until h eof (ls ++ rest) = ' (a, x, r, f) <- lines_until h eof rest ;; Ok (ls ++ a, x, r, f).
Proof.
  induction ls as [|l ls IH]; intros H; cbn [app map lines_until].
  - destruct (lines_until h eof rest) as [[[[a x] r] f]| | |]; reflexivity.
  - destruct (H l (or_introl eq_refl)) as [L E]. rewrite L. cbn [bind]. rewrite E, IH by (intros; apply H; now right).
    destruct (lines_until h eof rest) as [[[[a x] r] f]| | |]; reflexivity.
Qed.

Definition escaped_lines (m : bytes) : list bytes := match getlines m with [] => [[]] | ls => map escape_line ls end.
Definition message_of (m : bytes) : bytes := joined (map unescape_line (seen (map trimmed (escaped_lines m)))).
Lemma escaped_text m : len m < 2 ^ 61 -> dash_escape m ++ [10] = unlines (escaped_lines m).
Proof.
  intros L. rewrite dash_escape_joined by exact L. unfold escaped_lines. destruct (getlines m) as [|l ls]; [reflexivity|].
  symmetry. apply joined_unlines. discriminate.
Qed.
Lemma escaped_lines_in m l : In l (escaped_lines m) -> l = [] \/ exists x, l = escape_line x /\ In x (getlines m).
Proof.
  unfold escaped_lines. intros I. destruct (getlines m) as [|x ls]; [left; destruct I as [<-|[]]; reflexivity|].
  right. apply in_map_iff in I as (y & <- & I). eauto.
Qed.
Lemma escaped_lines_lines m : Forall line (escaped_lines m).
Proof.
  apply Forall_forall. intros l I. apply escaped_lines_in in I as [-> |(x & -> & I)]; [intros []|]. apply escape_is_line.
  assert (F := getlines_lines m). rewrite Forall_forall in F. auto.
Qed.
Lemma len_in (l : bytes) ls : In l ls -> len l <= len (unlines ls).
Proof.
  induction ls as [|x ls IH]; [intros []|]. intros [-> |I]; rewrite len_unlines_cons; [lia|]. apply IH in I. lia.
Qed.
Lemma len_escaped m : len (unlines (escaped_lines m)) <= 3 * len m + 3.
Proof.
  unfold escaped_lines. assert (B := len_getlines m). destruct (getlines m) as [|l ls] eqn:E; [cbn [unlines flat_map app]; unfold len; cbn [length]; lia|].
  assert (A := len_unlines_map escape_line 2 (l :: ls) escape_len). lia.
Qed.

Definition sig_lines (keys : list (bytes * bytes)) (body : bytes) : list bytes := map key_text keys ++ [] :: code_part body ++ [sum_line body].
Definition cs_text (c : cleartext) (body : bytes) : list bytes :=
  begin_signed :: map key_text (cs_hash c) ++ [] :: escaped_lines (cs_message c) ++ begin_signature :: sig_lines (g_keys (cs_sig c)) body.
(** The text of a cleartext signature as lines. *)
Lemma cs_lines c body text : len (cs_message c) < 2 ^ 61 -> g_type (cs_sig c) = 6 -> write_packets (g_packets (cs_sig c)) = Ok body ->
  cs_write c = Ok text -> text = unlines (cs_text c body) ++ end_signature.
Proof.
  intros L T W H. unfold cs_write, pgp_write in H. rewrite W in H. cbn [bind] in H. rewrite T in H.
  rewrite (armor_text 6 _ _ (str "SIGNATURE")) in H by reflexivity. cbn [bind] in H. apply Ok_inj in H. subst text.
  unfold cs_text. rewrite unlines_cons, unlines_app, unlines_keys, unlines_cons, unlines_app, <- escaped_text by exact L.
  rewrite <- !app_assoc. cbn [app]. rewrite <- !app_assoc. cbn [app]. rewrite <- !app_assoc. cbn [app]. reflexivity.
Qed.
Lemma sig_lines_clean keys body : Forall armor_key_ok keys -> (forall k, In k keys -> starts_with end_signature (key_text k) = false) ->
  octets body -> body <> [] ->
  forall l, In l (sig_lines keys body) -> line l /\ trim_whitespace l false true = Ok l /\ starts_with end_signature l = false.
Proof.
  intros K KE O N l I. destruct (code_part_lines body O N) as [_ C]. destruct (sum_line_code body) as (S1 & S2 & _).
  assert (CN : forall c, code_char c -> c <> 10) by (unfold code_char, in_alphabet; lia).
  unfold sig_lines in I. apply in_app_or in I as [I|[<-|I]].
  - apply in_map_iff in I as (k & <- & I). rewrite Forall_forall in K. assert (Hk := K k I). split; [now apply key_text_line|].
    split; [now apply key_line_read|now apply KE].
  - split; [intros []|]. split; reflexivity.
  - assert (CC : (forall c, In c l -> code_char c) /\ l <> [] /\ len l < two64 - 1).
    { apply in_app_or in I as [I|[<-|[]]].
      - destruct (C l I) as [[(c & r & -> & _) A] B]. split; [exact A|]. split; [discriminate|]. unfold len, two64. lia.
      - split; [exact S1|]. split; [discriminate|]. unfold len, two64. rewrite S2. lia. }
    destruct CC as (A & B & D). split; [intros X; now apply A, CN in X|]. split.
    + apply trim_clean; [|exact B|exact D]. intros c Ic. apply code_not_blank. auto.
    + destruct (starts_with end_signature l) eqn:E; [|reflexivity]. exfalso. apply starts_with_iff in E as (r & E).
      assert (X : code_char 45) by (apply A; rewrite E; now left). unfold code_char, in_alphabet in X. lia.
Qed.
Lemma cs_read_back_end c body text tl : tl = [] \/ tl = [10] -> len (cs_message c) < 2 ^ 61 -> g_type (cs_sig c) = 6 -> Forall armor_key_ok (cs_hash c) ->
  Forall armor_key_ok (g_keys (cs_sig c)) -> (forall k, In k (g_keys (cs_sig c)) -> starts_with end_signature (key_text k) = false) ->
  write_packets (g_packets (cs_sig c)) = Ok body -> octets body -> body <> [] -> len body < 2 ^ 62 ->
  cs_write c = Ok text ->
  cs_read [] pgp_new (text ++ tl) = (ps <- read_raw body ;; Ok (mkCleartext (cs_hash c) (message_of (cs_message c)) (mkPgp true 6 (g_keys (cs_sig c)) ps))).
Proof.
  intros TL L T HK GK GE W O N LB H. rewrite (cs_lines c body text L T W H). clear H text.
  assert (SL := sig_lines_clean (g_keys (cs_sig c)) body GK GE O N).
  assert (EN : ~ In 10 end_signature) by (vm_compute; intros X; decompose [or] X; discriminate || contradiction).
  assert (LA : forall l, In l (cs_text c body) -> ~ In 10 l).
  { unfold cs_text. intros l [<-|I].
    - vm_compute; intros X; decompose [or] X; discriminate || contradiction.
    - apply in_app_or in I as [I|[<-|I]].
      + apply in_map_iff in I as (k & <- & I). rewrite Forall_forall in HK. now apply key_text_line, HK.
      + intros [].
      + apply in_app_or in I as [I|[<-|I]].
        * assert (F := escaped_lines_lines (cs_message c)). rewrite Forall_forall in F. now apply F.
        * vm_compute; intros X; decompose [or] X; discriminate || contradiction.
        * now apply SL. }
  unfold cs_read. assert (GL : getlines ((unlines (cs_text c body) ++ end_signature) ++ tl) = cs_text c body ++ [end_signature]).
  { rewrite <- app_assoc, getlines_unlines by exact LA. f_equal. destruct TL as [-> | ->]; reflexivity. }
  assert (EO : exists e, line_at_eof ((unlines (cs_text c body) ++ end_signature) ++ tl) = Ok e).
  { destruct TL as [-> | ->]; unfold line_at_eof.
    - rewrite app_nil_r in *. rewrite GL, last_app, rev_app_distr. eexists. reflexivity.
    - rewrite rev_app_distr. eexists. reflexivity. }
  destruct EO as (e & EO). rewrite EO, GL. cbn [bind]. unfold cs_text at 1. cbn [app].
  rewrite lines_until_here by reflexivity. cbn [bind negb]. rewrite <- app_assoc. cbn [app].
  rewrite armor_keys_read by exact HK. cbn [bind]. rewrite <- app_assoc.
  rewrite lines_until_pass.
  2:{ intros l I. split.
      - apply len_in in I. assert (X := len_escaped (cs_message c)). unfold two64. lia.
      - apply escaped_lines_in in I as [-> |(x & -> & _)]; [reflexivity|apply escape_not_begin]. }
  cbn [app]. rewrite lines_until_here by reflexivity. cbn [bind]. rewrite app_nil_r.
  rewrite lines_until_clean by (intros l I; now apply SL).
  rewrite lines_until_here by reflexivity. cbn [bind]. rewrite app_nil_r.
  rewrite concat_unlines.
  destruct (armored_read pgp_new 6 (g_keys (cs_sig c)) body ltac:(unfold armor_type_ok; lia) GK O N LB) as (txt & A & R).
  rewrite (armor_text 6 _ _ (str "SIGNATURE")) in A by reflexivity. apply Ok_inj in A. subst txt.
  assert (TT : unlines (armor_parts (str "SIGNATURE") (g_keys (cs_sig c)) body) ++ armor_end ++ str "SIGNATURE" ++ dashes =
    begin_signature ++ 10 :: unlines (sig_lines (g_keys (cs_sig c)) body) ++ end_signature).
  { unfold armor_parts. rewrite unlines_cons, <- app_assoc. reflexivity. }
  rewrite TT in R. rewrite R. destruct (read_raw body) as [ps| | |]; cbn [bind]; [|reflexivity..].
  do 2 f_equal. unfold message_of. rewrite concat_unlines.
  assert (LT : len (unlines (map trimmed (escaped_lines (cs_message c)))) <= 3 * len (cs_message c) + 3).
  { assert (X := len_escaped (cs_message c)). assert (Y := len_unlines_map trimmed 0 (escaped_lines (cs_message c)) trimmed_len). lia. }
  rewrite chop_unlines by (unfold two64; lia).
  rewrite reverse_joined by (assert (Y := len_joined (map trimmed (escaped_lines (cs_message c)))); lia).
  rewrite getlines_joined; [reflexivity|]. apply map_lines; [apply trimmed_is_line|apply escaped_lines_lines].
Qed.
Lemma cs_read_back c body text : len (cs_message c) < 2 ^ 61 -> g_type (cs_sig c) = 6 -> Forall armor_key_ok (cs_hash c) ->
  Forall armor_key_ok (g_keys (cs_sig c)) -> (forall k, In k (g_keys (cs_sig c)) -> starts_with end_signature (key_text k) = false) ->
  write_packets (g_packets (cs_sig c)) = Ok body -> octets body -> body <> [] -> len body < 2 ^ 62 ->
  cs_write c = Ok text ->
  cs_read [] pgp_new text = (ps <- read_raw body ;; Ok (mkCleartext (cs_hash c) (message_of (cs_message c)) (mkPgp true 6 (g_keys (cs_sig c)) ps))).
Proof. intros. rewrite <- (app_nil_r text). apply cs_read_back_end; auto. Qed.

(** The octets signed. *)
Lemma trimmed_visible l : visible l <-> trimmed l <> [].
Proof.
  destruct (trimmed_prefix l) as (w & E & F & H). split.
  - intros (ch & I & B) X. rewrite X in E. cbn [app] in E. rewrite E in I. rewrite Forall_forall in F. auto.
  - intros X. destruct (exists_last X) as (y & c & Ey). exists c. split; [rewrite E, Ey; apply in_or_app; left; apply in_or_app; right; now left|].
    now apply (H y).
Qed.
Lemma seen_app a x : x <> [] -> seen (a ++ [x]) = a ++ [x].
Proof. intros H. apply seen_id. now rewrite last_app. Qed.
Lemma seen_app_nil a : seen (a ++ [[]]) = a.
Proof. unfold seen. rewrite last_app. apply removelast_last. Qed.
Lemma seen_map2 (f g : bytes -> bytes) u ls : (forall x, g x = [] <-> f x = []) -> (forall x, u (g x) = f x) ->
  map u (seen (map g ls)) = seen (map f ls).
Proof.
  intros H U. induction ls as [|l ls IH]; [reflexivity|]. destruct ls as [|m ls].
  - unfold seen. cbn [map last removelast]. destruct (g l) eqn:E.
    + replace (f l) with (@nil N) by (symmetry; now apply H). reflexivity.
    + destruct (f l) eqn:X; [apply (proj2 (H l)) in X; congruence|]. cbn [map]. rewrite <- E, U. congruence.
  - cbn [map] in *. rewrite !seen_cons. cbn [map]. rewrite U. f_equal. exact IH.
Qed.
Lemma trimmed_lines m : Forall line (map trimmed (getlines m)).
Proof. apply map_lines; [apply trimmed_is_line|apply getlines_lines]. Qed.
Lemma seen_lines ls : Forall line ls -> Forall line (seen ls).
Proof.
  intros F. unfold seen. destruct (last ls [1]); [|exact F]. rewrite Forall_forall in *. intros x I. apply F.
  clear F. revert x I. induction ls as [|l ls IH]; intros x I; [exact I|]. destruct ls as [|m ls]; [destruct I|].
  destruct I as [<-|I]; [now left|right; now apply IH].
Qed.
Lemma message_of_joined m : message_of m = joined (seen (map trimmed (getlines m))).
Proof.
  unfold message_of. f_equal. unfold escaped_lines. destruct (getlines m) as [|l ls]; [reflexivity|]. rewrite map_map.
  apply seen_map2; [|apply unescape_trimmed]. intros x. destruct (trimmed_escape x) as [(r & -> & ->)|[_ ->]]; [|reflexivity].
  split; [discriminate|]. rewrite trimmed_cons by (unfold blank; cbn [In]; lia). discriminate.
Qed.
Lemma strip_trimmed l : strip_line (trimmed l) = trimmed l.
Proof.
  destruct (trimmed_prefix l) as (w & _ & _ & H). rewrite <- (app_nil_r (trimmed l)) at 1. apply strip_trim_same; [constructor|].
  intros y c E. specialize (H y c E). split; intros ->; apply H; unfold blank; cbn [In]; auto.
Qed.
Lemma seen_in ls l : In l (seen ls) -> In l ls.
Proof.
  unfold seen. destruct (last ls [1]); [|auto]. revert l. induction ls as [|x ls IH]; intros l I; [exact I|]. destruct ls as [|m ls]; [destruct I|].
  destruct I as [<-|I]; [now left|right; now apply IH].
Qed.
Lemma message_of_len m : len (message_of m) <= len m + 1.
Proof.
  rewrite message_of_joined. assert (A := len_joined (seen (map trimmed (getlines m)))).
  assert (B := len_unlines_map trimmed 0 (getlines m) trimmed_len). assert (C := len_getlines m).
  assert (D : forall ls, len (unlines (seen ls)) <= len (unlines ls)).
  { clear. induction ls as [|l ls IH]; [cbn; lia|]. destruct ls as [|x ls].
    - unfold seen. cbn [last removelast]. destruct l; [change (len (unlines [])) with 0; lia|lia].
    - rewrite seen_cons, !len_unlines_cons. rewrite len_unlines_cons in IH. lia. }
  specialize (D (map trimmed (getlines m))). lia.
Qed.
Lemma canonical_message_of m : len m < 2 ^ 61 ->
  text_to_canonical (data_to_text (message_of m)) = concat (map canonical_line (seen (seen (seen (map trimmed (getlines m)))))).
Proof.
  intros L. rewrite canonical_data_to_text by (assert (X := message_of_len m); lia). rewrite message_of_joined.
  rewrite getlines_joined by (apply seen_lines, trimmed_lines). do 3 f_equal.
  rewrite <- (map_id (seen (seen (map trimmed (getlines m))))) at 2. apply map_ext_in. intros l I.
  apply seen_in, seen_in, in_map_iff in I as (x & <- & _). apply strip_trimmed.
Qed.
Lemma canonical_lines_same ls : (forall l, In l ls -> line l /\ exists x, ends_tamely l x) ->
  concat (map canonical_line (map strip_line ls)) = concat (map canonical_line (map trimmed ls)).
Proof.
  intros H. rewrite !map_map. f_equal. apply map_ext_in. intros l I. destruct (H l I) as [L (x & T)].
  rewrite (canonical_tame l x L T). now rewrite (proj1 (tame_line l x T)).
Qed.
Lemma list_end {A} (l : list A) : l = [] \/ (exists x, l = [x]) \/ exists a b c, l = a ++ [b; c].
Proof.
  destruct l as [|z l _] using rev_ind; [auto|]. destruct l as [|y l _] using rev_ind; [right; left; exists z; reflexivity|].
  right. right. exists l, y, z. now rewrite <- app_assoc.
Qed.
Lemma spaces_trimmed c : spaces c -> trimmed c = [] /\ strip_line c = [].
Proof.
  intros S. split.
  - apply (trimmed_ends []); [|intros [|] ? [=]]. eapply Forall_impl; [|exact S]. intros x [-> | ->]; unfold blank; cbn [In]; auto.
  - apply (strip_trim_same []); [exact S|intros [|] ? [=]].
Qed.
Lemma same_signed m : len m < 2 ^ 61 -> (forall l, In l (getlines m) -> exists x, ends_tamely l x) ->
  (forall a b c, getlines m = a ++ [b; c] -> visible c \/ (spaces c /\ visible b)) ->
  forall s, input_01 (data_to_text (message_of m)) s = input_01 (data_to_text m) s.
Proof.
  intros L T V s. unfold input_01. cbv zeta. rewrite canonical_message_of by exact L. rewrite canonical_data_to_text by lia.
  assert (F := getlines_lines m). rewrite Forall_forall in F.
  destruct (list_end (getlines m)) as [E|[(x & E)|(a & b & c & E)]].
  - rewrite E. reflexivity.
  - rewrite E in *. cbn [map]. destruct (T x (or_introl eq_refl)) as (y & Ty). destruct (tame_line x y Ty) as [E1 E2]. rewrite E1.
    destruct y as [|d y].
    + destruct E2 as [-> | ->]; reflexivity.
    + assert (C := canonical_tame x _ (F x (or_introl eq_refl)) Ty).
      assert (N : strip_line x <> []) by (destruct E2 as [-> | ->]; discriminate).
      replace (seen [d :: y]) with [d :: y] by reflexivity. replace (seen [d :: y]) with [d :: y] by reflexivity.
      replace (seen [d :: y]) with [d :: y] by reflexivity.
      rewrite (seen_app [] (strip_line x) N : seen [strip_line x] = [strip_line x]). cbn [map]. now rewrite C.
  - assert (T' : forall ls, (forall l, In l ls -> In l (getlines m)) ->
      concat (map canonical_line (map strip_line ls)) = concat (map canonical_line (map trimmed ls))).
    { intros ls I. apply canonical_lines_same. intros l Il. split; [now apply F, I|now apply T, I]. }
    assert (SV : forall l, In l (getlines m) -> visible l -> strip_line l <> []).
    { intros l I Vl. destruct (T l I) as (y & Ty). destruct (tame_line l y Ty) as [E1 E2]. apply trimmed_visible in Vl. rewrite E1 in Vl.
      destruct E2 as [-> | ->]; [exact Vl|]. destruct y; discriminate. }
    destruct (V a b c E) as [Vc|[Sc Vb]].
    + assert (Tc : trimmed c <> []) by (now apply trimmed_visible).
      assert (Nc : strip_line c <> []) by (apply SV; [rewrite E; apply in_or_app; right; right; now left|exact Vc]).
      replace (getlines m) with ((a ++ [b]) ++ [c]) by (rewrite E, <- app_assoc; reflexivity).
      rewrite (map_app trimmed (a ++ [b]) [c]), (map_app strip_line (a ++ [b]) [c]). cbn [map]. rewrite !seen_app by assumption.
      change [trimmed c] with (map trimmed [c]). change [strip_line c] with (map strip_line [c]).
      rewrite <- (map_app trimmed), <- (map_app strip_line). rewrite T'; [reflexivity|]. intros l I. rewrite E. rewrite <- app_assoc in I. exact I.
    + assert (Tb : trimmed b <> []) by (now apply trimmed_visible).
      destruct (spaces_trimmed c Sc) as [Tc Nc].
      replace (getlines m) with ((a ++ [b]) ++ [c]) by (rewrite E, <- app_assoc; reflexivity).
      rewrite (map_app trimmed (a ++ [b]) [c]), (map_app strip_line (a ++ [b]) [c]). cbn [map]. rewrite Tc, Nc, !seen_app_nil.
      rewrite (map_app trimmed a [b]). cbn [map]. rewrite !seen_app by exact Tb.
      change [trimmed b] with (map trimmed [b]). rewrite <- map_app. rewrite T'; [reflexivity|].
      intros l I. rewrite E. apply in_app_or in I as [I|I]; apply in_or_app; [now left|right]. destruct I as [<-|[]]. now left.
Qed.
