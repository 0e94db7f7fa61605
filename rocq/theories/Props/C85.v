(** C85: listing a key. *)
From Verif Require Import Proofs.Lib Proofs.CipherLib Proofs.SignP Proofs.TimesP Spec.Listing Model.Sign Props.C84.
From Verif Require Import Props.C23_C26 Props.C33_C35.
Local Open Scope N_scope.

Ltac ib H x := let E := fresh "E" in apply bind_ok in H; destruct H as (x & E & H).
Definition listed_tags : list N := [2; 5; 6; 7; 13; 14; 17].
Lemma revocations_tags ps : forall r, revocations ps = Ok (Some r) -> Forall (fun p => In (p_tag p) listed_tags) r -> Forall (fun p => In (p_tag p) listed_tags) ps.
Proof.
  induction ps as [|p ps IH]; intros r E F; [constructor|]. cbn [revocations] in E. destruct (N.eqb_spec (p_tag p) 2) as [T|T].
  - inv_bind E. destruct (t2_type a =? 32); [|discriminate]. constructor; [rewrite T; now left|]. eapply IH; eassumption.
  - apply Ok_inj in E. injection E as <-. exact F.
Qed.
Lemma users_tags ps : forall u s b r, users u s ps = Ok (Some (b, r)) -> Forall (fun p => In (p_tag p) listed_tags) r -> Forall (fun p => In (p_tag p) listed_tags) ps.
Proof.
  induction ps as [|p ps IH]; intros u s b r E F; [constructor|]. cbn [users] in E. destruct (N.eqb_spec (p_tag p) 2) as [T|T].
  - inv_bind E. destruct (_ || _); [|discriminate]. constructor; [rewrite T; now left|]. eapply IH; eassumption.
  - destruct (is_user (p_tag p)) eqn:U; [|apply Ok_inj in E; injection E as _ <-; exact F].
    constructor; [|eapply IH; eassumption]. unfold is_user, mem in U. cbn [existsb] in U. unfold listed_tags. cbn [In]. lia.
Qed.
Lemma subkeys_tags sub v ps : sub = 7 \/ sub = 14 -> forall c, subkeys sub v c ps = Ok true -> Forall (fun p => In (p_tag p) listed_tags) ps.
Proof.
  intros S. induction ps as [|p ps IH]; intros c E; [constructor|]. cbn [subkeys] in E.
  assert (ST : In sub listed_tags) by (unfold listed_tags; cbn [In]; lia).
  assert (NX : forall c, match c with Some false => Ok false | _ => if negb (p_tag p =? sub) then Ok false else if v then Ok false else subkeys sub v (Some false) ps end = Ok true -> Forall (fun p => In (p_tag p) listed_tags) (p :: ps)).
  { intros c' E'. destruct c' as [[|]|]; try discriminate; (destruct (N.eqb_spec (p_tag p) sub) as [T|T]; cbn [negb] in E'; [|discriminate]; destruct v; [discriminate|]; constructor; [now rewrite T|eapply IH; eassumption]). }
  destruct c as [b|]; [|now apply (NX None)]. destruct (N.eqb_spec (p_tag p) 2) as [T|T]; [|now apply (NX (Some b))]. inv_bind E. constructor; [rewrite T; now left|eapply IH; eassumption].
Qed.
Lemma meaningful_tags g : meaningful g = Ok true -> Forall (fun p => In (p_tag p) listed_tags) (g_packets g).
Proof.
  destruct g as [a ty ks ps]. unfold meaningful, key_meaningful. cbn [g_type g_packets]. intros E.
  assert (GO : forall pr sub, In pr listed_tags -> sub = 7 \/ sub = 14 -> match ps with
    | p0 :: ((_ :: _) as rest) =>
      if negb (p_tag p0 =? pr) then Ok false
      else
        k <- as_key p0 ;;
        o <- revocations rest ;;
        match o with
        | None => Ok false
        | Some [] => UB
        | Some (p :: r) =>
          if negb (is_user (p_tag p)) then Ok false
          else
            o <- users (p_tag p =? 13) (p_tag p =? 13) r ;;
            match o with
            | None => Ok false
            | Some (seen, r) => if negb seen then Ok false else subkeys sub (k_version k =? 3) None r
            end
        end
    | _ => Ok false
    end = Ok true -> Forall (fun p => In (p_tag p) listed_tags) ps).
  { clear E. intros pr sub I S E. destruct ps as [|p0 [|p1 rest]]; try discriminate. destruct (N.eqb_spec (p_tag p0) pr) as [T|T]; cbn [negb] in E; [|discriminate]. constructor; [now rewrite T|].
    inv_bind E. inv_bind E. destruct a1 as [[|p r]|]; try discriminate. destruct (is_user (p_tag p)) eqn:U; cbn [negb] in E; [|discriminate]. inv_bind E. destruct a1 as [[seen r']|]; try discriminate. destruct seen; cbn [negb] in E; [|discriminate].
    eapply revocations_tags; [eassumption|]. constructor; [unfold is_user, mem in U; cbn [existsb] in U; unfold listed_tags; cbn [In]; lia|]. eapply users_tags; [eassumption|]. now apply (subkeys_tags sub _ _ S _ E). }
  destruct ty as [|[[|[]|]|[]|]]; try discriminate E; [apply (GO 5 7); [cbn; tauto|now left|exact E]|apply (GO 6 14); [cbn; tauto|now right|exact E]].
Qed.

Lemma put_flat t s : put (mkStream t 0) s = mkStream (t ++ s) 0.
Proof. unfold put, padded. cbn [o_text o_width]. now rewrite N.sub_0_l. Qed.
Lemma puts_flat l : forall t, puts (mkStream t 0) l = mkStream (t ++ concat l) 0.
Proof. induction l as [|s l IH]; intros t; cbn [puts fold_left concat]; [now rewrite app_nil_r|]. rewrite put_flat. fold (puts (mkStream (t ++ s) 0) l). now rewrite IH, <- app_assoc. Qed.
Lemma substr_short id x : substr id 4 4 = Ok x <-> 4 <= len id /\ x = firstn 4 (skipn 4 id).
Proof.
  unfold substr. destruct (N.ltb_spec (len id) 4) as [L|L]; [split; [discriminate|lia]|]. split.
  - intros E. apply Ok_inj in E. split; [exact L|]. subst x. change (N.to_nat 4) with 4%nat. destruct (N.le_gt_cases 4 (len id - 4)) as [G|G]; [now replace (N.to_nat (N.min 4 (len id - 4))) with 4%nat by lia|].
    rewrite !firstn_all2; [reflexivity|rewrite skipn_length; unfold len in *; lia..].
  - intros [_ ->]. f_equal. change (N.to_nat 4) with 4%nat. destruct (N.le_gt_cases 4 (len id - 4)) as [G|G]; [now replace (N.to_nat (N.min 4 (len id - 4))) with 4%nat by lia|].
    rewrite !firstn_all2; [reflexivity|rewrite skipn_length; unfold len in *; lia..].
Qed.
Lemma type_iff t n : public_key_type t = Ok n <-> In (t, n) [(5, str "sec"); (6, str "pub"); (7, str "ssb"); (14, str "sub")].
Proof.
  split.
  - intros E. unfold public_key_type in E. repeat (match type of E with match ?x with _ => _ end = _ => destruct x; try discriminate E end); apply Ok_inj in E; subst n; cbn; tauto.
  - cbn [In]. intros H. decompose [or] H; try contradiction; match goal with X : (_, _) = _ |- _ => injection X as <- <- end; reflexivity.
Qed.
Lemma short_iff t n : pka_short t = Ok n <-> In (t, n) [(1, str "R"); (2, str "R"); (3, str "R"); (16, str "g"); (17, str "D")].
Proof.
  split.
  - intros E. unfold pka_short in E. repeat (match type of E with match ?x with _ => _ end = _ => destruct x; try discriminate E end); apply Ok_inj in E; subst n; cbn; tauto.
  - cbn [In]. intros H. decompose [or] H; try contradiction; match goal with X : (_, _) = _ |- _ => injection X as <- <- end; reflexivity.
Qed.
Lemma text_one l : text [l] = l ++ [10].
Proof. unfold text. cbn. now rewrite app_nil_r. Qed.
Lemma text_cons l r : text (l :: r) = l ++ 10 :: text r.
Proof. unfold text. cbn [map concat]. unfold newline. now rewrite <- app_assoc. Qed.

Lemma key_iff gm indent t p k o : as_key p = Ok k -> list_key gm indent (mkStream t 0) p = Ok o <->
  exists l, key_line gm indent (p_tag p) k l /\ o = mkStream (t ++ (if is_subkey (p_tag p) then [10] else []) ++ l) 0.
Proof.
  intros AK. unfold list_key. rewrite AK. cbn [bind].
  replace (if is_subkey (p_tag p) then put (mkStream t 0) [10] else mkStream t 0) with (mkStream (t ++ if is_subkey (p_tag p) then [10] else []) 0) by (destruct (is_subkey (p_tag p)); [now rewrite put_flat|now rewrite app_nil_r]).
  remember (if is_subkey (p_tag p) then [10] else []) as pre. clear Heqpre.
  assert (TX : forall ty n sh h d, puts (put (setw (puts (mkStream (t ++ pre) 0) [indent; ty; str "  "]) 4) (decimal (bitsize n))) [indent; sh; str "/"; indent; h; str " "; indent; d] =
    mkStream (t ++ pre ++ indent ++ ty ++ str "  " ++ padded 32 4 (decimal (N.max 1 (N.size n))) ++ indent ++ sh ++ str "/" ++ indent ++ h ++ str " " ++ indent ++ d) 0).
  { intros. rewrite puts_flat. unfold setw at 1, put at 1. cbn [o_text o_width]. rewrite puts_flat. unfold bitsize. cbn [concat]. now rewrite <- ?app_assoc, ?app_nil_r. }
  split.
  - intros E. ib E ty. ib E n. ib E sh. ib E kid. ib E h. ib E d. apply Ok_inj in E. rewrite TX in E. apply substr_short in E4 as [L ->].
    eexists. split; [|symmetry; exact E]. unfold vec_at in E1. cbn [nth_error] in E1. destruct (k_mpi k) as [|n' r] eqn:K; [discriminate|]. apply Ok_inj in E1. subst n'.
    exists ty, sh, n, r, kid, d. split; [now apply type_iff|]. split; [now apply short_iff|]. auto 8.
  - intros (l & (ty & sh & n & r & id & d & A & B & C & D & L & F & ->) & ->). apply type_iff in A. apply short_iff in B. rewrite A. cbn [bind]. rewrite C. unfold vec_at. cbn [nth_error bind]. rewrite B. cbn [bind]. rewrite D. cbn [bind].
    assert (substr id 4 4 = Ok (firstn 4 (skipn 4 id))) as -> by now apply substr_short. cbn [bind]. rewrite F. cbn [bind]. now rewrite TX.
Qed.
(** A width that is left, and the text once it has been used by a single character. *)
Definition wide (o : ostream) : Prop := o_width o = 0 \/ o_width o = 10.
Definition flushed (o : ostream) : bytes := o_text o ++ (if o_width o =? 10 then repeat 32 9 else []).
Lemma wide_0 t : wide (mkStream t 0).
Proof. now left. Qed.
Lemma put_wide o c : wide o -> put o [c] = mkStream (flushed o ++ [c]) 0.
Proof. destruct o as [t w]. unfold wide, put, flushed, padded. cbn [o_text o_width]. change (len [c]) with 1. intros [->| ->]; cbn [N.eqb Pos.eqb]; rewrite <- app_assoc; reflexivity. Qed.
Lemma time_forth gm o t o' : wide o -> list_time gm o t = Ok o' -> exists c, column gm t c /\ flushed o' = flushed o ++ str " " ++ c /\ wide o'.
Proof.
  intros W E. unfold list_time in E. destruct (N.eqb_spec t 0) as [->|N0].
  - apply Ok_inj in E. subst o'. exists (repeat 32 9). split; [now left|]. change (str " ") with [32]. rewrite put_wide by exact W. split; [|now right]. unfold setw. unfold flushed at 1. cbn [o_text o_width N.eqb Pos.eqb]. now rewrite <- app_assoc.
  - ib E d. apply Ok_inj in E. subst o'. exists d. split; [now right|]. change (str " ") with [32]. cbn [puts fold_left]. rewrite put_wide, put_flat by exact W. split; [|now left]. unfold flushed at 1. cbn [o_text o_width N.eqb]. now rewrite app_nil_r, <- app_assoc.
Qed.
Lemma time_back gm o t c : wide o -> column gm t c -> exists o', list_time gm o t = Ok o' /\ flushed o' = flushed o ++ str " " ++ c /\ wide o'.
Proof.
  intros W [[-> ->]|[N0 E]]; unfold list_time.
  - eexists. split; [reflexivity|]. change (str " ") with [32]. rewrite put_wide by exact W. split; [|now right]. unfold setw. unfold flushed at 1. cbn [o_text o_width N.eqb Pos.eqb]. now rewrite <- app_assoc.
  - replace (t =? 0) with false by lia. rewrite E. cbn [bind]. eexists. split; [reflexivity|]. change (str " ") with [32]. cbn [puts fold_left]. rewrite put_wide, put_flat by exact W. split; [|now left]. unfold flushed at 1. cbn [o_text o_width N.eqb]. now rewrite app_nil_r, <- app_assoc.
Qed.
Lemma kind_is t : (if is_revocation t then str "revok" else if t =? 24 then str "sbind" else str " sig ") = kind t.
Proof. unfold is_revocation, kind, mem. cbn [existsb]. now rewrite orb_false_r, orb_assoc. Qed.
Lemma sig_iff gm indent t p s o : as_sig p = Ok s -> (o <- list_sig gm indent (mkStream t 0) p ;; Ok (put o [10])) = Ok o <->
  exists l, sig_line gm indent s l /\ o = mkStream (t ++ l ++ [10]) 0.
Proof.
  intros AS. unfold list_sig. rewrite AS. cbn [bind]. cbv zeta. rewrite kind_is, puts_flat, put_flat. cbn [concat]. rewrite app_nil_r. split.
  - intros E. ib E o2. ib E0 tm3. destruct tm3 as [[a b] c]. ib E0 kid. ib E0 h. apply substr_short in E3 as [L ->]. rewrite puts_flat in E0. cbn [concat] in E0. rewrite app_nil_r in E0. fold (short_id kid) in E0.
    ib E0 o3. ib E0 o4. apply Ok_inj in E. subst o.
    assert (MD : exists c0, ((a = 0 /\ c0 = []) \/ (a <> 0 /\ exists d, show_date gm (Z.of_N a) = Ok d /\ c0 = str " " ++ d)) /\ o3 = mkStream (((t ++ indent ++ str "sig ") ++ kind (t2_type s)) ++ str "  " ++ short_id kid ++ c0) 0).
    { destruct (N.eqb_spec a 0) as [->|N0]; [apply Ok_inj in E3; subst o3; exists []; split; [now left|]; now rewrite app_nil_r|].
      ib E3 d. apply Ok_inj in E3. rewrite puts_flat in E3. subst o3. exists (str " " ++ d). split; [right; eauto|]. cbn [concat]. now rewrite ?app_nil_r, <- ?app_assoc. }
    destruct MD as (c0 & C0 & ->). destruct (time_forth gm _ b o4 (wide_0 _) E4) as (c1 & C1 & F1 & W1). destruct (time_forth gm _ c o2 W1 E0) as (c2 & C2 & F2 & W2).
    eexists. split; [exists a, b, c, kid, c0, c1, c2; split; [exact E1|]; split; [exact E2|]; split; [exact L|]; split; [exact C0|]; split; [exact C1|]; split; [exact C2|reflexivity]|].
    rewrite put_wide, F2, F1 by exact W2. unfold flushed. cbn [o_text o_width N.eqb]. now rewrite ?app_nil_r, <- ?app_assoc.
  - intros (l & (a & b & c & kid & c0 & c1 & c2 & T & K & L & C0 & C1 & C2 & ->) & ->). rewrite T. cbn [bind]. rewrite K. cbn [bind].
    assert (substr kid 4 4 = Ok (firstn 4 (skipn 4 kid))) as -> by now apply substr_short. cbn [bind]. rewrite puts_flat. cbn [concat]. rewrite app_nil_r. fold (short_id kid).
    set (base := mkStream (((t ++ indent ++ str "sig ") ++ kind (t2_type s)) ++ str "  " ++ short_id kid) 0).
    assert (MD : (if a =? 0 then Ok base else d <- show_date gm (Z.of_N a) ;; Ok (puts base [str " "; d])) = Ok (mkStream (o_text base ++ c0) 0)).
    { destruct C0 as [[-> ->]|(N0 & d & D & ->)]; [now rewrite app_nil_r|]. replace (a =? 0) with false by lia. rewrite D. cbn [bind]. unfold base. rewrite puts_flat. cbn [concat o_text]. now rewrite app_nil_r. }
    rewrite MD. cbn [bind]. destruct (time_back gm (mkStream (o_text base ++ c0) 0) b c1 (wide_0 _) C1) as (o4 & E4 & F1 & W1). rewrite E4. cbn [bind].
    destruct (time_back gm o4 c c2 W1 C2) as (o2 & E2 & F2 & W2). rewrite E2. cbn [bind]. rewrite put_wide, F2, F1 by exact W2. unfold flushed, base. cbn [o_text o_width N.eqb]. f_equal. f_equal. now rewrite ?app_nil_r, <- ?app_assoc.
Qed.
Lemma attrs_flat indent a : forall t, fold_left (fun o i => puts o [[10]; indent; str "att  att  [jpeg image of size "; decimal (len (im_image i)); str "]"]) a (mkStream t 0) =
  mkStream (t ++ concat (map (fun i => 10 :: indent ++ str "att  att  [jpeg image of size " ++ decimal (len (im_image i)) ++ str "]") a)) 0.
Proof. induction a as [|i a IH]; intros t; cbn [fold_left map concat]; [now rewrite app_nil_r|]. rewrite puts_flat, IH. cbn [concat app]. f_equal. rewrite <- ?app_assoc. f_equal. cbn [app]. f_equal. now rewrite ?app_nil_r, <- ?app_assoc. Qed.
Lemma shift_lines (f : image -> bytes) a : concat (map (fun i => 10 :: f i) a) ++ [10] = text ([] :: map f a).
Proof.
  rewrite text_cons. cbn [app]. induction a as [|i a IH]; [reflexivity|]. cbn [map concat]. rewrite text_cons. cbn [app]. f_equal. rewrite <- app_assoc. f_equal. exact IH.
Qed.
Lemma packet_iff gm indent t p o : In (p_tag p) listed_tags -> list_packet gm indent (mkStream t 0) p = Ok o <->
  exists ls, listed gm indent p ls /\ o = mkStream (t ++ text ls) 0.
Proof.
  intros I. unfold list_packet, listed.
  assert (KEY : forall k sub, as_key p = Ok k -> is_subkey (p_tag p) = sub -> (o <- list_key gm indent (mkStream t 0) p ;; Ok (put o [10])) = Ok o <->
    exists ls, (exists l, key_line gm indent (p_tag p) k l /\ ls = (if sub then [[]; l] else [l])) /\ o = mkStream (t ++ text ls) 0).
  { intros k sub AK S. split.
    - intros E. ib E o1. apply (key_iff gm indent t p k o1 AK) in E0 as (l & KL & ->). rewrite S, put_flat in E. apply Ok_inj in E. subst o. eexists. split; [exists l; split; [exact KL|reflexivity]|]. destruct sub; rewrite ?text_cons, ?text_one; cbn [app]; now rewrite <- ?app_assoc.
    - intros (ls & (l & KL & ->) & ->). assert (X : list_key gm indent (mkStream t 0) p = Ok (mkStream (t ++ (if is_subkey (p_tag p) then [10] else []) ++ l) 0)) by (apply (key_iff gm indent t p k _ AK); eauto). rewrite X. cbn [bind]. rewrite put_flat, S. f_equal. destruct sub; rewrite ?text_cons, ?text_one; cbn [app]; now rewrite <- ?app_assoc. }
  assert (NK : as_key p = UB -> (o <- list_key gm indent (mkStream t 0) p ;; Ok (put o [10])) = Ok o <-> exists ls : list bytes, False /\ o = mkStream (t ++ text ls) 0).
  { intros U. unfold list_key. rewrite U. cbn [bind]. split; [discriminate|intros (? & [] & _)]. }
  unfold listed_tags in I. cbn [In] in I. destruct p as [tag f pa body]. cbn [p_tag p_body] in *. decompose [or] I; try contradiction; subst tag; cbn [is_key_packet is_primary_key is_subkey mem existsb orb N.eqb Pos.eqb].
  - destruct body; try (cbn [list_sig as_sig p_body bind]; split; [discriminate|intros (? & [] & _)]). rewrite (sig_iff gm indent t (mkPacket 2 f pa (PSig s)) s o eq_refl). split; [intros (l & S & ->); exists [l]; rewrite text_one; eauto|intros (ls & (l & S & ->) & ->); exists l; now rewrite text_one].
  - destruct body; try (apply NK; reflexivity); exact (KEY k false eq_refl eq_refl).
  - destruct body; try (apply NK; reflexivity); exact (KEY k false eq_refl eq_refl).
  - destruct body; try (apply NK; reflexivity); exact (KEY k true eq_refl eq_refl).
  - destruct body; try (cbn [as_user_id p_body bind]; split; [discriminate|intros (? & [] & _)]). cbn [as_user_id p_body bind]. rewrite puts_flat, put_flat. cbn [concat]. split.
    + intros E. apply Ok_inj in E. subst o. eexists. split; [reflexivity|]. rewrite text_cons, text_one, app_nil_r, <- !app_assoc. reflexivity.
    + intros (ls & -> & ->). rewrite text_cons, text_one, app_nil_r, <- !app_assoc. reflexivity.
  - destruct body; try (apply NK; reflexivity); exact (KEY k true eq_refl eq_refl).
  - destruct body; try (cbn [as_attributes p_body bind]; split; [discriminate|intros (? & [] & _)]). cbn [as_attributes p_body bind]. rewrite attrs_flat, put_flat, <- app_assoc, shift_lines. split.
    + intros E. apply Ok_inj in E. subst o. eauto.
    + intros (ls & -> & ->). reflexivity.
Qed.
Lemma text_app a b : text (a ++ b) = text a ++ text b.
Proof. unfold text. now rewrite map_app, concat_app. Qed.
Lemma packets_iff gm indent ps : Forall (fun p => In (p_tag p) listed_tags) ps -> forall t o, list_packets gm indent (mkStream t 0) ps = Ok o <->
  exists lss, Forall2 (listed gm indent) ps lss /\ o = mkStream (t ++ text (concat lss)) 0.
Proof.
  induction 1 as [|p ps I _ IH]; intros t o; cbn [list_packets].
  - split; [intros E; apply Ok_inj in E; subst; exists []; split; [constructor|cbn; now rewrite app_nil_r]|intros (lss & F & ->); inversion F; subst; cbn; now rewrite app_nil_r].
  - split.
    + intros E. ib E o1. apply packet_iff in E0 as (ls & L & ->); [|exact I]. apply IH in E as (lss & F & ->). exists (ls :: lss). split; [now constructor|]. cbn [concat]. now rewrite text_app, app_assoc.
    + intros (lss & F & ->). inversion F as [|? ls ? lss' L F']; subst. assert (X : list_packet gm indent (mkStream t 0) p = Ok (mkStream (t ++ text ls) 0)) by (apply packet_iff; eauto). rewrite X. cbn [bind concat]. apply IH. exists lss'. split; [exact F'|]. now rewrite text_app, app_assoc.
Qed.

(** The listing of a meaningful key is exactly the lines of its packets, and it is given exactly
    if every packet has such lines. *)
Theorem C85_exact gm g n size s : meaningful g = Ok true ->
  (list_keys gm n size g = Ok s <-> exists lss, Forall2 (listed gm (repeat 32 (N.to_nat (u64 (n * size))))) (g_packets g) lss /\ s = text (concat lss)).
Proof.
  intros M. unfold list_keys. rewrite M. cbn [bind]. pose proof (packets_iff gm (repeat 32 (N.to_nat (u64 (n * size)))) _ (meaningful_tags g M) []) as P. split.
  - intros E. ib E o. apply P in E0 as (lss & F & ->). apply Ok_inj in E. subst s. eauto.
  - intros (lss & F & ->). assert (X : list_packets gm (repeat 32 (N.to_nat (u64 (n * size)))) (mkStream [] 0) (g_packets g) = Ok (mkStream ([] ++ text (concat lss)) 0)) by (apply P; eauto). now rewrite X.
Qed.
Theorem C85_other gm g n size : meaningful g = Ok false -> list_keys gm n size g = Ok [].
Proof. intros M. unfold list_keys. now rewrite M. Qed.

(** Every packet of the kinds a key has that can be listed is. *)
Theorem C85_listed gm g n size : is_gmtime gm -> meaningful g = Ok true -> Forall typed (g_packets g) -> Forall listable (g_packets g) -> exists s, list_keys gm n size g = Ok s.
Proof.
  intros G M T L. pose proof (meaningful_tags g M) as TG.
  assert (F : exists lss, Forall2 (listed gm (repeat 32 (N.to_nat (u64 (n * size))))) (g_packets g) lss).
  { remember (repeat 32 (N.to_nat (u64 (n * size)))) as indent. clear Heqindent M. induction (g_packets g) as [|p ps IH]; [exists []; constructor|].
    inversion T as [|? ? Tp T']; subst. inversion L as [|? ? Lp L']; subst. inversion TG as [|? ? Gp G']; subst. destruct (IH T' L' G') as (lss & F).
    enough (exists ls, listed gm indent p ls) as (ls & X) by (exists (ls :: lss); now constructor). clear IH F.
    assert (DT : forall t, t < 2 ^ 32 -> exists d, show_date gm (Z.of_N t) = Ok d) by (intros t B; destruct (C84_date gm t G B) as (? & ? & ? & ? & ? & ? & E & _); eauto).
    assert (CL : forall t, t < 2 ^ 32 -> exists c, column gm t c) by (intros t B; destruct (N.eq_dec t 0) as [->|N0]; [exists (repeat 32 9); now left|destruct (DT t B) as (d & D); exists d; now right]).
    assert (KL : forall k tag, In tag [5; 6; 7; 14] -> In (k_pka k) [1; 2; 3; 16; 17] /\ k_mpi k <> [] /\ k_time k < 2 ^ 32 /\ (exists id, get_keyid k = Ok id /\ 4 <= len id) -> exists l, key_line gm indent tag k l).
    { intros k tag It (P & N0 & B & kid & K & LK). destruct (DT _ B) as (d & D). destruct (k_mpi k) as [|m r] eqn:EM; [contradiction|].
      assert (exists ty, In (tag, ty) [(5, str "sec"); (6, str "pub"); (7, str "ssb"); (14, str "sub")]) as (ty & Y) by (cbn [In] in It; decompose [or] It; try contradiction; subst tag; eexists; cbn [In]; eauto 6).
      assert (exists sh, In (k_pka k, sh) [(1, str "R"); (2, str "R"); (3, str "R"); (16, str "g"); (17, str "D")]) as (sh & S) by (cbn [In] in P; decompose [or] P; try contradiction; match goal with X : _ = k_pka k |- _ => rewrite <- X end; eexists; cbn [In]; eauto 7).
      eexists. exists ty, sh, m, r, kid, d. auto 8. }
    unfold listed_tags in Gp. cbn [In] in Gp. destruct p as [tag f pa body]. unfold typed in Tp. unfold listable in Lp. unfold listed. cbn [p_tag p_body] in *. decompose [or] Gp; try contradiction; subst tag; destruct Tp as (x & Tp); try destruct Tp as (y & Tp); subst body.
    - destruct Lp as ((a & b & c & TM & A & B & C) & kid & K & LK). destruct (CL b B) as (c1 & C1), (CL c C) as (c2 & C2).
      assert (exists c0, (a = 0 /\ c0 = []) \/ (a <> 0 /\ exists d, show_date gm (Z.of_N a) = Ok d /\ c0 = str " " ++ d)) as (c0 & C0).
      { destruct (N.eq_dec a 0) as [->|N0]; [exists []; now left|]. destruct (DT a A) as (d & D). exists (str " " ++ d). right. eauto. }
      eexists. eexists. split; [|reflexivity]. exists a, b, c, kid, c0, c1, c2. auto 8.
    - destruct (KL x 5) as (l & X); [cbn; tauto|exact Lp|eauto].
    - destruct (KL x 6) as (l & X); [cbn; tauto|exact Lp|eauto].
    - destruct (KL x 7) as (l & X); [cbn; tauto|exact Lp|eauto].
    - eauto.
    - destruct (KL x 14) as (l & X); [cbn; tauto|exact Lp|eauto].
    - eauto. }
  destruct F as (lss & F). exists (text (concat lss)). apply C85_exact; eauto.
Qed.
(** Without newlines in the user IDs the lines of the text are the lines of the packets. *)
Lemma lines_acc l s : forall acc, one_line l -> lines (l ++ 10 :: s) acc = (acc ++ l) :: lines s [].
Proof.
  induction l as [|c l IH]; intros acc O; cbn [app lines]; [now rewrite app_nil_r|]. destruct (N.eqb_spec c 10) as [->|_]; [destruct O; now left|].
  rewrite IH by (intros X; apply O; now right). now rewrite <- app_assoc.
Qed.
Lemma lines_text ls : Forall one_line ls -> lines (text ls) [] = ls ++ [[]].
Proof. induction 1 as [|l ls O _ IH]; [reflexivity|]. rewrite text_cons, lines_acc by exact O. cbn [app]. now rewrite IH. Qed.
Lemma line_app a b : one_line a -> one_line b -> one_line (a ++ b).
Proof. intros A B I. apply in_app_or in I as [I|I]; auto. Qed.
Ltac la := repeat match goal with |- one_line (_ ++ _) => apply line_app end.
Lemma line_b w : existsb (N.eqb 10) w = false -> one_line w.
Proof. intros E I. assert (existsb (N.eqb 10) w = true) by (apply existsb_exists; exists 10; now split). congruence. Qed.
Lemma line_digits w : digits w -> one_line w.
Proof. intros D I. unfold digits in D. rewrite Forall_forall in D. apply D in I. lia. Qed.
Lemma line_spaces n : one_line (repeat 32 n).
Proof. intros I. apply repeat_spec in I. discriminate. Qed.
Lemma line_padded c w s : c <> 10 -> one_line s -> one_line (padded c w s).
Proof. intros C S. apply line_app; [|exact S]. intros I. apply repeat_spec in I. congruence. Qed.
Lemma line_hex s : one_line (hexlify s).
Proof.
  intros I. unfold hexlify, hexlify_c in I. apply in_flat_map in I as (c & _ & I). unfold hexlify_char in I. cbn [makehex_c app In] in I.
  assert (H : forall v, hexdigit false (v mod 16) <> 10).
  { intros v. pose proof (N.mod_lt v 16 ltac:(lia)). unfold hexdigit. repeat match goal with |- context [if ?b then _ else _] => destruct b eqn:? end; lia. }
  destruct I as [I|[I|[]]]; now apply H in I.
Qed.
Lemma line_date gm t d : show_date gm t = Ok d -> one_line d.
Proof.
  unfold show_date. destruct (gm t) as [g|]; [|discriminate]. intros E. ib E y. apply Ok_inj in E. subst d.
  assert (Z : one_line (decimal_z y)) by (unfold decimal_z; destruct (y <? 0)%Z; [apply (line_app [45]); [apply line_b; reflexivity|]|]; apply line_digits, decimal_digits).
  la; try exact Z; try (apply line_b; reflexivity); apply line_padded; try discriminate; apply line_digits, decimal_digits.
Qed.
Lemma line_listed gm n p ls : (forall u, p_tag p = 13 -> p_body p = PRaw u -> one_line u) -> listed gm (repeat 32 n) p ls -> Forall one_line ls.
Proof.
  intros U H.
  assert (CL : forall t c, column gm t c -> one_line c) by (intros t c [[_ ->]|[_ E]]; [apply line_spaces|eapply line_date; exact E]).
  assert (KL : forall tag k l, key_line gm (repeat 32 n) tag k l -> one_line l).
  { intros tag k l (ty & sh & m & r & kid & d & A & B & _ & _ & _ & D & ->). apply line_date in D.
    assert (one_line ty) by (cbn [In] in A; decompose [or] A; try contradiction; match goal with X : (_, _) = _ |- _ => injection X as _ <- end; apply line_b; reflexivity).
    assert (one_line sh) by (cbn [In] in B; decompose [or] B; try contradiction; match goal with X : (_, _) = _ |- _ => injection X as _ <- end; apply line_b; reflexivity).
    la; auto using line_spaces; try (apply line_b; reflexivity); [apply line_padded; [discriminate|apply line_digits, decimal_digits]|apply line_hex]. }
  assert (SL : forall s l, sig_line gm (repeat 32 n) s l -> one_line l).
  { intros s l (a & b & c & kid & c0 & c1 & c2 & _ & _ & _ & C0 & C1 & C2 & ->). apply CL in C1, C2.
    assert (one_line c0) by (destruct C0 as [[_ ->]|(_ & d & D & ->)]; [apply line_b; reflexivity|apply line_app; [apply line_b; reflexivity|eapply line_date; exact D]]).
    assert (one_line (kind (t2_type s))) by (unfold kind; repeat match goal with |- context [if ?b then _ else _] => destruct b end; apply line_b; reflexivity).
    la; auto using line_spaces; try (apply line_b; reflexivity). apply line_hex. }
  assert (E1 : one_line []) by (intros []).
  assert (K1 : forall tag k, (exists l, key_line gm (repeat 32 n) tag k l /\ ls = [l]) -> Forall one_line ls) by (intros tag k (l & X & ->); constructor; [eapply KL; exact X|constructor]).
  assert (K2 : forall tag k, (exists l, key_line gm (repeat 32 n) tag k l /\ ls = [[]; l]) -> Forall one_line ls) by (intros tag k (l & X & ->); constructor; [exact E1|constructor; [eapply KL; exact X|constructor]]).
  unfold listed in H. destruct p as [tag f pa body]. cbn [p_tag p_body] in *.
  repeat match type of H with match ?x with _ => _ end => destruct x; try contradiction end; try (eapply K1; exact H); try (eapply K2; exact H).
  all: try (destruct H as (l & X & ->); constructor; [eapply SL; exact X|constructor]).
  all: try (subst ls; constructor; [exact E1|constructor; [|constructor]]; apply line_app; [apply line_spaces|]; apply line_app; [apply line_b; reflexivity|]; now apply U).
  subst ls. constructor; [exact E1|]. apply Forall_map. apply Forall_forall. intros i _. la; auto using line_spaces; try (apply line_b; reflexivity). apply line_digits, decimal_digits.
Qed.
Theorem C85_lines_partial gm g n size s : meaningful g = Ok true -> list_keys gm n size g = Ok s -> (forall p u, In p (g_packets g) -> p_tag p = 13 -> p_body p = PRaw u -> one_line u) ->
  exists lss, Forall2 (listed gm (repeat 32 (N.to_nat (u64 (n * size))))) (g_packets g) lss /\ lines s [] = concat lss ++ [[]].
Proof.
  intros M E U. apply C85_exact in E as (lss & F & ->); [|exact M]. exists lss. split; [exact F|]. apply lines_text. apply Forall_concat.
  clear M. induction F as [|p ls ps lss L F IH]; constructor; [|apply IH; intros; eapply U; [right|..]; eassumption]. eapply line_listed; [|exact L]. intros u T B. eapply U; [now left|exact T|exact B].
Qed.
(** With newlines one user ID passes for two, or for anything else. *)
Theorem C85_forged_refuted gm g g' n size pre post u v : let indent := repeat 32 (N.to_nat (u64 (n * size))) in
  g_packets g = pre ++ user_id u :: user_id v :: post -> g_packets g' = pre ++ user_id (u ++ [10; 10] ++ indent ++ str "uid " ++ v) :: post ->
  meaningful g = Ok true -> meaningful g' = Ok true -> forall s, list_keys gm n size g = Ok s <-> list_keys gm n size g' = Ok s.
Proof.
  intros indent E E' M M' s. rewrite (C85_exact gm g n size s M), (C85_exact gm g' n size s M'), E, E'. fold indent.
  assert (X : forall r w, text ([[]; indent ++ str "uid " ++ u] ++ [[]; indent ++ str "uid " ++ v] ++ r) = w <-> text ([[]; indent ++ str "uid " ++ u ++ [10; 10] ++ indent ++ str "uid " ++ v] ++ r) = w).
  { intros r w. cbn [app]. rewrite !text_cons. rewrite <- ?app_assoc. cbn [app]. rewrite <- ?app_assoc. cbn [app]. now rewrite <- ?app_assoc. }
  split; intros (lss & F & ->); apply Forall2_app_inv_l in F as (a & b & Fa & Fb & ->).
  - inversion Fb as [|? lu ? b1 Lu Fb1]; subst. inversion Fb1 as [|? lv ? b2 Lv Fb2]; subst. unfold listed in Lu, Lv. cbn [user_id p_tag p_body] in Lu, Lv. subst lu lv.
    exists (a ++ [[]; indent ++ str "uid " ++ u ++ [10; 10] ++ indent ++ str "uid " ++ v] :: b2). split; [apply Forall2_app; [exact Fa|]; constructor; [reflexivity|exact Fb2]|].
    rewrite !concat_app, !text_app. f_equal. cbn [concat]. now apply X.
  - inversion Fb as [|? lu ? b1 Lu Fb1]; subst. unfold listed in Lu. cbn [user_id p_tag p_body] in Lu. subst lu.
    exists (a ++ [[]; indent ++ str "uid " ++ u] :: [[]; indent ++ str "uid " ++ v] :: b1). split; [apply Forall2_app; [exact Fa|]; constructor; [reflexivity|]; constructor; [reflexivity|exact Fb1]|].
    rewrite !concat_app, !text_app. f_equal. cbn [concat]. symmetry. now apply X.
Qed.
(** A primary key without integers, which is what an empty key packet is read as. *)
Theorem C85_empty_refuted gm g n size p rest k : meaningful g = Ok true -> g_packets g = p :: rest -> as_key p = Ok k -> k_mpi k = [] -> list_keys gm n size g = UB.
Proof.
  intros M E A K. destruct (meaningful_first g M) as (p' & r' & E' & T). rewrite E in E'. injection E' as <- <-.
  unfold list_keys. rewrite M. cbn [bind]. rewrite E. cbn [list_packets]. unfold list_packet. assert (is_key_packet (p_tag p) = true) as -> by (destruct T as [->| ->]; reflexivity).
  unfold list_key. rewrite A. cbn [bind]. assert (exists ty, public_key_type (p_tag p) = Ok ty) as (ty & ->) by (destruct T as [->| ->]; eexists; reflexivity). cbn [bind]. now rewrite K.
Qed.
(** One signature that names no issuer, or one key of another algorithm, and nothing is listed. *)
Theorem C85_whole_refuted gm g n size p : meaningful g = Ok true -> In p (g_packets g) ->
  (exists s, p_body p = PSig s /\ sig_keyid s = Ok []) \/ (exists k, as_key p = Ok k /\ ~ In (k_pka k) [1; 2; 3; 16; 17]) -> forall s, list_keys gm n size g <> Ok s.
Proof.
  intros M I H s E. apply C85_exact in E as (lss & F & _); [|exact M]. apply in_split in I as (a & b & X). rewrite X in F. apply Forall2_app_inv_l in F as (la & lb & _ & F & _). inversion F as [|? ls ? lb' L _]; subst. clear F X M.
  unfold listed in L. destruct p as [tag f pa body]. cbn [p_tag p_body] in *. destruct H as [(q & -> & K)|(k & K & N0)].
  - repeat match type of L with match ?x with _ => _ end => destruct x; try contradiction end. destruct L as (l & (? & ? & ? & kid & ? & ? & ? & _ & K' & B & _) & _). rewrite K in K'. apply Ok_inj in K'. subst kid. cbn in B. lia.
  - assert (KN : forall k' l, k' = k -> key_line gm (repeat 32 (N.to_nat (u64 (n * size)))) tag k' l -> False).
    { intros k' l -> (ty & sh & ? & ? & ? & ? & _ & B & _). apply N0. cbn [In] in *. decompose [or] B; try contradiction; match goal with X : (_, _) = _ |- _ => injection X as <- _ end; tauto. }
    unfold as_key in K. cbn [p_body] in K. repeat match type of L with match ?x with _ => _ end => destruct x; try contradiction; try discriminate end; destruct L as (l & X & _); apply Ok_inj in K; now apply KN in X.
Qed.

Definition old_key : key := mkKey 3 1000000000 1 [2 ^ 1023 + 3735928559; 5] 0.
Definition old_block (us : list packet) : pgp := mkPgp true 2 [] (mkPacket 6 NEW NOT_PARTIAL (PKey old_key) :: us ++ [ex_sig 19; ex_photo; ex_sig 16]).
Example C85_ex : meaningful (old_block [user_id (str "me")]) = Ok true /\ Forall typed (g_packets (old_block [user_id (str "me")])) /\ Forall listable (g_packets (old_block [user_id (str "me")])) /\
  exists s, list_keys counted 0 0 (old_block [user_id (str "me")]) = Ok s /\
    lines s [] = map str ["pub  1024R/deadbeef 2001-09-09"; ""; "uid me"; "sig  sig   01010101 1970-01-01                    "; ""; "att  att  [jpeg image of size 3]"; "sig  sig   01010101 1970-01-01                    "; ""]%string.
Proof.
  split; [reflexivity|]. split; [cbn [old_block g_packets app]; typed_all|]. split; [|eexists; split; vm_compute; reflexivity].
  assert (S : forall t, listable (ex_sig t)) by (intros t; split; [exists 1000, 0, 0; repeat split; reflexivity|exists (repeat 1 8); split; [reflexivity|vm_compute; discriminate]]).
  cbn [old_block g_packets app]. constructor.
  - cbn [listable p_body]. split; [cbn; tauto|]. split; [discriminate|]. split; [reflexivity|]. exists [0; 0; 0; 0; 222; 173; 190; 239]. split; [vm_compute; reflexivity|vm_compute; discriminate].
  - repeat (constructor; [first [apply S|exact Logic.I]|]). constructor.
Qed.
Example C85_ex_forged : let g := old_block [user_id (str "me"); user_id (str "you")] in let g' := old_block [user_id (str "me" ++ [10; 10] ++ str "uid you")] in
  meaningful g = Ok true /\ meaningful g' = Ok true /\ exists s, list_keys counted 0 0 g = Ok s /\ list_keys counted 0 0 g' = Ok s.
Proof. cbv zeta. split; [reflexivity|]. split; [reflexivity|]. eexists. split; vm_compute; reflexivity. Qed.
(** An empty key packet and a user ID, five octets: what is read, and what listing it does. *)
Example C85_ex_empty : exists p g, read_raw [198; 0; 205; 1; 97] = Ok [p; user_id [97]] /\ g = mkPgp true 2 [] [p; user_id [97]] /\ meaningful g = Ok true /\ list_keys counted 0 0 g = UB.
Proof. do 2 eexists. split; [vm_compute; reflexivity|]. split; [reflexivity|]. split; [reflexivity|]. eapply C85_empty_refuted; reflexivity. Qed.
Print Assumptions C85_exact. Print Assumptions C85_other. Print Assumptions C85_listed. Print Assumptions C85_lines_partial. Print Assumptions C85_forged_refuted. Print Assumptions C85_empty_refuted. Print Assumptions C85_whole_refuted. Print Assumptions C85_ex. Print Assumptions C85_ex_forged. Print Assumptions C85_ex_empty.
