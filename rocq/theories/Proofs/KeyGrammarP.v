(** Proofs about the composition of keys. *)
From Verif Require Export Proofs.Lib Model.Key Spec.KeyGrammar.

Lemma as_sig_typed p : typed p -> p_tag p = 2 -> exists s, as_sig p = Ok s /\ p_body p = PSig s.
Proof. unfold typed. intros T E. rewrite E in T. destruct T as (s & H). exists s. unfold as_sig. rewrite H. auto. Qed.
Lemma as_sig_of P p : signature_of P p -> exists s, as_sig p = Ok s /\ P (t2_type s) /\ p_tag p = 2.
Proof. intros (E & s & H & Q). exists s. unfold as_sig. now rewrite H. Qed.
Lemma is_user_iff t : is_user t = true <-> t = 13 \/ t = 17.
Proof. unfold is_user. cbn [mem existsb]. rewrite ?orb_true_iff, ?N.eqb_eq. intuition congruence. Qed.
Lemma is_cert_iff t : is_certification t = true <-> certifies t.
Proof. unfold is_certification, certifies. cbn [mem existsb In]. rewrite ?orb_true_iff, ?N.eqb_eq. intuition congruence. Qed.

(** What does not go on with the current user, or subkey. *)
Definition stops (Q : N -> Prop) (r : list packet) : Prop := match r with [] => True | p :: _ => Q (p_tag p) end.

Lemma revocations_sound : forall ps r, revocations ps = Ok (Some r) ->
  exists revs, ps = revs ++ r /\ Forall (signature_of (eq 32)) revs /\ stops (fun t => t <> 2) r.
Proof.
  induction ps as [|p ps IH]; intros r E; cbn [revocations] in E.
  - assert (r = []) as -> by congruence. exists []. now split.
  - destruct (p_tag p =? 2) eqn:T.
    + unfold as_sig in E. destruct (p_body p) eqn:B; try discriminate. cbn [bind] in E.
      destruct (t2_type s =? 32) eqn:Y; [|discriminate]. destruct (IH _ E) as (revs & -> & F & S).
      exists (p :: revs). split; [reflexivity|]. split; [|exact S]. constructor; [|exact F].
      split; [lia|]. exists s. split; [exact B|lia].
    + assert (r = p :: ps) as -> by congruence. exists []. split; [reflexivity|]. split; [constructor|]. cbn. lia.
Qed.
Lemma revocations_complete : forall revs r, Forall (signature_of (eq 32)) revs -> stops (fun t => t <> 2) r ->
  revocations (revs ++ r) = Ok (Some r).
Proof.
  induction revs as [|p revs IH]; intros r F S; cbn [app].
  - destruct r as [|p r]; [reflexivity|]. cbn [stops] in S. cbn [revocations]. now replace (p_tag p =? 2) with false by lia.
  - apply Forall_cons_iff in F as [H F]. destruct (as_sig_of _ _ H) as (s & E & Q & T). cbn [revocations].
    rewrite T, E. cbn [N.eqb Pos.eqb bind]. replace (t2_type s =? 32) with true by lia. auto.
Qed.

Definition user_ok (uid : bool) := signature_of (fun t => certifies t \/ (uid = true /\ t = 48)).
Lemma users_sound : forall ps uid seen seen' r, users uid seen ps = Ok (Some (seen', r)) ->
  exists sigs us, ps = sigs ++ concat us ++ r /\ Forall (user_ok uid) sigs /\ Forall user_part us /\
    (seen' = true <-> seen = true \/ Exists has_user_id us) /\ stops (fun t => t <> 2 /\ is_user t = false) r.
Proof.
  induction ps as [|p ps IH]; intros uid seen seen' r E; cbn [users] in E.
  - assert (seen' = seen /\ r = []) as [-> ->] by (split; congruence). exists [], []. repeat split; auto.
    intros [H|H]; [auto|inversion H].
  - destruct (p_tag p =? 2) eqn:T.
    + unfold as_sig in E. destruct (p_body p) eqn:B; try discriminate. cbn [bind] in E.
      destruct (is_certification (t2_type s) || (uid && (t2_type s =? 48))) eqn:Y; [|discriminate].
      destruct (IH _ _ _ _ E) as (sigs & us & -> & F & G & S). exists (p :: sigs), us. split; [reflexivity|]. split; [|auto].
      constructor; [|exact F]. split; [lia|]. exists s. split; [exact B|]. apply orb_true_iff in Y as [Y|Y]; [left; now apply is_cert_iff|].
      apply andb_true_iff in Y as [Y Y']. right. split; [auto|lia].
    + destruct (is_user (p_tag p)) eqn:U.
      * destruct (IH _ _ _ _ E) as (sigs & us & -> & F & G & I & S). exists [], ((p :: sigs) :: us).
        split; [cbn [concat app]; now rewrite app_assoc_reverse|]. split; [constructor|]. split; [|split; [|exact S]].
        -- constructor; [|exact G]. exists p, sigs. split; [reflexivity|]. split; [now apply is_user_iff|].
           eapply Forall_impl; [|exact F]. intros q (Tq & s & B & Q). split; [exact Tq|]. exists s. split; [exact B|].
           destruct Q as [Q|[Q Q']]; [auto|]. right. split; [lia|auto].
        -- rewrite I, orb_true_iff. rewrite Exists_cons. split.
           ++ intros [[H|H]|H]; [auto| |auto]. right. left. exists p, sigs. split; [reflexivity|lia].
           ++ intros [H|[H|H]]; [auto| |auto]. destruct H as (u & sg & H & Z). left. right.
              assert (p = u) as -> by congruence. lia.
      * assert (seen' = seen /\ r = p :: ps) as [-> ->] by (split; congruence). exists [], [].
        split; [reflexivity|]. split; [constructor|]. split; [constructor|]. split; [|cbn; split; [lia|exact U]].
        split; [auto|]. intros [H|H]; [auto|inversion H].
Qed.
Lemma users_sigs : forall sigs uid seen r, Forall (user_ok uid) sigs -> users uid seen (sigs ++ r) = users uid seen r.
Proof.
  induction sigs as [|p sigs IH]; intros uid seen r F; [reflexivity|]. cbn [app users].
  apply Forall_cons_iff in F as [H F]. destruct (as_sig_of _ _ H) as (s & E & Q & T). rewrite T, E.
  cbn [N.eqb Pos.eqb bind].
  replace (is_certification (t2_type s) || (uid && (t2_type s =? 48))) with true; [auto|].
  symmetry. apply orb_true_iff. destruct Q as [Q|[-> Q]]; [left; now apply is_cert_iff|right; lia].
Qed.
Lemma users_complete : forall us uid seen r, Forall user_part us -> stops (fun t => t <> 2 /\ is_user t = false) r ->
  exists seen', users uid seen (concat us ++ r) = Ok (Some (seen', r)) /\ (seen' = true <-> seen = true \/ Exists has_user_id us).
Proof.
  induction us as [|l us IH]; intros uid seen r F S.
  - exists seen. cbn [concat app]. split.
    + destruct r as [|p r]; [reflexivity|]. destruct S as [S S']. cbn [users].
      replace (p_tag p =? 2) with false by lia. now rewrite S'.
    + split; [auto|]. intros [H|H]; [auto|inversion H].
  - apply Forall_cons_iff in F as [(u & sigs & -> & T & G) F]. cbn [concat app].
    rewrite app_assoc_reverse. cbn [users]. replace (p_tag u =? 2) with false by lia.
    assert (U : is_user (p_tag u) = true) by now apply is_user_iff. rewrite U. rewrite users_sigs.
    + destruct (IH (p_tag u =? 13) (seen || (p_tag u =? 13)) r F S) as (seen' & E & I). exists seen'. split; [exact E|].
      rewrite I, orb_true_iff, Exists_cons. split.
      * intros [[H|H]|H]; [auto| |auto]. right. left. exists u, sigs. split; [reflexivity|lia].
      * intros [H|[H|H]]; [auto| |auto]. destruct H as (u' & sg & H & Z). left. right.
        assert (u = u') as -> by congruence. lia.
    + eapply Forall_impl; [|exact G]. intros q (Tq & s & B & Q). split; [exact Tq|]. exists s. split; [exact B|].
      destruct Q as [Q|[Q Q']]; [auto|]. right. split; [lia|auto].
Qed.

Definition any_sig := signature_of (fun _ => True).
Lemma subkeys_some_sound sub v3 : sub <> 2 -> forall ps b, subkeys sub v3 (Some b) ps = Ok true ->
  exists sigs subs, ps = sigs ++ concat subs /\ Forall any_sig sigs /\ (b = true \/ Exists (signature_of (eq 24)) sigs) /\
    Forall (subkey_part sub) subs /\ (v3 = true -> subs = []).
Proof.
  intros NS. induction ps as [|p ps IH]; intros b E.
  - cbn [subkeys] in E. destruct b; [|discriminate]. exists [], []. repeat split; auto.
  - cbn [subkeys] in E. destruct (p_tag p =? 2) eqn:T.
    + unfold as_sig in E. destruct (p_body p) eqn:B; try discriminate. cbn [bind] in E.
      destruct (IH _ E) as (sigs & subs & -> & F & X & G). exists (p :: sigs), subs. split; [reflexivity|].
      split; [|split; [|exact G]].
      * constructor; [|exact F]. split; [lia|]. now exists s.
      * destruct X as [X|X]; [|right; now apply Exists_cons_tl]. apply orb_true_iff in X as [X|X]; [auto|].
        right. apply Exists_cons_hd. split; [lia|]. exists s. split; [exact B|lia].
    + destruct b; [|discriminate]. destruct (p_tag p =? sub) eqn:TS; [|discriminate]. cbn [negb] in E.
      destruct v3; [discriminate|]. destruct (IH _ E) as (sigs & subs & -> & F & X & G & _).
      exists [], ((p :: sigs) :: subs). split; [reflexivity|]. split; [constructor|]. split; [auto|].
      split; [|discriminate]. constructor; [|exact G]. exists p, sigs. split; [reflexivity|]. split; [lia|]. split; [exact F|].
      destruct X; [discriminate|auto].
Qed.
Lemma subkeys_sound sub v3 ps : sub <> 2 -> subkeys sub v3 None ps = Ok true ->
  exists subs, ps = concat subs /\ Forall (subkey_part sub) subs /\ (v3 = true -> subs = []).
Proof.
  intros NS E. destruct ps as [|p ps]; cbn [subkeys] in E.
  - exists []. repeat split; auto.
  - destruct (p_tag p =? sub) eqn:TS; [|discriminate]. cbn [negb] in E. destruct v3; [discriminate|].
    destruct (subkeys_some_sound _ _ NS _ _ E) as (sigs & subs & -> & F & X & G & _).
    exists ((p :: sigs) :: subs). split; [reflexivity|]. split; [|discriminate]. constructor; [|exact G].
    exists p, sigs. split; [reflexivity|]. split; [lia|]. split; [exact F|]. destruct X; [discriminate|auto].
Qed.
Lemma subkeys_sigs sub v3 : forall sigs b r, Forall any_sig sigs -> 
  exists b', subkeys sub v3 (Some b) (sigs ++ r) = subkeys sub v3 (Some b') r /\
    (b = true \/ Exists (signature_of (eq 24)) sigs -> b' = true).
Proof.
  induction sigs as [|p sigs IH]; intros b r F.
  - exists b. split; [reflexivity|]. intros [H|H]; [auto|inversion H].
  - apply Forall_cons_iff in F as [H F]. destruct (as_sig_of _ _ H) as (s & E & Q & T). cbn [app subkeys].
    rewrite T, E. cbn [N.eqb Pos.eqb bind]. destruct (IH (b || (t2_type s =? 24)) r F) as (b' & E' & I). exists b'.
    split; [exact E'|]. intros X. apply I. destruct X as [->|X]; [auto|]. inversion X as [? ? Y|? ? Y]; subst; [|auto].
    left. destruct Y as (_ & s' & B & Y). unfold as_sig in E. rewrite B in E. assert (s' = s) as -> by congruence.
    rewrite <- Y. apply orb_true_r.
Qed.
Lemma subkeys_complete sub : sub <> 2 -> forall subs cur, Forall (subkey_part sub) subs -> cur <> Some false ->
  subkeys sub false cur (concat subs) = Ok true.
Proof.
  intros NS. induction subs as [|l subs IH]; intros cur F C.
  - cbn. destruct cur as [[|]|]; congruence.
  - apply Forall_cons_iff in F as [(k & sigs & -> & T & G & X) F]. cbn [concat app].
    assert (E : subkeys sub false cur (k :: sigs ++ concat subs) = subkeys sub false (Some false) (sigs ++ concat subs)).
    { cbn [subkeys]. rewrite T. replace (sub =? 2) with false by lia. rewrite N.eqb_refl. cbn [negb].
      destruct cur as [[|]|]; congruence. }
    rewrite E. destruct (subkeys_sigs sub false sigs false (concat subs) G) as (b' & -> & I).
    rewrite I by auto. apply IH; [exact F|discriminate].
Qed.

Lemma as_key_version p k : as_key p = Ok k -> (has_version 3 p <-> k_version k = 3).
Proof.
  unfold as_key, has_version. intros E. split.
  - intros (k' & B & V). destruct B as [B|(s & B)]; rewrite B in E; congruence.
  - intros V. exists k. split; [|exact V]. destruct (p_body p); try discriminate.
    + right. exists s. congruence.
    + left. congruence.
Qed.

Lemma stops_concat_subs sub subs : sub <> 2 -> is_user sub = false -> Forall (subkey_part sub) subs ->
  stops (fun t => t <> 2 /\ is_user t = false) (concat subs).
Proof.
  intros N U F. destruct subs as [|l subs]; [exact I|]. apply Forall_cons_iff in F as [(k & sg & -> & T & _) _]. cbn. rewrite T. auto.
Qed.

Lemma block_sound ps prim sub : sub <> 2 ->
  match ps with
  | p0 :: ((_ :: _) as rest) =>
    if negb (p_tag p0 =? prim) then Ok false
    else
      k <- as_key p0 ;;
      o <- revocations rest ;;
      match o with
      | None => Ok false
      | Some [] => UB
      | Some (p :: r) =>
        if negb (is_user (p_tag p)) then Ok false
        else
          o <- users (p_tag p =? 13) (p_tag p =? 13) r ;;
          match o with
          | None => Ok false
          | Some (seen, r) => if negb seen then Ok false else subkeys sub (k_version k =? 3) None r
          end
      end
  | _ => Ok false
  end = Ok true -> key_block prim sub ps.
Proof.
  intros NS E. destruct ps as [|p0 [|q rest]]; try discriminate. set (ps := q :: rest) in *.
  destruct (p_tag p0 =? prim) eqn:T; [|discriminate]. cbn [negb] in E.
  destruct (as_key p0) as [k| | |] eqn:K; try discriminate. cbn [bind] in E.
  destruct (revocations ps) as [o| | |] eqn:R; try discriminate. cbn [bind] in E.
  destruct o as [[|p r]|]; try discriminate. apply revocations_sound in R as (revs & -> & FR & SR).
  destruct (is_user (p_tag p)) eqn:U; [|discriminate]. cbn [negb] in E.
  destruct (users _ _ r) as [o| | |] eqn:US; try discriminate. cbn [bind] in E.
  destruct o as [[seen r']|]; [|discriminate]. destruct seen; [|discriminate]. cbn [negb] in E.
  apply users_sound in US as (sigs & us & -> & FS & FU & I & _).
  apply subkeys_sound in E as (subs & -> & FK & V); [|exact NS].
  exists p0, revs, ((p :: sigs) :: us), subs. split; [cbn [concat app]; now rewrite app_assoc_reverse|].
  split; [lia|]. split; [exact FR|]. split; [|split; [|split; [exact FK|]]].
  - constructor; [|exact FU]. exists p, sigs. split; [reflexivity|]. split; [now apply is_user_iff|].
    eapply Forall_impl; [|exact FS]. intros z (Tq & s & B & Q). split; [exact Tq|]. exists s. split; [exact B|].
    destruct Q as [Q|[Q Q']]; [auto|]. right. split; [lia|auto].
  - destruct I as [I _]. destruct (I eq_refl) as [H|H]; [|now apply Exists_cons_tl]. apply Exists_cons_hd. exists p, sigs. split; [reflexivity|lia].
  - intros H. apply V. apply (as_key_version _ _ K) in H. lia.
Qed.
Lemma block_complete ps prim sub : sub <> 2 -> is_user sub = false -> key_block prim sub ps ->
  (forall p, p_tag p = prim -> typed p -> exists k, as_key p = Ok k) -> Forall typed ps ->
  match ps with
  | p0 :: ((_ :: _) as rest) =>
    if negb (p_tag p0 =? prim) then Ok false
    else
      k <- as_key p0 ;;
      o <- revocations rest ;;
      match o with
      | None => Ok false
      | Some [] => UB
      | Some (p :: r) =>
        if negb (is_user (p_tag p)) then Ok false
        else
          o <- users (p_tag p =? 13) (p_tag p =? 13) r ;;
          match o with
          | None => Ok false
          | Some (seen, r) => if negb seen then Ok false else subkeys sub (k_version k =? 3) None r
          end
      end
  | _ => Ok false
  end = Ok true.
Proof.
  intros NS NU (p0 & revs & us & subs & -> & T & FR & FU & X & FK & V) KT TY.
  destruct us as [|l us]; [inversion X|]. apply Forall_cons_iff in FU as [(u & sigs & -> & TU & G) FU].
  apply Forall_cons_iff in TY as [TY _]. destruct (KT p0 T TY) as (k & K).
  assert (U : is_user (p_tag u) = true) by now apply is_user_iff.
  assert (R : revocations (revs ++ (u :: sigs ++ concat us) ++ concat subs) = Ok (Some ((u :: sigs ++ concat us) ++ concat subs))).
  { apply revocations_complete; [exact FR|]. cbn. lia. }
  cbn [concat app] in *. destruct (revs ++ u :: _) as [|q rest] eqn:E; [destruct revs; discriminate|].
  rewrite T, N.eqb_refl, K. cbn [negb bind]. rewrite R. cbn [bind]. rewrite U. cbn [negb].
  rewrite app_assoc_reverse, users_sigs.
  - destruct (users_complete us (p_tag u =? 13) (p_tag u =? 13) (concat subs) FU (stops_concat_subs _ _ NS NU FK)) as (seen & -> & I).
    cbn [bind]. replace seen with true.
    + cbn [negb]. destruct (k_version k =? 3) eqn:V3.
      * rewrite (V ltac:(apply (as_key_version _ _ K); lia)). reflexivity.
      * apply subkeys_complete; auto. discriminate.
    + symmetry. apply I. inversion X as [? ? Y|? ? Y]; subst; [|auto]. left. destruct Y as (u' & sg & Y & Z).
      assert (u = u') as -> by congruence. lia.
  - eapply Forall_impl; [|exact G]. intros z (Tq & s & B & Q). split; [exact Tq|]. exists s. split; [exact B|].
    destruct Q as [Q|[Q Q']]; [auto|]. right. split; [lia|auto].
Qed.

(** The reader gives packets of the right class. *)
Lemma read_typed tag d pos n f c pt : tag_read tag d pos n = Ok c -> typed (mkPacket tag f pt c).
Proof.
  unfold tag_read. destruct (contents_new tag) as [c0| | |] eqn:C; try discriminate. cbn [bind].
  assert (T0 : typed (mkPacket tag f pt c0)).
  { unfold typed. cbn [p_tag p_body]. unfold contents_new in C.
    destruct tag as [|t]; [discriminate|]. do 6 (try destruct t as [t|t|]; cbn in C; try discriminate); apply Ok_inj in C; subst c0; eauto 8. }
  destruct (n =? 0); [intros E; now assert (c = c0) as -> by congruence|].
  assert (A : forall p, actual_read tag d pos n = Ok (c, p) -> typed (mkPacket tag f pt c)).
  { intros p E. clear - E. unfold typed. cbn [p_tag p_body]. unfold actual_read in E.
    assert (B : forall A (x : result A) (g : A -> result (contents * N)), bind x g = Ok (c, p) -> exists y, g y = Ok (c, p)).
    { intros A x g H. destruct x as [y| | |]; try discriminate. exists y. exact H. }
    destruct tag as [|t]; [discriminate|]. do 6 (try destruct t as [t|t|]; try discriminate E);
    unfold tag1_read, tag3_read, tag4_read, secret_read, tag8_read, raw_read, tag11_read, tag17_read, tag18_read in E;
    repeat (first [apply B in E as ([? ?] & E) | apply B in E as (? & E) |
      match type of E with (if ?b then _ else _) = _ => destruct b; [|discriminate E] end]; cbv zeta in E; cbn beta iota in E);
    apply Ok_inj in E; assert (c = c) by reflexivity; apply (f_equal fst) in E; cbn [fst] in E; subst c; eauto 8. }
  destruct (actual_read tag d pos n) as [[c' p]| | |] eqn:E; try discriminate. cbn [bind].
  destruct (p =? pos + n); [|discriminate]. intros H. assert (c' = c) as -> by congruence. eauto.
Qed.
Lemma read_packets_typed : forall n d pos ps, read_packets n d pos = Ok ps -> Forall typed ps.
Proof.
  induction n as [|n IH]; intros d pos ps E; [discriminate|]. cbn [read_packets] in E.
  destruct (pos <? len d); [|assert (ps = []) as -> by congruence; constructor].
  unfold read_packet in E. destruct (read_frame d pos) as [[[f tag] b]| | |]; try discriminate. cbn [bind] in E.
  assert (T : forall d s l pt p, read_packet_raw d s l tag f pt = Ok p -> typed p).
  { intros d' s l pt p H. unfold read_packet_raw in H. destruct (_ && _); [discriminate|].
    destruct (tag_read tag d' s l) as [c| | |] eqn:R; try discriminate. cbn [bind] in H. apply Ok_inj in H. subst p. eapply read_typed. exact R. }
  destruct (match bl_part b with NOT_PARTIAL => _ | PARTIAL => _ end) as [p| | |] eqn:R; try discriminate. cbn [bind] in E.
  destruct (read_packets n d (bl_pos b)) as [r| | |] eqn:RR; try discriminate. cbn [bind] in E. apply Ok_inj in E. subst ps.
  constructor; [|eapply IH; exact RR]. destruct (bl_part b); eapply T; exact R.
Qed.
Lemma read_raw_typed d ps : read_raw d = Ok ps -> Forall typed ps.
Proof. apply read_packets_typed. Qed.

(** On packets of the right class the check answers, except in the case of the missing test. *)
Lemma revocations_ok : forall ps, Forall typed ps -> exists o, revocations ps = Ok o /\ match o with Some r => Forall typed r | None => True end.
Proof.
  induction ps as [|p ps IH]; intros F; cbn [revocations]; [eexists; split; [reflexivity|constructor]|].
  pose proof F as F0. apply Forall_cons_iff in F as [T F]. destruct (p_tag p =? 2) eqn:E; [|eexists; split; [reflexivity|exact F0]].
  destruct (as_sig_typed p T ltac:(lia)) as (s & -> & _). cbn [bind]. destruct (t2_type s =? 32); [auto|].
  eexists. split; [reflexivity|exact I].
Qed.
Lemma users_ok : forall ps uid seen, Forall typed ps -> exists o, users uid seen ps = Ok o /\ match o with Some (_, r) => Forall typed r | None => True end.
Proof.
  induction ps as [|p ps IH]; intros uid seen F; cbn [users]; [eexists; split; [reflexivity|constructor]|].
  pose proof F as F0. apply Forall_cons_iff in F as [T F]. destruct (p_tag p =? 2) eqn:E.
  - destruct (as_sig_typed p T ltac:(lia)) as (s & -> & _). cbn [bind]. destruct (_ || _); [auto|].
    eexists. split; [reflexivity|exact I].
  - destruct (is_user (p_tag p)); [auto|]. eexists. split; [reflexivity|exact F0].
Qed.
Lemma subkeys_ok sub v3 : forall ps cur, Forall typed ps -> exists b, subkeys sub v3 cur ps = Ok b.
Proof.
  induction ps as [|p ps IH]; intros cur F; cbn [subkeys]; [destruct cur as [[|]|]; eauto|].
  apply Forall_cons_iff in F as [T F]. destruct cur as [b|].
  - destruct (p_tag p =? 2) eqn:E.
    + destruct (as_sig_typed p T ltac:(lia)) as (s & -> & _). cbn [bind]. auto.
    + destruct b; [|eauto]. destruct (negb _); [eauto|]. destruct v3; eauto.
  - destruct (negb _); [eauto|]. destruct v3; eauto.
Qed.
Lemma typed_key p t : mem [5; 6; 7; 14] t = true -> p_tag p = t -> typed p -> exists k, as_key p = Ok k.
Proof.
  intros M E T. unfold typed, as_key in *. rewrite E in T.
  assert (t = 5 \/ t = 6 \/ t = 7 \/ t = 14) as [->|[->|[->| ->]]].
  { cbn [mem existsb] in M. rewrite ?orb_true_iff, ?N.eqb_eq in M. intuition congruence. }
  all: repeat destruct T as (? & T); rewrite T; eauto.
Qed.

Lemma transferable_iff type ps : Forall typed ps -> (key_meaningful type ps = Ok true <-> transferable type ps).
Proof.
  intros TY. unfold transferable. split.
  - intros E. unfold key_meaningful in E.
    destruct type as [|[t|t|]]; try discriminate; destruct t; try discriminate.
    + right. split; [reflexivity|]. now apply block_sound in E.
    + left. split; [reflexivity|]. now apply block_sound in E.
  - intros [[-> B]|[-> B]]; unfold key_meaningful.
    + apply block_complete; auto; try discriminate. intros p T Y. now apply (typed_key p 6).
    + apply block_complete; auto; try discriminate. intros p T Y. now apply (typed_key p 5).
Qed.

Lemma meaningful_answers type ps : Forall typed ps -> (exists b, key_meaningful type ps = Ok b) \/ bare type ps.
Proof.
  intros TY. unfold key_meaningful.
  assert (G : forall prim sub, mem [5; 6; 7; 14] prim = true -> 
    (exists b, match ps with
    | p0 :: ((_ :: _) as rest) =>
      if negb (p_tag p0 =? prim) then Ok false
      else
        k <- as_key p0 ;;
        o <- revocations rest ;;
        match o with
        | None => Ok false
        | Some [] => UB
        | Some (p :: r) =>
          if negb (is_user (p_tag p)) then Ok false
          else
            o <- users (p_tag p =? 13) (p_tag p =? 13) r ;;
            match o with
            | None => Ok false
            | Some (seen, r) => if negb seen then Ok false else subkeys sub (k_version k =? 3) None r
            end
        end
    | _ => Ok false
    end = Ok b) \/ exists k revs, ps = k :: revs /\ revs <> [] /\ Forall (signature_of (eq 32)) revs /\ p_tag k = prim).
  { intros prim sub M. destruct ps as [|p0 [|q rest]]; try (left; eexists; reflexivity).
    destruct (p_tag p0 =? prim) eqn:T; cbn [negb]; [|left; eexists; reflexivity].
    apply Forall_cons_iff in TY as [T0 TY]. destruct (typed_key p0 prim M ltac:(lia) T0) as (k & ->). cbn [bind].
    destruct (revocations_ok _ TY) as (o & R & TR). rewrite R. cbn [bind]. destruct o as [[|p r]|]; [| |left; eexists; reflexivity].
    - right. apply revocations_sound in R as (revs & E & F & _). rewrite app_nil_r in E. subst revs.
      exists p0, (q :: rest). repeat split; auto; [discriminate|lia].
    - left. destruct (is_user (p_tag p)); [|eexists; reflexivity]. cbn [negb]. apply Forall_cons_iff in TR as [_ TR].
      destruct (users_ok r (p_tag p =? 13) (p_tag p =? 13) TR) as (o & -> & TU). cbn [bind].
      destruct o as [[seen r']|]; [|eexists; reflexivity]. destruct seen; [|eexists; reflexivity]. cbn [negb]. now apply subkeys_ok. }
  destruct type as [|[t|t|]]; try (left; eexists; reflexivity); destruct t; try (left; eexists; reflexivity).
  - destruct (G 5 7 eq_refl) as [H|(k & revs & H)]; [auto|]. right. exists k, revs. intuition.
  - destruct (G 6 14 eq_refl) as [H|(k & revs & H)]; [auto|]. right. exists k, revs. intuition.
Qed.
Lemma bare_ub type ps : Forall typed ps -> bare type ps -> key_meaningful type ps = UB.
Proof.
  intros TY (k & revs & -> & N & F & C). destruct revs as [|q r]; [congruence|]. clear N.
  assert (R : revocations (q :: r) = Ok (Some [])) by (rewrite <- (app_nil_r (q :: r)); now apply revocations_complete).
  apply Forall_cons_iff in TY as [T0 _]. unfold key_meaningful.
  destruct C as [[-> T]|[-> T]]; rewrite T; cbn [N.eqb Pos.eqb negb].
  - destruct (typed_key k 6 eq_refl T T0) as (x & ->). cbn [bind]. now rewrite R.
  - destruct (typed_key k 5 eq_refl T T0) as (x & ->). cbn [bind]. now rewrite R.
Qed.
