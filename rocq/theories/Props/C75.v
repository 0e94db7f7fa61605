(** C75: fill_key_sigs makes the signatures of a secret key by the key itself. *)
From Verif Require Import Spec.KeyFill Proofs.Lib Proofs.MpiP Proofs.KeyP Proofs.KeyGrammarP Proofs.SignP Proofs.CertifyP Proofs.KeyGenP Props.C33_C35 Props.C44_C46.

Lemma with_values_same s l m : same_but_values s (with_values s l m).
Proof. destruct s. unfold same_but_values. cbn. repeat split. Qed.
Lemma same_keyid_values s s' : same_but_values s s' -> sig_keyid s' = sig_keyid s.
Proof. intros (V & _ & _ & _ & _ & K & H & U). unfold sig_keyid. now rewrite V, K, H, U. Qed.
Lemma fill_sig_same s digest k sec pass draws s' d : fill_sig s digest k sec pass draws = Ok (s', d) -> same_but_values s s'.
Proof.
  unfold fill_sig. intros E. apply bind_ok in E as (pri & _ & E). apply bind_ok in E as ([v d'] & _ & E). apply Ok_inj in E.
  apply pair_equal_spec in E as [<- _]. apply with_values_same.
Qed.
Lemma fill_one_same k sec pass kp u s draws s' d : fill_one k sec pass kp u s draws = Ok (Some s', d) -> same_but_values s s'.
Proof.
  assert (SELF : forall o, Ok (Some s, draws) = Ok (Some o, d) -> same_but_values s o).
  { intros o H. apply Ok_inj in H. assert (o = s) as -> by congruence. unfold same_but_values. auto 10. }
  assert (FILL : forall r o, (d0 <- r ;; ' (x, y) <- fill_sig s d0 k sec pass draws ;; Ok (Some x, y)) = Ok (Some o, d) -> same_but_values s o).
  { intros r o H. apply bind_ok in H as (d0 & _ & H). apply bind_ok in H as ([x y] & F & H). apply Ok_inj in H. assert (x = o) as -> by congruence. now apply fill_sig_same in F. }
  unfold fill_one. cbv zeta. destruct (is_certification _).
  - destruct (p_tag kp =? 5); [|intros H; apply Ok_inj in H; congruence]. destruct u; [apply FILL|apply SELF].
  - destruct (t2_type s =? 24); [destruct (p_tag kp =? 7); [apply FILL|intros H; apply Ok_inj in H; congruence]|].
    destruct (t2_type s =? 32); [apply FILL|]. destruct (t2_type s =? 40); [apply FILL|].
    destruct (t2_type s =? 48); [destruct u; [apply FILL|apply SELF]|intros H; apply Ok_inj in H; congruence].
Qed.
Lemma nearest_key_snoc pre p : nearest_key (pre ++ [p]) = if mem [5; 6; 7; 14] (p_tag p) then Some p else nearest_key pre.
Proof. unfold nearest_key. rewrite rev_app_distr. reflexivity. Qed.
Lemma nearest_user_snoc pre p : nearest_user (pre ++ [p]) =
  if mem [5; 6; 7; 14; 13; 17] (p_tag p) then (if mem [13; 17] (p_tag p) then Some p else None) else nearest_user pre.
Proof. unfold nearest_user. rewrite rev_app_distr. cbn [rev app find]. destruct (mem [5; 6; 7; 14; 13; 17] (p_tag p)); reflexivity. Qed.

(** What became of the signatures. *)
Definition filled (k : key) (sec : secret) (pass : bytes) (pre : list packet) (s : tag2) : Prop :=
  exists s0 kp d d', nearest_key pre = Some kp /\ fill_one k sec pass kp (nearest_user pre) s0 d = Ok (Some s, d').
Lemma fill_loop_inv k sec pass id : forall ps pre draws ps' rest,
  fill_loop k sec pass id (nearest_key pre) (nearest_user pre) ps draws = Ok (Some ps', rest) ->
  Forall2 (kept id) ps ps' /\
  forall a p b s, ps' = a ++ p :: b -> p_tag p = 2 -> p_body p = PSig s -> sig_keyid s = Ok id -> filled k sec pass (pre ++ a) s.
Proof.
  induction ps as [|p r IH]; intros pre draws ps' rest E; cbn [fill_loop] in E.
  - apply Ok_inj in E. assert (ps' = []) as -> by congruence. split; [constructor|]. intros a p b s X. destruct a; discriminate.
  - cbv zeta in E.
    assert (STEP : forall q key user d, (' (o, d') <- fill_loop k sec pass id key user r d ;; Ok (match o with None => None | Some r => Some (q :: r) end, d')) = Ok (Some ps', rest) ->
      key = nearest_key (pre ++ [q]) -> user = nearest_user (pre ++ [q]) -> kept id p q ->
      (forall s, p_tag q = 2 -> p_body q = PSig s -> sig_keyid s = Ok id -> filled k sec pass pre s) ->
      Forall2 (kept id) (p :: r) ps' /\
      forall a p b s, ps' = a ++ p :: b -> p_tag p = 2 -> p_body p = PSig s -> sig_keyid s = Ok id -> filled k sec pass (pre ++ a) s).
    { intros q key user d H -> -> K Q. apply bind_ok in H as ([o d'] & F & H). destruct o as [r'|]; [|apply Ok_inj in H; congruence].
      apply Ok_inj in H. assert (ps' = q :: r') as -> by congruence. apply IH in F as [F1 F2]. split; [now constructor|].
      intros a p0 b s X T B I. destruct a as [|a0 a].
      - cbn in X. assert (p0 = q) as -> by congruence. rewrite app_nil_r. now apply Q.
      - cbn in X. assert (a0 = q /\ r' = a ++ p0 :: b) as [-> X'] by (split; congruence).
        specialize (F2 a p0 b s X' T B I). now rewrite <- app_assoc in F2. }
    assert (SELF : kept id p p) by now left.
    destruct (is_key_packet (p_tag p)) eqn:IK.
    + assert (M : mem [5; 6; 7; 14] (p_tag p) = true) by (clear - IK; unfold is_key_packet, is_primary_key, is_subkey, mem in *; cbn in *; lia).
      assert (M' : mem [5; 6; 7; 14; 13; 17] (p_tag p) = true /\ mem [13; 17] (p_tag p) = false) by (clear - M; unfold mem in *; cbn in *; split; lia).
      apply (STEP _ _ _ _ E); [now rewrite nearest_key_snoc, M|destruct M' as [M1 M2]; now rewrite nearest_user_snoc, M1, M2|exact SELF|].
      intros s T. rewrite T in M. discriminate.
    + assert (M : mem [5; 6; 7; 14] (p_tag p) = false) by (clear - IK; unfold is_key_packet, is_primary_key, is_subkey, mem in *; cbn in *; lia).
      destruct (is_user (p_tag p)) eqn:IU.
      * assert (M' : mem [5; 6; 7; 14; 13; 17] (p_tag p) = true) by (clear - IU; unfold is_user, mem in *; cbn in *; lia).
        apply (STEP _ _ _ _ E); [now rewrite nearest_key_snoc, M|unfold is_user in IU; now rewrite nearest_user_snoc, M', IU|exact SELF|].
        intros s T. rewrite T in IU. discriminate.
      * destruct (p_tag p =? 2) eqn:T2; [|apply Ok_inj in E; congruence]. apply N.eqb_eq in T2.
        assert (M' : mem [5; 6; 7; 14; 13; 17] (p_tag p) = false) by (rewrite T2; reflexivity).
        apply bind_ok in E as (s & AS & E). apply bind_ok in E as (i & KI & E).
        assert (PB : p_body p = PSig s) by (unfold as_sig in AS; destruct (p_body p); try discriminate; apply Ok_inj in AS; congruence).
        destruct (beq i id) eqn:BI.
        -- apply beq_eq in BI. subst i. destruct (nearest_key pre) as [kp|] eqn:NK; [|discriminate].
           apply bind_ok in E as ([o d1] & FO & E). destruct o as [s'|]; [|apply Ok_inj in E; congruence].
           set (q := mkPacket (p_tag p) (p_format p) (p_partial p) (PSig s')) in *. pose proof (fill_one_same _ _ _ _ _ _ _ _ _ FO) as SB.
           apply (STEP q _ _ _ E).
           ++ rewrite nearest_key_snoc. change (p_tag q) with (p_tag p). now rewrite M.
           ++ rewrite nearest_user_snoc. change (p_tag q) with (p_tag p). now rewrite M'.
           ++ right. exists s, s'. repeat (split; [assumption || reflexivity|]). exact SB.
           ++ intros s2 _ B _. cbn in B. assert (s2 = s') as -> by congruence. exists s, kp, draws, d1. auto.
        -- apply (STEP _ _ _ _ E); [now rewrite nearest_key_snoc, M|now rewrite nearest_user_snoc, M'|exact SELF|].
           intros s2 _ B I. assert (s2 = s) as -> by congruence. rewrite KI in I. apply Ok_inj in I. subst i. rewrite beq_refl in BI. discriminate.
Qed.
Lemma fill_inv g pass draws ok g' rest : fill_key_sigs g pass draws = Ok (ok, g', rest) ->
  (ok = false /\ g' = g) \/
  (ok = true /\ secret_meaningful g = Ok true /\ exists p more k sec id ps', g_packets g = p :: more /\ p_body p = PSecret k sec /\ keyid g = Ok id /\
     g' = mkPgp (g_armored g) (g_type g) (g_keys g) ps' /\ fill_loop k sec pass id None None (g_packets g) draws = Ok (Some ps', rest)).
Proof.
  unfold fill_key_sigs. intros E. apply bind_ok in E as (m & M & E). destruct m; cbn [negb] in E; [|apply Ok_inj in E; left; split; congruence].
  apply bind_ok in E as (id & KI & E). apply bind_ok in E as (p & VP & E). apply bind_ok in E as ([k sec] & AS & E). apply bind_ok in E as ([o d] & F & E).
  apply Ok_inj in E. destruct o as [ps'|]; [|left; split; congruence].
  right. split; [congruence|]. split; [exact M|]. destruct (g_packets g) as [|p0 more] eqn:GP; [discriminate|].
  cbn in VP. apply Ok_inj in VP. subst p0. exists p, more, k, sec, id, ps'. split; [reflexivity|]. split.
  - unfold as_secret in AS. destruct (p_body p); try discriminate. apply Ok_inj in AS. congruence.
  - split; [exact KI|]. split; [congruence|]. rewrite F. f_equal. congruence.
Qed.

(** When it reports failure the key is as it was. *)
Theorem C75_unchanged : forall g pass draws g' rest, fill_key_sigs g pass draws = Ok (false, g', rest) -> g' = g.
Proof. intros g pass draws g' rest E. apply fill_inv in E as [[_ H]|[H _]]; [exact H|discriminate]. Qed.

Lemma kept_sig id P p p' : kept id p p' -> signature_of P p -> signature_of P p'.
Proof.
  intros [->|(s & s' & _ & T' & _ & _ & B & B' & _ & S)] H; [exact H|]. destruct H as [_ (x & X & Q)]. split; [exact T'|]. exists s'. split; [exact B'|].
  assert (x = s) as -> by congruence. destruct S as (_ & -> & _). exact Q.
Qed.
Lemma kept_sigs id P ps ps' : Forall2 (kept id) ps ps' -> Forall (signature_of P) ps -> Forall (signature_of P) ps'.
Proof. intros F. induction F; intros G; [constructor|]. apply Forall_cons_iff in G as [G0 G]. constructor; [eapply kept_sig; eauto|auto]. Qed.
Lemma kept_exists id P ps ps' : Forall2 (kept id) ps ps' -> Exists (signature_of P) ps -> Exists (signature_of P) ps'.
Proof. intros F. induction F; intros G; [inversion G|]. inversion G; subst; [left; eapply kept_sig; eauto|right; auto]. Qed.
Lemma kept_other id p p' : p_tag p <> 2 -> kept id p p' -> p' = p.
Proof. intros T [->|(s & s' & T2 & _)]; [reflexivity|congruence]. Qed.
Lemma kept_block id a b ps ps' : a <> 2 -> b <> 2 -> Forall2 (kept id) ps ps' -> key_block a b ps -> key_block a b ps'.
Proof.
  intros A2 B2 F (k & revs & us & subs & -> & Tk & FR & FU & X & FK & V).
  inversion F as [|? q ? qs' H0 H']; subst. apply kept_other in H0; [|congruence]. subst q.
  apply Forall2_app_inv_l in H' as (r' & b1 & Ha & Hb & ->). apply Forall2_app_inv_l in Hb as (u' & s' & Hb & Hc & ->).
  assert (U : exists us', u' = concat us' /\ Forall user_part us' /\ Exists has_user_id us').
  { clear - Hb FU X.
    assert (G : exists us', u' = concat us' /\ Forall2 (fun l l' => user_part l' /\ (has_user_id l -> has_user_id l')) us us').
    { revert u' Hb FU. clear. induction us as [|l us IH]; intros u' H F; [inversion H; exists []; split; constructor|].
      apply Forall_cons_iff in F as [(u & sigs & -> & T & G) F]. cbn [concat app] in H. inversion H as [|? q ? qs' H0 H']; subst.
      apply kept_other in H0; [|destruct T; congruence]. subst q. apply Forall2_app_inv_l in H' as (s' & b & Ha & Hb & ->).
      destruct (IH _ Hb F) as (us' & -> & F'). exists ((u :: s') :: us'). split; [reflexivity|]. constructor; [|exact F']. split.
      - exists u, s'. split; [reflexivity|]. split; [exact T|]. eapply kept_sigs; eauto.
      - intros (u0 & sg & E & T0). assert (u0 = u) as -> by congruence. exists u, s'. auto. }
    destruct G as (us' & -> & G). exists us'. split; [reflexivity|]. clear - G X. induction G as [|l l' us us' [P Q] G IH]; [inversion X|].
    inversion X; subst.
    - split; [|left; auto]. constructor; [exact P|]. clear - G. induction G as [|? ? ? ? [? _]]; constructor; auto.
    - destruct (IH H0). split; [now constructor|now right]. }
  assert (S : exists subs', s' = concat subs' /\ Forall (subkey_part b) subs' /\ (subs = [] -> subs' = [])).
  { clear - Hc FK B2. revert s' Hc FK. induction subs as [|l subs IH]; intros s' H F; [inversion H; exists []; repeat split; constructor|].
    apply Forall_cons_iff in F as [(u & sigs & -> & T & G & X) F]. cbn [concat app] in H. inversion H as [|? q ? qs' H0 H']; subst.
    apply kept_other in H0; [|congruence]. subst q. apply Forall2_app_inv_l in H' as (a' & c & Ha & Hb & ->).
    destruct (IH _ Hb F) as (subs' & -> & F' & _). exists ((u :: a') :: subs'). split; [reflexivity|]. split; [|discriminate]. constructor; [|exact F'].
    exists u, a'. split; [reflexivity|]. split; [reflexivity|]. split; [eapply kept_sigs; eauto|eapply kept_exists; eauto]. }
  destruct U as (us' & -> & FU' & X'). destruct S as (subs' & -> & FK' & Z).
  exists k, r', us', subs'. split; [reflexivity|]. split; [reflexivity|]. split; [eapply kept_sigs; eauto|].
  split; [exact FU'|]. split; [exact X'|]. split; [exact FK'|]. intros h. apply Z, V, h.
Qed.
Lemma kept_typed id ps ps' : Forall2 (kept id) ps ps' -> Forall typed ps -> Forall typed ps'.
Proof.
  intros F. induction F as [|p p' l l' K F IH]; intros T; [constructor|]. apply Forall_cons_iff in T as [T0 T]. constructor; [|auto].
  destruct K as [->|(s & s' & _ & T' & _ & _ & _ & B' & _)]; [exact T0|]. unfold typed. rewrite T'. eauto.
Qed.
(** When it reports success nothing but the values of signatures by the key has changed, and the
    key is still meaningful. *)
Theorem C75_kept : forall g pass draws g' rest, fill_key_sigs g pass draws = Ok (true, g', rest) -> Forall typed (g_packets g) ->
  exists id, keyid g = Ok id /\ g_armored g' = g_armored g /\ g_type g' = g_type g /\ g_keys g' = g_keys g /\
    Forall2 (kept id) (g_packets g) (g_packets g') /\ Forall typed (g_packets g') /\ secret_meaningful g' = Ok true.
Proof.
  intros g pass draws g' rest E T. apply fill_inv in E as [[? _]|(_ & M & p & more & k & sec & id & ps' & GP & PB & KI & -> & F)]; [discriminate|].
  apply (fill_loop_inv k sec pass id (g_packets g) []) in F as [F _]. exists id. cbn [g_armored g_type g_keys g_packets].
  do 4 (split; [assumption || reflexivity|]). split; [exact F|]. pose proof (kept_typed _ _ _ F T) as T'. split; [exact T'|].
  unfold secret_meaningful, meaningful in *. cbn [g_type g_packets] in *. destruct (g_type g =? 3) eqn:G3; [|discriminate].
  apply C33_exact in M; [|exact T]. apply C33_exact; [exact T'|]. destruct M as [[X _]|[X B]]; [rewrite X in G3; discriminate|].
  right. split; [exact X|]. now apply (kept_block id 5 7 _ _ ltac:(discriminate) ltac:(discriminate) F).
Qed.

(** Where a signature stands in a block. *)
Lemma nearest_sigs P : forall sigs m, Forall (signature_of P) sigs -> nearest_user (m ++ sigs) = nearest_user m /\ nearest_key (m ++ sigs) = nearest_key m.
Proof.
  induction sigs as [|p r IH] using rev_ind; intros m F; [now rewrite app_nil_r|]. apply Forall_app in F as [F G]. apply Forall_cons_iff in G as [[T _] _].
  rewrite app_assoc, nearest_user_snoc, nearest_key_snoc, T. cbn [mem existsb N.eqb Pos.eqb orb]. now apply IH.
Qed.
Lemma app_mid {A} (a b x y : list A) p : a ++ b = x ++ p :: y -> (exists z, a = x ++ p :: z /\ y = z ++ b) \/ (exists z, b = z ++ p :: y /\ x = a ++ z).
Proof.
  revert x. induction a as [|c a IH]; intros x E; cbn in E; [right; exists x; auto|].
  destruct x as [|d x]; cbn in E; [left; exists a; cbn; split; congruence|]. assert (c = d /\ a ++ b = x ++ p :: y) as [-> E'] by (split; congruence).
  destruct (IH _ E') as [(z & -> & ->)|(z & -> & ->)]; [left; exists z; auto|right; exists z; auto].
Qed.
Lemma nearest_in_users : forall us m l p x, Forall user_part us -> concat us = l ++ p :: x -> p_tag p = 2 ->
  (exists u, nearest_user (m ++ l) = Some u) /\ nearest_key (m ++ l) = nearest_key m /\ signature_of (fun t => certifies t \/ t = 48) p.
Proof.
  induction us as [|c us IH]; intros m l p x F E T; [destruct l; discriminate|]. apply Forall_cons_iff in F as [(u & sigs & -> & TU & G) F].
  cbn [concat] in E.
  assert (US : nearest_user (m ++ [u]) = Some u /\ nearest_key (m ++ [u]) = nearest_key m) by (rewrite nearest_user_snoc, nearest_key_snoc; destruct TU as [-> | ->]; cbn; auto).
  apply app_mid in E as [(z & E & _)|(z & E & ->)].
  - destruct l as [|l0 l]; cbn in E; [assert (p = u) as -> by congruence; destruct TU; congruence|].
    assert (l0 = u /\ sigs = l ++ p :: z) as [-> ->] by (split; congruence). apply Forall_app in G as [G1 G2]. apply Forall_cons_iff in G2 as [G2 _].
    change (u :: l) with ([u] ++ l). rewrite app_assoc. destruct (nearest_sigs _ _ (m ++ [u]) G1) as [-> ->]. destruct US as [-> ->].
    split; [eauto|]. split; [reflexivity|]. destruct G2 as [? (s & ? & ?)]. split; [assumption|]. exists s. split; [assumption|]. intuition.
  - change (u :: sigs) with ([u] ++ sigs). rewrite !app_assoc. destruct (IH ((m ++ [u]) ++ sigs) z p x F E T) as (A & B & C). split; [exact A|]. split; [|exact C].
    rewrite B. destruct (nearest_sigs _ _ (m ++ [u]) G) as [_ ->]. apply US.
Qed.
Lemma nearest_in_subs b : mem [5; 6; 7; 14] b = true -> forall subs m l p x, Forall (subkey_part b) subs -> concat subs = l ++ p :: x -> p_tag p = 2 ->
  exists q, In q l /\ nearest_key (m ++ l) = Some q /\ p_tag q = b.
Proof.
  intros B. induction subs as [|c us IH]; intros m l p x F E T; [destruct l; discriminate|]. apply Forall_cons_iff in F as [(u & sigs & -> & TU & G & _) F].
  cbn [concat] in E. assert (KS : nearest_key (m ++ [u]) = Some u) by now rewrite nearest_key_snoc, TU, B.
  apply app_mid in E as [(z & E & _)|(z & E & ->)].
  - destruct l as [|l0 l]; cbn in E; [assert (p = u) as -> by congruence; rewrite <- TU, T in B; discriminate|].
    assert (l0 = u /\ sigs = l ++ p :: z) as [-> ->] by (split; congruence). apply Forall_app in G as [G1 G2].
    change (u :: l) with ([u] ++ l). rewrite app_assoc. destruct (nearest_sigs _ _ (m ++ [u]) G1) as [_ ->]. exists u. rewrite KS. cbn. auto.
  - change (u :: sigs) with ([u] ++ sigs). rewrite !app_assoc. destruct (IH ((m ++ [u]) ++ sigs) z p x F E T) as (q & I & N & Q). exists q.
    split; [apply in_or_app; auto|]. auto.
Qed.
Lemma locate ps pre p post : key_block 5 7 ps -> ps = pre ++ p :: post -> p_tag p = 2 ->
  signature_of (eq 32) p \/
  (signature_of (fun t => certifies t \/ t = 48) p /\ (exists u, nearest_user pre = Some u) /\ nearest_key pre = hd_error ps) \/
  (exists q, In q pre /\ nearest_key pre = Some q /\ p_tag q = 7).
Proof.
  intros (k & revs & us & subs & -> & Tk & FR & FU & _ & FK & _) E T.
  change (k :: revs ++ concat us ++ concat subs) with ((k :: revs) ++ concat us ++ concat subs) in E.
  assert (NK : nearest_key (k :: revs) = Some k).
  { change (k :: revs) with ([k] ++ revs). destruct (nearest_sigs _ _ [k] FR) as [_ ->]. unfold nearest_key. cbn [rev app find]. now rewrite Tk. }
  apply app_mid in E as [(z & E & _)|(z & E & ->)].
  - left. destruct pre as [|k0 pre]; cbn in E; [assert (p = k) as -> by congruence; congruence|]. assert (revs = pre ++ p :: z) as -> by congruence.
    apply Forall_app in FR as [_ FR]. now apply Forall_cons_iff in FR as [FR _].
  - right. apply app_mid in E as [(y & E & _)|(y & E & ->)].
    + left. destruct (nearest_in_users us (k :: revs) z p y FU E T) as (A & B & C). split; [exact C|]. split; [exact A|]. now rewrite B, NK.
    + right. rewrite app_assoc. destruct (nearest_in_subs 7 eq_refl subs ((k :: revs) ++ concat us) y p post FK E T) as (q & I & N & Q). exists q.
      split; [apply in_or_app; auto|]. auto.
Qed.

Lemma to_sign_20_values t k s l m : to_sign_20 t k (with_values s l m) = to_sign_20 t k s.
Proof. unfold to_sign_20, hashed_with, input_20. rewrite trailer_values. now destruct s. Qed.
Lemma to_sign_28_values t k s l m : to_sign_28 t k (with_values s l m) = to_sign_28 t k s.
Proof. unfold to_sign_28, hashed_with, input_28. rewrite trailer_values. now destruct s. Qed.
Lemma to_sign_30_values k t u s l m : to_sign_30 k t u (with_values s l m) = to_sign_30 k t u s.
Proof.
  unfold to_sign_30, hashed_with, input_cert.
  assert (E2 : t2_version (with_values s l m) = t2_version s) by now destruct s.
  assert (E3 : t2_hash (with_values s l m) = t2_hash s) by now destruct s.
  assert (E1 : t2_type (with_values s l m) = t2_type s) by now destruct s.
  rewrite E1, E2, E3. destruct (certification (t2_version s) t u); cbn [bind]; try rewrite trailer_values; reflexivity.
Qed.
Lemma verify_none digest hash pka pub : verify_with_pka digest hash pka pub [] = Ok 1%Z -> False.
Proof.
  unfold verify_with_pka. destruct ((pka =? 1) || (pka =? 3)); [|destruct (pka =? 17); [|discriminate]]; intros V.
  - apply bind_ok in V as (n & _ & V). apply bind_ok in V as (em & _ & V). apply bind_ok in V as (b & V & _). unfold rsa_verify_raw in V.
    apply bind_ok in V as (m & _ & V). discriminate.
  - apply bind_ok in V as (b & V & _). unfold dsa_verify_raw in V. apply bind_ok in V as (m & _ & V). discriminate.
Qed.
Lemma fill_sig_good s0 digest k sec pass d s d' pri x : fill_sig s0 digest k sec pass d = Ok (s, d') -> hash_use (t2_hash s0) x = Ok digest ->
  decrypt_secret_keys sec pass = Ok pri -> In (k_pka k) [1; 17] -> key_pair (k_pka k) pri (k_mpi k) -> Forall mpi_fits (k_mpi k) -> t2_pka s = k_pka k ->
  exists vals, s = with_values s0 (prefix digest 2) vals /\ t2_left16 s = prefix digest 2 /\ verify_key digest k s = Ok 1%Z.
Proof.
  unfold fill_sig. intros E H D I K F P. rewrite D in E. cbn [bind] in E. apply bind_ok in E as ([v d1] & W & E). apply Ok_inj in E.
  apply pair_equal_spec in E as [<- _]. exists (match v with [] => t2_mpi s0 | _ => v end). split; [reflexivity|]. split; [now destruct s0|].
  assert (I' : k_pka k = 1 \/ k_pka k = 17) by (cbn in I; intuition).
  pose proof (with_pka_verifies x digest (k_pka k) pri (k_mpi k) (t2_hash s0) d v d1 H I' K F W) as V.
  unfold verify_key. rewrite P. assert (v <> []) as NE.
  { intros ->. now apply verify_none in V. }
  destruct v as [|a v]; [congruence|]. destruct s0. exact V.
Qed.
Lemma typed_secret p : typed p -> p_tag p = 7 -> exists k x, p_body p = PSecret k x.
Proof. unfold typed. intros T E. now rewrite E in T. Qed.
(** When it reports success every signature that names the primary key as issuer, and its
    algorithm, is accepted by that key, except revocations of a user below no user. *)
Theorem C75_verifies_partial : forall g pass draws g' rest p k sec pri id, fill_key_sigs g pass draws = Ok (true, g', rest) -> Forall typed (g_packets g) ->
  hd_error (g_packets g) = Some p -> p_body p = PSecret k sec -> keyid g = Ok id ->
  decrypt_secret_keys sec pass = Ok pri -> In (k_pka k) [1; 17] -> key_pair (k_pka k) pri (k_mpi k) -> Forall mpi_fits (k_mpi k) ->
  forall pre q post s, g_packets g' = pre ++ q :: post -> p_tag q = 2 -> p_body q = PSig s -> sig_keyid s = Ok id -> t2_pka s = k_pka k ->
  (t2_type s = 48 -> nearest_user pre <> None) ->
  exists digest, over pre k s digest /\ t2_left16 s = prefix digest 2 /\ verify_key digest k s = Ok 1%Z.
Proof.
  intros g pass draws g' rest p k sec pri id E T HD PB KI D I K FF pre q post s G TQ BQ SI SP N48.
  pose proof (C75_kept _ _ _ _ _ E T) as (id' & KI' & _ & GT & _ & F2 & T' & M').
  apply fill_inv in E as [[? _]|(_ & M & p0 & more & k0 & sec0 & id0 & ps' & GP & PB0 & KI0 & -> & F)]; [discriminate|].
  cbn [g_packets] in *. rewrite GP in HD. cbn in HD. assert (p0 = p) as -> by congruence. assert (k0 = k /\ sec0 = sec) as [-> ->] by (split; congruence).
  rewrite KI in KI0, KI'. apply Ok_inj in KI0. apply Ok_inj in KI'. subst id0 id'.
  apply (fill_loop_inv k sec pass id (g_packets g) []) in F as [_ F]. destruct (F pre q post s G TQ BQ SI) as (s0 & kp & d & d' & NK & FO). cbn [app] in NK, FO.
  assert (HP : hd_error ps' = Some p).
  { rewrite GP in F2. inversion F2 as [|? q0 ? l' H0 H1]. subst. destruct H0 as [->|(z & z' & Z & _ & _ & _ & B & _)]; [reflexivity|]. rewrite B in PB. discriminate. }
  assert (KB : key_block 5 7 ps').
  { unfold secret_meaningful, meaningful in M'. cbn [g_type g_packets] in M'. destruct (g_type g =? 3) eqn:G3; [|discriminate].
    apply C33_exact in M'; [|exact T']. destruct M' as [[X _]|[_ X]]; [rewrite X in G3; discriminate|exact X]. }
  pose proof (locate ps' pre q post KB G TQ) as L.
  assert (SIGQ : forall P, signature_of P q -> P (t2_type s)) by (intros P [_ (z & Z & HZ)]; assert (z = s) as -> by congruence; exact HZ).
  assert (NK7 : forall r, nearest_key pre = Some r -> p_tag r = 7 -> exists kk x, p_body r = PSecret kk x).
  { intros r HR R7. apply typed_secret; [|exact R7]. unfold nearest_key in HR. apply find_some in HR as [HR _]. apply in_rev in HR.
    rewrite Forall_forall in T'. apply T'. rewrite G. apply in_or_app. auto. }
  assert (TY : t2_type s = t2_type s0) by (apply fill_one_same in FO; apply FO).
  assert (DONE : forall digest x d1, fill_sig s0 digest k sec pass d = Ok (s, d1) -> hash_use (t2_hash s0) x = Ok digest ->
     (forall vals, s = with_values s0 (prefix digest 2) vals -> over pre k s digest) ->
     exists digest, over pre k s digest /\ t2_left16 s = prefix digest 2 /\ verify_key digest k s = Ok 1%Z).
  { intros digest x d1 FS H O. destruct (fill_sig_good _ _ _ _ _ _ _ _ _ _ FS H D I K FF SP) as (vals & S & L16 & V). exists digest. split; [now apply (O vals)|]. auto. }
  unfold fill_one in FO. cbv zeta in FO. rewrite <- TY in FO.
  destruct (is_certification (t2_type s)) eqn:C.
  - assert (CE : certifies (t2_type s)) by (clear - C; unfold is_certification, certifies, mem in *; cbn in *; lia).
    destruct (p_tag kp =? 5) eqn:K5; [|apply Ok_inj in FO; congruence]. apply N.eqb_eq in K5.
    destruct L as [L|[(_ & (u & NU) & NKp)|(r & _ & NR & R7)]].
    + apply SIGQ in L. rewrite <- L in C. discriminate.
    + rewrite NU in FO. assert (kp = p) as -> by congruence. apply bind_ok in FO as (digest & DG & FO). apply bind_ok in FO as ([x y] & FS & FO).
      apply Ok_inj in FO. assert (x = s) as -> by congruence. unfold as_key in DG. rewrite PB in DG. cbn [bind] in DG.
      pose proof (to_sign_cert_use _ _ _ _ _ _ DG) as (dd & HU). apply (DONE _ _ _ FS HU). intros vals S. left. split; [exact CE|]. exists u. split; [exact NU|].
      rewrite S at 2. now rewrite to_sign_cert_values.
    + rewrite NR in NK. assert (r = kp) as -> by congruence. rewrite R7 in K5. discriminate.
  - assert (NC : ~ certifies (t2_type s)) by (clear - C; unfold is_certification, certifies, mem in *; cbn in *; lia).
    destruct (t2_type s =? 24) eqn:E24; [|destruct (t2_type s =? 32) eqn:E32; [|destruct (t2_type s =? 40) eqn:E40; [|destruct (t2_type s =? 48) eqn:E48; [|apply Ok_inj in FO; congruence]]]].
    + destruct (p_tag kp =? 7) eqn:K7; [|apply Ok_inj in FO; congruence]. apply N.eqb_eq in K7. apply N.eqb_eq in E24.
      destruct (NK7 _ NK K7) as (kk & x & B7). apply bind_ok in FO as (digest & DG & FO). apply bind_ok in FO as ([s1 y] & FS & FO).
      apply Ok_inj in FO. assert (s1 = s) as -> by congruence. unfold as_key in DG. rewrite B7 in DG. cbn [bind] in DG.
      pose proof DG as DG'. unfold to_sign_18 in DG'. apply hashed_with_use in DG' as (dd & HU). apply (DONE _ _ _ FS HU). intros vals S. right. left. split; [exact E24|].
      exists kp, kk, x. repeat (split; [assumption|]). rewrite S. now rewrite to_sign_18_values.
    + apply N.eqb_eq in E32. apply bind_ok in FO as (digest & DG & FO). apply bind_ok in FO as ([s1 y] & FS & FO).
      apply Ok_inj in FO. assert (s1 = s) as -> by congruence.
      pose proof DG as DG'. unfold to_sign_20 in DG'. apply hashed_with_use in DG' as (dd & HU). apply (DONE _ _ _ FS HU). intros vals S. right. right. left. split; [exact E32|].
      rewrite S. now rewrite to_sign_20_values.
    + apply N.eqb_eq in E40.
      destruct L as [L|[(L & _)|(r & _ & NR & R7)]]; [apply SIGQ in L; rewrite <- L in E40; discriminate|apply SIGQ in L; destruct L as [L|L]; [tauto|rewrite L in E40; discriminate]|].
      rewrite NR in NK. assert (r = kp) as -> by congruence.
      destruct (NK7 _ NR R7) as (kk & x & B7). apply bind_ok in FO as (digest & DG & FO). apply bind_ok in FO as ([s1 y] & FS & FO).
      apply Ok_inj in FO. assert (s1 = s) as -> by congruence. unfold as_key in DG. rewrite B7 in DG. cbn [bind] in DG.
      pose proof DG as DG'. unfold to_sign_28 in DG'. apply hashed_with_use in DG' as (dd & HU). apply (DONE _ _ _ FS HU). intros vals S. do 3 right. left. split; [exact E40|].
      exists kp, kk, x. repeat (split; [assumption|]). rewrite S. rewrite to_sign_28_values. now rewrite <- R7.
    + apply N.eqb_eq in E48. destruct (nearest_user pre) as [u|] eqn:NU; [|now destruct (N48 E48)].
      apply bind_ok in FO as (digest & DG & FO). apply bind_ok in FO as ([s1 y] & FS & FO).
      apply Ok_inj in FO. assert (s1 = s) as -> by congruence.
      pose proof DG as DG'. unfold to_sign_30 in DG'. apply hashed_with_use in DG' as (dd & HU). apply (DONE _ _ _ FS HU). intros vals S. do 4 right. split; [exact E48|].
      exists u. split; [exact NU|]. rewrite S. now rewrite to_sign_30_values.
Qed.

Lemma fill_loop_none k sec pass id : forall ps pre draws rest,
  fill_loop k sec pass id (nearest_key pre) (nearest_user pre) ps draws = Ok (None, rest) ->
  exists a p b, ps = a ++ p :: b /\
    ((is_key_packet (p_tag p) = false /\ is_user (p_tag p) = false /\ p_tag p <> 2) \/
     exists s kp d d', p_tag p = 2 /\ p_body p = PSig s /\ sig_keyid s = Ok id /\ nearest_key (pre ++ a) = Some kp /\
       fill_one k sec pass kp (nearest_user (pre ++ a)) s d = Ok (None, d')).
Proof.
  induction ps as [|p r IH]; intros pre draws rest E; cbn [fill_loop] in E; [apply Ok_inj in E; congruence|]. cbv zeta in E.
  assert (STEP : forall q key user d, (' (o, d') <- fill_loop k sec pass id key user r d ;; Ok (match o with None => None | Some r => Some (q :: r) end, d')) = Ok (None, rest) ->
    key = nearest_key (pre ++ [p]) -> user = nearest_user (pre ++ [p]) ->
    exists a p0 b, p :: r = a ++ p0 :: b /\
    ((is_key_packet (p_tag p0) = false /\ is_user (p_tag p0) = false /\ p_tag p0 <> 2) \/
     exists s kp d d', p_tag p0 = 2 /\ p_body p0 = PSig s /\ sig_keyid s = Ok id /\ nearest_key (pre ++ a) = Some kp /\
       fill_one k sec pass kp (nearest_user (pre ++ a)) s d = Ok (None, d'))).
  { intros q key user d H -> ->. apply bind_ok in H as ([o d'] & F & H). destruct o as [r'|]; [apply Ok_inj in H; congruence|].
    apply IH in F as (a & p0 & b & -> & X). exists (p :: a), p0, b. split; [reflexivity|]. now rewrite <- !app_assoc in X. }
  destruct (is_key_packet (p_tag p)) eqn:IK.
  { assert (M : mem [5; 6; 7; 14] (p_tag p) = true) by (clear - IK; unfold is_key_packet, is_primary_key, is_subkey, mem in *; cbn in *; lia).
    assert (M' : mem [5; 6; 7; 14; 13; 17] (p_tag p) = true /\ mem [13; 17] (p_tag p) = false) by (clear - M; unfold mem in *; cbn in *; split; lia).
    apply (STEP _ _ _ _ E); [now rewrite nearest_key_snoc, M|destruct M' as [M1 M2]; now rewrite nearest_user_snoc, M1, M2]. }
  assert (M : mem [5; 6; 7; 14] (p_tag p) = false) by (clear - IK; unfold is_key_packet, is_primary_key, is_subkey, mem in *; cbn in *; lia).
  destruct (is_user (p_tag p)) eqn:IU.
  { assert (M' : mem [5; 6; 7; 14; 13; 17] (p_tag p) = true) by (clear - IU; unfold is_user, mem in *; cbn in *; lia).
    apply (STEP _ _ _ _ E); [now rewrite nearest_key_snoc, M|unfold is_user in IU; now rewrite nearest_user_snoc, M', IU]. }
  destruct (p_tag p =? 2) eqn:T2; [|exists [], p, r; split; [reflexivity|]; left; apply N.eqb_neq in T2; auto]. apply N.eqb_eq in T2.
  assert (M' : mem [5; 6; 7; 14; 13; 17] (p_tag p) = false) by (rewrite T2; reflexivity).
  apply bind_ok in E as (s & AS & E). apply bind_ok in E as (i & KI & E).
  assert (PB : p_body p = PSig s) by (unfold as_sig in AS; destruct (p_body p); try discriminate; apply Ok_inj in AS; congruence).
  destruct (beq i id) eqn:BI.
  - apply beq_eq in BI. subst i. destruct (nearest_key pre) as [kp|] eqn:NK; [|discriminate].
    apply bind_ok in E as ([o d1] & FO & E). destruct o as [s'|].
    + apply (STEP _ _ _ _ E); [now rewrite nearest_key_snoc, M|now rewrite nearest_user_snoc, M'].
    + exists [], p, r. split; [reflexivity|]. right. exists s, kp, draws, d1. rewrite app_nil_r. auto.
  - apply (STEP _ _ _ _ E); [now rewrite nearest_key_snoc, M|now rewrite nearest_user_snoc, M'].
Qed.
Lemma in_block_tag ps p : key_block 5 7 ps -> In p ps -> In (p_tag p) [2; 5; 7; 13; 17].
Proof.
  intros (k & revs & us & subs & -> & K & R & U & _ & S & _) I. destruct I as [<-|I]; [rewrite K; cbn; auto|]. apply in_app_or in I as [I|I].
  { rewrite Forall_forall in R. destruct (R _ I) as [-> _]. cbn. auto. }
  apply in_app_or in I as [I|I]; apply in_concat in I as (l & Il & I).
  - rewrite Forall_forall in U. destruct (U _ Il) as (u & sigs & -> & TU & G). destruct I as [<-|I]; [destruct TU as [-> | ->]; cbn; auto 6|].
    rewrite Forall_forall in G. destruct (G _ I) as [-> _]. cbn. auto.
  - rewrite Forall_forall in S. destruct (S _ Il) as (u & sigs & -> & TU & G & _). destruct I as [<-|I]; [rewrite TU; cbn; auto|].
    rewrite Forall_forall in G. destruct (G _ I) as [-> _]. cbn. auto.
Qed.
(** It reports failure only for a key that is not meaningful, or with a signature by the primary
    key below a subkey that is none of: binding, revocation of a key, a subkey, a certification. *)
Theorem C75_refuses : forall g pass draws g' rest id, fill_key_sigs g pass draws = Ok (false, g', rest) -> Forall typed (g_packets g) -> keyid g = Ok id ->
  secret_meaningful g = Ok false \/
  exists pre q post s kp, g_packets g = pre ++ q :: post /\ p_tag q = 2 /\ p_body q = PSig s /\ sig_keyid s = Ok id /\
    nearest_key pre = Some kp /\ p_tag kp = 7 /\ ~ In (t2_type s) [24; 32; 40; 48].
Proof.
  intros g pass draws g' rest id E T KI. unfold fill_key_sigs in E. apply bind_ok in E as (m & M & E). destruct m; cbn [negb] in E; [right|now left].
  apply bind_ok in E as (id' & KI' & E). rewrite KI in KI'. apply Ok_inj in KI'. subst id'.
  apply bind_ok in E as (p & VP & E). apply bind_ok in E as ([k sec] & AS & E). apply bind_ok in E as ([o d] & F & E).
  destruct o; [apply Ok_inj in E; congruence|].
  assert (KB : key_block 5 7 (g_packets g)).
  { unfold secret_meaningful, meaningful in M. destruct (g_type g =? 3) eqn:G3; [|discriminate].
    apply C33_exact in M; [|exact T]. destruct M as [[X _]|[_ X]]; [rewrite X in G3; discriminate|exact X]. }
  apply (fill_loop_none k sec pass id (g_packets g) []) in F as (a & q & b & G & [(A & B & C)|(s & kp & d1 & d2 & TQ & BQ & SI & NK & FO)]).
  { exfalso. assert (I : In (p_tag q) [2; 5; 7; 13; 17]) by (apply (in_block_tag _ _ KB); rewrite G; apply in_or_app; cbn; auto).
    cbn in I. destruct I as [I|[I|[I|[I|[I|[]]]]]]; rewrite <- I in A, B, C; (discriminate || congruence). }
  cbn [app] in NK, FO. exists a, q, b, s, kp. do 5 (split; [assumption|]).
  pose proof (locate _ _ _ _ KB G TQ) as L.
  assert (SIGQ : forall P, signature_of P q -> P (t2_type s)) by (intros P [_ (z & Z & HZ)]; assert (z = s) as -> by congruence; exact HZ).
  assert (FILL : forall r, (d0 <- r ;; ' (x, y) <- fill_sig s d0 k sec pass d1 ;; Ok (Some x, y)) = Ok (None, d2) -> False).
  { intros r H. apply bind_ok in H as (d0 & _ & H). apply bind_ok in H as ([x y] & _ & H). apply Ok_inj in H. congruence. }
  assert (HP : hd_error (g_packets g) = Some p).
  { destruct (g_packets g); [discriminate|]. cbn in VP. apply Ok_inj in VP. now subst. }
  assert (P5 : p_tag p = 5).
  { destruct KB as (k0 & ? & ? & ? & E0 & K0 & _). rewrite E0 in HP. cbn in HP. congruence. }
  unfold fill_one in FO. cbv zeta in FO.
  destruct L as [L|[(L & (u & NU) & NK')|(r & _ & NR & R7)]].
  - exfalso. apply SIGQ in L. rewrite <- L in FO. cbn [is_certification mem existsb N.eqb Pos.eqb orb] in FO. now apply FILL in FO.
  - exfalso. apply SIGQ in L. rewrite NU in FO. assert (kp = p) as -> by congruence. rewrite P5 in FO.
    destruct L as [L|L]; [|rewrite L in FO; cbn [is_certification mem existsb N.eqb Pos.eqb orb] in FO; now apply FILL in FO].
    assert (C : is_certification (t2_type s) = true) by (clear - L; unfold is_certification, certifies, mem in *; cbn in *; lia).
    rewrite C in FO. cbn [N.eqb Pos.eqb] in FO. now apply FILL in FO.
  - rewrite NR in NK. assert (r = kp) as -> by congruence. split; [exact R7|]. intros I. rewrite R7 in FO.
    cbn in I. destruct I as [I|[I|[I|[I|[]]]]]; rewrite <- I in FO; cbn [is_certification mem existsb N.eqb Pos.eqb orb] in FO.
    + now apply FILL in FO.
    + now apply FILL in FO.
    + now apply FILL in FO.
    + destruct (nearest_user a); [now apply FILL in FO|apply Ok_inj in FO; congruence].
Qed.

(** Example: the DSA key on a toy group with every kind of signature, two of them by others. *)
Definition toy_id : bytes := [38; 25; 250; 203; 37; 239; 15; 202].
Definition own (type : N) : packet := new_packet 2 (PSig (mkTag2 4 type 17 2 [] [] 0 [] [(false, Sub2 1000)] [(false, Sub16 toy_id)])).
Definition toy_full (more : list packet) : pgp :=
  mkPgp true 3 [] ([new_packet 5 (PSecret toy_key toy_sec); own 32; ex_user "a"; own 19; ex_sig 16; own 48; new_packet 7 (PSecret toy_key toy_sec); own 24; ex_sig 24; own 40] ++ more).
Definition toy_filled : result (bool * pgp * list N) := fill_key_sigs (toy_full []) [] [3; 3; 3; 3; 3].
Example C75_ex : Forall typed (g_packets (toy_full [])) /\ keyid (toy_full []) = Ok toy_id /\ decrypt_secret_keys toy_sec [] = Ok [7] /\
  key_pair 17 [7] (k_mpi toy_key) /\
  match toy_filled with
  | Ok (ok, g, rest) => ok = true /\ rest = [] /\ map p_tag (g_packets g) = [5; 2; 13; 2; 2; 2; 7; 2; 2; 2] /\
      map (fun p => match p_body p with PSig s => length (t2_mpi s) | _ => 0%nat end) (g_packets g) = [0; 2; 0; 2; 1; 2; 0; 2; 1; 2]%nat
  | _ => False
  end.
Proof.
  split; [typed_all|]. split; [vm_compute; reflexivity|]. split; [vm_compute; reflexivity|]. split.
  { exists 23, 11, 4, 8, 7, [], []. split; [reflexivity|]. split; [reflexivity|]. exact Verif.Props.C41_C43_C60.dsa_toy_key. }
  vm_compute. repeat split.
Qed.
Example C75_refuses_ex : exists g, fill_key_sigs (toy_full [own 19]) [] [3; 3; 3; 3; 3] = Ok (false, g, []) /\ secret_meaningful (toy_full [own 19]) = Ok true /\
  Forall typed (g_packets (toy_full [own 19])).
Proof. eexists. split; [vm_compute; reflexivity|]. split; [vm_compute; reflexivity|typed_all]. Qed.

(** A primary key of an algorithm that cannot sign: success is reported and no signature has values. *)
Theorem C75_algorithm_refuted :
  (forall g pass draws g' rest p k sec, fill_key_sigs g pass draws = Ok (true, g', rest) -> hd_error (g_packets g) = Some p -> p_body p = PSecret k sec ->
     ~ In (k_pka k) [1; 2; 17] -> forall q s, In q (g_packets g') -> p_body q = PSig s -> exists q0 s0, In q0 (g_packets g) /\ p_body q0 = PSig s0 /\ t2_mpi s = t2_mpi s0) /\
  exists g g', fill_key_sigs g [] [] = Ok (true, g', []) /\ exists p k sec id, hd_error (g_packets g) = Some p /\ p_body p = PSecret k sec /\ keyid g = Ok id /\
    k_pka k = 3 /\ exists q s, In q (g_packets g') /\ p_body q = PSig s /\ sig_keyid s = Ok id /\ t2_mpi s = [].
Proof.
  split.
  - intros g pass draws g' rest p k sec E HD PB NI q s IQ BQ.
    apply fill_inv in E as [[? _]|(_ & M & p0 & more & k0 & sec0 & id0 & ps' & GP & PB0 & KI0 & -> & F)]; [discriminate|].
    rewrite GP in HD. cbn in HD. assert (p0 = p) as -> by congruence. assert (k0 = k /\ sec0 = sec) as [-> ->] by (split; congruence). cbn [g_packets] in IQ.
    clear GP HD PB PB0 KI0 M. revert F IQ. generalize (None (A := packet)) at 1 as key. generalize (None (A := packet)) at 1 as user. revert draws ps'.
    assert (ONE : forall kp u s1 d1 s2 d2, fill_one k sec pass kp u s1 d1 = Ok (Some s2, d2) -> t2_mpi s2 = t2_mpi s1).
    { intros kp u s1 d1 s2 d2 FO.
      assert (SELF : Ok (Some s1, d1) = Ok (Some s2, d2) -> t2_mpi s2 = t2_mpi s1) by (intros H; apply Ok_inj in H; congruence).
      assert (FILL : forall r, (d0 <- r ;; ' (x, y) <- fill_sig s1 d0 k sec pass d1 ;; Ok (Some x, y)) = Ok (Some s2, d2) -> t2_mpi s2 = t2_mpi s1).
      { intros r H. apply bind_ok in H as (d0 & _ & H). apply bind_ok in H as ([x y] & FS & H). apply Ok_inj in H. assert (x = s2) as -> by congruence.
        unfold fill_sig in FS. apply bind_ok in FS as (pri & _ & FS). unfold sign_with_pka in FS.
        assert (A1 : (k_pka k =? 1) || (k_pka k =? 2) = false) by (clear - NI; cbn in NI; lia). assert (A2 : (k_pka k =? 17) = false) by (clear - NI; cbn in NI; lia).
        rewrite A1, A2 in FS. cbn [bind] in FS. apply Ok_inj in FS. assert (s2 = with_values s1 (prefix d0 2) (t2_mpi s1)) as -> by congruence. now destruct s1. }
      unfold fill_one in FO. cbv zeta in FO. destruct (is_certification _).
      - destruct (p_tag kp =? 5); [|apply Ok_inj in FO; congruence]. destruct u; [now apply FILL in FO|now apply SELF].
      - destruct (t2_type s1 =? 24); [destruct (p_tag kp =? 7); [now apply FILL in FO|apply Ok_inj in FO; congruence]|].
        destruct (t2_type s1 =? 32); [now apply FILL in FO|]. destruct (t2_type s1 =? 40); [now apply FILL in FO|].
        destruct (t2_type s1 =? 48); [destruct u; [now apply FILL in FO|now apply SELF]|apply Ok_inj in FO; congruence]. }
    induction (g_packets g) as [|p1 r IH]; intros draws ps' user key F IQ; cbn [fill_loop] in F; [apply Ok_inj in F; assert (ps' = []) as -> by congruence; destruct IQ|].
    cbv zeta in F.
    assert (STEP : forall q1 key user d, (' (o, d') <- fill_loop k sec pass id0 key user r d ;; Ok (match o with None => None | Some r => Some (q1 :: r) end, d')) = Ok (Some ps', rest) ->
      (q = q1 -> exists s0, p_body p1 = PSig s0 /\ t2_mpi s = t2_mpi s0) -> exists q0 s0, In q0 (p1 :: r) /\ p_body q0 = PSig s0 /\ t2_mpi s = t2_mpi s0).
    { intros q1 key1 user1 d H X. apply bind_ok in H as ([o d'] & F1 & H). destruct o as [r'|]; [|apply Ok_inj in H; congruence].
      apply Ok_inj in H. assert (ps' = q1 :: r') as -> by congruence. destruct IQ as [<-|IQ]; [destruct (X eq_refl) as (s0 & ? & ?); exists p1, s0; cbn; auto|].
      assert (rest = d') as -> by congruence. destruct (IH _ _ _ _ F1 IQ) as (q0 & s0 & ? & ?). exists q0, s0. cbn. tauto. }
    assert (SELF : q = p1 -> exists s0, p_body p1 = PSig s0 /\ t2_mpi s = t2_mpi s0) by (intros <-; eauto).
    destruct (is_key_packet _); [now apply (STEP _ _ _ _ F)|]. destruct (is_user _); [now apply (STEP _ _ _ _ F)|].
    destruct (p_tag p1 =? 2); [|apply Ok_inj in F; congruence]. apply bind_ok in F as (s1 & AS & F). apply bind_ok in F as (i & _ & F).
    destruct (beq i id0); [|now apply (STEP _ _ _ _ F)]. destruct key as [kp|]; [|discriminate]. apply bind_ok in F as ([o d1] & FO & F).
    destruct o as [s2|]; [|apply Ok_inj in F; congruence]. apply (STEP _ _ _ _ F). intros ->. cbn in BQ. assert (s2 = s) as -> by congruence.
    exists s1. split; [unfold as_sig in AS; destruct (p_body p1); try discriminate; apply Ok_inj in AS; congruence|]. now apply ONE in FO.
  - set (k := mkKey 4 1000 3 [35; 5] 0). assert (X : exists id, get_keyid k = Ok id) by (eexists; vm_compute; reflexivity).
    set (id := match get_keyid k with Ok i => i | _ => [] end).
    exists (mkPgp true 3 [] [new_packet 5 (PSecret k (mkSecret 0 0 None [] [0; 3; 5; 0; 8])); ex_user "a"; new_packet 2 (PSig (mkTag2 4 19 3 2 [] [] 0 [] [(false, Sub2 1000)] [(false, Sub16 id)]))]).
    eexists. split; [vm_compute; reflexivity|]. do 4 eexists. split; [reflexivity|]. split; [reflexivity|]. split; [vm_compute; reflexivity|]. split; [reflexivity|].
    do 2 eexists. split; [right; right; left; reflexivity|]. split; [reflexivity|]. split; reflexivity.
Qed.
(** A secret that does not come out (a wrong passphrase, a stored sum that is wrong): undefined. *)
Theorem C75_secret_refuted : exists g, secret_meaningful g = Ok true /\ Forall typed (g_packets g) /\ fill_key_sigs g [] [3] = UB.
Proof.
  exists (mkPgp true 3 [] [new_packet 5 (PSecret toy_key (mkSecret 0 0 None [] [0; 3; 5; 0; 9])); ex_user "a"; own 19]).
  split; [vm_compute; reflexivity|]. split; [typed_all|]. vm_compute. reflexivity.
Qed.
(** A revocation of a certification below a subkey: success is reported and the signature is not made. *)
Theorem C75_unfilled_refuted : exists g' pre q s, fill_key_sigs (toy_full [own 48]) [] [3; 3; 3; 3; 3] = Ok (true, g', []) /\ g_packets g' = pre ++ [q] /\
  p_body q = PSig s /\ sig_keyid s = Ok toy_id /\ t2_type s = 48 /\ t2_mpi s = [].
Proof.
  eexists. exists (firstn 10 (match fill_key_sigs (toy_full [own 48]) [] [3; 3; 3; 3; 3] with Ok (_, g, _) => g_packets g | _ => [] end)). exists (own 48). eexists.
  split; [vm_compute; reflexivity|]. split; [vm_compute; reflexivity|]. repeat split.
Qed.

Print Assumptions C75_unchanged.
Print Assumptions C75_kept.
Print Assumptions C75_verifies_partial.
Print Assumptions C75_refuses.
Print Assumptions C75_algorithm_refuted.
Print Assumptions C75_secret_refuted.
Print Assumptions C75_unfilled_refuted.
