(** Certification of a user ID. *)
From Verif Require Export Proofs.SignP Spec.Certify.
Local Open Scope N_scope.

Lemma starts_iff h : forall s, starts_with h s = true <-> exists b, s = h ++ b.
Proof.
  induction h as [|c h IH]; intros s; cbn [starts_with].
  - split; [exists s; reflexivity|reflexivity].
  - destruct s as [|d s]; [split; [discriminate|intros (b & [=])]|].
    rewrite andb_true_iff, N.eqb_eq, IH. split.
    + intros (-> & b & ->). now exists b.
    + intros (b & [= -> ->]). eauto.
Qed.
Lemma occurs_iff h : forall s, occurs h s = true <-> contains h s.
Proof.
  induction s as [|c s IH]; cbn [occurs]; rewrite orb_true_iff, starts_iff.
  - split.
    + intros [(b & E)|]; [|discriminate]. exists [], b. exact E.
    + intros (a & b & E). left. destruct a; [|discriminate]. now exists b.
  - rewrite IH. split.
    + intros [(b & E)|(a & b & ->)]; [now exists [], b|]. now exists (c :: a), b.
    + intros ([|x a] & b & E); [left; now exists b|]. right. injection E as <- ->. now exists a, b.
Qed.
Lemma find_user_ok user : forall ps b u a, find_user user ps = Ok (Some (b, u, a)) ->
  ps = b ++ u :: a /\ p_tag u = 13 /\ (exists text, p_body u = PRaw text /\ contains user text) /\
  (forall p text, In p b -> p_tag p = 13 -> p_body p = PRaw text -> ~ contains user text).
Proof.
  induction ps as [|p r IH]; intros b u a E; cbn [find_user] in E; [discriminate|].
  apply bind_ok in E as (x & X & E). destruct x.
  - apply Ok_inj in E. injection E as <- <- <-. split; [reflexivity|]. destruct (p_tag p =? 13) eqn:T; [|discriminate].
    split; [lia|]. apply bind_ok in X as (d & D & X). apply Ok_inj in X. split; [|intros ? ? []].
    unfold as_user_id in D. destruct (p_body p); try discriminate. apply Ok_inj in D. subst. exists d. split; [reflexivity|]. now apply occurs_iff.
  - apply bind_ok in E as (o & O & E). apply Ok_inj in E. destruct o as [[[b' u'] a']|]; [|discriminate]. injection E as <- <- <-.
    destruct (IH _ _ _ O) as (-> & T & C & N). split; [reflexivity|]. split; [exact T|]. split; [exact C|].
    intros q text [<-|Hq]; [|now apply N]. intros Tq Bq. rewrite Tq in X. cbn [N.eqb Pos.eqb] in X.
    unfold as_user_id in X. rewrite Bq in X. cbn [bind] in X. apply Ok_inj in X. intros HC. apply occurs_iff in HC. congruence.
Qed.
Lemma find_user_none user : forall ps, Forall typed ps ->
  (forall p text, In p ps -> p_tag p = 13 -> p_body p = PRaw text -> ~ contains user text) -> find_user user ps = Ok None.
Proof.
  induction ps as [|p r IH]; intros T H; [reflexivity|]. cbn [find_user]. inversion_clear T as [|? ? Tp Tr].
  assert (X : (if p_tag p =? 13 then d <- as_user_id p ;; Ok (occurs user d) else Ok false) = Ok false).
  { destruct (N.eqb_spec (p_tag p) 13) as [E|E]; [|reflexivity]. unfold typed in Tp. rewrite E in Tp. destruct Tp as (d & D).
    unfold as_user_id. rewrite D. cbn [bind]. f_equal. destruct (occurs user d) eqn:O; [|reflexivity]. exfalso.
    apply occurs_iff in O. exact (H p d (or_introl eq_refl) E D O). }
  rewrite X. cbn [bind]. rewrite IH; auto. intros q text Hq. apply H. now right.
Qed.
(** The signatures already there. *)
Lemma already_zero k k' u : forall ps sigs rest, already k k' u ps = Ok (0%Z, sigs, rest) ->
  ps = sigs ++ rest /\ Forall is_signature sigs /\ first_is_no_signature rest /\
  (forall p, In p sigs -> exists s, as_sig p = Ok s /\ verify_certification k k' (Some u) s = Ok 0%Z).
Proof.
  induction ps as [|p r IH]; intros sigs rest E; cbn [already] in E.
  - apply Ok_inj in E. injection E as <- <-. repeat split; auto. { intros ? ? [=]. } intros ? [].
  - destruct (p_tag p =? 2) eqn:T.
    + apply bind_ok in E as (s & S & E). apply bind_ok in E as (rc & R & E). destruct (rc =? 0)%Z eqn:Z.
      * apply bind_ok in E as (((x & a) & b) & A & E). apply Ok_inj in E.
        assert (x = 0%Z) as -> by congruence. assert (sigs = p :: a) as -> by congruence. assert (b = rest) as -> by congruence.
        destruct (IH _ _ A) as (-> & F & N & V). apply Z.eqb_eq in Z. subst rc. split; [reflexivity|].
        split; [constructor; [unfold is_signature; lia|exact F]|]. split; [exact N|]. intros q [<-|Hq]; eauto.
      * apply Ok_inj in E. apply Z.eqb_neq in Z. congruence.
    + apply Ok_inj in E. injection E as <- <-. split; [reflexivity|]. split; [constructor|]. split; [|intros ? []].
      intros q r' [= <- <-]. unfold is_signature. lia.
Qed.
Lemma already_back k k' u : forall sigs rest s, Forall is_signature sigs ->
  (forall p, In p sigs -> exists s, as_sig p = Ok s /\ verify_certification k k' (Some u) s = Ok 0%Z) ->
  verify_certification k k' (Some u) s = Ok 1%Z ->
  exists a b, already k k' u (sigs ++ new_packet 2 (PSig s) :: rest) = Ok (1%Z, a, b).
Proof.
  induction sigs as [|p r IH]; intros rest s F V E; cbn [app already].
  - cbn [new_packet p_tag N.eqb Pos.eqb]. change (as_sig _) with (Ok s). cbn [bind]. rewrite E. cbn [bind]. cbn. eauto.
  - inversion_clear F as [|? ? P F']. destruct (V p (or_introl eq_refl)) as (s' & S & Z). rewrite P. cbn [N.eqb Pos.eqb].
    rewrite S. cbn [bind]. rewrite Z. cbn [bind]. change ((0 =? 0)%Z) with true. cbv iota.
    destruct (IH rest s F' (fun q Hq => V q (or_intror Hq)) E) as (a & b & X). rewrite X. cbn [bind]. eauto.
Qed.
Lemma already_verdict k k' u ps z a b : already k k' u ps = Ok (z, a, b) -> z <> 0%Z -> 
  exists p s, In p ps /\ p_tag p = 2 /\ as_sig p = Ok s /\ verify_certification k k' (Some u) s = Ok z.
Proof.
  revert a b. induction ps as [|p r IH]; intros a b E NZ; cbn [already] in E.
  - apply Ok_inj in E. congruence.
  - destruct (p_tag p =? 2) eqn:T; [|apply Ok_inj in E; congruence].
    apply bind_ok in E as (s & S & E). apply bind_ok in E as (rc & R & E). destruct (rc =? 0)%Z eqn:Z.
    + apply bind_ok in E as (((x & a') & b') & A & E). apply Ok_inj in E. assert (x = z) as -> by congruence.
      destruct (IH _ _ A NZ) as (q & s' & I & X). exists q, s'. split; [now right|exact X].
    + apply Ok_inj in E. assert (rc = z) as -> by congruence. exists p, s. repeat split; auto; [now left|lia].
Qed.

(** ** The composition of the new key *)
Lemma same_sigs : forall a b c d : list packet, a ++ b = c ++ d -> Forall is_signature a -> Forall is_signature c ->
  first_is_no_signature b -> first_is_no_signature d -> a = c /\ b = d.
Proof.
  induction a as [|x a IH]; intros b c d E Fa Fc Nb Nd.
  - destruct c as [|y c]; [auto|]. exfalso. cbn [app] in E. inversion_clear Fc as [|? ? P _]. eapply Nb; eauto.
  - inversion_clear Fa as [|? ? P Fa']. destruct c as [|y c].
    + exfalso. cbn [app] in E. symmetry in E. eapply Nd; eauto.
    + inversion_clear Fc as [|? ? _ Fc']. cbn [app] in E. injection E as -> E. destruct (IH b c d E Fa' Fc' Nb Nd) as [-> ->]. auto.
Qed.
Lemma sigs_first : forall (sigs X bs Y : list packet) u, Forall is_signature sigs -> p_tag u = 13 -> sigs ++ X = bs ++ u :: Y ->
  exists b, bs = sigs ++ b /\ X = b ++ u :: Y.
Proof.
  induction sigs as [|p r IH]; intros X bs Y u F T E; [exists bs; split; [reflexivity|exact E]|]. apply Forall_cons_iff in F as [P F'].
  destruct bs as [|q bs]; cbn [app] in E.
  - assert (p = u) as -> by congruence. unfold is_signature in P. congruence.
  - assert (p = q) as -> by congruence. assert (E' : r ++ X = bs ++ u :: Y) by congruence. destruct (IH X bs Y u F' T E') as (b & -> & ->). exists b. auto.
Qed.
Lemma sig_of_is P l : Forall (signature_of P) l -> Forall is_signature l.
Proof. apply Forall_impl. intros p (T & _). exact T. Qed.
Lemma user_heads us tail : Forall user_part us -> first_is_no_signature tail -> first_is_no_signature (concat us ++ tail).
Proof.
  intros F N. destruct us as [|x us]; [exact N|]. inversion_clear F as [|? ? (u & sigs & -> & T & _) _].
  intros p r [= <- _]. unfold is_signature. lia.
Qed.
Lemma insert_users new tail : signature_of certifies new -> first_is_no_signature tail -> Forall (fun p => p_tag p <> 13) tail ->
  forall us bs u sigs rest, Forall user_part us -> concat us ++ tail = bs ++ u :: sigs ++ rest -> p_tag u = 13 ->
  Forall is_signature sigs -> first_is_no_signature rest ->
  exists us', concat us' ++ tail = bs ++ u :: sigs ++ new :: rest /\ Forall user_part us' /\ Exists has_user_id us'.
Proof.
  intros HN Nt F13. induction us as [|part us IH]; intros bs u sigs rest F E T S Nr.
  - exfalso. cbn [concat app] in E. subst tail. rewrite Forall_app in F13. destruct F13 as [_ F13]. inversion_clear F13. contradiction.
  - inversion_clear F as [|? ? P F']. destruct P as (u0 & sigs0 & -> & T0 & C0). destruct bs as [|b bs].
    + cbn [concat app] in E. injection E as -> E. rewrite <- app_assoc in E.
      destruct (same_sigs _ _ _ _ E (sig_of_is _ _ C0) S (user_heads _ _ F' Nt) Nr) as [-> <-].
      exists ((u :: sigs ++ [new]) :: us). split; [|split].
      * cbn [concat app]. rewrite <- !app_assoc. reflexivity.
      * constructor; [|exact F']. exists u, (sigs ++ [new]). split; [reflexivity|]. split; [auto|]. apply Forall_app. split; [exact C0|].
        constructor; [|constructor]. destruct HN as (TN & s & B & C). split; [exact TN|]. exists s. auto.
      * left. exists u, (sigs ++ [new]). auto.
    + cbn [concat app] in E. injection E as -> E. rewrite <- app_assoc in E.
      destruct (sigs_first _ _ _ _ _ (sig_of_is _ _ C0) T E) as (b' & -> & E').
      destruct (IH b' u sigs rest F' E' T S Nr) as (us' & X & FX & EX).
      exists ((b :: sigs0) :: us'). split; [|split].
      * cbn [concat app]. rewrite <- !app_assoc. now rewrite X.
      * constructor; [|exact FX]. exists b, sigs0. auto.
      * now right.
Qed.
Lemma insert_block prim sub new ps k bs u sigs rest : sub <> 2 -> sub <> 13 -> key_block prim sub ps -> signature_of certifies new ->
  ps = k :: bs ++ u :: sigs ++ rest -> p_tag u = 13 -> Forall is_signature sigs -> first_is_no_signature rest ->
  key_block prim sub (k :: bs ++ u :: sigs ++ new :: rest) /\ Forall (fun p => In (p_tag p) [2; 13; 17; sub]) (bs ++ u :: sigs ++ rest).
Proof.
  intros S2 S13 (k0 & revs & us & subs & E & TK & FR & FU & EU & FS & V3) HN -> T S Nr. injection E as -> E.
  assert (TS : Forall (fun p => p_tag p = 2 \/ p_tag p = sub) (concat subs)).
  { apply Forall_concat. eapply Forall_impl; [|exact FS]. intros l (x & sg & -> & Tx & Fx & _). constructor; [auto|].
    apply sig_of_is in Fx. eapply Forall_impl; [|exact Fx]. intros p Hp. left. exact Hp. }
  assert (Nt : first_is_no_signature (concat subs)).
  { destruct subs as [|x subs]; [intros ? ? [=]|]. inversion_clear FS as [|? ? (y & sg & -> & Ty & _) _]. intros p r [= <- _]. unfold is_signature. congruence. }
  assert (F13 : Forall (fun p => p_tag p <> 13) (concat subs)) by (eapply Forall_impl; [|exact TS]; cbv beta; intros; lia).
  destruct (sigs_first _ _ _ _ _ (sig_of_is _ _ FR) T (eq_sym E)) as (b & -> & E').
  destruct (insert_users new _ HN Nt F13 us b u sigs rest FU E' T S Nr) as (us' & X & FX & EX).
  split.
  - exists k0, revs, us', subs. split; [|auto 10]. rewrite X, <- app_assoc. reflexivity.
  - rewrite E. rewrite !Forall_app. repeat apply conj.
    + apply sig_of_is in FR. eapply Forall_impl; [|exact FR]. intros p Hp. left. symmetry. exact Hp.
    + apply Forall_concat. eapply Forall_impl; [|exact FU]. intros l (x & sg & -> & Tx & Fx).
      apply sig_of_is in Fx. constructor; [cbn [In]; lia|]. eapply Forall_impl; [|exact Fx]. intros p Hp. left. symmetry. exact Hp.
    + eapply Forall_impl; [|exact TS]. cbv beta. cbn [In]. intros p [->| ->]; auto 6.
Qed.
Lemma any_revocation_insert new a b s : as_sig new = Ok s -> p_tag new = 2 -> certifies (t2_type s) ->
  any_revocation (a ++ new :: b) = any_revocation (a ++ b).
Proof.
  intros S T C. induction a as [|p a IH]; cbn [app any_revocation].
  - rewrite T. cbn [N.eqb Pos.eqb]. rewrite S. cbn [bind]. unfold certifies in C. cbn [In] in C.
    replace ((t2_type s =? 40) || (t2_type s =? 48)) with false by lia. reflexivity.
  - rewrite IH. reflexivity.
Qed.
Lemma already_one k k' u ps a b : already k k' u ps = Ok (1%Z, a, b) ->
  exists before p after s, ps = before ++ p :: after /\ Forall is_signature before /\ is_signature p /\ as_sig p = Ok s /\
    verify_certification k k' (Some u) s = Ok 1%Z.
Proof.
  revert a b. induction ps as [|p r IH]; intros a b E; cbn [already] in E.
  - apply Ok_inj in E. congruence.
  - destruct (p_tag p =? 2) eqn:T; [|apply Ok_inj in E; congruence].
    apply bind_ok in E as (s & S & E). apply bind_ok in E as (rc & R & E). destruct (rc =? 0)%Z eqn:Z.
    + apply bind_ok in E as (((x & a') & b') & A & E). apply Ok_inj in E. assert (x = 1%Z) as -> by congruence.
      destruct (IH _ _ A) as (bf & q & af & s' & -> & F & Q & X). exists (p :: bf), q, af, s'. split; [reflexivity|].
      split; [constructor; [unfold is_signature; lia|exact F]|]. auto.
    + apply Ok_inj in E. assert (rc = 1%Z) as -> by congruence. exists [], p, r, s. repeat split; auto. unfold is_signature. lia.
Qed.
Lemma to_sign_cert_values t k tag id s l m : to_sign_cert t k tag id (with_values s l m) = to_sign_cert t k tag id s.
Proof.
  unfold to_sign_cert, to_sign_10, to_sign_11, to_sign_12, to_sign_13, hashed_with, input_cert. 
  assert (E1 : t2_type (with_values s l m) = t2_type s) by now destruct s.
  assert (E2 : t2_version (with_values s l m) = t2_version s) by now destruct s.
  assert (E3 : t2_hash (with_values s l m) = t2_hash s) by now destruct s.
  rewrite E1, E2, E3. destruct (certification (t2_version s) tag id); cbn [bind]; try rewrite trailer_values; reflexivity.
Qed.
Lemma to_sign_cert_use t k tag id s x : to_sign_cert t k tag id s = Ok x -> exists d, hash_use (t2_hash s) d = Ok x.
Proof.
  unfold to_sign_cert. intros E. destruct t as [|t]; [discriminate|].
  do 5 try (destruct t as [t|t|]; try discriminate); apply hashed_with_use in E; exact E.
Qed.
(** What a result that is not empty comes from. *)
Lemma sign_primary_inv a now signee user cert draws r rest : sign_primary_key a now signee user cert draws = Ok (r, rest) ->
  g_packets r <> [] ->
  args_valid a = Ok true /\ revoke_check (a_pri a) = Ok 0%Z /\ g_type signee = 2 /\ meaningful signee = Ok true /\
  revoke_check signee = Ok 0%Z /\ certifies cert /\
  exists p k sec q k' bs u after, find_signing_key (a_pri a) = Ok (Some p) /\ as_secret p = Ok (k, sec) /\
    g_packets signee = q :: bs ++ u :: after /\ as_key q = Ok k' /\
    find_user user (bs ++ u :: after) = Ok (Some (bs, u, after)) /\
    ((exists x y, already k k' u after = Ok (1%Z, x, y) /\ r = signee /\ rest = draws) \/
     exists z sigs tail id digest s, already k k' u after = Ok (z, sigs, tail) /\ z <> 1%Z /\ z <> (-1)%Z /\ get_keyid k = Ok id /\
       is_primary_key (p_tag q) = true /\
       to_sign_cert cert k' (p_tag u) (p_body u) (create_sig (a_version a) cert (k_pka k) (a_hash a) id now) = Ok digest /\
       finish (create_sig (a_version a) cert (k_pka k) (a_hash a) id now) digest k sec (a_pass a) (a_hash a) draws = Ok (Some s, rest) /\
       r = mkPgp (g_armored signee) (g_type signee) (g_keys signee) (q :: bs ++ u :: sigs ++ new_packet 2 (PSig s) :: tail)).
Proof.
  intros E NE. unfold sign_primary_key in E.
  assert (N0 : forall d, Ok (public_new, d) = Ok (r, rest) -> False) by (intros d X; apply Ok_inj in X; apply NE; now replace r with public_new by congruence).
  apply bind_ok in E as (v & V & E). destruct v; cbn [negb] in E; [|now apply N0 in E].
  apply bind_ok in E as (rc & RC & E). destruct (rc =? 0)%Z eqn:Z0; cbn [negb] in E; [|now apply N0 in E]. apply Z.eqb_eq in Z0. subst rc.
  apply bind_ok in E as (m & M & E). destruct m; cbn [negb] in E; [|now apply N0 in E].
  apply bind_ok in E as (rc & RC2 & E). destruct (rc =? 0)%Z eqn:Z0; cbn [negb] in E; [|now apply N0 in E]. apply Z.eqb_eq in Z0. subst rc.
  destruct (is_certification cert) eqn:C; cbn [negb] in E; [|now apply N0 in E].
  apply bind_ok in E as (o & F & E). destruct o as [p|]; [|now apply N0 in E].
  apply bind_ok in E as ((k & sec) & A & E). apply bind_ok in E as (q & Q & E). apply bind_ok in E as (k' & K & E).
  apply bind_ok in E as (o & FU & E). destruct o as [((bs & u) & after)|]; [|now apply N0 in E].
  apply bind_ok in E as (((z & sigs) & tail) & AL & E).
  destruct (z =? -1)%Z eqn:Z1; [now apply N0 in E|]. apply Z.eqb_neq in Z1.
  apply vec_at_0 in Q as (l & Q). rewrite Q in FU. cbn [skipn] in FU.
  pose proof (find_user_ok _ _ _ _ _ FU) as (-> & _).
  unfold public_meaningful in M. destruct (g_type signee =? 2) eqn:T; [|discriminate]. apply N.eqb_eq in T.
  split; [exact V|]. split; [exact RC|]. split; [exact T|]. split; [exact M|]. split; [exact RC2|]. split; [now apply is_cert_iff|].
  exists p, k, sec, q, k', bs, u, after. do 5 (split; [assumption|]).
  destruct (z =? 1)%Z eqn:Z2.
  - apply Z.eqb_eq in Z2. subst z. apply Ok_inj in E. left. exists sigs, tail. split; [exact AL|]. split; congruence.
  - apply Z.eqb_neq in Z2. right. apply bind_ok in E as (id & KI & E). apply bind_ok in E as ((o & d) & SC & E).
    destruct o as [s|]; [|now apply N0 in E]. apply Ok_inj in E. unfold sign_certification in SC.
    destruct (is_primary_key (p_tag q)) eqn:PQ; cbn [negb] in SC; [|discriminate].
    change (t2_type (create_sig (a_version a) cert (k_pka k) (a_hash a) id now)) with cert in SC.
    change (t2_hash (create_sig (a_version a) cert (k_pka k) (a_hash a) id now)) with (a_hash a) in SC. rewrite C in SC. cbn [negb] in SC. rewrite K in SC. cbn [bind] in SC.
    apply bind_ok in SC as (digest & DG & SC). exists z, sigs, tail, id, digest, s.
    assert (d = rest) as -> by congruence. repeat (split; [first [assumption|reflexivity]|]). congruence.
Qed.

(** The signature made is accepted. *)
Lemma certification_accepted a k sec pri cert now id digest k' u draws s rest :
  a_version a = 4 -> decrypt_secret_keys sec (a_pass a) = Ok pri -> key_pair (k_pka k) pri (k_mpi k) -> Forall mpi_fits (k_mpi k) ->
  In (k_pka k) [1; 3; 17] -> get_keyid k = Ok id ->
  to_sign_cert cert k' (p_tag u) (p_body u) (create_sig (a_version a) cert (k_pka k) (a_hash a) id now) = Ok digest ->
  finish (create_sig (a_version a) cert (k_pka k) (a_hash a) id now) digest k sec (a_pass a) (a_hash a) draws = Ok (Some s, rest) ->
  sig_keyid s = Ok id /\ t2_type s = cert /\ t2_hash s = a_hash a /\ t2_version s = 4 /\
  forall k2, same_public k2 k -> verify_certification k2 k' (Some u) s = Ok 1%Z.
Proof.
  intros V D KP F C KI DG FI. rewrite V in *.
  apply finish_ok in FI as (pri' & vals & D' & S & NE & ->). rewrite D in D'. apply Ok_inj in D'. subst pri'.
  split; [reflexivity|]. split; [reflexivity|]. split; [reflexivity|]. split; [reflexivity|].
  intros k2 SP. unfold verify_certification. rewrite (same_keyid _ _ SP), KI. cbn [bind].
  change (sig_keyid (with_values (create_sig 4 cert (k_pka k) (a_hash a) id now) (prefix digest 2) vals)) with (Ok id). cbn [bind].
  rewrite (proj2 (beq_eq id id) eq_refl). cbn [negb].
  change (t2_type (with_values (create_sig 4 cert (k_pka k) (a_hash a) id now) (prefix digest 2) vals)) with cert.
  rewrite to_sign_cert_values, DG. cbn [bind]. destruct (to_sign_cert_use _ _ _ _ _ _ DG) as (d & HU).
  assert (C2 : k_pka k = 1 \/ k_pka k = 17).
  { destruct C as [C|[C|[C|[]]]]; auto. rewrite <- C in S. apply Ok_inj in S. congruence. }
  pose proof (with_pka_verifies d digest (k_pka k) pri (k_mpi k) (a_hash a) draws vals rest HU C2 KP F S) as W.
  destruct SP as (_ & _ & _ & S4). unfold verify_key. rewrite S4. exact W.
Qed.
Lemma another_zero k k' id p s i : as_sig p = Ok s -> by_another k p -> get_keyid k = Ok i -> verify_certification k k' id s = Ok 0%Z.
Proof.
  intros S A K. assert (B : p_body p = PSig s) by (unfold as_sig in S; destruct (p_body p); try discriminate; congruence).
  destruct (A s B) as (b & SI & N). unfold verify_certification. rewrite K, SI. cbn [bind].
  assert (beq i b = false) as -> by (apply beq_neq; congruence). reflexivity.
Qed.
Lemma loop_skip k k' i r : get_keyid k = Ok i -> forall ps id, Forall typed ps -> Forall (fun p => In (p_tag p) [2; 13; 17; 14]) ps ->
  Forall (by_another k) ps -> exists id', certification_loop k (ps ++ r) (Some k') id = certification_loop k r (Some k') id' /\
  (Forall is_signature ps -> id' = id).
Proof.
  intros K. induction ps as [|p ps IH]; intros id T F A; [exists id; auto|].
  apply Forall_cons_iff in T as [Tp T]. apply Forall_cons_iff in F as [Fp F]. apply Forall_cons_iff in A as [Ap A].
  cbn [app certification_loop].
  replace (is_primary_key (p_tag p)) with false by (cbn [In] in Fp; unfold is_primary_key, mem; cbn [existsb]; lia).
  destruct (is_user (p_tag p)) eqn:U.
  - destruct (IH (Some p) T F A) as (id' & E & _). exists id'. split; [exact E|]. intros S. apply Forall_cons_iff in S as [S _].
    unfold is_signature in S. rewrite S in U. discriminate.
  - destruct (N.eqb_spec (p_tag p) 2) as [E2|N2].
    + unfold typed in Tp. rewrite E2 in Tp. destruct Tp as (s & B). assert (S : as_sig p = Ok s) by (unfold as_sig; now rewrite B).
      rewrite S. cbn [bind]. rewrite (another_zero k k' id p s i S Ap K). cbn [bind]. change ((0 =? 0)%Z) with true. cbv iota.
      destruct (IH id T F A) as (id' & E & X). exists id'. split; [exact E|]. intros Y. apply X. now apply Forall_cons_iff in Y.
    + destruct (IH id T F A) as (id' & E & X). exists id'. split; [exact E|]. intros Y. apply X. now apply Forall_cons_iff in Y.
Qed.
Lemma already_zero_only k k' u ps z a b : already k k' u ps = Ok (z, a, b) -> z <> 1%Z -> z <> (-1)%Z -> z = 0%Z.
Proof.
  intros E N1 N2. destruct (Z.eq_dec z 0) as [|NZ]; [assumption|]. exfalso.
  destruct (already_verdict _ _ _ _ _ _ _ E NZ) as (p & s & _ & _ & _ & V). unfold verify_certification in V.
  apply bind_ok in V as (x & _ & V). apply bind_ok in V as (y & _ & V). destruct (negb (beq x y)); [apply Ok_inj in V; congruence|].
  apply bind_ok in V as (d & _ & V). apply with_pka_values in V. lia.
Qed.
Lemma as_secret_inv p k sec : as_secret p = Ok (k, sec) -> p_body p = PSecret k sec.
Proof. unfold as_secret. destruct (p_body p); try discriminate. intros E. apply Ok_inj in E. congruence. Qed.

Lemma find_user_after user : forall bs u x y, find_user user (bs ++ u :: x) = Ok (Some (bs, u, x)) ->
  find_user user (bs ++ u :: y) = Ok (Some (bs, u, y)).
Proof.
  induction bs as [|b bs IH]; intros u x y E; cbn [app find_user] in *.
  - apply bind_ok in E as (t & T & E). rewrite T. cbn [bind]. destruct t; [reflexivity|].
    apply bind_ok in E as (o & O & E). apply Ok_inj in E. destruct o as [[[? ?] ?]|]; discriminate.
  - apply bind_ok in E as (t & T & E). rewrite T. cbn [bind]. destruct t; [apply Ok_inj in E; discriminate|].
    apply bind_ok in E as (o & O & E). apply Ok_inj in E. destruct o as [[[a' u'] c]|]; [|discriminate].
    injection E as -> -> ->. rewrite (IH u x y O). reflexivity.
Qed.
Lemma block_tags prim sub ps : key_block prim sub ps -> Forall (fun p => In (p_tag p) [prim; 2; 13; 17; sub]) ps.
Proof.
  intros (k0 & revs & us & subs & -> & TK & FR & FU & EU & FS & V3). constructor; [left; congruence|]. rewrite !Forall_app. repeat apply conj.
  - apply sig_of_is in FR. eapply Forall_impl; [|exact FR]. intros p Hp. right. left. symmetry. exact Hp.
  - apply Forall_concat. eapply Forall_impl; [|exact FU]. intros l (x & sg & -> & Tx & Fx).
    apply sig_of_is in Fx. constructor; [cbn [In]; lia|]. eapply Forall_impl; [|exact Fx]. intros p Hp. right. left. symmetry. exact Hp.
  - apply Forall_concat. eapply Forall_impl; [|exact FS]. intros l (x & sg & -> & Tx & Fx & _).
    apply sig_of_is in Fx. constructor; [cbn [In]; lia|]. eapply Forall_impl; [|exact Fx]. intros p Hp. right. left. symmetry. exact Hp.
Qed.
Lemma find_signing_cases : forall ps, Forall typed ps -> Forall (fun p => In (p_tag p) [5; 2; 13; 17; 7]) ps ->
  find_signing ps = Ok None \/ exists p k sec, find_signing ps = Ok (Some p) /\ as_secret p = Ok (k, sec).
Proof.
  induction ps as [|p ps IH]; intros T F; [now left|]. apply Forall_cons_iff in T as [Tp T]. apply Forall_cons_iff in F as [Fp F].
  cbn [find_signing]. destruct (is_key_packet (p_tag p)) eqn:KP; [|exact (IH T F)].
  assert (X : exists k s, p_body p = PSecret k s).
  { unfold typed in Tp. destruct Fp as [E|[E|[E|[E|[E|[]]]]]]; rewrite <- E in *; try discriminate; exact Tp. }
  destruct X as (k & s & B). unfold as_key. rewrite B. cbn [bind]. destruct (can_sign (k_pka k)); [|exact (IH T F)].
  right. exists p, k, s. split; [reflexivity|]. unfold as_secret. now rewrite B.
Qed.
Lemma secret_signing a : args_valid a = Ok true -> Forall typed (g_packets (a_pri a)) ->
  find_signing_key (a_pri a) = Ok None \/ exists p k sec, find_signing_key (a_pri a) = Ok (Some p) /\ as_secret p = Ok (k, sec).
Proof.
  unfold args_valid, secret_meaningful. intros E T. apply bind_ok in E as (m & M & E). apply Ok_inj in E.
  destruct (N.eqb_spec (g_type (a_pri a)) 3) as [G|G]; destruct m; try discriminate.
  unfold find_signing_key. rewrite M. cbn [bind]. apply find_signing_cases; [exact T|].
  unfold meaningful in M. rewrite G in M. apply (transferable_iff 3 _ T) in M as [[? _]|[_ B]]; [discriminate|]. exact (block_tags _ _ _ B).
Qed.
Lemma find_user_some user : forall ps p text, Forall typed ps -> In p ps -> p_tag p = 13 -> p_body p = PRaw text -> contains user text ->
  exists bs u after, find_user user ps = Ok (Some (bs, u, after)).
Proof.
  induction ps as [|q r IH]; intros p text T I T13 B C; [destruct I|]. cbn [find_user]. apply Forall_cons_iff in T as [Tq T].
  assert (X : exists b, (if p_tag q =? 13 then d <- as_user_id q ;; Ok (occurs user d) else Ok false) = Ok b).
  { destruct (N.eqb_spec (p_tag q) 13) as [E|E]; [|eexists; reflexivity]. unfold typed in Tq. rewrite E in Tq. destruct Tq as (d & D).
    unfold as_user_id. rewrite D. cbn [bind]. eexists; reflexivity. }
  destruct X as (b & X). rewrite X. cbn [bind]. destruct b; [do 3 eexists; reflexivity|]. destruct I as [->|I].
  - exfalso. rewrite T13 in X. unfold as_user_id in X. rewrite B in X. cbn [N.eqb Pos.eqb bind] in X. apply Ok_inj in X.
    apply occurs_iff in C. congruence.
  - destruct (IH p text T I T13 B C) as (bs & u & after & ->). cbn [bind]. do 3 eexists; reflexivity.
Qed.
Lemma already_ok k k' u i : get_keyid k = Ok i -> forall ps, Forall typed ps -> Forall (by_another k) ps ->
  exists sigs tail, already k k' u ps = Ok (0%Z, sigs, tail).
Proof.
  intros K. induction ps as [|p r IH]; intros T B; [do 2 eexists; reflexivity|]. apply Forall_cons_iff in T as [Tp T]. apply Forall_cons_iff in B as [Bp B].
  cbn [already]. destruct (N.eqb_spec (p_tag p) 2) as [E|E]; [|do 2 eexists; reflexivity]. unfold typed in Tp. rewrite E in Tp. destruct Tp as (s & BS).
  assert (S : as_sig p = Ok s) by (unfold as_sig; now rewrite BS). rewrite S. cbn [bind]. rewrite (another_zero k k' _ p s i S Bp K). cbn [bind].
  change ((0 =? 0)%Z) with true. cbv iota. destruct (IH T B) as (x & y & ->). cbn [bind]. do 2 eexists; reflexivity.
Qed.
Lemma cert_input_ok cert k d pka hash id now : certifies cert -> In hash hashes ->
  exists digest, to_sign_cert cert k 13 (PRaw d) (create_sig 4 cert pka hash id now) = Ok digest.
Proof.
  intros C H. assert (X : exists x, input_cert cert k 13 (PRaw d) (create_sig 4 cert pka hash id now) = Ok x).
  { unfold input_cert. change (t2_type (create_sig 4 cert pka hash id now)) with cert. rewrite N.eqb_refl. eexists. reflexivity. }
  destruct X as (x & X). destruct (hash_use_ok hash x H) as (digest & HU). exists digest.
  unfold to_sign_cert, to_sign_10, to_sign_11, to_sign_12, to_sign_13, hashed_with.
  destruct C as [<-|[<-|[<-|[<-|[]]]]]; rewrite X; cbn [bind]; exact HU.
Qed.
