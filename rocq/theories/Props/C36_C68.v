(** C36: what revoking does to a key; C68: revocation certificates verify. *)
From Verif Require Import Model.Revoke Model.Verify Spec.KeyGrammar Spec.Signed Proofs.SignP Props.C33_C35 Props.C44_C46.
Local Open Scope N_scope.

(** ** Keys as parts *)
(** A subkey with its signatures before and after its public form is taken. *)
Definition public_part (l l' : list packet) : Prop :=
  exists k k' s1 sigs, l = k :: s1 :: sigs /\ l' = k' :: s1 :: sigs /\ public_of k k'.
(** The packets of a transferable key: primary key, revocations, users, subkeys. *)
Definition parts (g : pgp) (k : packet) (revs : list packet) (us subs : list (list packet)) : Prop :=
  g_packets g = k :: revs ++ concat us ++ concat subs /\
  Forall (signature_of (eq 32)) revs /\ Forall user_part us /\ Exists has_user_id us /\
  (exists primary sub, In (primary, sub) [(6, 14); (5, 7)] /\ p_tag k = primary /\ Forall (subkey_part sub) subs) /\
  (has_version 3 k -> subs = []).
Lemma meaningful_parts g : Forall typed (g_packets g) -> meaningful g = Ok true -> exists k revs us subs, parts g k revs us subs.
Proof.
  intros T M. apply C33_exact in M as [[_ B]|[_ B]]; auto; destruct B as (k & revs & us & subs & E & Tk & R & U & X & S & V);
    exists k, revs, us, subs; repeat (split; [assumption|]); (split; [|assumption]).
  - exists 6, 14. cbn. auto.
  - exists 5, 7. cbn. auto.
Qed.
Lemma not_secret_same p q : p_tag p <> 5 -> p_tag p <> 7 -> public_of p q -> q = p.
Proof.
  intros A B H. unfold public_of in H. destruct (p_tag p) as [|t]; [exact H|].
  do 3 (try destruct t as [t|t|]); try exact H; congruence.
Qed.
Lemma binding_tag P p : signature_of P p -> p_tag p = 2. Proof. now intros [H _]. Qed.
Lemma part_shape sub l : subkey_part sub l -> exists k s1 sigs, l = k :: s1 :: sigs /\ p_tag k = sub /\ Forall (fun p => p_tag p = 2) (s1 :: sigs).
Proof.
  intros (k & sigs & -> & T & F & X). destruct sigs as [|s1 sigs]; [inversion X|]. exists k, s1, sigs. split; [reflexivity|].
  split; [exact T|]. revert F. apply Forall_impl. intros p. apply binding_tag.
Qed.
Lemma other_tags g k revs us subs : parts g k revs us subs -> Forall (fun p => p_tag p = 2 \/ p_tag p = 13 \/ p_tag p = 17) (revs ++ concat us).
Proof.
  intros (_ & R & U & _). apply Forall_app. split.
  - revert R. apply Forall_impl. intros p H. apply binding_tag in H. auto.
  - clear R. induction U as [|l us (u & sigs & -> & T & F) U IH]; [constructor|]. cbn [concat app]. apply Forall_cons; [tauto|].
    apply Forall_app. split; [|exact IH]. revert F. apply Forall_impl. intros p H. apply binding_tag in H. auto.
Qed.
Lemma public_other_of p : typed p -> writable p -> p_tag p <> 5 -> exists q, public_other p = Ok q /\ public_of p q /\ p_tag q <> 5 /\ p_tag q <> 7.
Proof.
  intros T W N. destruct (to_public_of p T W) as (q & E & H). exists q. split; [|exact H]. revert E. unfold to_public, public_other.
  now replace (p_tag p =? 5) with false by lia.
Qed.
Lemma public_primary_of p : typed p -> writable p -> p_tag p = 5 \/ p_tag p = 6 -> exists q, public_primary p = Ok [q] /\ public_of p q /\ p_tag q = 6.
Proof.
  intros T W C. destruct (to_public_of p T W) as (q & E & H & N5 & N7). exists q. revert E. unfold to_public, public_primary.
  destruct C as [C|C]; rewrite C; cbn [N.eqb Pos.eqb].
  - intros ->. cbn [bind]. split; [reflexivity|]. split; [exact H|]. unfold public_of in H. rewrite C in H. apply H.
  - intros E. apply Ok_inj in E. subst q. auto.
Qed.
Lemma public_others : forall ps, Forall typed ps -> Forall writable ps -> Forall (fun p => p_tag p <> 5) ps ->
  exists qs, mapM public_other ps = Ok qs /\ Forall2 public_of ps qs /\ Forall (fun q => p_tag q <> 5 /\ p_tag q <> 7) qs.
Proof.
  induction ps as [|p ps IH]; intros T W N; [exists []; repeat split; constructor|].
  apply Forall_cons_iff in T as [T0 T]. apply Forall_cons_iff in W as [W0 W]. apply Forall_cons_iff in N as [N0 N].
  destruct (IH T W N) as (qs & E & F & X). destruct (public_other_of p T0 W0 N0) as (q & E0 & F0 & X0).
  exists (q :: qs). cbn [mapM]. rewrite E0, E. cbn [bind]. repeat split; constructor; auto.
Qed.
Lemma signs_same : forall ps qs, Forall (fun p => p_tag p = 2 \/ p_tag p = 13 \/ p_tag p = 17) ps -> Forall2 public_of ps qs -> qs = ps.
Proof.
  intros ps qs F H. induction H as [|p q ps qs H0 H IH]; [reflexivity|]. apply Forall_cons_iff in F as [F0 F].
  f_equal; [|auto]. apply not_secret_same; [lia|lia|exact H0].
Qed.
(** The public forms of the packets of a key, in parts. *)
Lemma public_parts g k revs us subs qs : parts g k revs us subs -> Forall2 public_of (g_packets g) qs ->
  exists k' subs', qs = k' :: revs ++ concat us ++ concat subs' /\ public_of k k' /\ p_tag k' = 6 /\ Forall2 public_part subs subs'.
Proof.
  intros P H. pose proof (other_tags _ _ _ _ _ P) as O. destruct P as (E & _ & _ & _ & (prim & sub & PS & Tk & S) & _).
  rewrite E in H. inversion H as [|? k' ? qs' H0 H']; subst. rewrite app_assoc in H'. apply Forall2_app_inv_l in H' as (a & b & Ha & Hb & ->).
  apply (signs_same _ _ O) in Ha as ->. clear H O E.
  assert (X : exists subs', b = concat subs' /\ Forall2 public_part subs subs').
  { revert b Hb. clear H0. induction S as [|l subs S0 S IH]; intros b Hb; [inversion Hb; exists []; auto|].
    apply part_shape in S0 as (q & s1 & sigs & -> & Tq & F). cbn [concat] in Hb. apply Forall2_app_inv_l in Hb as (c & d & Hc & Hd & ->).
    destruct (IH d Hd) as (subs' & -> & F'). inversion Hc as [|? q' ? c' Q Q']; subst.
    assert (c' = s1 :: sigs) as -> by (apply signs_same; [revert F; apply Forall_impl; intros; auto|exact Q']).
    exists ((q' :: s1 :: sigs) :: subs'). split; [reflexivity|]. constructor; [|exact F']. exists q, q', s1, sigs. auto. }
  destruct X as (subs' & -> & F). exists k', subs'. rewrite app_assoc. split; [reflexivity|]. split; [exact H0|]. split; [|exact F].
  cbn [In] in PS. destruct PS as [PS|[PS|[]]]; injection PS as Tk <-; symmetry in Tk.
  - rewrite (not_secret_same k k') by (lia || exact H0). exact Tk.
  - unfold public_of in H0. rewrite Tk in H0. apply H0.
Qed.
Lemma public_part_14 sub l l' : In sub [14; 7] -> subkey_part sub l -> public_part l l' -> subkey_part 14 l'.
Proof.
  intros I (k & sigs & -> & T & F & X) (q & q' & s1 & ss & E & -> & H). injection E as -> ->.
  exists q', (s1 :: ss). split; [reflexivity|]. split; [|auto]. cbn [In] in I. destruct I as [<-|[<-|[]]].
  - rewrite (not_secret_same q q') by (lia || exact H). exact T.
  - unfold public_of in H. rewrite T in H. apply H.
Qed.
Lemma public_version k k' : public_of k k' -> has_version 3 k' -> has_version 3 k.
Proof.
  intros H (q & B & V). unfold public_of in H.
  assert (C : p_tag k = 5 \/ p_tag k = 7 \/ k' = k).
  { destruct (p_tag k) as [|t]; [auto|]. do 3 (try destruct t as [t|t|]); auto. }
  destruct C as [E|[E| ->]]; [| |exists q; auto]; rewrite E in H; destruct H as [_ (k0 & s & k1 & B0 & B1 & S & _)];
    assert (q = k1) as -> by (destruct B as [B|(? & B)]; congruence); (exists k0; split; [eauto|congruence]).
Qed.
Lemma parts_sub g k revs us subs : parts g k revs us subs -> exists sub, In sub [14; 7] /\ Forall (subkey_part sub) subs.
Proof. intros (_ & _ & _ & _ & (prim & sub & I & _ & S) & _). exists sub. split; [|exact S]. cbn in *. destruct I as [I|[I|[]]]; injection I as _ <-; auto. Qed.
(** A key made of the public parts of another one, with more signatures in places where the
    grammar allows them. *)
Lemma rebuilt g k revs us subs k' revs' us' subs' : parts g k revs us subs -> public_of k k' -> p_tag k' = 6 ->
  Forall (signature_of (eq 32)) revs' -> Forall user_part us' -> Exists has_user_id us' ->
  Forall (subkey_part 14) subs' -> (subs = [] -> subs' = []) ->
  key_block 6 14 (k' :: revs' ++ concat us' ++ concat subs').
Proof.
  intros P H Tk R U X S Z. exists k', revs', us', subs'. split; [reflexivity|]. repeat (split; [assumption|]).
  intros V. apply (public_version _ _ H) in V. destruct P as (_ & _ & _ & _ & _ & P). auto.
Qed.
Lemma public_subs_14 g k revs us subs subs' : parts g k revs us subs -> Forall2 public_part subs subs' -> Forall (subkey_part 14) subs'.
Proof.
  intros P H. apply parts_sub in P as (sub & I & S). revert S. induction H as [|l l' subs subs' H0 H IH]; intros S; [constructor|].
  apply Forall_cons_iff in S as [S0 S]. constructor; [now apply (public_part_14 sub l)|auto].
Qed.
Lemma block_meaningful g : g_type g = 2 -> Forall typed (g_packets g) -> key_block 6 14 (g_packets g) -> public_meaningful g = Ok true.
Proof.
  intros T F B. unfold public_meaningful, meaningful. rewrite T. cbn [N.eqb Pos.eqb]. apply C33_exact; [exact F|]. left. auto.
Qed.

(** ** Arguments and signatures *)
Lemma rev_valid_target a : rev_valid a = Ok true -> meaningful (r_target a) = Ok true /\ meaningful (r_signer a) = Ok true.
Proof.
  unfold rev_valid, secret_meaningful. intros E. apply bind_ok in E as (m & M & E). destruct m; [|discriminate]. cbn [negb] in E.
  apply bind_ok in E as (m' & M' & E). apply Ok_inj in E. destruct m'; [|discriminate]. split; [exact M'|].
  now destruct (g_type (r_signer a) =? 3).
Qed.
Lemma finish_type s d k sec pass h draws s' rest : finish s d k sec pass h draws = Ok (Some s', rest) ->
  t2_type s' = t2_type s /\ t2_hashed s' = t2_hashed s.
Proof.
  intros E. unfold finish in E. apply bind_ok in E as (pri & _ & E). apply bind_ok in E as ([v dr] & _ & E).
  destruct v; [discriminate|]. apply Ok_inj in E. assert (s' = with_values s (prefix d 2) (n :: v)) as -> by congruence. now destruct s.
Qed.
Lemma key_sig_type a now draws s rest : key_sig a now draws = Ok (Some s, rest) ->
  t2_type s = 32 /\ In (false, Sub29 (r_code a) (r_reason a)) (t2_hashed s).
Proof.
  intros E. unfold key_sig in E. apply bind_ok in E as (v & _ & E). destruct v; [|discriminate]. cbn [negb] in E.
  apply bind_ok in E as (o & _ & E). destruct o as [p|]; [|discriminate]. apply bind_ok in E as ([k sec] & _ & E).
  apply bind_ok in E as (id & _ & E). unfold revocation_sig in E. cbn [with_reason create_sig t2_type N.eqb Pos.eqb] in E.
  apply bind_ok in E as (d & _ & E). apply finish_type in E as [-> ->]. split; [reflexivity|]. cbn. auto.
Qed.
Lemma subkey_sig_type a keyid now draws s rest : subkey_sig a keyid now draws = Ok (Some s, rest) -> t2_type s = 40.
Proof.
  intros E. unfold subkey_sig in E. apply bind_ok in E as (v & _ & E). destruct v; [|discriminate]. cbn [negb] in E.
  apply bind_ok in E as (o & _ & E). destruct o as [p|]; [|discriminate]. apply bind_ok in E as ([k sec] & _ & E).
  apply bind_ok in E as (o & _ & E). destruct o as [t|]; [|discriminate].
  apply bind_ok in E as (id & _ & E). unfold revocation_sig in E. cbn [create_sig t2_type N.eqb Pos.eqb] in E.
  apply bind_ok in E as (d & _ & E). now apply finish_type in E as [-> _].
Qed.
Lemma uid_sig_type a ID now draws s rest : uid_sig a ID now draws = Ok (Some s, rest) ->
  t2_type s = 48 /\ In (false, Sub29 (r_code a) (r_reason a)) (t2_hashed s).
Proof.
  intros E. unfold uid_sig in E. apply bind_ok in E as (v & _ & E). destruct v; [|discriminate]. cbn [negb] in E.
  apply bind_ok in E as (o & _ & E). destruct o as [p|]; [|discriminate]. apply bind_ok in E as ([k sec] & _ & E).
  apply bind_ok in E as (o & _ & E). destruct o as [[[k0 u] pos]|]; [|discriminate].
  apply bind_ok in E as (id & _ & E). apply bind_ok in E as (d & _ & E). apply finish_type in E as [-> ->]. split; [reflexivity|]. cbn. auto.
Qed.

(** ** C36 *)
(** No secret key material. *)
Definition no_secrets (ps : list packet) : Prop := Forall (fun q => p_tag q <> 5 /\ p_tag q <> 7) ps.
(** The packet holding a signature. *)
Definition signature_packet (s : tag2) (p : packet) : Prop := p_tag p = 2 /\ p_body p = PSig s.

(** Revoke::key, when it returns a key at all: the public form of every packet of the target,
    in order, with a key revocation giving the reason after the primary key; a meaningful
    public key without secrets. *)
Theorem C36_key : forall a now draws g rest,
  Forall typed (g_packets (r_target a)) -> Forall writable (g_packets (r_target a)) ->
  revoke_key a now draws = Ok (g, rest) -> g_packets g <> [] ->
  exists k others k' others' s r,
    g_packets (r_target a) = k :: others /\ Forall2 public_of (k :: others) (k' :: others') /\
    g_packets g = k' :: r :: others' /\ signature_packet s r /\ t2_type s = 32 /\
    In (false, Sub29 (r_code a) (r_reason a)) (t2_hashed s) /\
    public_meaningful g = Ok true /\ no_secrets (g_packets g) /\ g_keys g = g_keys (r_target a).
Proof.
  intros a now draws g rest T W E NE. unfold revoke_key in E. apply bind_ok in E as (v & V & E).
  destruct v; [|apply Ok_inj in E; assert (g = public_new) as -> by congruence; now destruct NE]. cbn [negb] in E.
  destruct (rev_valid_target a V) as [M _]. apply bind_ok in E as ([o dr] & KS & E).
  destruct o as [s|]; [|apply Ok_inj in E; assert (g = public_new) as -> by congruence; now destruct NE].
  destruct (key_sig_type _ _ _ _ _ KS) as [TY RE]. destruct (meaningful_parts _ T M) as (k & revs & us & subs & P).
  pose proof P as (GP & PR & PU & PX & _). rewrite GP in *. cbn [vec_at nth_error bind skipn] in E.
  apply Forall_cons_iff in T as [T0 T]. apply Forall_cons_iff in W as [W0 W].
  assert (C : p_tag k = 5 \/ p_tag k = 6) by (destruct P as (_ & _ & _ & _ & (? & ? & I & -> & _) & _); cbn in I; destruct I as [I|[I|[]]]; injection I as <- _; auto).
  destruct (public_primary_of k T0 W0 C) as (k' & E1 & H1 & T1). rewrite E1 in E. cbn [bind] in E.
  assert (N : Forall (fun p => p_tag p <> 5) (revs ++ concat us ++ concat subs)).
  { rewrite app_assoc. apply Forall_app. split; [apply other_tags in P; revert P; apply Forall_impl; intros; lia|].
    destruct (parts_sub _ _ _ _ _ P) as (sub & I & S). clear - I S. induction S as [|l subs S0 S IH]; [constructor|]. cbn [concat].
    apply Forall_app. split; [|exact IH]. apply part_shape in S0 as (q & s1 & sigs & -> & <- & F). constructor; [cbn in I; lia|].
    revert F. apply Forall_impl. intros; lia. }
  destruct (public_others _ T W N) as (qs & E2 & H2 & NS). rewrite E2 in E. cbn [bind app] in E. apply Ok_inj in E.
  assert (g = revoked_key (r_target a) (k' :: new_packet 2 (PSig s) :: qs)) as -> by congruence. clear E.
  assert (H : Forall2 public_of (k :: revs ++ concat us ++ concat subs) (k' :: qs)) by (constructor; auto).
  exists k, (revs ++ concat us ++ concat subs), k', qs, s, (new_packet 2 (PSig s)).
  split; [reflexivity|]. split; [exact H|]. split; [reflexivity|]. split; [split; reflexivity|]. split; [exact TY|]. split; [exact RE|].
  rewrite <- GP in H. destruct (public_parts _ _ _ _ _ _ P H) as (k1 & subs' & Q & _ & _ & F). injection Q as <- ->.
  split; [|split; [|reflexivity]].
  - apply block_meaningful; [reflexivity| |].
    + cbn [revoked_key g_packets]. constructor; [now apply (public_typed k)|]. constructor; [cbn; eauto|].
      clear - H2 T. induction H2; [constructor|]. apply Forall_cons_iff in T as [A T]. constructor; [now apply (public_typed _ _ A)|auto].
    + cbn [revoked_key g_packets]. change (new_packet 2 (PSig s) :: revs ++ concat us ++ concat subs') with ((new_packet 2 (PSig s) :: revs) ++ concat us ++ concat subs').
      apply (rebuilt _ _ _ _ _ _ (new_packet 2 (PSig s) :: revs) us subs' P); auto.
      * constructor; [|exact PR]. split; [reflexivity|]. exists s. auto.
      * now apply (public_subs_14 _ _ _ _ _ _ P).
      * intros ->. now inversion F.
  - unfold no_secrets. cbn [revoked_key g_packets]. constructor; [lia|]. constructor; [cbn; split; discriminate|exact NS].
Qed.

(** Text [x] occurs in [y]. *)
Definition contains (x y : bytes) : Prop := exists a b, y = a ++ x ++ b.
Lemma starts_with_app : forall h s, starts_with h s = true <-> exists r, s = h ++ r.
Proof.
  induction h as [|x h IH]; intros s; cbn [starts_with app]; [split; eauto|]. destruct s as [|y s].
  - split; [discriminate|]. intros (r & E). discriminate.
  - rewrite andb_true_iff, N.eqb_eq, IH. split.
    + intros [-> (r & ->)]. eauto.
    + intros (r & E). injection E as -> ->. eauto.
Qed.
Lemma occurs_iff x : forall y, occurs x y = true <-> contains x y.
Proof.
  induction y as [|c y IH]; cbn [occurs]; rewrite orb_true_iff, starts_with_app.
  - split.
    + intros [(r & E)|]; [|discriminate]. exists [], r. exact E.
    + intros (a & b & E). left. destruct a; [exists b; exact E|discriminate].
  - rewrite IH. split.
    + intros [(r & E)|(a & b & ->)]; [exists [], r; exact E|exists (c :: a), b; reflexivity].
    + intros (a & b & E). destruct a as [|c' a]; [left; exists b; exact E|]. injection E as -> ->. right. exists a, b. reflexivity.
Qed.
(** The key ID of a key packet. *)
Definition has_id (p : packet) (id : bytes) : Prop :=
  exists k, (p_body p = PKey k \/ exists s, p_body p = PSecret k s) /\ get_keyid k = Ok id.
(** A subkey with its signatures: in public form, and, if its key ID contains [x], with [r]
    after the first signature. *)
Definition revoked_part (x : bytes) (r : packet) (l l' : list packet) : Prop :=
  exists k k' id s1 sigs, l = k :: s1 :: sigs /\ public_of k k' /\ has_id k id /\
    ((contains x id /\ l' = k' :: s1 :: r :: sigs) \/ (~ contains x id /\ l' = k' :: s1 :: sigs)).

Lemma before_app : forall xs ys, Forall (fun p => is_subkey (p_tag p) = false) xs ->
  (ys = [] \/ exists p r, ys = p :: r /\ is_subkey (p_tag p) = true) -> before_subkeys (xs ++ ys) = (xs, ys).
Proof.
  induction xs as [|x xs IH]; intros ys F C; cbn [app before_subkeys].
  - destruct C as [->|(p & r & -> & S)]; [reflexivity|]. cbn [before_subkeys]. now rewrite S.
  - apply Forall_cons_iff in F as [F0 F]. rewrite F0, IH by auto. reflexivity.
Qed.
Lemma is_subkey_iff t : is_subkey t = true <-> t = 7 \/ t = 14.
Proof. unfold is_subkey, mem. cbn [existsb]. rewrite !orb_true_iff, !N.eqb_eq. split; [intros [H|[H|H]]; auto; discriminate|intuition]. Qed.
Lemma split_subkeys g k revs us subs : parts g k revs us subs ->
  before_subkeys (revs ++ concat us ++ concat subs) = (revs ++ concat us, concat subs).
Proof.
  intros P. rewrite app_assoc. apply before_app.
  - apply other_tags in P. revert P. apply Forall_impl. intros p T. apply not_true_iff_false. rewrite is_subkey_iff. lia.
  - apply parts_sub in P as (sub & I & S). destruct S as [|l subs S0 S]; [auto|]. right.
    apply part_shape in S0 as (q & s1 & sigs & -> & <- & _). exists q, ((s1 :: sigs) ++ concat subs). split; [reflexivity|].
    apply is_subkey_iff. cbn in I. lia.
Qed.
Lemma revoke_subkeys_cons x sig p r : revoke_subkeys x sig (p :: r) =
    if is_subkey (p_tag p) then
      q <- public_other p ;;
      k <- as_key p ;;
      id <- get_keyid k ;;
      if occurs x id then
        match r with
        | [] => UB
        | n :: r' => t <- revoke_subkeys x sig r' ;; Ok (q :: n :: sig :: t)
        end
      else t <- revoke_subkeys x sig r ;; Ok (q :: t)
    else t <- revoke_subkeys x sig r ;; Ok (p :: t).
Proof. reflexivity. Qed.
Lemma revoke_signatures x r : forall sigs ps out, Forall (fun p => p_tag p = 2) sigs -> revoke_subkeys x r (sigs ++ ps) = Ok out ->
  exists out', revoke_subkeys x r ps = Ok out' /\ out = sigs ++ out'.
Proof.
  induction sigs as [|s sigs IH]; intros ps out F E; [eauto|]. apply Forall_cons_iff in F as [F0 F]. cbn [app revoke_subkeys] in E.
  rewrite F0 in E. change (is_subkey 2) with false in E. cbv iota in E. apply bind_ok in E as (t & E & X). apply Ok_inj in X. subst out.
  apply IH in E as (o & E & ->); [|exact F]. eauto.
Qed.
Lemma revoke_parts x r sub : In sub [14; 7] -> forall subs out, Forall (subkey_part sub) subs -> Forall typed (concat subs) -> Forall writable (concat subs) ->
  revoke_subkeys x r (concat subs) = Ok out -> exists subs', out = concat subs' /\ Forall2 (revoked_part x r) subs subs'.
Proof.
  intros I. induction subs as [|l subs IH]; intros out S T W E; [apply Ok_inj in E; subst; exists []; auto|].
  apply Forall_cons_iff in S as [S0 S]. apply part_shape in S0 as (k & s1 & sigs & -> & Tk & F). cbn [concat app] in *.
  apply Forall_cons_iff in T as [T0 T]. apply Forall_cons_iff in W as [W0 W].
  assert (T' : Forall typed (concat subs)) by (inversion T; subst; now apply Forall_app in H2).
  assert (W' : Forall writable (concat subs)) by (inversion W; subst; now apply Forall_app in H2).
  rewrite revoke_subkeys_cons in E. replace (is_subkey (p_tag k)) with true in E by (symmetry; apply is_subkey_iff; cbn in I; lia). cbv iota in E.
  destruct (public_other_of k T0 W0) as (q & Q & H & _); [cbn in I; lia|]. rewrite Q in E. cbn [bind] in E.
  apply bind_ok in E as (kk & K & E). apply bind_ok in E as (id & D & E).
  assert (HI : has_id k id) by (exists kk; split; [|exact D]; revert K; unfold as_key; destruct (p_body k); try discriminate; intros X; apply Ok_inj in X; subst; eauto).
  apply Forall_cons_iff in F as [F0 F]. destruct (occurs x id) eqn:C.
  - apply bind_ok in E as (t & E & X). apply Ok_inj in X. apply revoke_signatures in E as (o & E & ->); [|exact F].
    destruct (IH _ S T' W' E) as (subs' & -> & G). exists ((q :: s1 :: r :: sigs) :: subs'). split; [now subst|].
    constructor; [|exact G]. exists k, q, id, s1, sigs. apply occurs_iff in C. auto 8.
  - apply bind_ok in E as (t & E & X). apply Ok_inj in X. change (s1 :: sigs ++ concat subs) with ((s1 :: sigs) ++ concat subs) in E.
    apply revoke_signatures in E as (o & E & ->); [|auto]. destruct (IH _ S T' W' E) as (subs' & -> & G).
    exists ((q :: s1 :: sigs) :: subs'). split; [now subst|]. constructor; [|exact G]. exists k, q, id, s1, sigs.
    split; [reflexivity|]. split; [exact H|]. split; [exact HI|]. right. split; [|reflexivity]. rewrite <- occurs_iff, C. discriminate.
Qed.
Lemma revoked_part_14 x r sub s l l' : In sub [14; 7] -> signature_packet s r -> subkey_part sub l -> revoked_part x r l l' -> subkey_part 14 l'.
Proof.
  intros I [R1 R2] S (k & k' & id & s1 & sigs & -> & H & _ & C). assert (S' := S). destruct S' as (k0 & ss & E & _ & F & X). injection E as <- <-.
  assert (Tk : p_tag k' = 14).
  { destruct (public_part_14 sub _ (k' :: s1 :: sigs) I S) as (? & ? & E & T & _); [exists k, k', s1, sigs; auto|]. injection E as <- <-. exact T. }
  destruct C as [[_ ->]|[_ ->]].
  - exists k', (s1 :: r :: sigs). split; [reflexivity|]. split; [exact Tk|]. apply Forall_cons_iff in F as [F0 F]. split.
    + constructor; [exact F0|]. constructor; [|exact F]. split; [exact R1|]. eauto.
    + inversion X; subst; [now apply Exists_cons_hd|now apply Exists_cons_tl, Exists_cons_tl].
  - exists k', (s1 :: sigs). auto.
Qed.

(** Revoke::subkey, when it returns a key: the public form of every packet of the target in
    order, and after the first signature of every subkey whose key ID contains the one given
    (there is one at least) a subkey revocation; a meaningful public key without secrets. *)
Theorem C36_subkey : forall a x now draws g rest,
  Forall typed (g_packets (r_target a)) -> Forall writable (g_packets (r_target a)) ->
  revoke_subkey a x now draws = Ok (g, rest) -> g_packets g <> [] ->
  exists k revs us subs k' subs' s r,
    g_packets (r_target a) = k :: revs ++ concat us ++ concat subs /\
    Forall user_part us /\ Forall (subkey_part 7) subs /\
    g_packets g = k' :: revs ++ concat us ++ concat subs' /\ public_of k k' /\
    Forall2 (revoked_part x r) subs subs' /\ signature_packet s r /\ t2_type s = 40 /\
    Exists (fun l => exists q id l', l = q :: l' /\ has_id q id /\ contains x id) subs /\
    public_meaningful g = Ok true /\ no_secrets (g_packets g) /\ g_keys g = g_keys (r_target a).
Proof.
  intros a x now draws g rest T W E NE. unfold revoke_subkey in E. apply bind_ok in E as (v & V & E).
  destruct v; [|apply Ok_inj in E; assert (g = public_new) as -> by congruence; now destruct NE]. cbn [negb] in E.
  destruct (rev_valid_target a V) as [M _]. apply bind_ok in E as ([o dr] & KS & E).
  destruct o as [s|]; [|apply Ok_inj in E; assert (g = public_new) as -> by congruence; now destruct NE].
  pose proof (subkey_sig_type _ _ _ _ _ _ KS) as TY. destruct (meaningful_parts _ T M) as (k & revs & us & subs & P).
  pose proof P as (GP & PR & PU & PX & _).
  (* the subkey found *)
  assert (FS : exists q id, In q (g_packets (r_target a)) /\ p_tag q = 7 /\ has_id q id /\ contains x id).
  { unfold subkey_sig in KS. rewrite V in KS. cbn [bind negb] in KS. apply bind_ok in KS as (o & _ & KS). destruct o as [p|]; [|discriminate].
    apply bind_ok in KS as ([? ?] & _ & KS). apply bind_ok in KS as (o & FK & KS). destruct o as [t|]; [|discriminate]. clear - FK.
    induction (g_packets (r_target a)) as [|q ps IH]; [discriminate|]. cbn [find_subkey] in FK. destruct (p_tag q =? 7) eqn:T7.
    - apply bind_ok in FK as (kk & K & FK). apply bind_ok in FK as (id & D & FK). destruct (occurs x id) eqn:O.
      + exists q, id. split; [now left|]. split; [lia|]. split; [|now apply occurs_iff]. exists kk. split; [|exact D].
        revert K. unfold as_key. destruct (p_body q); try discriminate; intros X; apply Ok_inj in X; subst; eauto.
      + destruct (IH FK) as (q' & id' & I & H). exists q', id'. split; [now right|exact H].
    - destruct (IH FK) as (q' & id' & I & H). exists q', id'. split; [now right|exact H]. }
  rewrite GP in *. cbn [vec_at nth_error bind skipn] in E. apply Forall_cons_iff in T as [T0 T]. apply Forall_cons_iff in W as [W0 W].
  assert (C : p_tag k = 5 \/ p_tag k = 6) by (destruct P as (_ & _ & _ & _ & (? & ? & I & -> & _) & _); cbn in I; destruct I as [I|[I|[]]]; injection I as <- _; auto).
  destruct (public_primary_of k T0 W0 C) as (k' & E1 & H1 & T1). rewrite E1 in E. cbn [bind] in E.
  rewrite (split_subkeys _ _ _ _ _ P) in E. apply bind_ok in E as (out & E2 & E). apply Ok_inj in E.
  destruct (parts_sub _ _ _ _ _ P) as (sub & I & S). pose proof T as TT. pose proof W as WW.
  apply Forall_app in T as [T1' T]. apply Forall_app in T as [T2 T]. apply Forall_app in W as [_ W]. apply Forall_app in W as [_ W].
  destruct (revoke_parts x (new_packet 2 (PSig s)) sub I subs out S T W E2) as (subs' & -> & F).
  (* only a secret key has subkeys to find *)
  assert (S7 : sub = 7 /\ Exists (fun l => exists q id l', l = q :: l' /\ has_id q id /\ contains x id) subs).
  { destruct FS as (q & id & Iq & T7 & HI & CO). pose proof (other_tags _ _ _ _ _ P) as O.
    destruct Iq as [<-|Iq]; [lia|]. rewrite app_assoc in Iq. apply in_app_or in Iq as [Iq|Iq].
    - rewrite Forall_forall in O. apply O in Iq. lia.
    - clear - S Iq T7 HI CO I. induction S as [|l subs S0 S IH]; [destruct Iq|]. cbn [concat] in Iq. apply in_app_or in Iq as [Iq|Iq].
      + apply part_shape in S0 as (q0 & s1 & sigs & -> & <- & F). destruct Iq as [<-|Iq].
        * split; [exact T7|]. apply Exists_cons_hd. exists q0, id, (s1 :: sigs). auto.
        * rewrite Forall_forall in F. apply F in Iq. lia.
      + destruct (IH Iq) as [-> X]. split; [reflexivity|]. now apply Exists_cons_tl. }
  destruct S7 as [-> EX]. cbn [app] in E. rewrite <- app_assoc in E.
  assert (g = revoked_key (r_target a) (k' :: revs ++ concat us ++ concat subs')) as -> by congruence. clear E.
  assert (S' : Forall (subkey_part 14) subs').
  { clear - F S. induction F as [|l l' subs subs' F0 F IH]; [constructor|]. apply Forall_cons_iff in S as [S0 S].
    constructor; [|auto]. eapply (revoked_part_14 x (new_packet 2 (PSig s)) 7); [cbn; auto|split; reflexivity|exact S0|exact F0]. }
  exists k, revs, us, subs, k', subs', s, (new_packet 2 (PSig s)). split; [reflexivity|]. split; [exact PU|]. split; [exact S|].
  split; [reflexivity|]. split; [exact H1|]. split; [exact F|]. split; [split; reflexivity|]. split; [exact TY|]. split; [exact EX|].
  assert (TS : Forall typed (concat subs') /\ no_secrets (concat subs')).
  { clear - F S T W. revert S T W. induction F as [|l l' subs subs' F0 F IH]; intros S T W; [split; constructor|]. cbn [concat] in *.
    apply Forall_cons_iff in S as [S0 S]. apply Forall_app in T as [T0 T]. apply Forall_app in W as [W0 W]. destruct (IH S T W) as [A B].
    assert (X : Forall typed l' /\ no_secrets l').
    { apply part_shape in S0 as (k0 & s0 & ss & E0 & Tk & FS).
      destruct F0 as (k & k' & id & s1 & sigs & -> & H & _ & C). injection E0 as <- <- <-. apply Forall_cons_iff in T0 as [Tk0 T0].
      assert (T14 : p_tag k' = 14) by (unfold public_of in H; rewrite Tk in H; apply H).
      apply Forall_cons_iff in T0 as [Ts T0]. apply Forall_cons_iff in FS as [F1 FS].
      pose proof (public_typed _ _ Tk0 H) as Tk'.
      assert (N : no_secrets sigs) by (revert FS; apply Forall_impl; intros; lia).
      destruct C as [[_ ->]|[_ ->]]; split; repeat (apply Forall_cons; [first [assumption|lia|cbn; lia|solve [cbn; eauto]]|]); assumption. }
    destruct X. split; apply Forall_app; auto. }
  destruct TS as [TS NS]. split; [|split; [|reflexivity]].
  - apply block_meaningful; [reflexivity| |].
    + cbn [revoked_key g_packets]. constructor; [now apply (public_typed k)|]. apply Forall_app. split; [exact T1'|]. apply Forall_app. auto.
    + apply (rebuilt _ _ _ _ _ _ revs us subs' P); auto. intros ->. now inversion F.
  - cbn [revoked_key g_packets]. constructor; [lia|]. rewrite app_assoc. apply Forall_app. split; [|exact NS].
    apply other_tags in P. revert P. apply Forall_impl. intros; lia.
Qed.

(** *** User IDs *)
Lemma revoke_users_app x r : forall ps qs out, revoke_users x r (ps ++ qs) = Ok out ->
  exists o1 o2, revoke_users x r ps = Ok o1 /\ revoke_users x r qs = Ok o2 /\ out = o1 ++ o2.
Proof.
  induction ps as [|p ps IH]; intros qs out E; [exists [], out; auto|]. cbn [app revoke_users] in *.
  apply bind_ok in E as (h & H & E). apply bind_ok in E as (t & T & E). apply Ok_inj in E.
  destruct (IH _ _ T) as (o1 & o2 & E1 & E2 & ->). exists (h ++ o1), o2. rewrite H, E1. cbn [bind]. split; [reflexivity|]. split; [exact E2|].
  subst. apply app_assoc.
Qed.
Lemma revoke_users_same x r : forall ps, Forall (fun p => p_tag p <> 7 /\ p_tag p <> 13) ps -> revoke_users x r ps = Ok ps.
Proof.
  induction ps as [|p ps IH]; intros F; [reflexivity|]. apply Forall_cons_iff in F as [F0 F]. cbn [revoke_users].
  replace (p_tag p =? 7) with false by lia. replace (p_tag p =? 13) with false by lia. cbn [bind]. rewrite IH by auto. reflexivity.
Qed.
(** The text of a user ID packet. *)
Definition user_text (p : packet) (t : bytes) : Prop := p_tag p = 13 /\ p_body p = PRaw t.
(** A user and its certifications, a user ID now followed by [r]. *)
Definition revoked_user (r : packet) (l l' : list packet) : Prop :=
  exists u sigs, l = u :: sigs /\ ((p_tag u = 13 /\ l' = u :: r :: sigs) \/ (p_tag u = 17 /\ l' = l)).
Lemma revoke_user_parts x r : forall us out, Forall user_part us -> Forall typed (concat us) ->
  (forall p t, In p (concat us) -> user_text p t -> contains x t) -> revoke_users x r (concat us) = Ok out ->
  exists us', out = concat us' /\ Forall2 (revoked_user r) us us'.
Proof.
  induction us as [|l us IH]; intros out U T C E; [apply Ok_inj in E; subst; exists []; auto|].
  apply Forall_cons_iff in U as [(u & sigs & -> & Tu & F) U]. cbn [concat] in *. apply Forall_app in T as [T0 T].
  apply revoke_users_app in E as (o1 & o2 & E1 & E2 & ->). destruct (IH o2 U T) as (us' & -> & G); [intros p t I; apply C, in_or_app; auto|exact E2|].
  cbn [revoke_users] in E1. rewrite revoke_users_same in E1 by (revert F; apply Forall_impl; intros p H; apply binding_tag in H; lia).
  destruct Tu as [Tu|Tu]; rewrite Tu in E1; cbn [N.eqb Pos.eqb bind] in E1.
  - apply Forall_cons_iff in T0 as [T0 _]. unfold typed in T0. rewrite Tu in T0. destruct T0 as (d & B). unfold as_user_id in E1. rewrite B in E1. cbn [bind] in E1.
    replace (occurs x d) with true in E1 by (symmetry; apply occurs_iff, (C u); [now left|split; auto]). apply Ok_inj in E1. subst o1.
    exists ((u :: r :: sigs) :: us'). split; [reflexivity|]. constructor; [|exact G]. exists u, sigs. auto.
  - apply Ok_inj in E1. subst o1. exists ((u :: sigs) :: us'). split; [reflexivity|]. constructor; [|exact G]. exists u, sigs. auto.
Qed.
Lemma revoke_user_subs x r sub : In sub [14; 7] -> forall subs out, Forall (subkey_part sub) subs -> Forall typed (concat subs) -> Forall writable (concat subs) ->
  revoke_users x r (concat subs) = Ok out -> exists subs', out = concat subs' /\ Forall2 public_part subs subs'.
Proof.
  intros I. induction subs as [|l subs IH]; intros out S T W E; [apply Ok_inj in E; subst; exists []; auto|].
  apply Forall_cons_iff in S as [S0 S]. apply part_shape in S0 as (k & s1 & sigs & -> & Tk & F). cbn [concat] in *.
  apply Forall_app in T as [T0 T]. apply Forall_app in W as [W0 W]. apply revoke_users_app in E as (o1 & o2 & E1 & E2 & ->).
  destruct (IH _ S T W E2) as (subs' & -> & G). apply Forall_cons_iff in T0 as [T0 _]. apply Forall_cons_iff in W0 as [W0 _].
  destruct (public_other_of k T0 W0) as (q & Q & H & _); [cbn in I; lia|].
  assert (E' : revoke_users x r (k :: s1 :: sigs) = Ok (q :: s1 :: sigs)).
  { change (revoke_users x r (k :: s1 :: sigs)) with (here <- (if p_tag k =? 7 then q <- public_packet 14 k ;; Ok [q]
             else if p_tag k =? 13 then d <- as_user_id k ;; Ok (if occurs x d then [k; r] else [])
             else Ok [k]) ;; t <- revoke_users x r (s1 :: sigs) ;; Ok (here ++ t)).
    rewrite (revoke_users_same x r (s1 :: sigs)) by (revert F; apply Forall_impl; intros; lia). unfold public_other in Q.
    destruct (p_tag k =? 7); [rewrite Q; reflexivity|]. apply Ok_inj in Q. subst q. replace (p_tag k =? 13) with false by (cbn in I; lia). reflexivity. }
  rewrite E1 in E'. apply Ok_inj in E'. subst o1. exists ((q :: s1 :: sigs) :: subs'). split; [reflexivity|]. constructor; [|exact G]. exists k, q, s1, sigs. auto.
Qed.

Lemma revoke_uid_ok a x now draws g rest : revoke_uid a x now draws = Ok (g, rest) -> g_packets g <> [] ->
  exists s k first out, meaningful (r_target a) = Ok true /\ uid_sig a x now draws = Ok (Some s, rest) /\ vec_at (g_packets (r_target a)) 0 = Ok k /\
   public_primary k = Ok first /\ revoke_users x (new_packet 2 (PSig s)) (skipn 1 (g_packets (r_target a))) = Ok out /\
   g = revoked_key (r_target a) (first ++ out).
Proof.
  intros E NE. unfold revoke_uid in E. apply bind_ok in E as (v & V & E).
  destruct v; [|apply Ok_inj in E; assert (g = public_new) as -> by congruence; now destruct NE]. cbn [negb] in E.
  destruct (rev_valid_target a V) as [M _]. apply bind_ok in E as (i1 & _ & E). apply bind_ok in E as (i2 & _ & E).
  destruct (beq i1 i2); [|apply Ok_inj in E; assert (g = public_new) as -> by congruence; now destruct NE]. cbn [negb] in E.
  apply bind_ok in E as ([o dr] & KS & E).
  destruct o as [s|]; [|apply Ok_inj in E; assert (g = public_new) as -> by congruence; now destruct NE].
  apply bind_ok in E as (k & K & E). apply bind_ok in E as (first & F & E). apply bind_ok in E as (out & O & E). apply Ok_inj in E.
  exists s, k, first, out. assert (dr = rest) as -> by congruence. repeat (split; [assumption|]). congruence.
Qed.
(** Revoke::uid when every user ID of the target contains the text given: the public form of
    every packet in order, each user ID followed by the certification revocation; a
    meaningful public key without secrets. *)
Theorem C36_uid_partial : forall a x now draws g rest,
  Forall typed (g_packets (r_target a)) -> Forall writable (g_packets (r_target a)) ->
  (forall p t, In p (g_packets (r_target a)) -> user_text p t -> contains x t) ->
  revoke_uid a x now draws = Ok (g, rest) -> g_packets g <> [] ->
  exists k revs us subs k' us' subs' s r,
    g_packets (r_target a) = k :: revs ++ concat us ++ concat subs /\
    Forall (signature_of (eq 32)) revs /\ Forall user_part us /\ Exists has_user_id us /\
    g_packets g = k' :: revs ++ concat us' ++ concat subs' /\ public_of k k' /\
    Forall2 (revoked_user r) us us' /\ Forall2 public_part subs subs' /\
    signature_packet s r /\ t2_type s = 48 /\ In (false, Sub29 (r_code a) (r_reason a)) (t2_hashed s) /\
    public_meaningful g = Ok true /\ no_secrets (g_packets g) /\ g_keys g = g_keys (r_target a).
Proof.
  intros a x now draws g rest T W CO E NE. destruct (revoke_uid_ok _ _ _ _ _ _ E NE) as (s & k & first & out & M & KS & K & F & O & ->).
  destruct (uid_sig_type _ _ _ _ _ _ KS) as [TY RE]. destruct (meaningful_parts _ T M) as (k0 & revs & us & subs & P).
  pose proof P as (GP & PR & PU & PX & _). rewrite GP in *. apply Ok_inj in K. subst k0. cbn [skipn] in O.
  apply Forall_cons_iff in T as [T0 T]. apply Forall_cons_iff in W as [W0 W].
  assert (C : p_tag k = 5 \/ p_tag k = 6) by (destruct P as (_ & _ & _ & _ & (? & ? & I & -> & _) & _); cbn in I; destruct I as [I|[I|[]]]; injection I as <- _; auto).
  destruct (public_primary_of k T0 W0 C) as (k' & E1 & H1 & T1). rewrite E1 in F. apply Ok_inj in F. subst first.
  apply revoke_users_app in O as (o1 & o2 & O1 & O & ->). apply revoke_users_app in O as (o3 & o4 & O3 & O4 & ->).
  rewrite revoke_users_same in O1 by (revert PR; apply Forall_impl; intros p H; apply binding_tag in H; lia). apply Ok_inj in O1. subst o1.
  apply Forall_app in T as [T1' T]. apply Forall_app in T as [T2 T]. apply Forall_app in W as [_ W]. apply Forall_app in W as [_ W].
  destruct (parts_sub _ _ _ _ _ P) as (sub & I & S).
  destruct (revoke_user_parts x (new_packet 2 (PSig s)) us o3 PU T2) as (us' & -> & FU); [|exact O3|].
  { intros p t Ip. apply CO. right. apply in_or_app. right. apply in_or_app. now left. }
  destruct (revoke_user_subs x (new_packet 2 (PSig s)) sub I subs o4 S T W O4) as (subs' & -> & FS).
  exists k, revs, us, subs, k', us', subs', s, (new_packet 2 (PSig s)). split; [reflexivity|]. repeat (split; [assumption|]).
  split; [reflexivity|]. split; [exact H1|]. split; [exact FU|]. split; [exact FS|]. split; [split; reflexivity|]. split; [exact TY|]. split; [exact RE|].
  assert (U' : Forall user_part us' /\ (Exists has_user_id us -> Exists has_user_id us') /\ Forall typed (concat us') /\ no_secrets (concat us')).
  { clear - FU PU T2 TY. revert PU T2. induction FU as [|l l' us us' F0 F IH]; intros PU T; [split; [constructor|split; [auto|split; constructor]]|].
    apply Forall_cons_iff in PU as [P0 PU]. cbn [concat] in T. apply Forall_app in T as [T0 T].
    assert (X : user_part l' /\ (has_user_id l -> has_user_id l') /\ Forall typed l' /\ no_secrets l').
    { destruct F0 as (u & sigs & -> & C). destruct P0 as (u0 & s0 & E & Tu & F0). injection E as <- <-. apply Forall_cons_iff in T0 as [Tu' T0].
      assert (N : no_secrets sigs) by (revert F0; apply Forall_impl; intros p H; apply binding_tag in H; lia).
      destruct C as [[C ->]|[C ->]].
      - split.
        { exists u, (new_packet 2 (PSig s) :: sigs). split; [reflexivity|]. split; [exact Tu|]. constructor; [|exact F0].
          split; [reflexivity|]. exists s. auto. }
        split; [exists u, (new_packet 2 (PSig s) :: sigs); auto|]. split.
        + constructor; [exact Tu'|]. constructor; [cbn; eauto|exact T0].
        + constructor; [lia|]. constructor; [cbn; lia|exact N].
      - split; [exists u, sigs; auto|]. split; [auto|]. split; [auto|]. constructor; [lia|exact N]. }
    destruct X as (X1 & X2 & X3 & X4). destruct (IH PU T) as (Y1 & Y2 & Y3 & Y4). split; [constructor; auto|]. split.
    - intros PX. inversion PX; subst; [apply Exists_cons_hd; auto|apply Exists_cons_tl; auto].
    - cbn [concat]. split; apply Forall_app; auto. }
  destruct U' as (U1 & U2 & U3 & U4). specialize (U2 PX).
  assert (S' := public_subs_14 _ _ _ _ _ _ P FS).
  assert (TS : Forall typed (concat subs') /\ no_secrets (concat subs')).
  { clear - FS S' T. revert S' T. induction FS as [|l l' subs subs' F0 F IH]; intros S T; [split; constructor|]. cbn [concat] in *.
    apply Forall_cons_iff in S as [S0 S]. apply Forall_app in T as [T0 T]. destruct (IH S T) as [A B].
    apply part_shape in S0 as (k0 & s0 & ss & E0 & Tk & FS). destruct F0 as (k & k' & s1 & sigs & -> & E & H). rewrite E in E0 |- *. injection E0 as <- <- <-.
    apply Forall_cons_iff in T0 as [Tk0 T0]. split; apply Forall_app; (split; [|assumption]).
    - constructor; [now apply (public_typed k)|exact T0].
    - constructor; [lia|]. revert FS. apply Forall_impl. intros; lia. }
  destruct TS as [TS NS]. cbn [app]. split; [|split; [|reflexivity]].
  - apply block_meaningful; [reflexivity| |].
    + cbn [revoked_key g_packets]. constructor; [now apply (public_typed k)|]. apply Forall_app. split; [exact T1'|]. apply Forall_app. auto.
    + apply (rebuilt _ _ _ _ _ _ revs us' subs' P); auto. intros ->. now inversion FS.
  - cbn [revoked_key g_packets]. constructor; [lia|]. apply Forall_app. split; [revert PR; apply Forall_impl; intros p H; apply binding_tag in H; lia|].
    apply Forall_app. auto.
Qed.
(** A user ID that does not contain the text given is lost. *)
Theorem C36_uid_refuted : forall a x now draws g rest p t,
  Forall typed (g_packets (r_target a)) -> In p (g_packets (r_target a)) -> user_text p t -> ~ contains x t ->
  revoke_uid a x now draws = Ok (g, rest) -> ~ In p (g_packets g).
Proof.
  intros a x now draws g rest p t T I [T13 B] C E Ig. assert (NE : g_packets g <> []) by (intros Z; rewrite Z in Ig; destruct Ig).
  destruct (revoke_uid_ok _ _ _ _ _ _ E NE) as (s & k & first & out & M & KS & K & F & O & ->). cbn [revoked_key g_packets] in Ig.
  apply in_app_or in Ig as [Ig|Ig].
  - unfold public_primary in F. destruct (p_tag k =? 6) eqn:T6.
    + apply Ok_inj in F. subst first. destruct Ig as [->|[]]. lia.
    + destruct (p_tag k =? 5); [|apply Ok_inj in F; subst; destruct Ig]. apply bind_ok in F as (q & Q & F). apply Ok_inj in F. subst first.
      destruct Ig as [->|[]]. unfold public_packet in Q. apply bind_ok in Q as ([? ?] & _ & Q). apply bind_ok in Q as (? & _ & Q). apply Ok_inj in Q. subst p. discriminate.
  - clear - Ig O T13 B C. revert out O Ig. induction (skipn 1 (g_packets (r_target a))) as [|q ps IH]; intros out O Ig.
    { apply Ok_inj in O. subst. destruct Ig. }
    cbn [revoke_users] in O. apply bind_ok in O as (h & H & O). apply bind_ok in O as (o & O' & O). apply Ok_inj in O. subst out.
    apply in_app_or in Ig as [Ig|Ig]; [|now apply (IH o)]. destruct (p_tag q =? 7) eqn:Q7.
    { apply bind_ok in H as (q' & Q & H). apply Ok_inj in H. subst h. destruct Ig as [->|[]].
      unfold public_packet in Q. apply bind_ok in Q as ([? ?] & _ & Q). apply bind_ok in Q as (? & _ & Q). apply Ok_inj in Q. subst p. discriminate. }
    destruct (p_tag q =? 13) eqn:Q13.
    + apply bind_ok in H as (d & D & H). apply Ok_inj in H. subst h. destruct (occurs x d) eqn:OC; [|destruct Ig].
      destruct Ig as [->|[<-|[]]]; [|discriminate T13]. unfold as_user_id in D. rewrite B in D. apply Ok_inj in D. subst d. apply C. now apply occurs_iff.
    + apply Ok_inj in H. subst h. destruct Ig as [->|[]]. lia.
Qed.

(** *** Certificates *)
Lemma with_cert_ok g cert : verify_revoke g cert = Ok 1%Z -> Forall typed (g_packets g) -> Forall writable (g_packets g) ->
  exists c s k revs us subs k', g_packets cert = [c] /\ signature_packet s c /\ parts g k revs us subs /\ public_of k k' /\ p_tag k' = 6 /\ In (t2_type s) [32; 40; 48] /\
  (exists kk, as_key k = Ok kk /\
  revoke_with_cert g cert =
    (o <- (if t2_type s =? 48 then cert_users kk s c (revs ++ concat us ++ concat subs) else Ok (Some ([], revs ++ concat us ++ concat subs))) ;;
     match o with
     | None => Ok public_new
     | Some (users, r) =>
       let (x, y) := before_subkeys r in
       match y with
       | [] => UB
       | sub :: r =>
         q <- public_other sub ;;
         tail <- (if t2_type s =? 40 then match r with [] => UB | n :: r' => Ok (n :: c :: r') end else Ok r) ;;
         Ok (revoked_key g ([k'] ++ (if t2_type s =? 32 then [c] else []) ++ users ++ x ++ q :: tail))
       end
     end)).
Proof.
  intros V T W. pose proof V as V0. unfold verify_revoke in V. apply bind_ok in V as (m & M & V). destruct m; [|discriminate]. cbn [negb] in V.
  apply bind_ok in V as (m & M' & _). unfold revoke_with_cert. rewrite V0, M, M'. cbn [bind negb].
  destruct m; [|unfold verify_revoke in V0; rewrite M, M' in V0; discriminate]. cbn [negb Z.eqb orb bind].
  unfold revocation_meaningful in M'. destruct (g_type cert =? 2); [|discriminate]. cbn [negb] in M'.
  destruct (g_packets cert) as [|c [|? ?]]; try discriminate. destruct (p_tag c =? 2) eqn:Tc; [|discriminate]. cbn [negb] in M'.
  apply bind_ok in M' as (s & S & M'). apply Ok_inj in M'. destruct (meaningful_parts _ T M) as (k & revs & us & subs & P).
  pose proof P as (GP & _). rewrite GP in *. apply Forall_cons_iff in T as [T0 T]. apply Forall_cons_iff in W as [W0 W].
  assert (C : p_tag k = 5 \/ p_tag k = 6) by (destruct P as (_ & _ & _ & _ & (? & ? & I & -> & _) & _); cbn in I; destruct I as [I|[I|[]]]; injection I as <- _; auto).
  destruct (public_primary_of k T0 W0 C) as (k' & E1 & H1 & T1). cbn [vec_at nth_error bind skipn]. rewrite S. cbn [bind]. rewrite E1. cbn [bind].
  assert (exists kk, as_key k = Ok kk) as (kk & K) by (apply typed_key; [exact T0|cbn; lia]).
  exists c, s, k, revs, us, subs, k'. split; [reflexivity|]. split; [split; [lia|now apply as_sig_inv]|]. split; [exact P|]. split; [exact H1|]. split; [exact T1|].
  split. { unfold mem in M'. cbn [existsb] in M'. rewrite !orb_true_iff, !N.eqb_eq in M'. cbn. intuition; try discriminate. }
  exists kk. split; [exact K|]. rewrite K. reflexivity.
Qed.
Lemma parts_public_same g k revs us subs subs' : parts g k revs us subs -> g_type g = 2 -> meaningful g = Ok true -> Forall2 public_part subs subs' -> subs' = subs.
Proof.
  intros (E & _ & _ & _ & (prim & sub & I & Tk & S) & _) T M F.
  assert (sub = 14).
  { cbn in I. destruct I as [I|[I|[]]]; [congruence|]. injection I as <- <-. destruct (meaningful_first g M) as (p & r & E' & _).
    unfold meaningful, key_meaningful in M. rewrite T, E in M. destruct (revs ++ concat us ++ concat subs); [discriminate|]. rewrite Tk in M. discriminate. }
  subst sub. clear - S F. induction F as [|l l' subs subs' (k & k' & s1 & sigs & -> & -> & H) F IH]; [reflexivity|].
  apply Forall_cons_iff in S as [(k0 & s0 & E & T & _) S]. injection E as <- <-. f_equal; [|auto].
  now rewrite (not_secret_same k k') by (lia || exact H).
Qed.
Lemma parts_unique g k revs us subs k0 revs0 us0 subs0 : parts g k revs us subs -> parts g k0 revs0 us0 subs0 ->
  k = k0 /\ revs ++ concat us = revs0 ++ concat us0 /\ concat subs = concat subs0.
Proof.
  intros P P0. pose proof (split_subkeys _ _ _ _ _ P) as S. pose proof (split_subkeys _ _ _ _ _ P0) as S0.
  destruct P as [E _], P0 as [E0 _]. rewrite E in E0. injection E0 as <- E0. rewrite E0, S0 in S. injection S as S1 S2. auto.
Qed.
Lemma parts_same_subs g k revs us subs k0 revs0 us0 subs0 : parts g k revs us subs -> parts g k0 revs0 us0 subs0 -> subs = subs0.
Proof.
  intros P P0. destruct (parts_unique _ _ _ _ _ _ _ _ _ P P0) as (_ & _ & E).
  destruct (parts_sub _ _ _ _ _ P) as (sub & I & S), (parts_sub _ _ _ _ _ P0) as (sub0 & I0 & S0). clear - I I0 S S0 E.
  revert subs0 S0 E. induction S as [|l subs H S IH]; intros subs0 S0 E.
  - destruct S0 as [|l0 subs0 H0 S0]; [reflexivity|]. apply part_shape in H0 as (? & ? & ? & -> & _). discriminate.
  - apply part_shape in H as (k & s1 & sigs & -> & Tk & F). destruct S0 as [|l0 subs0 H0 S0]; [discriminate|].
    apply part_shape in H0 as (k0 & s0 & sigs0 & -> & Tk0 & F0). cbn [concat app] in E. injection E as <- <- E.
    apply Forall_cons_iff in F as [_ F]. apply Forall_cons_iff in F0 as [_ F0].
    assert (X : sigs = sigs0 /\ concat subs = concat subs0).
    { assert (Y : forall a b c d : list packet, Forall (fun p => p_tag p = 2) a -> Forall (fun p => p_tag p = 2) b ->
        (c = [] \/ exists p r, c = p :: r /\ p_tag p <> 2) -> (d = [] \/ exists p r, d = p :: r /\ p_tag p <> 2) -> a ++ c = b ++ d -> a = b /\ c = d).
      { clear. induction a as [|p a IH]; intros b c d A B C D E.
        - destruct b as [|q b]; [auto|]. apply Forall_cons_iff in B as [B _]. cbn [app] in E. destruct C as [->|(p & r & -> & N)]; [discriminate|]. injection E as -> _. congruence.
        - apply Forall_cons_iff in A as [A0 A]. destruct b as [|q b].
          + cbn [app] in E. destruct D as [->|(q & r & -> & N)]; [discriminate|]. injection E as -> _. congruence.
          + apply Forall_cons_iff in B as [B0 B]. injection E as -> E. destruct (IH b c d A B C D E) as [-> ->]. auto. }
      apply (Y sigs sigs0 _ _ F F0).
      - destruct S as [|l S']; [auto|]. right. apply part_shape in H as (q & ? & ? & -> & T & _). cbn [concat app]. do 2 eexists. split; [reflexivity|]. cbn in I. lia.
      - destruct S0 as [|l S0']; [auto|]. right. apply part_shape in H as (q & ? & ? & -> & T & _). cbn [concat app]. do 2 eexists. split; [reflexivity|]. cbn in I0. lia.
      - exact E. }
    destruct X as [-> E']. f_equal. now apply IH.
Qed.

(** Revoke::with_cert with a certificate for the primary key, when the key is a public one
    with a subkey, or a secret one with one subkey: the public form of every packet in order,
    and the revocation after the primary key. *)
Theorem C36_cert_key_partial : forall g cert k revs us l more c s,
  Forall typed (g_packets g) -> Forall writable (g_packets g) -> verify_revoke g cert = Ok 1%Z ->
  parts g k revs us (l :: more) -> (g_type g = 2 \/ more = []) ->
  g_packets cert = [c] -> signature_packet s c -> t2_type s = 32 ->
  exists g' k' l', revoke_with_cert g cert = Ok g' /\ g_packets g' = k' :: c :: revs ++ concat us ++ l' ++ concat more /\
    public_of k k' /\ public_part l l' /\ no_secrets (g_packets g') /\ g_keys g' = g_keys g.
Proof.
  intros g cert k revs us l more c s T W V P M C [Sc1 Sc2] TY.
  destruct (with_cert_ok g cert V T W) as (c0 & s0 & k0 & revs0 & us0 & subs0 & k' & C0 & [S1 S2] & P0 & H & Tk' & _ & kk & K & ->).
  rewrite C in C0. injection C0 as <-. rewrite Sc2 in S2. injection S2 as <-. rewrite TY. cbn [N.eqb Pos.eqb bind].
  destruct (parts_unique _ _ _ _ _ _ _ _ _ P P0) as (-> & E & _). rewrite app_assoc, <- E, <- (parts_same_subs _ _ _ _ _ _ _ _ _ P P0), <- app_assoc, (split_subkeys _ _ _ _ _ P).
  destruct (parts_sub _ _ _ _ _ P) as (sub & I & S). pose proof S as S'. apply Forall_cons_iff in S as [SL SM].
  apply part_shape in SL as (q & s1 & sigs & -> & Tq & F).
  pose proof P as (GP & _). rewrite GP in T, W. apply Forall_cons_iff in T as [_ T]. rewrite app_assoc in T. apply Forall_app in T as [_ T].
  apply Forall_cons_iff in W as [_ W]. rewrite app_assoc in W. apply Forall_app in W as [_ W]. cbn [concat] in *.
  inversion T as [|? ? Tq' T']; subst. inversion W as [|? ? Wq W']; subst.
  destruct (public_other_of q Tq' Wq) as (q' & Q & H' & N5 & N7); [cbn in I; lia|]. cbn [app]. rewrite Q. cbn [bind].
  eexists _, k', (q' :: s1 :: sigs). split; [reflexivity|]. split; [cbn [revoked_key g_packets]; rewrite <- app_assoc; reflexivity|].
  split; [exact H|]. split; [exists q, q', s1, sigs; auto|]. split; [|reflexivity].
  unfold no_secrets. cbn [revoked_key g_packets]. constructor; [lia|]. constructor; [lia|]. apply Forall_app. split.
  { apply other_tags in P. revert P. apply Forall_impl. intros; lia. }
  constructor; [auto|]. apply (Forall_app _ (s1 :: sigs)). split; [revert F; apply Forall_impl; intros; lia|].
  destruct M as [M| ->]; [|constructor]. clear - P S' SM M V.
  assert (MM : meaningful g = Ok true) by (unfold verify_revoke in V; apply bind_ok in V as (b & B & V); destruct b; [exact B|discriminate]).
  assert (p_tag q = 14).
  { destruct P as (E & _ & _ & _ & (prim & sub & I & Tk & S) & _). cbn in I. destruct I as [I|[I|[]]]; injection I as <- <-.
    - apply Forall_cons_iff in S as [(? & ? & E0 & T0 & _) _]. injection E0 as <- _. exact T0.
    - exfalso. unfold meaningful, key_meaningful in MM. rewrite M, E in MM. cbn [concat app] in MM.
      destruct (revs ++ concat us ++ q :: s1 :: sigs ++ concat more); [discriminate|]. rewrite Tk in MM. discriminate. }
  rewrite H in *. clear - SM. induction SM as [|l more S0 SM IH]; [constructor|]. cbn [concat]. apply Forall_app. split; [|exact IH].
  apply part_shape in S0 as (k & s0 & ss & -> & T & F). constructor; [lia|]. revert F. apply Forall_impl. intros; lia.
Qed.
(** With a certificate for the only subkey: the revocation comes after the first signature of
    the subkey. *)
Theorem C36_cert_subkey_partial : forall g cert k revs us q s1 sigs c s,
  Forall typed (g_packets g) -> Forall writable (g_packets g) -> verify_revoke g cert = Ok 1%Z ->
  parts g k revs us [q :: s1 :: sigs] ->
  g_packets cert = [c] -> signature_packet s c -> t2_type s = 40 ->
  exists g' k' q', revoke_with_cert g cert = Ok g' /\ g_packets g' = k' :: revs ++ concat us ++ q' :: s1 :: c :: sigs /\
    public_of k k' /\ public_of q q' /\ no_secrets (g_packets g') /\ g_keys g' = g_keys g.
Proof.
  intros g cert k revs us q s1 sigs c s T W V P C [Sc1 Sc2] TY.
  destruct (with_cert_ok g cert V T W) as (c0 & s0 & k0 & revs0 & us0 & subs0 & k' & C0 & [S1 S2] & P0 & H & Tk' & _ & kk & K & ->).
  rewrite C in C0. injection C0 as <-. rewrite Sc2 in S2. injection S2 as <-. rewrite TY. cbn [N.eqb Pos.eqb bind].
  destruct (parts_unique _ _ _ _ _ _ _ _ _ P P0) as (-> & E & _). rewrite app_assoc, <- E, <- (parts_same_subs _ _ _ _ _ _ _ _ _ P P0), <- app_assoc, (split_subkeys _ _ _ _ _ P).
  destruct (parts_sub _ _ _ _ _ P) as (sub & I & S). apply Forall_cons_iff in S as [SL _].
  apply part_shape in SL as (q0 & s2 & ss & X & Tq & F). injection X as <- <- <-.
  pose proof P as (GP & _). rewrite GP in T, W. apply Forall_cons_iff in T as [_ T]. rewrite app_assoc in T. apply Forall_app in T as [_ T].
  apply Forall_cons_iff in W as [_ W]. rewrite app_assoc in W. apply Forall_app in W as [_ W]. cbn [concat app] in *.
  inversion T as [|? ? Tq' T']; subst. inversion W as [|? ? Wq W']; subst.
  destruct (public_other_of q Tq' Wq) as (q' & Q & H' & N5 & N7); [cbn in I; lia|]. rewrite Q. cbn [bind].
  eexists _, k', q'. split; [reflexivity|]. split; [cbn [revoked_key g_packets]; rewrite app_nil_r, <- app_assoc; reflexivity|].
  split; [exact H|]. split; [exact H'|]. split; [|reflexivity].
  unfold no_secrets. cbn [revoked_key g_packets]. constructor; [lia|]. apply Forall_app. split.
  { apply other_tags in P. revert P. apply Forall_impl. intros; lia. }
  apply Forall_cons_iff in F as [F0 F]. constructor; [auto|]. constructor; [lia|]. constructor; [lia|]. rewrite app_nil_r. revert F. apply Forall_impl. intros; lia.
Qed.
(** A key without subkeys cannot be revoked with a certificate: a packet past the end is used. *)
Theorem C36_cert_no_subkey_refuted : forall g cert k revs us c s,
  Forall typed (g_packets g) -> Forall writable (g_packets g) -> verify_revoke g cert = Ok 1%Z -> parts g k revs us [] ->
  g_packets cert = [c] -> signature_packet s c -> t2_type s = 32 -> revoke_with_cert g cert = UB.
Proof.
  intros g cert k revs us c s T W V P C [Sc1 Sc2] TY.
  destruct (with_cert_ok g cert V T W) as (c0 & s0 & k0 & revs0 & us0 & subs0 & k' & C0 & [S1 S2] & P0 & H & Tk' & _ & kk & K & ->).
  rewrite C in C0. injection C0 as <-. rewrite Sc2 in S2. injection S2 as <-. rewrite TY. cbn [N.eqb Pos.eqb bind].
  destruct (parts_unique _ _ _ _ _ _ _ _ _ P P0) as (-> & E & _). rewrite app_assoc, <- E, <- (parts_same_subs _ _ _ _ _ _ _ _ _ P P0), <- app_assoc, (split_subkeys _ _ _ _ _ P).
  reflexivity.
Qed.
(** The second subkey of a secret key stays secret in the "public" key returned. *)
Theorem C36_cert_secret_refuted : forall g cert g' k revs us l q l' more c s,
  Forall typed (g_packets g) -> Forall writable (g_packets g) -> verify_revoke g cert = Ok 1%Z ->
  parts g k revs us (l :: (q :: l') :: more) -> p_tag q = 7 ->
  g_packets cert = [c] -> signature_packet s c -> t2_type s = 32 -> revoke_with_cert g cert = Ok g' ->
  g_type g' = 2 /\ In q (g_packets g').
Proof.
  intros g cert g' k revs us l q l' more c s T W V P T7 C [Sc1 Sc2] TY R.
  destruct (with_cert_ok g cert V T W) as (c0 & s0 & k0 & revs0 & us0 & subs0 & k' & C0 & [S1 S2] & P0 & H & Tk' & _ & kk & K & E0).
  rewrite C in C0. injection C0 as <-. rewrite Sc2 in S2. injection S2 as <-. rewrite E0, TY in R. cbn [N.eqb Pos.eqb bind] in R. clear E0.
  destruct (parts_unique _ _ _ _ _ _ _ _ _ P P0) as (-> & E & _). rewrite app_assoc, <- E, <- (parts_same_subs _ _ _ _ _ _ _ _ _ P P0), <- app_assoc, (split_subkeys _ _ _ _ _ P) in R.
  destruct (parts_sub _ _ _ _ _ P) as (sub & I & S). apply Forall_cons_iff in S as [SL _].
  apply part_shape in SL as (q0 & s2 & ss & -> & Tq & F). cbn [concat app] in R. apply bind_ok in R as (q1 & _ & R). apply Ok_inj in R. subst g'.
  split; [reflexivity|]. cbn [revoked_key g_packets In]. right. right. apply in_or_app. right. right. right. apply in_or_app. right. now left.
Qed.
Lemma skip_app : forall xs ys, Forall (fun p => is_user (p_tag p) = false) xs -> (exists u r, ys = u :: r /\ is_user (p_tag u) = true) ->
  skip_to_user (xs ++ ys) = ys.
Proof.
  induction xs as [|x xs IH]; intros ys F (u & r & -> & U); cbn [app skip_to_user]; [now rewrite U|].
  apply Forall_cons_iff in F as [F0 F]. rewrite F0. eauto.
Qed.
(** With a certificate for a user who is not the first one of the key, it does not return. *)
Theorem C36_cert_user_refuted : forall g cert k kk revs u sigs us subs c s d,
  Forall typed (g_packets g) -> Forall writable (g_packets g) -> verify_revoke g cert = Ok 1%Z ->
  parts g k revs ((u :: sigs) :: us) subs -> as_key k = Ok kk ->
  g_packets cert = [c] -> signature_packet s c -> t2_type s = 48 ->
  to_sign_30 kk (p_tag u) (p_body u) s = Ok d -> verify_key d kk s = Ok 0%Z ->
  revoke_with_cert g cert = Diverge.
Proof.
  intros g cert k kk revs u sigs us subs c s d T W V P K C [Sc1 Sc2] TY D VK.
  destruct (with_cert_ok g cert V T W) as (c0 & s0 & k0 & revs0 & us0 & subs0 & k' & C0 & [S1 S2] & P0 & H & Tk' & _ & kk' & K' & ->).
  rewrite C in C0. injection C0 as <-. rewrite Sc2 in S2. injection S2 as <-. rewrite TY. cbn [N.eqb Pos.eqb bind].
  destruct (parts_unique _ _ _ _ _ _ _ _ _ P P0) as (<- & E & E'). rewrite K in K'. apply Ok_inj in K'. subst kk'.
  rewrite app_assoc, <- E, <- E', <- app_assoc. unfold cert_users.
  pose proof P as (_ & PR & PU & _). apply Forall_cons_iff in PU as [(u0 & ss & X & Tu & _) _]. injection X as <- <-.
  rewrite skip_app; [|revert PR; apply Forall_impl; intros p Hp; apply binding_tag in Hp; now rewrite Hp
                     |cbn [concat app]; do 2 eexists; split; [reflexivity|]; apply is_user_iff; lia].
  cbn [concat app]. rewrite D. cbn [bind]. rewrite VK. reflexivity.
Qed.
(** With a certificate for the first user, that user's first certification is lost, and so are
    the revocations of the primary key. *)
Theorem C36_cert_loss_refuted : forall g cert k kk revs u s1 sigs us q l subs c s d,
  Forall typed (g_packets g) -> Forall writable (g_packets g) -> verify_revoke g cert = Ok 1%Z ->
  parts g k revs ((u :: s1 :: sigs) :: us) ((q :: l) :: subs) -> as_key k = Ok kk ->
  g_packets cert = [c] -> signature_packet s c -> t2_type s = 48 ->
  to_sign_30 kk (p_tag u) (p_body u) s = Ok d -> verify_key d kk s = Ok 1%Z ->
  exists g' k' q', revoke_with_cert g cert = Ok g' /\ g_packets g' = k' :: u :: c :: sigs ++ concat us ++ q' :: l ++ concat subs.
Proof.
  intros g cert k kk revs u s1 sigs us q l subs c s d T W V P K C [Sc1 Sc2] TY D VK.
  destruct (with_cert_ok g cert V T W) as (c0 & s0 & k0 & revs0 & us0 & subs0 & k' & C0 & [S1 S2] & P0 & H & Tk' & _ & kk' & K' & ->).
  rewrite C in C0. injection C0 as <-. rewrite Sc2 in S2. injection S2 as <-. rewrite TY. cbn [N.eqb Pos.eqb bind].
  destruct (parts_unique _ _ _ _ _ _ _ _ _ P P0) as (<- & E & E'). rewrite K in K'. apply Ok_inj in K'. subst kk'.
  rewrite app_assoc, <- E, <- E', <- app_assoc. unfold cert_users.
  pose proof P as (GP & PR & PU & _). apply Forall_cons_iff in PU as [(u0 & ss & X & Tu & FS) PU]. injection X as <- <-.
  rewrite skip_app; [|revert PR; apply Forall_impl; intros p Hp; apply binding_tag in Hp; now rewrite Hp
                     |cbn [concat app]; do 2 eexists; split; [reflexivity|]; apply is_user_iff; lia].
  cbn [concat app]. rewrite D. cbn [bind]. rewrite VK. cbn [Z.eqb Pos.eqb bind skipn].
  destruct (parts_sub _ _ _ _ _ P) as (sub & I & S). apply Forall_cons_iff in S as [SL _].
  apply part_shape in SL as (q0 & s2 & ss & X & Tq & F). injection X as <- ->.
  pose proof (other_tags _ _ _ _ _ P) as O. apply Forall_app in O as [_ O]. cbn [concat] in O. inversion O as [|? ? _ O1]; subst. inversion O1 as [|? ? _ O2]; subst.
  rewrite before_app.
  2:{ revert O2. apply Forall_impl. intros p Hp. apply not_true_iff_false. rewrite is_subkey_iff. lia. }
  2:{ right. do 2 eexists. split; [reflexivity|]. apply is_subkey_iff. cbn in I. lia. }
  rewrite GP in T, W. rewrite Forall_forall in T, W.
  assert (IQ : In q (k :: revs ++ concat ((u :: s1 :: sigs) :: us) ++ concat ((q :: s2 :: ss) :: subs))).
  { right. apply in_or_app. right. apply in_or_app. right. now left. }
  destruct (public_other_of q (T q IQ) (W q IQ)) as (q' & Q & _); [cbn in I; lia|]. rewrite Q. cbn [bind app].
  eexists _, k', q'. split; [reflexivity|]. cbn [revoked_key g_packets]. now rewrite <- app_assoc.
Qed.

(** ** C68 *)
(** Once one digest of an algorithm can be checked, so can any other. *)
Lemma emsa_any hash d d' L em : emsa_encode hash d L = Ok em -> exists em', emsa_encode hash d' L = Ok em' /\ em' <> [].
Proof.
  unfold emsa_encode. intros E. apply bind_ok in E as (der & -> & E). apply bind_ok in E as (bits & -> & E). cbn [bind].
  destruct (_ <? _); [|discriminate]. apply bind_ok in E as (t & -> & E). cbn [bind]. eexists. split; [reflexivity|discriminate].
Qed.
Lemma verify_any hash d x pka pub vals x' : verify_with_pka x hash pka pub vals = Ok 1%Z -> hash_use hash d = Ok x' ->
  exists z, verify_with_pka x' hash pka pub vals = Ok z /\ (z = 0 \/ z = 1)%Z.
Proof.
  unfold verify_with_pka. intros V H. destruct (_ || _).
  - apply bind_ok in V as (n & -> & V). apply bind_ok in V as (em & E & V). cbn [bind].
    destruct (emsa_any _ _ x' _ _ E) as (em' & -> & NE). cbn [bind]. apply bind_ok in V as (b & V & _).
    unfold rsa_verify_raw in *. apply bind_ok in V as (m & _ & V). assert (exists m', rawtompi em' = Ok m') as (m' & ->) by (unfold rawtompi; destruct em'; [now destruct NE|eauto]).
    cbn [bind]. unfold rsa_verify in *. apply bind_ok in V as (v0 & -> & V). cbn [bind]. apply bind_ok in V as (y & -> & _). cbn [bind].
    eexists. split; [reflexivity|]. unfold of_bool. match goal with |- context [if ?b then _ else _] => destruct b end; auto.
  - destruct (pka =? 17); [|discriminate]. apply bind_ok in V as (b & V & B). apply Ok_inj in B. destruct b; [|discriminate]. clear B. unfold dsa_verify_raw in *.
    apply bind_ok in V as (m & _ & V). assert (exists m', rawtompi x' = Ok m') as (m' & ->).
    { pose proof (hash_use_len hash d x') as L. destruct x' as [|c x']; [|unfold rawtompi; eauto]. exfalso.
      unfold hash_use in H. apply bind_ok in H as (A & HA & H).
      assert (exists bits, map_at hash_length hash = Ok bits /\ 8 <= bits) as (bits & HB & B).
      { clear - HA. destruct hash as [|t]; [discriminate|]. do 4 (try destruct t as [t|t|]); try discriminate; (eexists; split; [reflexivity|lia]). }
      assert (hash_use hash d = Ok []) by (unfold hash_use; rewrite HA; exact H). specialize (L _ H0 HB). change (len []) with 0 in L.
      assert (1 <= bits / 8) by (apply N.div_le_lower_bound; lia). lia. }
    cbn [bind]. unfold dsa_verify in *. apply bind_ok in V as (r & -> & V). cbn [bind]. apply bind_ok in V as (b1 & -> & V). cbn [bind].
    apply bind_ok in V as (b2 & -> & V). cbn [bind]. destruct (b1 && b2); [discriminate|].
    apply bind_ok in V as (s & -> & V). cbn [bind]. apply bind_ok in V as (q & -> & V). cbn [bind]. apply bind_ok in V as (w & -> & V). cbn [bind].
    apply bind_ok in V as (u1 & U1 & V). apply bind_ok in V as (u2 & U2 & V). apply bind_ok in V as (g & -> & V). apply bind_ok in V as (p & -> & V).
    apply bind_ok in V as (gu & GU & V). apply bind_ok in V as (y & -> & V). apply bind_ok in V as (yu & YU & V).
    apply mpz_mod_inv in U1 as [Q0 _]. unfold mpz_mod at 1. replace (q =? 0) with false by lia. cbn [bind]. rewrite U2. cbn [bind].
    apply powm_odd in GU as [O _]. unfold mpz_powm at 1. rewrite <- N.negb_odd, O. cbn [negb bind]. rewrite YU. cbn [bind].
    unfold mpz_mod at 1. replace (p =? 0) with false by (destruct p; [discriminate|reflexivity]). cbn [bind].
    unfold mpz_mod at 1. replace (q =? 0) with false by lia. cbn [bind]. eexists. split; [reflexivity|]. destruct (_ =? r); cbn; auto.
Qed.
Lemma overkey_same k' k : same_public k' k -> k_version k = 4 -> overkey k' = overkey k.
Proof. intros (V & T & P & M) V4. unfold overkey, key_raw. rewrite V, T, P, M, V4. reflexivity. Qed.

(** The revoker holds the secret of [k], the primary key of [g], a version 4 key; version 4
    signatures are asked for. *)
Definition revoker (a : rev_args) (k : key) (sec : secret) (pri : list N) (g : pgp) : Prop :=
  r_version a = 4 /\ signs_with (r_signer a) k sec /\ decrypt_secret_keys sec (r_pass a) = Ok pri /\
  key_pair (k_pka k) pri (k_mpi k) /\ Forall mpi_fits (k_mpi k) /\ k_version k = 4 /\
  meaningful g = Ok true /\ has_primary g k.

Lemma revocation_made a k sec pri g s d digest draws s' rest id : revoker a k sec pri g -> get_keyid k = Ok id ->
  t2_version s = 4 -> t2_pka s = k_pka k -> t2_unhashed s = [(false, Sub16 id)] -> In (t2_type s) [32; 40; 48] ->
  hash_use (t2_hash s) d = Ok digest ->
  finish s digest k sec (r_pass a) (t2_hash s) draws = Ok (Some s', rest) ->
  exists vals p0 k0, s' = with_values s (prefix digest 2) vals /\
    verify_with_pka digest (t2_hash s) (k_pka k) (k_mpi k) vals = Ok 1%Z /\
    as_key p0 = Ok k0 /\ same_public k0 k /\ (exists r, g_packets g = p0 :: r) /\
    verify_revoke g (fst (cert_of (Some s', rest))) =
      (if t2_type s =? 32 then
         d <- hashed_with s' (addtrailer (overkey k0) s') ;; verify_key d k0 s'
       else if t2_type s =? 40 then
         any_verifies is_subkey (fun p => k' <- as_key p ;; to_sign_28 (p_tag p) k' s') k0 s' (g_packets g)
       else any_verifies is_user (fun p => to_sign_30 k0 (p_tag p) (p_body p) s') k0 s' (g_packets g)).
Proof.
  intros (RV & SW & D & KP & F & V4 & M & HP) KI V TP US TY HU FI.
  apply finish_ok in FI as (pri' & vals & D' & S & NE & ->). rewrite D in D'. apply Ok_inj in D'. subst pri'.
  assert (C : In (k_pka k) [1; 3; 17]) by (destruct SW as (? & ? & _ & _ & C); exact C).
  assert (C2 : k_pka k = 1 \/ k_pka k = 17).
  { destruct C as [C|[C|[C|[]]]]; auto. rewrite <- C in S. apply Ok_inj in S. congruence. }
  pose proof (with_pka_verifies d digest (k_pka k) pri (k_mpi k) (t2_hash s) draws vals rest HU C2 KP F S) as W.
  destruct (primary_found g k M HP C) as (p & k' & FK & A & SP & KE).
  destruct HP as (p0 & r & GP & HO). destruct (holds_as_key p0 k HO) as (k0 & A0 & SP0).
  assert (p = p0 /\ k' = k0) as [-> ->].
  { unfold find_signing_key in FK. rewrite M in FK. cbn [bind] in FK. rewrite GP in FK. cbn [find_signing] in FK.
    destruct (meaningful_first g M) as (p1 & r1 & E1 & T). rewrite GP in E1. assert (p1 = p0) as -> by congruence.
    replace (is_key_packet (p_tag p0)) with true in FK by (destruct T as [-> | ->]; reflexivity). rewrite A0 in FK. cbn [bind] in FK.
    destruct SP0 as (_ & _ & P & _). apply can_sign_iff in C. rewrite P, C in FK. apply Ok_inj in FK. assert (p = p0) as -> by congruence. split; [reflexivity|congruence]. }
  exists vals, p0, k0. split; [reflexivity|]. split; [exact W|]. split; [exact A0|]. split; [exact SP0|]. split; [eauto|].
  unfold verify_revoke. rewrite M. cbn [bind negb]. cbn [cert_of fst].
  assert (RM : revocation_meaningful (mkPgp true 2 [(str "Version", str "cc"); (str "Comment", str "Revocation Certificate")] [new_packet 2 (PSig (with_values s (prefix digest 2) vals))]) = Ok true).
  { unfold revocation_meaningful. cbn [g_type g_packets N.eqb Pos.eqb negb p_tag new_packet as_sig p_body bind]. destruct s. cbn [with_values t2_type] in *.
    f_equal. unfold mem. cbn [existsb]. cbn [In] in TY. rewrite !orb_true_iff, !N.eqb_eq. intuition. }
  rewrite RM. cbn [bind negb g_packets vec_at nth_error as_sig p_body new_packet]. rewrite KE, KI. cbn [bind].
  assert (SK : sig_keyid (with_values s (prefix digest 2) vals) = Ok id).
  { destruct s. cbn [with_values] in *. unfold sig_keyid. cbn [t2_version t2_unhashed] in *. rewrite V, US. reflexivity. }
  rewrite SK. cbn [bind]. rewrite beq_refl. cbn [negb]. rewrite FK. cbn [bind]. rewrite A. cbn [bind]. rewrite GP. cbn [vec_at nth_error bind]. rewrite A. cbn [bind].
  destruct s as [v ty pk h m l ti ki hs us]. cbn [with_values t2_type] in *. rewrite <- GP.
  destruct (ty =? 32) eqn:T1; [reflexivity|]. destruct (ty =? 40) eqn:T2; [reflexivity|]. destruct (ty =? 48) eqn:T3; [reflexivity|].
  exfalso. cbn [In] in TY. lia.
Qed.
(** A loop over packets finds a packet whose digest is signed. *)
Lemma any_finds which digest k s p : forall ps,
  (forall q, In q ps -> which (p_tag q) = true -> exists d z, digest q = Ok d /\ verify_key d k s = Ok z /\ (z = 0 \/ z = 1)%Z) ->
  In p ps -> which (p_tag p) = true -> (forall d, digest p = Ok d -> verify_key d k s = Ok 1%Z) -> any_verifies which digest k s ps = Ok 1%Z.
Proof.
  induction ps as [|q ps IH]; intros H I W V; [destruct I|]. cbn [any_verifies]. destruct (which (p_tag q)) eqn:Wq.
  - destruct (H q (or_introl eq_refl) Wq) as (d & z & D & VK & Z). rewrite D. cbn [bind]. rewrite VK. cbn [bind].
    destruct Z as [->| ->]; [|reflexivity]. cbn [Z.eqb]. destruct I as [->|I]; [rewrite (V d D) in VK; discriminate|].
    apply IH; auto. intros q' I'. apply H. now right.
  - destruct I as [->|I]; [congruence|]. apply IH; auto. intros q' I'. apply H. now right.
Qed.

(** A certificate for the primary key is accepted for every key with that primary key. *)
Theorem C68_key_partial : forall a k sec pri g now draws cert rest,
  revoker a k sec pri g -> key_cert a now draws = Ok (cert, rest) -> g_packets cert <> [] ->
  verify_revoke g cert = Ok 1%Z.
Proof.
  intros a k sec pri g now draws cert rest R E NE. unfold key_cert in E. apply bind_ok in E as ([o dr] & KS & E). apply Ok_inj in E.
  destruct o as [s'|]; [|assert (cert = mkPgp true 2 [] []) as -> by (apply (f_equal fst) in E; symmetry; exact E); now destruct NE].
  unfold key_sig in KS. apply bind_ok in KS as (v & V & KS). destruct v; [|discriminate]. cbn [negb] in KS. destruct (rev_valid_target a V) as [_ MS].
  pose proof R as (RV & SW & _ & _ & _ & V4 & _). destruct (signs_found _ _ _ MS SW) as (p & FP & AP). rewrite FP in KS. cbn [bind] in KS. rewrite AP in KS. cbn [bind] in KS.
  apply bind_ok in KS as (id & KI & KS). unfold revocation_sig in KS. set (s := with_reason (r_code a) (r_reason a) _) in KS.
  change (t2_type s) with 32 in KS. cbn [N.eqb Pos.eqb] in KS. apply bind_ok in KS as (digest & DG & FI).
  unfold to_sign_20, hashed_with in DG. apply bind_ok in DG as (d & IN & HU). unfold input_20 in IN. destruct (mem [5; 6] (p_tag p)); [|discriminate].
  change (t2_type s) with 32 in IN. cbn [N.eqb Pos.eqb] in IN.
  destruct (revocation_made a k sec pri g s d digest draws s' dr id R KI RV eq_refl eq_refl (or_introl eq_refl) HU FI) as (vals & p0 & k0 & -> & W & A0 & SP & _ & VR).
  assert (cert = fst (cert_of (Some (with_values s (prefix digest 2) vals), dr))) as -> by (apply (f_equal fst) in E; symmetry; exact E). rewrite VR.
  change (t2_type s) with 32. cbn [N.eqb Pos.eqb]. unfold hashed_with. rewrite trailer_values, (overkey_same k0 k SP V4), IN. cbn [bind].
  change (t2_hash (with_values s (prefix digest 2) vals)) with (t2_hash s). rewrite HU. cbn [bind]. unfold verify_key.
  change (t2_hash (with_values s (prefix digest 2) vals)) with (t2_hash s). change (t2_pka (with_values s (prefix digest 2) vals)) with (k_pka k).
  change (t2_mpi (with_values s (prefix digest 2) vals)) with vals. destruct SP as (_ & _ & _ & ->). exact W.
Qed.
(** One for a subkey of the target is accepted for every key with that primary key and that
    subkey. *)
Theorem C68_subkey_partial : forall a k sec pri g x now draws cert rest,
  revoker a k sec pri g -> Forall typed (g_packets g) ->
  (forall p kp, In p (g_packets (r_target a)) -> p_tag p = 7 -> as_key p = Ok kp ->
     k_version kp = 4 /\ exists q, In q (g_packets g) /\ (p_tag q = 7 \/ p_tag q = 14) /\ holds q kp) ->
  subkey_cert a x now draws = Ok (cert, rest) -> g_packets cert <> [] ->
  verify_revoke g cert = Ok 1%Z.
Proof.
  intros a k sec pri g x now draws cert rest R T HS E NE. unfold subkey_cert in E. apply bind_ok in E as ([o dr] & KS & E). apply Ok_inj in E.
  destruct o as [s'|]; [|assert (cert = mkPgp true 2 [] []) as -> by (apply (f_equal fst) in E; symmetry; exact E); now destruct NE].
  unfold subkey_sig in KS. apply bind_ok in KS as (v & V & KS). destruct v; [|discriminate]. cbn [negb] in KS. destruct (rev_valid_target a V) as [_ MS].
  pose proof R as (RV & SW & _ & _ & _ & V4 & _). destruct (signs_found _ _ _ MS SW) as (p & FP & AP). rewrite FP in KS. cbn [bind] in KS. rewrite AP in KS. cbn [bind] in KS.
  apply bind_ok in KS as (o & FK & KS). destruct o as [t|]; [|discriminate].
  assert (exists p, In p (g_packets (r_target a)) /\ p_tag p = 7 /\ as_key p = Ok t) as (pt & IP & T7 & AT).
  { clear - FK. induction (g_packets (r_target a)) as [|q ps IH]; [discriminate|]. cbn [find_subkey] in FK. destruct (p_tag q =? 7) eqn:T7.
    - apply bind_ok in FK as (kk & K & FK). apply bind_ok in FK as (id & D & FK). destruct (occurs x id).
      + apply Ok_inj in FK. assert (kk = t) as -> by congruence. exists q. split; [now left|]. split; [lia|exact K].
      + destruct (IH FK) as (q' & I & H). exists q'. split; [now right|exact H].
    - destruct (IH FK) as (q' & I & H). exists q'. split; [now right|exact H]. }
  destruct (HS pt t IP T7 AT) as (V4t & q & IQ & TQ & HQ). destruct (holds_as_key q t HQ) as (tq & AQ & SQ).
  apply bind_ok in KS as (id & KI & KS). unfold revocation_sig in KS. set (s := create_sig _ _ _ _ _ _) in KS.
  change (t2_type s) with 40 in KS. cbn [N.eqb Pos.eqb] in KS. apply bind_ok in KS as (digest & DG & FI).
  unfold to_sign_28, hashed_with in DG. apply bind_ok in DG as (d & IN & HU). unfold input_28 in IN. change (mem [7; 14] 7) with true in IN. cbv iota in IN.
  change (t2_type s) with 40 in IN. cbn [N.eqb Pos.eqb] in IN.
  destruct (revocation_made a k sec pri g s d digest draws s' dr id R KI RV eq_refl eq_refl (or_intror (or_introl eq_refl)) HU FI) as (vals & p0 & k0 & -> & W & A0 & SP & _ & VR).
  assert (cert = fst (cert_of (Some (with_values s (prefix digest 2) vals), dr))) as -> by (apply (f_equal fst) in E; symmetry; exact E). rewrite VR.
  change (t2_type s) with 40. cbn [N.eqb Pos.eqb]. set (s' := with_values s (prefix digest 2) vals).
  assert (DI : forall q kq, is_subkey (p_tag q) = true -> as_key q = Ok kq ->
     (k' <- as_key q ;; to_sign_28 (p_tag q) k' s') = (i <- addtrailer (overkey kq) s ;; hash_use (t2_hash s) i)).
  { intros q1 kq S1 A1. rewrite A1. cbn [bind]. unfold to_sign_28, hashed_with, input_28. unfold is_subkey in S1. rewrite S1.
    change (t2_type s') with 40. cbn [N.eqb Pos.eqb]. unfold s' at 1. rewrite trailer_values. reflexivity. }
  assert (VK : forall d', verify_key d' k0 s' = verify_with_pka d' (t2_hash s) (k_pka k) (k_mpi k) vals).
  { intros d'. unfold verify_key. destruct SP as (_ & _ & _ & ->). reflexivity. }
  apply (any_finds _ _ _ _ q).
  - intros q1 I1 S1. rewrite Forall_forall in T. destruct (typed_key q1 (T q1 I1)) as (kq & A1); [apply is_subkey_iff in S1; cbn; lia|].
    rewrite (DI q1 kq S1 A1). destruct (addtrailer_app _ _ _ IN) as (tr & TR & _).
    assert (exists i, addtrailer (overkey kq) s = Ok i) as (i & ->).
    { unfold addtrailer in *. apply bind_ok in TR as (z & -> & TR). cbn [bind]. destruct (t2_version s =? 3); [eauto|]. destruct (t2_version s =? 4); [eauto|discriminate]. }
    cbn [bind]. assert (exists x', hash_use (t2_hash s) i = Ok x') as (x' & HX) by (unfold hash_use in *; apply bind_ok in HU as (A & -> & _); cbn [bind]; eauto).
    rewrite HX. destruct (verify_any _ i digest _ _ _ x' W HX) as (z & VZ & Z). exists x', z. split; [reflexivity|]. split; [|exact Z]. rewrite VK. exact VZ.
  - exact IQ.
  - apply is_subkey_iff. exact TQ.
  - intros d' D'. rewrite (DI q tq) in D' by (auto; now apply is_subkey_iff). rewrite (overkey_same tq t SQ V4t), IN in D'. cbn [bind] in D'.
    rewrite HU in D'. apply Ok_inj in D'. subst d'. rewrite VK. exact W.
Qed.
(** One for a user of the target is accepted for every key with that primary key and that
    user. *)
Theorem C68_uid_partial : forall a k sec pri g x now draws cert rest,
  revoker a k sec pri g -> Forall typed (g_packets g) -> 
  (forall p, In p (g_packets g) -> p_tag p = 17 -> exists w, raw (p_body p) = Ok w) ->
  (forall p, In p (g_packets (r_target a)) -> p_tag p = 13 -> In p (g_packets g)) ->
  uid_cert a x now draws = Ok (cert, rest) -> g_packets cert <> [] ->
  verify_revoke g cert = Ok 1%Z.
Proof.
  intros a k sec pri g x now draws cert rest R T WA HS E NE. unfold uid_cert in E. apply bind_ok in E as ([o dr] & KS & E). apply Ok_inj in E.
  destruct o as [s'|]; [|assert (cert = mkPgp true 2 [] []) as -> by (apply (f_equal fst) in E; symmetry; exact E); now destruct NE].
  unfold uid_sig in KS. apply bind_ok in KS as (v & V & KS). destruct v; [|discriminate]. cbn [negb] in KS. destruct (rev_valid_target a V) as [_ MS].
  pose proof R as (RV & SW & _ & _ & _ & V4 & _). destruct (signs_found _ _ _ MS SW) as (p & FP & AP). rewrite FP in KS. cbn [bind] in KS. rewrite AP in KS. cbn [bind] in KS.
  apply bind_ok in KS as (o & FK & KS). destruct o as [[[xs u] ys]|]; [|discriminate].
  assert (In u (g_packets (r_target a)) /\ p_tag u = 13) as [IU T13].
  { clear - FK. revert xs ys FK. induction (g_packets (r_target a)) as [|q ps IH]; intros xs ys FK; [discriminate|]. cbn [find_user] in FK.
    apply bind_ok in FK as (b & B & FK). destruct b.
    - apply Ok_inj in FK. assert (q = u) as -> by congruence. split; [now left|]. destruct (p_tag u =? 13) eqn:Q; [lia|discriminate].
    - apply bind_ok in FK as (o & FO & FK). destruct o as [[[a1 u1] c1]|]; [|discriminate]. apply Ok_inj in FK. assert (u1 = u) as -> by congruence.
      destruct (IH _ _ FO). split; [now right|assumption]. }
  apply bind_ok in KS as (id & KI & KS). set (s := with_reason (r_code a) (r_reason a) _) in KS.
  apply bind_ok in KS as (digest & DG & FI). unfold to_sign_30, hashed_with in DG. apply bind_ok in DG as (d & IN & HU).
  destruct (revocation_made a k sec pri g s d digest draws s' dr id R KI RV eq_refl eq_refl (or_intror (or_intror (or_introl eq_refl))) HU FI) as (vals & p0 & k0 & -> & W & A0 & SP & _ & VR).
  assert (cert = fst (cert_of (Some (with_values s (prefix digest 2) vals), dr))) as -> by (apply (f_equal fst) in E; symmetry; exact E). rewrite VR.
  change (t2_type s) with 48. cbn [N.eqb Pos.eqb]. set (s' := with_values s (prefix digest 2) vals).
  assert (DI : forall tag c, to_sign_30 k0 tag c s' = (i <- input_cert 48 k tag c s ;; hash_use (t2_hash s) i)).
  { intros tag c. unfold to_sign_30, hashed_with, input_cert. change (t2_type s') with 48. change (t2_type s) with 48. cbn [N.eqb Pos.eqb].
    change (t2_version s') with (t2_version s). destruct (certification (t2_version s) tag c); cbn [bind]; try reflexivity.
    unfold s' at 1. rewrite trailer_values, (overkey_same k0 k SP V4). reflexivity. }
  assert (VK : forall d', verify_key d' k0 s' = verify_with_pka d' (t2_hash s) (k_pka k) (k_mpi k) vals).
  { intros d'. unfold verify_key. destruct SP as (_ & _ & _ & ->). reflexivity. }
  apply (any_finds _ _ _ _ u).
  - intros q1 I1 S1. rewrite DI. apply is_user_iff in S1. unfold input_cert in *. change (t2_type s) with 48 in *. cbn [N.eqb Pos.eqb] in *.
    change (t2_version s) with (r_version a) in *. rewrite RV in *.
    assert (exists w, raw (p_body q1) = Ok w) as (w & RW).
    { destruct S1 as [S1|S1]; [|now apply WA]. rewrite Forall_forall in T. specialize (T q1 I1). unfold typed in T. rewrite S1 in T. destruct T as (dd & ->). eexists. reflexivity. }
    assert (exists c, certification 4 (p_tag q1) (p_body q1) = Ok c) as (c & ->).
    { unfold certification. cbn [N.eqb Pos.eqb]. rewrite RW. cbn [bind]. destruct (p_tag q1 =? 13); [eauto|]. destruct (p_tag q1 =? 17); eauto. }
    cbn [bind]. apply bind_ok in IN as (c0 & _ & IN). destruct (addtrailer_app _ _ _ IN) as (tr & TR & _).
    assert (exists i, addtrailer (overkey k ++ c) s = Ok i) as (i & ->).
    { unfold addtrailer in *. apply bind_ok in TR as (z & -> & TR). cbn [bind]. destruct (t2_version s =? 3); [eauto|]. destruct (t2_version s =? 4); [eauto|discriminate]. }
    cbn [bind]. assert (exists x', hash_use (t2_hash s) i = Ok x') as (x' & HX) by (unfold hash_use in *; apply bind_ok in HU as (A & -> & _); cbn [bind]; eauto).
    rewrite HX. destruct (verify_any _ i digest _ _ _ x' W HX) as (z & VZ & Z). exists x', z. split; [reflexivity|]. split; [|exact Z]. rewrite VK. exact VZ.
  - apply HS; auto.
  - apply is_user_iff. auto.
  - intros d' D'. rewrite DI in D'. rewrite IN in D'. cbn [bind] in D'.
    rewrite HU in D'. apply Ok_inj in D'. subst d'. rewrite VK. exact W.
Qed.
(** Version 3 revocation signatures have no key ID and are never accepted. *)
Theorem C68_version3_refuted : forall a g id now draws cert rest, r_version a = 3 ->
  keyid g = Ok id -> id <> [] -> key_cert a now draws = Ok (cert, rest) -> verify_revoke g cert <> Ok 1%Z.
Proof.
  intros a g id0 now draws cert rest RV KG NI E VR. unfold key_cert in E. apply bind_ok in E as ([o dr] & KS & E). apply Ok_inj in E.
  destruct o as [s'|].
  2:{ assert (cert = mkPgp true 2 [] []) as -> by (apply (f_equal fst) in E; symmetry; exact E). unfold verify_revoke in VR. apply bind_ok in VR as (m & _ & VR). destruct m; discriminate. }
  assert (cert = fst (cert_of (Some s', dr))) as -> by (apply (f_equal fst) in E; symmetry; exact E).
  assert (t2_version s' = 3 /\ t2_keyid s' = []) as [V3 K3].
  { unfold key_sig in KS. apply bind_ok in KS as (v & _ & KS). destruct v; [|discriminate]. cbn [negb] in KS. apply bind_ok in KS as (o & _ & KS).
    destruct o as [p|]; [|discriminate]. apply bind_ok in KS as ([k sec] & _ & KS). apply bind_ok in KS as (id & _ & KS).
    unfold revocation_sig in KS. set (s := with_reason (r_code a) (r_reason a) _) in KS. change (t2_type s) with 32 in KS. cbn [N.eqb Pos.eqb] in KS.
    apply bind_ok in KS as (digest & _ & FI). apply finish_ok in FI as (? & vals & _ & _ & _ & ->). split; [exact RV|reflexivity]. }
  unfold verify_revoke in VR. apply bind_ok in VR as (m & M & VR). destruct m; [|discriminate]. cbn [negb] in VR. apply bind_ok in VR as (m & _ & VR). destruct m; [|discriminate]. cbn [negb] in VR.
  cbn [cert_of fst g_packets vec_at nth_error bind as_sig p_body new_packet] in VR. rewrite KG in VR. cbn [bind] in VR. unfold sig_keyid in VR. rewrite V3, K3 in VR. cbn [N.eqb Pos.eqb bind] in VR.
  destruct id0; [now destruct NI|discriminate].
Qed.

(** ** Examples: the DSA key on a toy group *)
Definition toy_subkey (t : N) : key := mkKey 4 t 17 [23; 11; 4; 8] 0.
Definition two_subkeys : list packet :=
  [new_packet 7 (PSecret (toy_subkey 5) toy_sec); ex_sig 24; ex_sig 24; new_packet 7 (PSecret (toy_subkey 6) toy_sec); ex_sig 24].
Definition tree (us subs : list packet) : pgp := mkPgp true 3 [] (new_packet 5 (PSecret toy_key toy_sec) :: us ++ subs).
Definition public_two : list packet :=
  [new_packet 14 (PKey (toy_subkey 5)); ex_sig 24; ex_sig 24; new_packet 14 (PKey (toy_subkey 6)); ex_sig 24].
Definition toy_rev (g : pgp) : rev_args := mkRev g [] g 1 (str "lost") 4 2.
Definition one_user : list packet := [ex_user "a"; ex_sig 16].
Definition two_users : list packet := [ex_user "ab"; ex_sig 16; ex_user "b"; ex_sig 16].
Ltac tree_ok := cbn [g_packets tree app one_user two_users two_subkeys toy_rev r_target];
  repeat (apply Forall_cons; [cbn; first [eexists; reflexivity|do 2 eexists; reflexivity]|]); constructor.
Lemma tree_typed us subs : Forall typed us -> Forall typed subs -> Forall typed (g_packets (tree us subs)).
Proof. intros. cbn [tree g_packets]. constructor; [cbn; eauto|]. apply Forall_app. auto. Qed.
Lemma some_typed : Forall typed one_user /\ Forall typed two_users /\ Forall typed two_subkeys.
Proof. repeat split; unfold one_user, two_users, two_subkeys; typed_all. Qed.
Lemma toy_fits_key t : t < 2 ^ 32 -> key_fits days_16 (mkKey 4 t 17 [23; 11; 4; 8] 0).
Proof.
  intros T. split; [cbn; lia|]. split; [exact T|]. split; [|split; reflexivity].
  repeat (apply Forall_cons; [unfold mpi_fits; apply N.log2_lt_pow2; reflexivity|]). constructor.
Qed.
Lemma some_writable us : Forall (fun p => match p_body p with PSecret _ _ => False | _ => True end) us -> Forall writable (g_packets (tree us two_subkeys)).
Proof.
  intros F. cbn [tree g_packets]. assert (U : Forall writable us).
  { revert F. apply Forall_impl. intros p H. unfold writable. destruct (p_body p); auto. destruct H. }
  constructor; [split; [now apply toy_fits_key|eexists; reflexivity]|]. apply Forall_app. split; [exact U|]. unfold two_subkeys.
  repeat (apply Forall_cons; [first [exact I|split; [now apply toy_fits_key|eexists; reflexivity]]|]). constructor.
Qed.
Lemma users_plain : Forall (fun p => match p_body p with PSecret _ _ => False | _ => True end) one_user /\ Forall (fun p => match p_body p with PSecret _ _ => False | _ => True end) two_users.
Proof. split; repeat (apply Forall_cons; [exact I|]); constructor. Qed.

Example C36_key_ex : let g := tree one_user two_subkeys in Forall typed (g_packets g) /\ Forall writable (g_packets g) /\
  exists s, revoke_key (toy_rev g) 1234567890 [3] = Ok (mkPgp true 2 [] (new_packet 6 (PKey toy_key) :: new_packet 2 (PSig s) :: one_user ++ public_two), []).
Proof.
  cbv zeta. destruct some_typed as (A & _ & B), users_plain as [U _]. split; [now apply tree_typed|]. split; [now apply some_writable|].
  eexists. vm_compute. reflexivity.
Qed.
(** Key IDs of the two subkeys, and the last digits of the first one. *)
Example C36_subkey_ex : let g := tree one_user two_subkeys in
  exists id s, get_keyid (toy_subkey 5) = Ok id /\
    revoke_subkey (toy_rev g) (skipn 4 id) 1234567890 [3] =
      Ok (mkPgp true 2 [] (new_packet 6 (PKey toy_key) :: one_user ++
        [new_packet 14 (PKey (toy_subkey 5)); ex_sig 24; new_packet 2 (PSig s); ex_sig 24; new_packet 14 (PKey (toy_subkey 6)); ex_sig 24]), []).
Proof. cbv zeta. do 2 eexists. split; [vm_compute; reflexivity|]. vm_compute. reflexivity. Qed.
(** A text found in both key IDs (here the empty one): both subkeys get the revocation signed
    over the first of them. *)
Example C36_subkeys_ex : let g := tree one_user two_subkeys in exists s,
    revoke_subkey (toy_rev g) [] 1234567890 [3] =
      Ok (mkPgp true 2 [] (new_packet 6 (PKey toy_key) :: one_user ++
        [new_packet 14 (PKey (toy_subkey 5)); ex_sig 24; new_packet 2 (PSig s); ex_sig 24; new_packet 14 (PKey (toy_subkey 6)); ex_sig 24; new_packet 2 (PSig s)]), []).
Proof. cbv zeta. eexists. vm_compute. reflexivity. Qed.
Example C36_uid_ex : let g := tree two_users two_subkeys in
  (exists s, revoke_uid (toy_rev g) (str "b") 1234567890 [3] =
     Ok (mkPgp true 2 [] (new_packet 6 (PKey toy_key) :: [ex_user "ab"; new_packet 2 (PSig s); ex_sig 16; ex_user "b"; new_packet 2 (PSig s); ex_sig 16] ++ public_two), [])) /\
  (exists s, revoke_uid (toy_rev g) (str "a") 1234567890 [3] =
     Ok (mkPgp true 2 [] (new_packet 6 (PKey toy_key) :: [ex_user "ab"; new_packet 2 (PSig s); ex_sig 16; ex_sig 16] ++ public_two), [])).
Proof. cbv zeta. split; eexists; vm_compute; reflexivity. Qed.
(** Certificates for the primary key: applied to a secret key with two subkeys, the second
    stays secret; without subkeys there is undefined behaviour. *)
Example C36_cert_ex : let g := tree one_user two_subkeys in
  exists c rest, key_cert (toy_rev g) 1234567890 [3] = Ok (c, rest) /\ verify_revoke g c = Ok 1%Z /\ verify_revoke toy_pub c = Ok 1%Z /\
    revoke_with_cert toy_pub c = UB /\
    revoke_with_cert g c = Ok (mkPgp true 2 [] (new_packet 6 (PKey toy_key) :: g_packets c ++ one_user ++
       [new_packet 14 (PKey (toy_subkey 5)); ex_sig 24; ex_sig 24; new_packet 7 (PSecret (toy_subkey 6) toy_sec); ex_sig 24])).
Proof. cbv zeta. do 2 eexists. split; [vm_compute; reflexivity|]. repeat split; vm_compute; reflexivity. Qed.
Example C36_cert_public_ex : let g := mkPgp true 2 [] (new_packet 6 (PKey toy_key) :: one_user ++ public_two) in
  exists c rest, key_cert (toy_rev (tree one_user two_subkeys)) 1234567890 [3] = Ok (c, rest) /\ verify_revoke g c = Ok 1%Z /\
    revoke_with_cert g c = Ok (mkPgp true 2 [] (new_packet 6 (PKey toy_key) :: g_packets c ++ one_user ++ public_two)).
Proof. cbv zeta. do 2 eexists. split; [vm_compute; reflexivity|]. repeat split; vm_compute; reflexivity. Qed.
Example C36_cert_subkey_ex : let g := tree one_user [new_packet 7 (PSecret (toy_subkey 5) toy_sec); ex_sig 24; ex_sig 24] in
  exists c r rest, subkey_cert (toy_rev g) [] 1234567890 [3] = Ok (c, rest) /\ g_packets c = [r] /\ verify_revoke g c = Ok 1%Z /\
    revoke_with_cert g c = Ok (mkPgp true 2 [] (new_packet 6 (PKey toy_key) :: one_user ++ [new_packet 14 (PKey (toy_subkey 5)); ex_sig 24; r; ex_sig 24])).
Proof. cbv zeta. do 3 eexists. split; [vm_compute; reflexivity|]. split; [reflexivity|]. split; vm_compute; reflexivity. Qed.
(** Certificates for the first and for the second user. *)
Example C36_cert_user_ex : let g := tree two_users two_subkeys in
  (exists c r rest, uid_cert (toy_rev g) (str "ab") 1234567890 [3] = Ok (c, rest) /\ g_packets c = [r] /\ verify_revoke g c = Ok 1%Z /\
     revoke_with_cert g c = Ok (mkPgp true 2 [] (new_packet 6 (PKey toy_key) :: [ex_user "ab"; r; ex_user "b"; ex_sig 16] ++
       [new_packet 14 (PKey (toy_subkey 5)); ex_sig 24; ex_sig 24; new_packet 7 (PSecret (toy_subkey 6) toy_sec); ex_sig 24]))) /\
  (exists c rest, uid_cert (toy_rev (tree [ex_user "b"; ex_sig 16] two_subkeys)) (str "b") 1234567891 [3] = Ok (c, rest) /\ verify_revoke g c = Ok 1%Z /\
     revoke_with_cert g c = Diverge).
Proof.
  cbv zeta. split.
  - do 3 eexists. split; [vm_compute; reflexivity|]. split; [reflexivity|]. split; vm_compute; reflexivity.
  - do 2 eexists. split; [vm_compute; reflexivity|]. split; vm_compute; reflexivity.
Qed.
Example C68_ex : revoker (toy_rev (tree one_user two_subkeys)) toy_key toy_sec [7] toy_pub.
Proof.
  destruct toy_matching as (_ & SW & D & KP & F & M & HP). split; [reflexivity|]. split.
  { exists (new_packet 5 (PSecret toy_key toy_sec)), (one_user ++ two_subkeys). split; [reflexivity|]. split; [reflexivity|]. cbn. auto. }
  split; [exact D|]. split; [exact KP|]. split; [exact F|]. split; [reflexivity|]. auto.
Qed.
Example C68_version3_ex : exists c rest id, key_cert (mkRev (tree one_user two_subkeys) [] (tree one_user two_subkeys) 1 [] 3 2) 1234567890 [3] = Ok (c, rest) /\
  g_packets c <> [] /\ keyid toy_pub = Ok id /\ id <> [].
Proof. do 3 eexists. split; [vm_compute; reflexivity|]. split; [discriminate|]. split; [vm_compute; reflexivity|discriminate]. Qed.

Print Assumptions C36_key.
Print Assumptions C36_subkey.
Print Assumptions C36_uid_partial.
Print Assumptions C36_uid_refuted.
Print Assumptions C36_cert_key_partial.
Print Assumptions C36_cert_subkey_partial.
Print Assumptions C36_cert_no_subkey_refuted.
Print Assumptions C36_cert_secret_refuted.
Print Assumptions C36_cert_user_refuted.
Print Assumptions C36_cert_loss_refuted.
Print Assumptions C68_key_partial.
Print Assumptions C68_subkey_partial.
Print Assumptions C68_uid_partial.
Print Assumptions C68_version3_refuted.
