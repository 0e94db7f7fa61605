(** Lemmas about Model.Show. *)
From Verif Require Import Proofs.Lib Proofs.HumanReadableP Proofs.TimesP Proofs.MpiP Spec.Listed.
Local Open Scope N_scope.

(** Events that draw an outline. *)
Inductive shaped : list event -> list tree -> Prop :=
| sh_nil : shaped [] []
| sh_save n d l ts : shaped l ts -> shaped (Save n d :: l) ts
| sh_leaf s l ts : shaped l ts -> shaped (Say s :: l) (Tree s [] :: ts)
| sh_node s l ts l' ts' : shaped l ts -> shaped l' ts' -> shaped (Say s :: Deeper :: l ++ Back :: l') (Tree s ts :: ts').
Lemma shaped_app l ts l' ts' : shaped l ts -> shaped l' ts' -> shaped (l ++ l') (ts ++ ts').
Proof.
  induction 1 as [|n d l ts _ IH|s l ts _ IH|s a ta b tb A _ _ IH]; intros H; cbn [app]; [exact H|constructor; auto|constructor; auto|].
  rewrite <- app_assoc. cbn [app]. apply sh_node; auto.
Qed.
Lemma shaped_below t l ts : shaped l ts -> shaped (below t l) [Tree t ts].
Proof. intros H. unfold below. change ([Back]) with (Back :: []). apply sh_node; [exact H|constructor]. Qed.
Lemma moves_app a b : moves (a ++ b) = moves a ++ moves b.
Proof. apply flat_map_app. Qed.
Lemma shaped_run l ts : shaped l ts -> forall size i d n,
  hr_run (mkHR (repeat 32 size) (repeat 32 (size * i)) d n) (moves l) = mkHR (repeat 32 size) (repeat 32 (size * i)) (d ++ concat (map (drawn size (i + n)) ts)) n.
Proof.
  assert (D : forall size n, duplicate_string (repeat 32 size) n = repeat 32 (size * n)).
  { intros size n. induction n as [|n IH]; [now rewrite Nat.mul_0_r|]. cbn [duplicate_string]. rewrite IH, <- repeat_app. f_equal. lia. }
  induction 1 as [|m c l ts _ IH|s l ts _ IH|s a ta b tb A IA B IB]; intros size i d n.
  - cbn. now rewrite app_nil_r.
  - cbn [moves flat_map app]. apply IH.
  - change (moves (Say s :: l)) with (OpPrint s :: moves l). change (hr_run ?h (OpPrint s :: moves l)) with (hr_run (hr_print h s) (moves l)).
    unfold hr_print. cbn [hr_indent hr_prefix hr_data hr_level]. rewrite IH. f_equal. cbn [map concat drawn]. rewrite D.
    rewrite !Nat.mul_add_distr_l, repeat_app, <- !app_assoc. cbn [app]. reflexivity.
  - change (moves (Say s :: Deeper :: a ++ Back :: b)) with (OpPrint s :: OpDown :: moves (a ++ Back :: b)). rewrite moves_app.
    change (moves (Back :: b)) with (OpUp :: moves b).
    change (hr_run ?h (OpPrint s :: OpDown :: moves a ++ OpUp :: moves b)) with (hr_run (hr_down (hr_print h s)) (moves a ++ OpUp :: moves b)).
    rewrite hr_run_app. unfold hr_print, hr_down. cbn [hr_indent hr_prefix hr_data hr_level]. rewrite IA.
    change (hr_run ?h (OpUp :: moves b)) with (hr_run (hr_up h) (moves b)). unfold hr_up. cbn [hr_indent hr_prefix hr_data hr_level]. rewrite IB. f_equal.
    cbn [map concat drawn]. rewrite D, Nat.add_succ_r, !Nat.mul_add_distr_l, repeat_app, <- !app_assoc. cbn [app]. rewrite ?app_nil_r. reflexivity.
Qed.
Lemma shaped_text l ts size i : shaped l ts -> hr_data (hr_run (hr_new_size size i 32) (moves l)) = concat (map (drawn size i) ts).
Proof.
  intros H. unfold hr_new_size. replace (duplicate_string (repeat 32 size) i) with (repeat 32 (size * i)).
  - rewrite (shaped_run l ts H). cbn [hr_data app]. now rewrite Nat.add_0_r.
  - induction i as [|n IH]; [now rewrite Nat.mul_0_r|]. cbn [duplicate_string]. rewrite <- IH, <- repeat_app. f_equal. lia.
Qed.

(** Everything printed is an outline. *)
Definition outlined (r : result (list event)) : Prop := forall l, r = Ok l -> exists ts, shaped l ts.
Lemma outlined_ok l ts : shaped l ts -> outlined (Ok l).
Proof. intros H l' E. apply Ok_inj in E as <-. eauto. Qed.
Lemma leaves_shaped l : Forall (fun e => exists s, e = Say s) l -> exists ts, shaped l ts.
Proof. induction 1 as [|e l (s & ->) _ (ts & IH)]; [exists []; constructor|]. exists (Tree s [] :: ts). now constructor. Qed.
Lemma octet_shaped a t k l : exists ts, shaped (octet_lines a t k l) ts.
Proof. apply leaves_shaped. apply Forall_forall. intros e I. apply in_map_iff in I as (c & <- & _). eauto. Qed.
Lemma bit_shaped t f l : exists ts, shaped (bit_lines t f l) ts.
Proof.
  apply leaves_shaped. apply Forall_forall. intros e I. apply in_flat_map in I as (o & _ & I). apply in_flat_map in I as (b & _ & I).
  destruct (N.testbit o b); [|destruct I]. destruct I as [<-|[]]. eauto.
Qed.
Lemma outlined_bind {A} (m : result A) f : (forall a, m = Ok a -> outlined (f a)) -> outlined (bind m f).
Proof. intros H l E. inv_bind E. exact (H a E0 l E). Qed.
Lemma outlined_case (m : result (list event)) (f : list event -> result (list event)) : outlined m -> (forall l ts, shaped l ts -> outlined (f l)) -> outlined (bind m f).
Proof. intros H G. apply outlined_bind. intros a E. destruct (H a E) as (ts & T). eauto. Qed.
Lemma outlined_if (b : bool) x y : outlined x -> outlined y -> outlined (if b then x else y).
Proof. now destruct b. Qed.
Lemma outlined_bad : outlined UB /\ outlined Diverge /\ forall e, outlined (Throw e).
Proof. repeat split; intros; discriminate. Qed.
Ltac shape := match goal with |- outlined _ => eapply outlined_ok end; cbv zeta; repeat first [eassumption | eapply sh_nil | eapply shaped_below | eapply sh_leaf | eapply sh_save | eapply shaped_app].
Lemma numbers_shaped names : forall i mpi, outlined (numbers names i mpi).
Proof.
  induction names as [|n r IH]; intros i mpi; cbn [numbers]; [shape|]. apply outlined_bind. intros a _. apply outlined_case; [apply IH|]. intros l ts T. shape.
Qed.
Lemma s2k_shaped s : outlined (s2k_show s).
Proof. unfold s2k_show. apply outlined_bind. intros n _. destruct (s2k_kind s); shape. Qed.
Lemma sub_lines_shaped v emb s : (forall e, s = Sub32 (Some e) -> outlined (emb e)) -> outlined (sub_lines v emb s).
Proof.
  intros H. destruct s; cbn [sub_lines]; try (shape; fail); try (apply outlined_bind; intros; shape; fail).
  - destruct (octet_shaped "sym alg - " sym_name "sym" psa). shape.
  - destruct (octet_shaped "Flag - " notation_name "not" flags). shape.
  - destruct (octet_shaped "hash alg - " hash_name "hash" pha). shape.
  - destruct (octet_shaped "comp alg - " comp_name "comp" pca). shape.
  - destruct (bit_shaped ksp_name hex_of_mask flags). shape.
  - destruct (bit_shaped key_flag_name hex_of_mask flags). shape.
  - destruct (code =? 0); shape.
  - destruct (bit_shaped feature_name (fun m => str " (feat " ++ decimal m ++ str ")") flags). shape.
  - destruct embedded as [e|]; [now apply H|shape].
Qed.
Lemma sub_shaped v emb t c : (forall e, snd c = Sub32 (Some e) -> outlined (emb e)) -> outlined (sub_show v emb t c).
Proof.
  intros H. unfold sub_show. apply outlined_bind. intros n _.
  assert (K : forall r, outlined r -> outlined (l <- r ;; Ok (below n l))) by (intros r R; apply outlined_case; [exact R|]; intros l ts T; shape).
  apply K. pose proof (sub_lines_shaped v emb (snd c) H) as L. destruct (snd c); try exact L. apply outlined_bind. intros d _. shape.
Qed.
Lemma subs_shaped v emb : forall l t, (forall c e, In (c, Sub32 (Some e)) l -> outlined (emb e)) -> outlined (subs_show v emb t l).
Proof.
  induction l as [|c l IH]; intros t H; cbn [subs_show]; [shape|]. fold (subs_show v emb). apply outlined_case.
  - apply sub_shaped. intros e E. apply (H (fst c) e). left. rewrite <- E. now destruct c.
  - intros a ta A. apply outlined_case; [apply IH; intros; eapply H; right; eassumption|]. intros b tb B. shape.
Qed.
(** Signatures inside signatures. *)
Fixpoint depth (s : tag2) : nat :=
  match s with mkTag2 _ _ _ _ _ _ _ _ h u =>
    S (list_max (map (fun c => match snd c with Sub32 (Some e) => depth e | _ => 0%nat end) h ++ map (fun c => match snd c with Sub32 (Some e) => depth e | _ => 0%nat end) u))
  end.
Lemma depth_sub v t p h m l i k hs us c e : In (c, Sub32 (Some e)) (hs ++ us) -> (depth e < depth (mkTag2 v t p h m l i k hs us))%nat.
Proof.
  intros I. cbn [depth]. rewrite <- map_app. apply Nat.lt_succ_r.
  assert (F := proj1 (list_max_le _ _) (Nat.le_refl (list_max (map (fun c : bool * sub tag2 => match snd c with Sub32 (Some e) => depth e | _ => 0%nat end) (hs ++ us))))).
  rewrite Forall_forall in F. apply F. apply in_map_iff. exists (c, Sub32 (Some e)). auto.
Qed.
Lemma tag2_shaped v s : outlined (tag2_show v s).
Proof.
  remember (depth s) as n eqn:D. assert (L : (depth s <= n)%nat) by lia. clear D. revert s L. induction n as [|n IH]; intros s L.
  - destruct s; cbn in L; lia.
  - destruct s as [ver ty pk ha mp le ti ke hs us]. cbn [tag2_show].
    set (emb := fun e : tag2 => t <- tag_title NEW NOT_PARTIAL 2 ;; l <- tag2_show v e ;; Ok (below t l)).
    assert (Em : forall c e, In (c, Sub32 (Some e)) (hs ++ us) -> outlined (emb e)).
    { intros c e I. unfold emb. apply outlined_bind. intros t _. apply outlined_case; [apply IH; pose proof (depth_sub ver ty pk ha mp le ti ke hs us c e I); lia|]. intros l ts T. shape. }
    assert (Hs : forall t, outlined (subs_show v emb t hs)) by (intros t; apply subs_shaped; intros c e I; apply (Em c e), in_or_app; now left).
    assert (Us : forall t, outlined (subs_show v emb t us)) by (intros t; apply subs_shaped; intros c e I; apply (Em c e), in_or_app; now right).
    apply outlined_case.
    + apply outlined_if; [apply outlined_bind; intros d _; shape|]. apply outlined_if; [|shape].
      apply outlined_case; [destruct hs; [shape|]; apply outlined_case; [apply Hs|]; intros l ts T; shape|]. intros a ta A.
      apply outlined_case; [destruct us; [shape|]; apply outlined_case; [apply Us|]; intros l ts T; shape|]. intros b tb B. shape.
    + intros a ta A. apply outlined_case; [repeat apply outlined_if; try apply numbers_shaped; shape|]. intros b tb B. shape.
Qed.
Lemma key_shaped v k : outlined (key_show v k).
Proof.
  unfold key_show. apply outlined_bind. intros d _. apply outlined_if.
  - apply outlined_bind. intros n _. apply outlined_bind. intros e _. destruct (k_expire k =? 0); shape.
  - apply outlined_if; [|shape]. apply outlined_case; [repeat apply outlined_if; try apply numbers_shaped; shape|]. intros a ta A. shape.
Qed.
Lemma secret_numbers_shaped names : forall d p l q, secret_numbers names d p = Ok (l, q) -> exists ts, shaped l ts.
Proof.
  induction names as [|n r IH]; intros d p l q E; cbn [secret_numbers] in E; [apply Ok_inj in E; injection E as <- <-; exists []; constructor|].
  inv_bind E. destruct a as [x p1]. inv_bind E. destruct a as [t p2]. apply Ok_inj in E. injection E as <- <-. destruct (IH _ _ _ _ E1) as (ts & T). eexists. apply sh_leaf. exact T.
Qed.
Lemma secret_shaped pka s : outlined (secret_show pka s).
Proof.
  unfold secret_show. apply outlined_case.
  - apply outlined_if; [|shape]. destruct (sk_s2k s) as [x|]; [|apply outlined_bad]. apply outlined_case; [apply s2k_shaped|]. intros a ta A. destruct (s2k_type x =? 0); shape.
  - intros a ta A. destruct (negb (sk_con s =? 0)); [shape|]. apply outlined_bind. intros [l p] E.
    assert (exists ts, shaped l ts) as (ts & T).
    { destruct (is_RSA pka); [exact (secret_numbers_shaped _ _ _ _ _ E)|]. destruct (pka =? 16); [exact (secret_numbers_shaped _ _ _ _ _ E)|].
      destruct (pka =? 17); [exact (secret_numbers_shaped _ _ _ _ _ E)|]. apply Ok_inj in E. injection E as <- <-. eexists. apply sh_leaf, sh_nil. }
    apply outlined_bind. intros c _. shape.
Qed.
Lemma images_shaped v l : exists ts, shaped (flat_map (image_show v) l) ts.
Proof.
  induction l as [|i l (ts & IH)]; [exists []; constructor|]. cbn [flat_map].
  assert (exists t, shaped (image_show v i) t) as (t & T); [|eexists; eapply shaped_app; eassumption].
  unfold image_show. destruct (v_open v _); eexists; apply shaped_below; [apply sh_save|]; apply sh_leaf, sh_nil.
Qed.
Lemma contents_shaped v inner tag c : (forall d, outlined (inner d)) -> outlined (contents_show v inner tag c).
Proof.
  intros I. destruct c; cbn [contents_show]; try (shape; fail).
  - apply outlined_case; [repeat apply outlined_if; try apply numbers_shaped; shape|]. intros a ta A. shape.
  - apply tag2_shaped.
  - apply outlined_case; [destruct s2k as [x|]; [apply s2k_shaped|shape]|]. intros a ta A. destruct esk; shape.
  - apply outlined_case; [apply key_shaped|]. intros a ta A. apply outlined_case; [apply secret_shaped|]. intros b tb B. shape.
  - apply key_shaped.
  - apply outlined_case; [destruct data; [shape|]; apply outlined_bind; intros; apply I|]. intros a ta A. shape.
  - apply outlined_bind. intros d _. shape.
  - destruct (images_shaped v attrs). shape.
Qed.
Lemma packet_shaped v inner p l : (forall d, outlined (inner d)) -> packet_show v inner p = Ok l ->
  exists t ts, tag_title (p_format p) (p_partial p) (p_tag p) = Ok t /\ shaped l [Tree t ts].
Proof.
  intros I E. unfold packet_show in E. inv_bind E. inv_bind E. apply Ok_inj in E as <-. destruct (contents_shaped v inner (p_tag p) (p_body p) I _ E1) as (ts & T).
  exists a, ts. split; [exact E0|]. now apply shaped_below.
Qed.
Lemma packets_shaped v inner : (forall d, outlined (inner d)) -> forall ps l, packets_show v inner ps = Ok l ->
  exists ts, shaped l ts /\ Forall2 (fun p t => tag_title (p_format p) (p_partial p) (p_tag p) = Ok (heading t)) ps ts.
Proof.
  intros I. induction ps as [|p ps IH]; intros l E; cbn [packets_show] in E; [apply Ok_inj in E as <-; exists []; split; constructor|].
  inv_bind E. inv_bind E. apply Ok_inj in E as <-. destruct (packet_shaped _ _ _ _ I E0) as (t & ts & T & S). destruct (IH _ E1) as (ts' & S' & F).
  exists (Tree t ts :: ts'). split; [exact (shaped_app _ _ _ _ S S')|]. now constructor.
Qed.
Lemma inner_shaped v f : forall d, outlined (inner_show v f d).
Proof.
  induction f as [|f IH]; intros d; cbn [inner_show]; [apply outlined_bad|]. apply outlined_bind. intros [ps c] _. apply outlined_case.
  - intros l E. destruct (packets_shaped v _ IH ps l E) as (ts & T & _). eauto.
  - intros l ts T. destruct c as [[[form part] alg]|]; [|shape]. apply outlined_bind. intros t _. shape.
Qed.
(** Titles. *)
Lemma map_at_In {A} (m : list (N * A)) k x : map_at m k = Ok x -> In (k, x) m.
Proof.
  induction m as [|[k' y] m IH]; cbn [map_at]; [discriminate|]. destruct (N.eqb_spec k' k) as [->|_]; intros E; [apply Ok_inj in E as <-; now left|right; auto].
Qed.
Lemma map_at_known {A} (m : list (N * A)) k x : In (k, x) m -> exists y, map_at m k = Ok y.
Proof.
  induction m as [|[k' y] m IH]; [intros []|]. cbn [map_at]. destruct (N.eqb_spec k' k) as [->|N]; intros I; [eauto|]. destruct I as [E|I]; [congruence|auto].
Qed.
Lemma title_announces f part tag c t : tag_title f part tag = Ok t -> announces t (mkPacket tag f part c).
Proof.
  unfold tag_title. intros E. inv_bind E. apply Ok_inj in E as <-. exists a, (decimal tag). cbn [p_tag p_format p_partial].
  split; [exact (map_at_In _ _ _ E0)|]. split; [apply decimal_digits|]. split; [apply decimal_number|].
  change (can_have_partial_length tag) with (existsb (N.eqb tag) [8; 9; 11; 18]).
  destruct f; do 3 f_equal; f_equal; f_equal; f_equal; f_equal; destruct part, (existsb _ _); reflexivity.
Qed.
Lemma title_ok f part tag name : In (tag, name) kinds -> exists t, tag_title f part tag = Ok t.
Proof. intros I. destruct (map_at_known tag_name tag name I) as (n & E). unfold tag_title. rewrite E. cbn [bind]. eauto. Qed.

(** Packets about which everything is known are printed. *)
Definition works {A} (r : result A) : Prop := exists a, r = Ok a.
Lemma works_ok {A} (a : A) : works (Ok a).
Proof. now exists a. Qed.
Lemma works_bind {A B} (m : result A) (f : A -> result B) : works m -> (forall a, m = Ok a -> works (f a)) -> works (bind m f).
Proof. intros [a ->] H. exact (H a eq_refl). Qed.
Lemma works_if {A} (b : bool) (x y : result A) : (b = true -> works x) -> (b = false -> works y) -> works (if b then x else y).
Proof. destruct b; auto. Qed.
Lemma numbers_works names : forall i mpi, (i + length names <= length mpi)%nat -> works (numbers names i mpi).
Proof.
  induction names as [|n r IH]; intros i mpi L; cbn [numbers length] in *; [apply works_ok|].
  apply works_bind.
  - unfold vec_at. destruct (nth_error mpi i) eqn:E; [apply works_ok|]. apply nth_error_None in E. lia.
  - intros a _. apply works_bind; [apply IH; lia|]. intros; apply works_ok.
Qed.
Lemma rsa_In a : is_RSA a = true -> In a [1; 2; 3].
Proof. unfold is_RSA, mem. cbn [existsb]. intros H. cbn [In]. lia. Qed.
Lemma rsa_not a : is_RSA a = false -> ~ In a [1; 2; 3].
Proof. unfold is_RSA, mem. cbn [existsb]. intros H. cbn [In]. lia. Qed.
Section Works.
  Variable v : viewer.
  Hypothesis D : forall t, time_fits t -> works (date v t).
  Lemma s2k_works s : s2k_known s -> works (s2k_show s).
  Proof.
    intros K. unfold s2k_show. apply works_bind; [|intros; apply works_ok]. destruct K as [<-|[<-|[<-|[<-|[]]]]]; apply works_ok.
  Qed.
  Lemma sub_works emb t c : (forall x, snd c = Sub2 x -> time_fits x) -> (forall x, snd c = Sub3 x -> time_fits x) ->
    (forall e, snd c = Sub32 (Some e) -> works (emb e)) -> works (sub_show v emb t c).
  Proof.
    intros A B C. unfold sub_show. apply works_bind.
    - unfold sub_title. apply works_bind; [|intros; apply works_ok]. destruct (snd c); apply works_ok.
    - intros n _. apply works_bind; [|intros; apply works_ok].
      destruct (snd c); try apply works_ok; cbn [sub_lines].
      + apply works_bind; [apply D; now apply A|intros; apply works_ok].
      + apply works_bind; [|intros; apply works_ok]. apply works_if; intros _; [apply works_ok|]. apply D; now apply B.
      + apply works_bind; [|intros; apply works_ok]. apply works_if; intros _; [apply works_ok|]. apply D. unfold time_fits, u32. apply N.mod_lt. discriminate.
      + destruct embedded as [e|]; [now apply C|apply works_ok].
  Qed.
  Lemma subs_works emb : forall l t, (forall c x, In (c, Sub2 x) l -> time_fits x) -> (forall c x, In (c, Sub3 x) l -> time_fits x) ->
    (forall c e, In (c, Sub32 (Some e)) l -> works (emb e)) -> works (subs_show v emb t l).
  Proof.
    induction l as [|c l IH]; intros t A B C; cbn [subs_show]; [apply works_ok|]. fold (subs_show v emb). apply works_bind.
    - apply sub_works; [intros x E; apply (A (fst c))|intros x E; apply (B (fst c))|intros e E; apply (C (fst c))]; left; rewrite <- E; now destruct c.
    - intros a _. apply works_bind; [|intros; apply works_ok]. apply IH; [intros c' x I; apply (A c')|intros c' x I; apply (B c')|intros c' x I; apply (C c')]; now right.
  Qed.
  Lemma tag2_works s : sig_complete s -> works (tag2_show v s).
  Proof.
    induction 1 as [ver ty pk ha mp le ti ke hs us T M1 M2 A B _ IH]. cbn [tag2_show].
    set (emb := fun e : tag2 => t <- tag_title NEW NOT_PARTIAL 2 ;; l <- tag2_show v e ;; Ok (below t l)).
    assert (Em : forall c e, In (c, Sub32 (Some e)) (hs ++ us) -> works (emb e)).
    { intros c e I. unfold emb. apply works_bind; [apply works_ok|]. intros t _. apply works_bind; [exact (IH c e I)|]. intros; apply works_ok. }
    assert (S : forall l t, (l = hs \/ l = us) -> works (subs_show v emb t l)).
    { intros l t O. assert (I : incl l (hs ++ us)) by (destruct O; subst; [apply incl_appl|apply incl_appr]; apply incl_refl).
      apply subs_works; [intros c x X; apply (A c)|intros c x X; apply (B c)|intros c x X; apply (Em c)]; now apply I. }
    apply works_bind.
    - apply works_if; intros _; [apply works_bind; [now apply D|intros; apply works_ok]|]. apply works_if; intros _; [|apply works_ok].
      apply works_bind; [destruct hs; [apply works_ok|]; apply works_bind; [apply S; now left|intros; apply works_ok]|]. intros a _.
      apply works_bind; [destruct us; [apply works_ok|]; apply works_bind; [apply S; now right|intros; apply works_ok]|]. intros; apply works_ok.
    - intros a _. apply works_bind; [|intros; apply works_ok]. apply works_if; intros R; [apply numbers_works; apply M1, rsa_In, R|].
      apply works_if; intros Q; [|apply works_ok]. apply numbers_works. apply M2. lia.
  Qed.
  Lemma key_works k : key_complete k -> works (key_show v k).
  Proof.
    intros (T & O & N). unfold key_show. apply works_bind; [now apply D|]. intros d _. apply works_if; intros V.
    - assert (L : (2 <= length (k_mpi k))%nat) by (apply O; lia). destruct (k_mpi k) as [|a [|b r]]; cbn in L; try lia. apply works_ok.
    - apply works_if; intros V4; [|apply works_ok]. destruct N as (R & E & S); [lia|]. apply works_bind; [|intros; apply works_ok].
      apply works_if; intros Q; [apply numbers_works; apply R, rsa_In, Q|]. apply works_if; intros Q1; [apply numbers_works; apply E; lia|].
      apply works_if; intros Q2; [apply numbers_works; apply S; lia|]. apply works_ok.
  Qed.
  Lemma secret_numbers_works names : forall l pre rest, length l = length names -> Forall (fun a => bitsize a <= 65528) l ->
    exists ev p, secret_numbers names (pre ++ concat (map write_MPI l) ++ rest) (len pre) = Ok (ev, p) /\ p <= len (pre ++ concat (map write_MPI l) ++ rest).
  Proof.
    induction names as [|n r IH]; intros l pre rest E F; destruct l as [|a l]; cbn in E; try lia.
    - exists [], (len pre). split; [reflexivity|]. rewrite len_app. lia.
    - inversion F; subst. cbn [secret_numbers map concat]. rewrite <- app_assoc.
      rewrite (read_write_MPI pre a (concat (map write_MPI l) ++ rest) (len pre) eq_refl H1). cbn [bind].
      destruct (IH l (pre ++ write_MPI a) rest ltac:(lia) H2) as (ev & p & S & B). rewrite <- app_assoc in S, B. rewrite len_app in S. rewrite S. cbn [bind]. eauto.
  Qed.
  Lemma secret_works pka s : (253 < sk_con s -> exists x, sk_s2k s = Some x /\ s2k_known x) -> (sk_con s = 0 -> in_clear pka (sk_secret s)) -> works (secret_show pka s).
  Proof.
    intros A B. unfold secret_show. apply works_bind.
    - apply works_if; intros G; [|apply works_ok]. destruct A as (x & -> & K); [lia|]. apply works_bind; [now apply s2k_works|]. intros; apply works_ok.
    - intros a _. apply works_if; intros Z; [apply works_ok|]. destruct B as (l & rest & -> & F & R & O); [lia|].
      assert (X : exists ev p, (if is_RSA pka then secret_numbers ["RSA d"; "RSA p"; "RSA q"; "RSA u"]%string (concat (map write_MPI l) ++ rest) 0
        else if pka =? 16 then secret_numbers ["ELGAMAL x"%string] (concat (map write_MPI l) ++ rest) 0
        else if pka =? 17 then secret_numbers ["DSA x"%string] (concat (map write_MPI l) ++ rest) 0 else Ok ([Say (str "Unknown")], 0)) = Ok (ev, p) /\ p <= len (concat (map write_MPI l) ++ rest)).
      { destruct (is_RSA pka) eqn:Q; [apply (secret_numbers_works _ l [] rest); [now rewrite (R (rsa_In _ Q))|exact F]|].
        destruct (N.eqb_spec pka 16) as [->|_]; [apply (secret_numbers_works _ l [] rest); [now rewrite (O ltac:(cbn; auto))|exact F]|].
        destruct (N.eqb_spec pka 17) as [->|_]; [apply (secret_numbers_works _ l [] rest); [now rewrite (O ltac:(cbn; auto))|exact F]|]. eexists _, _. split; [reflexivity|]. lia. }
      destruct X as (ev & p & E & L). rewrite E. cbn [bind]. apply works_bind; [|intros; apply works_ok]. unfold substr. replace (len _ <? p) with false by lia. apply works_ok.
  Qed.
  Lemma packet_works inner p : complete p -> works (packet_show v inner p).
  Proof.
    intros ((name & K) & C). unfold packet_show. destruct (title_ok (p_format p) (p_partial p) (p_tag p) name K) as (t & E). rewrite E. cbn [bind].
    apply works_bind; [|intros; apply works_ok]. destruct (p_body p); cbn [contents_show]; try apply works_ok.
    - apply works_bind; [|intros; apply works_ok]. apply works_if; intros Q; [apply numbers_works; apply C; lia|]. apply works_if; intros Q1; [|apply works_ok]. apply numbers_works. apply C. lia.
    - now apply tag2_works.
    - apply works_bind; [destruct s2k as [x|]; [apply s2k_works; now apply C|apply works_ok]|]. intros; apply works_ok.
    - destruct C as (K1 & A & B). apply works_bind; [now apply key_works|]. intros a _. apply works_bind; [now apply secret_works|]. intros; apply works_ok.
    - now apply key_works.
    - subst data. apply works_ok.
    - apply works_bind; [now apply D|]. intros; apply works_ok.
  Qed.
  Lemma packets_works inner ps : Forall complete ps -> works (packets_show v inner ps).
  Proof.
    induction 1 as [|p ps H _ IH]; cbn [packets_show]; [apply works_ok|]. apply works_bind; [now apply packet_works|]. intros a _. apply works_bind; [exact IH|]. intros; apply works_ok.
  Qed.
End Works.

(** Packets that are read from a file. *)
Lemma read_mpis_length k : forall d p l q, read_mpis k d p = Ok (l, q) -> length l = k.
Proof.
  induction k as [|k IH]; intros d p l q E; cbn [read_mpis] in E; [apply Ok_inj in E; injection E as <- <-; reflexivity|].
  inv_bind E. destruct a as [m p1]. inv_bind E. destruct a as [ms p2]. apply Ok_inj in E. injection E as <- <-. cbn. f_equal. eapply IH, E1.
Qed.
Lemma u32_fits x : time_fits (u32 x).
Proof. unfold time_fits, u32. apply N.mod_lt. discriminate. Qed.
Lemma read_sub {S} (emb : bytes -> result S) n : forall d p l, read_subpackets emb n d p = Ok l ->
  (forall c t, In (c, Sub2 t) l -> time_fits t) /\ (forall c t, In (c, Sub3 t) l -> time_fits t) /\ (forall c e, In (c, Sub32 (Some e)) l -> exists x, emb x = Ok e).
Proof.
  induction n as [|n IH]; intros d p l E; cbn [read_subpackets] in E; [discriminate|]. destruct (p <? len d); [|apply Ok_inj in E as <-; repeat split; intros ? ? []].
  inv_bind E. destruct a as [le p1]. inv_bind E. inv_bind E. inv_bind E. inv_bind E. inv_bind E. apply Ok_inj in E as <-. destruct (IH _ _ _ E5) as (A & B & C).
  assert (X : (forall t, a2 = Sub2 t -> time_fits t) /\ (forall t, a2 = Sub3 t -> time_fits t) /\ (forall e, a2 = Sub32 (Some e) -> exists x, emb x = Ok e)).
  { clear - E2 E4. unfold sub_read in E4. destruct (0 <? len a1).
    - destruct a0; cbn [sub_actual_read] in E4; repeat (match type of E4 with bind _ _ = _ => let x := fresh in let y := fresh in apply bind_ok in E4; destruct E4 as (x & y & E4) | (if ?b then _ else _) = _ => destruct b end);
        try (apply Ok_inj in E4 as <-); repeat split; intros ? X; try discriminate; try (injection X as <-); try apply u32_fits; eauto.
    - apply Ok_inj in E4 as <-. unfold sub_new in E2.
      repeat match type of E2 with match ?x with _ => _ end = _ => destruct x; try discriminate end; apply Ok_inj in E2 as <-; repeat split; intros ? X; try discriminate; injection X as <-; reflexivity. }
  destruct X as (X & Y & Z). repeat split.
  - intros c t [I|I]; [|eauto]. injection I as _ I. now apply X.
  - intros c t [I|I]; [|eauto]. injection I as _ I. now apply Y.
  - intros c t [I|I]; [|eauto]. injection I as _ I. now apply Z.
Qed.
Lemma sig_new_complete : sig_complete tag2_new.
Proof. constructor; try (intros ? ? []); try reflexivity; cbn; intros; try lia; discriminate. Qed.
Lemma tag2_read_complete n : forall d p s q, tag2_read_n n d p = Ok (s, q) -> sig_complete s.
Proof.
  induction n as [|n IH]; intros d p s q E; cbn [tag2_read_n] in E; [discriminate|]. inv_bind E. destruct (a =? 3).
  - inv_bind E. destruct (a0 =? 5); [|discriminate]. inv_bind E. inv_bind E. inv_bind E. destruct (len a3 =? 8); [|discriminate]. do 3 inv_bind E. inv_bind E.
    destruct a7 as [mpi p']. apply Ok_inj in E. injection E as <- <-. constructor; [apply u32_fits| | |intros ? ? []..].
    + intros I. destruct (is_RSA a4) eqn:R; [|now apply rsa_not in R]. rewrite (read_mpis_length _ _ _ _ _ E8). lia.
    + intros ->. change (is_RSA 17) with false in E8. change (17 =? 17) with true in E8. cbv iota in E8. rewrite (read_mpis_length _ _ _ _ _ E8). lia.
  - destruct (a =? 4); [|discriminate]. do 11 inv_bind E. destruct a10 as [mpi p']. apply Ok_inj in E. injection E as <- <-.
    match type of E6 with read_subpackets ?e _ _ _ = _ => set (emb := e) in * end.
    assert (Em : forall x s, emb x = Ok s -> sig_complete s).
    { intros x s X. unfold emb in X. destruct (0 <? len x); [|apply Ok_inj in X as <-; apply sig_new_complete]. inv_bind X. destruct a10 as [s' q]. destruct (q =? len x); [|discriminate].
      apply Ok_inj in X as <-. eapply IH; eassumption. }
    destruct (read_sub _ _ _ _ _ E6) as (A & B & C). destruct (read_sub _ _ _ _ _ E9) as (A' & B' & C').
    constructor; [reflexivity| | |intros c t I; apply in_app_or in I as [I|I]; eauto..].
    + intros I. rewrite (read_mpis_length _ _ _ _ _ E11). destruct (a1 =? 17); lia.
    + intros ->. change (17 =? 17) with true in E11. cbv iota in E11. rewrite (read_mpis_length _ _ _ _ _ E11). lia.
    + apply C in I as (x & X). eauto.
    + apply C' in I as (x & X). eauto.
Qed.
Lemma key_read_complete d p k q : key_read d p = Ok (k, q) -> key_complete k.
Proof.
  unfold key_read. intros E. inv_bind E. inv_bind E. destruct (a <? 4) eqn:V.
  - do 3 inv_bind E. inv_bind E. destruct a4 as [mpi p']. apply Ok_inj in E. injection E as <- <-. split; [apply u32_fits|]. cbn [k_version k_mpi].
    split; [intros _; rewrite (read_mpis_length _ _ _ _ _ E5); lia|intros; lia].
  - destruct (a =? 4) eqn:V4.
    + inv_bind E. inv_bind E. destruct a2 as [mpi p']. apply Ok_inj in E. injection E as <- <-. split; [apply u32_fits|]. cbn [k_version k_mpi k_pka].
      split; [intros; lia|]. intros _. destruct (is_RSA a1) eqn:R.
      * rewrite (read_mpis_length _ _ _ _ _ E3). apply rsa_In in R. cbn [In] in R. repeat split; intros; lia.
      * apply rsa_not in R. split; [intros I; now apply R in I|]. clear R. destruct (N.eqb_spec a1 17) as [->|N17].
        -- rewrite (read_mpis_length _ _ _ _ _ E3). split; intros; [discriminate|lia].
        -- destruct (N.eqb_spec a1 16) as [->|_]; [|discriminate]. rewrite (read_mpis_length _ _ _ _ _ E3). split; intros; [lia|congruence].
    + apply Ok_inj in E. injection E as <- <-. split; [apply u32_fits|]. cbn [k_version k_mpi k_pka]. split; intros; lia.
Qed.
Lemma s2k_read_known d p t k s q : at_ d p = Ok t -> s2k_class_of t = Ok k -> s2k_read k d p = Ok (s, q) -> s2k_known s.
Proof.
  intros A C E. unfold s2k_read in E. rewrite A in E. cbn [bind] in E. inv_bind E.
  assert (T : s2k_type s = t).
  { destruct k; [apply Ok_inj in E; injection E as <- <-; reflexivity| |]; inv_bind E; destruct (len a0 =? 8); try discriminate; [|inv_bind E]; apply Ok_inj in E; injection E as <- <-; reflexivity. }
  unfold s2k_known. rewrite T. unfold s2k_class_of in C. destruct t as [|[[]| |]]; cbn in C |- *; try discriminate; tauto || auto.
Qed.
Lemma tag_read_complete tag d p n f part c : tag_read tag d p n = Ok c -> ordinary (mkPacket tag f part c) -> complete (mkPacket tag f part c).
Proof.
  intros E (N & K). cbn [p_tag p_body] in N, K. unfold tag_read in E. inv_bind E.
  assert (T : In tag [2; 3; 4; 6; 9; 10; 11; 12; 13; 14; 17; 18; 19; 60; 61; 62; 63]).
  { clear E. unfold contents_new in E0. cbn [In] in N |- *. repeat match type of E0 with match ?x with _ => _ end = _ => destruct x; try discriminate E0 end; tauto. }
  clear N. split.
  { cbn [p_tag]. repeat (destruct T as [<-|T]; [eexists; cbn; tauto|]). destruct T. }
  cbn [p_body]. destruct (n =? 0).
  - apply Ok_inj in E as <-. repeat (destruct T as [<-|T]; [cbn in E0; apply Ok_inj in E0 as <-; try exact I; try exact sig_new_complete; try (intros ? X; discriminate X); try reflexivity; exfalso; eapply K; reflexivity|]). destruct T.
  - inv_bind E. destruct a0 as [c' p']. destruct (p' =? p + n); [|discriminate]. apply Ok_inj in E as <-. clear E0 a.
    repeat (destruct T as [<-|T]; [cbn [actual_read] in E1|]).
    + inv_bind E1. destruct a as [s q]. apply Ok_inj in E1. injection E1 as <- <-. unfold tag2_read in E. eapply tag2_read_complete, E.
    + unfold tag3_read in E1. do 3 inv_bind E1. inv_bind E1. inv_bind E1. destruct a3 as [s q]. inv_bind E1. apply Ok_inj in E1. injection E1 as <- <-.
      intros x X. injection X as <-. eapply s2k_read_known; eassumption.
    + unfold tag4_read in E1. do 5 inv_bind E1. destruct (len a3 =? 8); [|discriminate]. inv_bind E1. apply Ok_inj in E1. injection E1 as <- <-. exact I.
    + inv_bind E1. destruct a as [k q]. apply Ok_inj in E1. injection E1 as <- <-. eapply key_read_complete, E.
    + unfold raw_read in E1. inv_bind E1. apply Ok_inj in E1. injection E1 as <- <-. exact I.
    + unfold raw_read in E1. inv_bind E1. apply Ok_inj in E1. injection E1 as <- <-. exact I.
    + unfold tag11_read in E1. do 5 inv_bind E1. apply Ok_inj in E1. injection E1 as <- <-. apply u32_fits.
    + unfold raw_read in E1. inv_bind E1. apply Ok_inj in E1. injection E1 as <- <-. exact I.
    + unfold raw_read in E1. inv_bind E1. apply Ok_inj in E1. injection E1 as <- <-. exact I.
    + inv_bind E1. destruct a as [k q]. apply Ok_inj in E1. injection E1 as <- <-. eapply key_read_complete, E.
    + unfold tag17_read in E1. inv_bind E1. destruct a as [k q]. apply Ok_inj in E1. injection E1 as <- <-. exact I.
    + unfold tag18_read in E1. do 2 inv_bind E1. apply Ok_inj in E1. injection E1 as <- <-. exact I.
    + unfold raw_read in E1. inv_bind E1. apply Ok_inj in E1. injection E1 as <- <-. exact I.
    + unfold raw_read in E1. inv_bind E1. apply Ok_inj in E1. injection E1 as <- <-. exact I.
    + unfold raw_read in E1. inv_bind E1. apply Ok_inj in E1. injection E1 as <- <-. exact I.
    + unfold raw_read in E1. inv_bind E1. apply Ok_inj in E1. injection E1 as <- <-. exact I.
    + unfold raw_read in E1. inv_bind E1. apply Ok_inj in E1. injection E1 as <- <-. exact I.
    + destruct T.
Qed.
Lemma read_packets_complete : forall n d pos ps, read_packets n d pos = Ok ps -> Forall ordinary ps -> Forall complete ps.
Proof.
  induction n as [|n IH]; intros d pos ps E O; cbn [read_packets] in E; [discriminate|]. destruct (pos <? len d); [|apply Ok_inj in E as <-; constructor].
  inv_bind E. destruct a as [p q]. inv_bind E. apply Ok_inj in E as <-. inversion O; subst. constructor; [|eapply IH; eassumption].
  unfold read_packet in E0. inv_bind E0. destruct a0 as [[f tag] b]. inv_bind E0. apply Ok_inj in E0. injection E0 as -> _.
  destruct (bl_part b); match goal with E : read_packet_raw _ _ _ _ _ _ = _ |- _ => unfold read_packet_raw in E; match type of E with (if ?x then _ else _) = _ => destruct x; [discriminate|] end; inv_bind E; apply Ok_inj in E as <- end; eapply tag_read_complete; eassumption.
Qed.
(** Only images are written to files. *)
Definition silent (r : result (list event)) : Prop := forall l, r = Ok l -> saved l = [].
Lemma saved_app a b : saved (a ++ b) = saved a ++ saved b.
Proof. apply flat_map_app. Qed.
Lemma saved_below t l : saved (below t l) = saved l.
Proof. unfold below. change (saved (Say t :: Deeper :: l ++ [Back])) with (saved (l ++ [Back])). rewrite saved_app. apply app_nil_r. Qed.
Lemma silent_bind {A} (m : result A) f : (forall a, m = Ok a -> silent (f a)) -> silent (bind m f).
Proof. intros H l E. inv_bind E. exact (H a E0 l E). Qed.
Lemma silent_case (m : result (list event)) (f : list event -> result (list event)) : silent m -> (forall l, saved l = [] -> silent (f l)) -> silent (bind m f).
Proof. intros H G. apply silent_bind. intros a E. apply G, (H a E). Qed.
Lemma silent_if (b : bool) x y : silent x -> silent y -> silent (if b then x else y).
Proof. now destruct b. Qed.
Lemma saved_says l : Forall (fun e => exists s, e = Say s) l -> saved l = [].
Proof. induction 1 as [|e l (s & ->) _ IH]; [reflexivity|exact IH]. Qed.
Lemma octet_saved a t k l : saved (octet_lines a t k l) = [].
Proof. apply saved_says, Forall_forall. intros e I. apply in_map_iff in I as (c & <- & _). eauto. Qed.
Lemma bit_saved t f l : saved (bit_lines t f l) = [].
Proof.
  apply saved_says, Forall_forall. intros e I. apply in_flat_map in I as (o & _ & I). apply in_flat_map in I as (b & _ & I).
  destruct (N.testbit o b); [|destruct I]. destruct I as [<-|[]]. eauto.
Qed.
Lemma saved_say s l : saved (Say s :: l) = saved l.
Proof. reflexivity. Qed.
Ltac hush := intros ? hushed; apply Ok_inj in hushed as <-; cbv zeta;
  repeat (rewrite ?saved_app, ?saved_below, ?saved_say; repeat match goal with H : saved _ = [] |- _ => rewrite H end; try reflexivity).
Lemma numbers_silent names : forall i mpi, silent (numbers names i mpi).
Proof. induction names as [|n r IH]; intros i mpi; cbn [numbers]; [hush|]. apply silent_bind. intros a _. apply silent_case; [apply IH|]. intros l T. hush. Qed.
Lemma s2k_silent s : silent (s2k_show s).
Proof. unfold s2k_show. apply silent_bind. intros n _. destruct (s2k_kind s); hush. Qed.
Lemma sub_lines_silent v emb s : (forall e, s = Sub32 (Some e) -> silent (emb e)) -> silent (sub_lines v emb s).
Proof.
  intros H. destruct s; cbn [sub_lines]; try (hush; fail); try (apply silent_bind; intros; hush; fail).
  - intros l E. apply Ok_inj in E as <-. apply octet_saved.
  - intros l E. apply Ok_inj in E as <-. rewrite saved_app, octet_saved. reflexivity.
  - intros l E. apply Ok_inj in E as <-. apply octet_saved.
  - intros l E. apply Ok_inj in E as <-. apply octet_saved.
  - intros l E. apply Ok_inj in E as <-. apply bit_saved.
  - intros l E. apply Ok_inj in E as <-. apply bit_saved.
  - destruct (code =? 0); hush.
  - intros l E. apply Ok_inj in E as <-. apply bit_saved.
  - destruct embedded as [e|]; [now apply H|hush].
Qed.
Lemma sub_silent v emb t c : (forall e, snd c = Sub32 (Some e) -> silent (emb e)) -> silent (sub_show v emb t c).
Proof.
  intros H. unfold sub_show. apply silent_bind. intros n _.
  assert (K : forall r, silent r -> silent (l <- r ;; Ok (below n l))) by (intros r R; apply silent_case; [exact R|]; intros l T; hush).
  apply K. pose proof (sub_lines_silent v emb (snd c) H) as L. destruct (snd c); try exact L. apply silent_bind. intros d _. hush.
Qed.
Lemma subs_silent v emb : forall l t, (forall c e, In (c, Sub32 (Some e)) l -> silent (emb e)) -> silent (subs_show v emb t l).
Proof.
  induction l as [|c l IH]; intros t H; cbn [subs_show]; [hush|]. fold (subs_show v emb). apply silent_case.
  - apply sub_silent. intros e E. apply (H (fst c) e). left. rewrite <- E. now destruct c.
  - intros a A. apply silent_case; [apply IH; intros; eapply H; right; eassumption|]. intros b B. hush.
Qed.
Lemma tag2_silent v s : silent (tag2_show v s).
Proof.
  remember (depth s) as n eqn:D. assert (L : (depth s <= n)%nat) by lia. clear D. revert s L. induction n as [|n IH]; intros s L.
  - destruct s; cbn in L; lia.
  - destruct s as [ver ty pk ha mp le ti ke hs us]. cbn [tag2_show].
    set (emb := fun e : tag2 => t <- tag_title NEW NOT_PARTIAL 2 ;; l <- tag2_show v e ;; Ok (below t l)).
    assert (Em : forall c e, In (c, Sub32 (Some e)) (hs ++ us) -> silent (emb e)).
    { intros c e I. unfold emb. apply silent_bind. intros t _. apply silent_case; [apply IH; pose proof (depth_sub ver ty pk ha mp le ti ke hs us c e I); lia|]. intros l T. hush. }
    assert (Hs : forall t, silent (subs_show v emb t hs)) by (intros t; apply subs_silent; intros c e I; apply (Em c e), in_or_app; now left).
    assert (Us : forall t, silent (subs_show v emb t us)) by (intros t; apply subs_silent; intros c e I; apply (Em c e), in_or_app; now right).
    apply silent_case.
    + apply silent_if; [apply silent_bind; intros d _; hush|]. apply silent_if; [|hush].
      apply silent_case; [destruct hs; [hush|]; apply silent_case; [apply Hs|]; intros l T; hush|]. intros a A.
      apply silent_case; [destruct us; [hush|]; apply silent_case; [apply Us|]; intros l T; hush|]. intros b B. hush.
    + intros a A. apply silent_case; [repeat apply silent_if; try apply numbers_silent; hush|]. intros b B. hush.
Qed.
Lemma key_silent v k : silent (key_show v k).
Proof.
  unfold key_show. apply silent_bind. intros d _. apply silent_if.
  - apply silent_bind. intros n _. apply silent_bind. intros e _. destruct (k_expire k =? 0); hush.
  - apply silent_if; [|hush]. apply silent_case; [repeat apply silent_if; try apply numbers_silent; hush|]. intros a A. hush.
Qed.
Lemma secret_numbers_saved names : forall d p l q, secret_numbers names d p = Ok (l, q) -> saved l = [].
Proof.
  induction names as [|n r IH]; intros d p l q E; cbn [secret_numbers] in E; [apply Ok_inj in E; injection E as <- <-; reflexivity|].
  inv_bind E. destruct a as [x p1]. inv_bind E. destruct a as [t p2]. apply Ok_inj in E. injection E as <- <-. exact (IH _ _ _ _ E1).
Qed.
Lemma secret_silent pka s : silent (secret_show pka s).
Proof.
  unfold secret_show. apply silent_case.
  - apply silent_if; [|hush]. destruct (sk_s2k s) as [x|]; [|discriminate]. apply silent_case; [apply s2k_silent|]. intros a A. destruct (s2k_type x =? 0); hush.
  - intros a A. destruct (negb (sk_con s =? 0)); [hush|]. apply silent_bind. intros [l p] E.
    assert (T : saved l = []).
    { destruct (is_RSA pka); [exact (secret_numbers_saved _ _ _ _ _ E)|]. destruct (pka =? 16); [exact (secret_numbers_saved _ _ _ _ _ E)|].
      destruct (pka =? 17); [exact (secret_numbers_saved _ _ _ _ _ E)|]. apply Ok_inj in E. injection E as <- <-. reflexivity. }
    apply silent_bind. intros c _. hush.
Qed.
Lemma contents_saved v inner p l : not_compressed p -> contents_show v inner (p_tag p) (p_body p) = Ok l ->
  saved l = flat_map (fun i => saved (image_show v i)) (images p).
Proof.
  unfold not_compressed, images. intros C. revert l. destruct (p_body p); cbn [contents_show flat_map];
    match goal with |- forall l, ?r = Ok l -> saved l = [] => change (silent r) | _ => idtac end; try (hush; fail).
  - apply silent_case; [repeat apply silent_if; try apply numbers_silent; hush|]. intros a A. hush.
  - apply tag2_silent.
  - apply silent_case; [destruct s2k as [x|]; [apply s2k_silent|hush]|]. intros a A. destruct esk; hush.
  - apply silent_case; [apply key_silent|]. intros a A. apply silent_case; [apply secret_silent|]. intros b B. hush.
  - apply key_silent.
  - subst data. hush.
  - apply silent_bind. intros d _. hush.
  - intros l E. apply Ok_inj in E as <-. induction attrs as [|i r IH]; [reflexivity|]. cbn [flat_map]. rewrite saved_app. now f_equal.
Qed.
Lemma packets_saved v inner : forall ps l, Forall not_compressed ps -> packets_show v inner ps = Ok l ->
  saved l = flat_map (fun p => flat_map (fun i => saved (image_show v i)) (images p)) ps.
Proof.
  induction ps as [|p ps IH]; intros l F E; cbn [packets_show] in E; [apply Ok_inj in E as <-; reflexivity|]. inversion F; subst.
  inv_bind E. inv_bind E. apply Ok_inj in E as <-. cbn [flat_map]. rewrite saved_app, (IH _ H2 E1). f_equal.
  unfold packet_show in E0. inv_bind E0. inv_bind E0. apply Ok_inj in E0 as <-. rewrite saved_below. now apply (contents_saved v inner).
Qed.
