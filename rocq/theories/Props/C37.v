(** Key::merge. *)
From Verif Require Import Proofs.Lib Proofs.KeyGrammarP Proofs.MergeP.
From Coq Require Import Sorting.Permutation.

(** The groups of the result. *)
Lemma merged_tags ps ps' k ks gu gs : merged ps ps' k ks gu gs -> is_primary (tag_of k) ->
  forall g, In g ((k, ks) :: gu ++ gs) -> tag_of (fst g) <> 2 /\ Forall (fun p => tag_of p = 2) (snd g).
Proof.
  intros M K g [<-|G].
  - cbn [fst snd]. split; [tags|]. apply Forall_forall. intros s S. apply (mg_ks _ _ _ _ _ _ M) in S as (a & S & _). eapply key_sigs_tag; eassumption.
  - apply in_app_iff in G as [G|G]; [destruct (mg_gu _ _ _ _ _ _ M g G) as (T & _ & X)|destruct (mg_gs _ _ _ _ _ _ M g G) as (T & _ & X)];
      (split; [tags|]); apply Forall_forall; intros s S; apply X in S as (a & S & _); eapply key_sigs_tag; eassumption.
Qed.
Lemma attached_group G g s : tag_of (fst g) <> 2 -> Forall (fun p => tag_of p = 2) (snd g) -> In g G -> In s (snd g) -> attached (flat G) (fst g) s.
Proof.
  intros T F I S. apply in_split in I as (a & b & ->). destruct g as [o l]. cbn [fst snd] in *. apply in_split in S as (l1 & l2 & ->).
  apply Forall_app in F as [F1 F2]. apply Forall_cons_iff in F2 as [F2 _]. split; [exact T|]. split; [exact F2|].
  exists (flat a), l1, (l2 ++ flat b). split; [|exact F1]. rewrite flat_app. unfold flat at 2. cbn [map concat fst snd].
  fold (flat b). now rewrite <- app_comm_cons, <- app_assoc.
Qed.
Lemma group_attached : forall G o s, (forall g, In g G -> tag_of (fst g) <> 2 /\ Forall (fun p => tag_of p = 2) (snd g)) ->
  attached (flat G) o s -> exists g, In g G /\ o = fst g /\ In s (snd g).
Proof.
  intros G o s T (O & S & pre & mid & post & E & F). revert pre E. induction G as [|[h l] G IH]; intros pre E; [destruct pre; discriminate|].
  destruct (T (h, l) (or_introl eq_refl)) as [Th Fl]. cbn [fst snd] in *. unfold flat in E. cbn [map concat fst snd] in E. fold (flat G) in E.
  assert (TG : forall g, In g G -> tag_of (fst g) <> 2 /\ Forall (fun p => tag_of p = 2) (snd g)) by (intros g I; apply T; now right).
  destruct pre as [|x pre]; cbn [app] in E.
  - assert (h = o) as -> by congruence. exists (o, l). split; [now left|]. split; [reflexivity|]. cbn [snd].
    assert (E' : l ++ flat G = mid ++ s :: post) by congruence. clear - E' F S TG Fl O.
    revert mid E' F. induction l as [|x l IH]; intros mid E' F.
    + exfalso. cbn [app] in E'. destruct G as [|[h m] G]; [destruct mid; discriminate|]. destruct (TG (h, m) (or_introl eq_refl)) as [X _]. cbn [fst] in X.
      unfold flat in E'. cbn [map concat fst snd app] in E'. destruct mid as [|y mid]; cbn [app] in E'.
      * assert (h = s) by congruence. congruence.
      * assert (h = y) as -> by congruence. now inversion F.
    + apply Forall_cons_iff in Fl as [_ Fl]. destruct mid as [|y mid]; cbn [app] in E'; [left; congruence|]. right. apply Forall_cons_iff in F as [_ F].
      apply (IH Fl mid); [congruence|exact F].
  - destruct (split_after _ l (flat G) pre o (mid ++ s :: post)) as (p' & _ & E'); [congruence| |].
    { intros I. rewrite Forall_forall in Fl. apply Fl in I. contradiction. }
    destruct (IH TG p' E') as (g & I & X). exists g. split; [now right|exact X].
Qed.

Section Merged.
  Context (type type' : N) (ps ps' : list ptr) (P : proper type ps) (P' : proper type' ps') (S : same_key ps ps').

  Lemma result np m : merge type type' ps ps' = Ok (np, m) -> exists k ks gu gs, np = flat ((k, ks) :: gu ++ gs) /\ merged ps ps' k ks gu gs /\ is_primary (tag_of k).
  Proof.
    intros E. destruct (merge_shape _ _ _ _ P P' S) as (k & ks & gu & gs & E' & M). rewrite E' in E. apply bind_ok in E as (b & _ & E).
    exists k, ks, gu, gs. split; [|split; [exact M|]].
    - apply Ok_inj in E. congruence.
    - destruct (mg_head _ _ _ _ _ _ M) as (r & X). destruct (proper_head _ _ P) as (k0 & r0 & Y & K). congruence.
  Qed.
  Lemma either_in a s : either ps ps' a s -> In a (ps ++ ps') /\ In s (ps ++ ps').
  Proof. intros [X|X]; apply attached_in in X as [X Y]; rewrite !in_app_iff; auto. Qed.
  Lemma sub_headed k ks gu gs q : merged ps ps' k ks gu gs -> In q (ps ++ ps') -> is_sub (tag_of q) -> headed gs q.
  Proof.
    intros M I T. apply in_app_iff in I as [I|I].
    - destruct (proper_bound _ _ _ P I T) as (b & A & _). eapply (mg_subs _ _ _ _ _ _ M); [left; exact A|exact T].
    - destruct (proper_bound _ _ _ P' I T) as (b & A & _). eapply (mg_subs _ _ _ _ _ _ M); [right; exact A|exact T].
  Qed.
  Lemma headed_flat G p : headed G p -> has (flat G) p.
  Proof. intros (g & I & A). exists (fst g). split; [apply in_flat; eauto|exact A]. Qed.
  Lemma headed_incl G G' p : incl G G' -> headed G p -> headed G' p.
  Proof. intros I (g & X & A). exists g. auto. Qed.
  Lemma owner_tags a s : either ps ps' a s -> is_primary (tag_of a) \/ is_user_tag (tag_of a) \/ is_sub (tag_of a).
  Proof.
    intros E. assert (N : tag_of a <> 2) by (destruct E as [E|E]; apply E). apply either_in in E as [I _]. apply in_app_iff in I as [I|I].
    - destruct (proper_head _ _ P) as (k & r & -> & K). destruct I as [<-|I]; [auto|]. destruct (proper_tags _ _ _ _ P I) as [?|?]; [contradiction|auto].
    - destruct (proper_head _ _ P') as (k & r & -> & K). destruct I as [<-|I]; [auto|]. destruct (proper_tags _ _ _ _ P' I) as [?|?]; [contradiction|auto].
  Qed.
  Lemma sig_present k ks gu gs a s : merged ps ps' k ks gu gs -> either ps ps' a s -> has (flat ((k, ks) :: gu ++ gs)) s.
  Proof.
    intros M E. destruct (owner_tags _ _ E) as [T|[T|T]].
    - eapply (mg_ks' _ _ _ _ _ _ M); eassumption.
    - destruct (mg_users _ _ _ _ _ _ M a) as (g & G & A); [apply (either_in _ _ E)|exact T|].
      eapply (mg_full _ _ _ _ _ _ M g); [rewrite in_app_iff; auto|exact E|now apply alike_sym].
    - destruct (mg_subs _ _ _ _ _ _ M a s E T) as (g & G & A). eapply (mg_full _ _ _ _ _ _ M g); [rewrite in_app_iff; auto|exact E|now apply alike_sym].
  Qed.
  Lemma below_key a s k r : ps = k :: r -> either ps ps' a s -> is_primary (tag_of a) -> alike a k.
  Proof.
    intros -> E T. destruct S as (k0 & r0 & k' & r' & X & Y & A). assert (k0 = k) as -> by congruence.
    destruct E as [E|E]; apply attached_in in E as [I _].
    - apply (proper_primary _ _ _ _ P) in I as ->; [apply alike_refl|exact T].
    - rewrite Y in I. rewrite Y in P'. apply (proper_primary _ _ _ _ P') in I as ->; [now apply alike_sym|exact T].
  Qed.
End Merged.

(** C37: after merging, every packet of either key is there: a packet with the same tag and
    the same body. *)
Theorem C37_present : forall type type' ps ps' np m, proper type ps -> proper type' ps' -> same_key ps ps' ->
  merge type type' ps ps' = Ok (np, m) -> forall p, In p ps \/ In p ps' -> has np p.
Proof.
  intros type type' ps ps' np m P P' S E p I. destruct (result _ _ _ _ P P' S _ _ E) as (k & ks & gu & gs & -> & M & K).
  assert (I' : In p (ps ++ ps')) by now apply in_app_iff.
  assert (C : p = k \/ alike k p \/ (tag_of p = 2 /\ exists o, either ps ps' o p) \/ is_user_tag (tag_of p) \/ is_sub (tag_of p)).
  { destruct S as (k0 & r & k' & r' & -> & -> & A). destruct (mg_head _ _ _ _ _ _ M) as (r0 & X). assert (k0 = k) as -> by congruence.
    assert (K' : is_primary (tag_of k')) by (destruct A as [<- _]; exact K).
    destruct I as [[<-|I]|[<-|I]]; auto.
    - destruct (proper_tags _ _ _ _ P I) as [T|?]; [|auto]. right. right. left. split; [exact T|].
      destruct (sig_owner r k p) as (o & O); [tags|exact I|exact T|]. exists o. left. exact O.
    - destruct (proper_tags _ _ _ _ P' I) as [T|?]; [|auto]. right. right. left. split; [exact T|].
      destruct (sig_owner r' k' p) as (o & O); [tags|exact I|exact T|]. exists o. right. exact O. }
  destruct C as [->|[A|[[_ (o & O)]|[T|T]]]].
  - apply has_in. now left.
  - exists k. split; [now left|exact A].
  - exact (sig_present _ _ _ _ P P' S _ _ _ _ _ _ M O).
  - apply headed_flat. eapply headed_incl; [|exact (mg_users _ _ _ _ _ _ M p I' T)]. intros x X. right. rewrite in_app_iff. auto.
  - apply headed_flat. eapply headed_incl; [|exact (sub_headed _ _ _ _ P P' _ _ _ _ _ M I' T)]. intros x X. right. rewrite in_app_iff. auto.
Qed.
(** It has no other packets, and none twice. *)
Theorem C37_nothing_new : forall type type' ps ps' np m, proper type ps -> proper type' ps' -> same_key ps ps' ->
  merge type type' ps ps' = Ok (np, m) -> (forall q, In q np -> In q ps \/ In q ps') /\ distinct np.
Proof.
  intros type type' ps ps' np m P P' S E. destruct (result _ _ _ _ P P' S _ _ E) as (k & ks & gu & gs & -> & M & K).
  split; [|apply M]. intros q I. apply in_app_iff. apply in_flat in I as (g & [<-|G] & X); cbn [fst snd] in *.
  - destruct X as [->|X].
    + destruct (mg_head _ _ _ _ _ _ M) as (r & ->). now left.
    + apply (mg_ks _ _ _ _ _ _ M) in X as (a & X & _). apply (either_in _ _ _ _ X).
  - apply in_app_iff in G as [G|G]; [apply (mg_gu _ _ _ _ _ _ M) in G as (_ & Y & Z)|apply (mg_gs _ _ _ _ _ _ M) in G as (_ & Y & Z)];
      (destruct X as [->|X]; [exact Y|apply Z in X as (a & X & _); apply (either_in _ _ _ _ X)]).
Qed.
(** A signature stands below a packet it stood below in one of the keys; *)
Theorem C37_below : forall type type' ps ps' np m, proper type ps -> proper type' ps' -> same_key ps ps' ->
  merge type type' ps ps' = Ok (np, m) -> forall o s, attached np o s ->
  exists o', (attached ps o' s \/ attached ps' o' s) /\ alike o' o.
Proof.
  intros type type' ps ps' np m P P' S E o s A. destruct (result _ _ _ _ P P' S _ _ E) as (k & ks & gu & gs & -> & M & K).
  apply group_attached in A as (g & G & -> & I); [|exact (merged_tags _ _ _ _ _ _ M K)].
  destruct G as [<-|G]; cbn [fst snd] in *.
  - destruct (mg_head _ _ _ _ _ _ M) as (r & Er). destruct (mg_ks _ _ _ _ _ _ M s I) as (a & X & T). exists a. split; [exact X|].
    exact (below_key _ _ _ _ P P' S _ _ _ _ Er X T).
  - apply in_app_iff in G as [G|G]; [destruct (mg_gu _ _ _ _ _ _ M g G) as (_ & _ & X)|destruct (mg_gs _ _ _ _ _ _ M g G) as (_ & _ & X)]; exact (X s I).
Qed.
(** and, where no signature stands below two different packets, below every such packet. *)
Lemma attached_kept type type' ps ps' np m : proper type ps -> proper type' ps' -> same_key ps ps' -> one_owner ps ps' ->
  merge type type' ps ps' = Ok (np, m) -> forall o s, attached ps o s \/ attached ps' o s ->
  exists o' s', attached np o' s' /\ alike o' o /\ alike s' s.
Proof.
  intros P P' S U E o s A. pose proof (C37_below _ _ _ _ _ _ P P' S E) as BL.
  destruct (result _ _ _ _ P P' S _ _ E) as (k & ks & gu & gs & -> & M & K).
  destruct (sig_present _ _ _ _ P P' S _ _ _ _ _ _ M A) as (s' & I & X). pose proof (merged_tags _ _ _ _ _ _ M K) as T.
  apply in_flat in I as (g & G & Y). destruct (T g G) as [Tg Fg].
  assert (S2 : tag_of s' = 2) by (destruct X as [-> _]; eapply key_sigs_tag; eassumption).
  destruct Y as [->|Y]; [contradiction|]. pose proof (attached_group _ g s' Tg Fg G Y) as AT.
  exists (fst g), s'. split; [exact AT|]. split; [|exact X]. destruct (BL _ _ AT) as (o1 & A1 & Z).
  eapply alike_trans; [apply alike_sym, Z|]. eapply U; eassumption.
Qed.
Theorem C37_kept : forall type type' ps ps' np m, proper type ps -> proper type' ps' -> same_key ps ps' -> one_owner ps ps' ->
  merge type type' ps ps' = Ok (np, m) -> forall o s, attached ps o s \/ attached ps' o s ->
  exists o' s', attached np o' s' /\ alike o' o /\ alike s' s.
Proof. exact attached_kept. Qed.

(** Such keys can always be merged, and the result is meaningful. *)
Lemma version_3 k k' t : is_primary t -> p_tag k = t -> p_tag k' = t -> typed k -> typed k' -> (exists w, raw (p_body k) = Ok w) ->
  raw (p_body k) = raw (p_body k') -> has_version 3 k -> has_version 3 k'.
Proof.
  intros T E E' Y Y' [w W] R (x & B & V). rewrite W in R.
  assert (H : exists r, w = 3 :: r).
  { destruct B as [B|[s B]]; rewrite B in W; cbn [raw] in W.
    - apply Ok_inj in W as <-. unfold key_raw. rewrite V. eauto.
    - unfold secret_raw in W. apply bind_ok in W as (mid & _ & W). apply Ok_inj in W as <-. unfold key_raw. rewrite V. cbn [app]. eauto. }
  destruct H as (r & ->). unfold typed in Y'. rewrite E' in Y'. destruct T as [->| ->].
  - destruct Y' as (x' & s & B'). exists x'. split; [eauto|]. rewrite B' in R. cbn [raw] in R. unfold secret_raw in R. symmetry in R.
    apply bind_ok in R as (mid & _ & R). apply Ok_inj in R. unfold key_raw in R. cbn [app] in R. congruence.
  - destruct Y' as (x' & B'). exists x'. split; [eauto|]. rewrite B' in R. cbn [raw] in R. apply Ok_inj in R. unfold key_raw in R. congruence.
Qed.
Definition packets (g : group) : list packet := snd (fst g) :: map snd (snd g).
Lemma map_flat G : map snd (flat G) = concat (map packets G).
Proof. unfold flat. rewrite concat_map, map_map. reflexivity. Qed.
Lemma one_group : forall G g g', distinct (flat G) -> In g G -> In g' G -> alike (fst g) (fst g') -> g = g'.
Proof.
  assert (H : forall g r g' (i : nat), distinct (flat (g :: r)) -> In g' r -> alike (fst g) (fst g') -> False).
  { intros [o l] r g' _ D I A. assert (X : In (fst g') (l ++ flat r)) by (apply in_app_iff; right; apply in_flat; eauto).
    apply In_nth_error in X as (n & X). enough (0%nat = S n) by discriminate. eapply (D 0%nat (S n)); [reflexivity|exact X|exact A]. }
  assert (T : forall g r, distinct (flat (g :: r)) -> distinct (flat r)).
  { intros [o l] r D i j p q A B E. unfold flat in D. cbn [map concat fst snd] in D. fold (flat r) in D.
    assert (Z : (length (o :: l) + i = length (o :: l) + j)%nat); [|lia].
    eapply (D (length (o :: l) + i)%nat (length (o :: l) + j)%nat); [rewrite nth_error_app2 by lia|rewrite nth_error_app2 by lia|exact E];
      (match goal with |- nth_error _ ?x = _ => first [replace x with i by lia|replace x with j by lia] end); assumption. }
  induction G as [|h G IH]; intros g g' D I I' A; [destruct I|]. destruct I as [<-|I], I' as [<-|I']; auto.
  - exfalso. eapply (H h G g' 0%nat); eassumption.
  - exfalso. eapply (H h G g 0%nat); [exact D|exact I|now apply alike_sym].
  - apply IH; auto. eapply T; eassumption.
Qed.
Lemma type_written s s' : t2_version s = 3 \/ t2_version s = 4 -> t2_version s' = 3 \/ t2_version s' = 4 -> tag2_raw s = tag2_raw s' -> t2_type s' = t2_type s.
Proof.
  destruct s as [v ty pk h m l ti id hs us], s' as [v' ty' pk' h' m' l' ti' id' hs' us']. cbn [t2_version t2_type tag2_raw]. intros V V' E.
  assert (v' = v) as -> by congruence. destruct V as [->| ->]; cbn [N.eqb Pos.eqb app] in E; congruence.
Qed.
Theorem C37_meaningful : forall type type' ps ps', proper type ps -> proper type' ps' -> same_key ps ps' -> one_owner ps ps' ->
  exists np, merge type type' ps ps' = Ok (np, true) /\ key_meaningful type (map snd np) = Ok true.
Proof.
  intros type type' ps ps' P P' S U. destruct (merge_shape _ _ _ _ P P' S) as (k & ks & gu & gs & E & M).
  destruct (mg_head _ _ _ _ _ _ M) as (r & Er).
  assert (K : is_primary (tag_of k)) by (destruct (proper_head _ _ P) as (k0 & r0 & Y & K); congruence).
  assert (X : key_meaningful type (map snd (flat ((k, ks) :: gu ++ gs))) = Ok true).
  2: { rewrite X in E. cbn [bind] in E. eauto. }
  assert (IN : forall q, In q (flat ((k, ks) :: gu ++ gs)) -> In q (ps ++ ps')).
  { intros q I. apply in_flat in I as (g & [<-|G] & X); cbn [fst snd] in *.
    - destruct X as [->|X]; [rewrite Er; now left|]. apply (mg_ks _ _ _ _ _ _ M) in X as (a & X & _). apply (either_in _ _ _ _ X).
    - apply in_app_iff in G as [G|G]; [apply (mg_gu _ _ _ _ _ _ M) in G as (_ & Y & Z)|apply (mg_gs _ _ _ _ _ _ M) in G as (_ & Y & Z)];
        (destruct X as [->|X]; [exact Y|apply Z in X as (a & X & _); apply (either_in _ _ _ _ X)]). }
  assert (TY : Forall typed (map snd (flat ((k, ks) :: gu ++ gs)))).
  { rewrite Forall_map. apply Forall_forall. intros q Q. apply IN, in_app_iff in Q as [Q|Q];
      [apply (proper_body _ _ _ P Q)|apply (proper_body _ _ _ P' Q)]. }
  apply transferable_iff; [exact TY|].
  destruct (proper_block _ _ P) as (primary & sub & TP & B). destruct (proper_block _ _ P') as (primary' & sub' & TP' & B').
  assert (KP : tag_of k = primary).
  { destruct B as (k0 & revs & us & subs & EB & KB & _). rewrite Er in EB. cbn [map] in EB. assert (snd k = k0) by congruence. unfold tag_of. congruence. }
  assert (KP' : exists k' r', ps' = k' :: r' /\ alike k k' /\ tag_of k' = primary').
  { destruct S as (k0 & r0 & k' & r' & X & Y & A). assert (k0 = k) as -> by congruence. exists k', r'. split; [exact Y|]. split; [exact A|].
    destruct B' as (k1 & revs & us & subs & EB & KB & _). rewrite Y in EB. cbn [map] in EB. assert (snd k' = k1) by congruence. unfold tag_of. congruence. }
  destruct KP' as (k' & r' & Er' & KK & KP').
  assert (primary' = primary /\ sub' = sub /\ type' = type) as (-> & -> & ->).
  { destruct KK as [KK _]. unfold tag_pair in *. lia. }
  assert (Below : forall a s, either ps ps' a s -> fits_below (snd a) (snd s)).
  { intros a s [X|X]; [exact (proper_below _ _ _ _ P X)|exact (proper_below _ _ _ _ P' X)]. }
  assert (KB : key_block primary sub (map snd (flat ((k, ks) :: gu ++ gs)))).
  { exists (snd k), (map snd ks), (map packets gu), (map packets gs).
    split. { rewrite map_flat. cbn [map concat]. rewrite map_app, concat_app. unfold packets at 1. cbn [fst snd]. now rewrite <- app_comm_cons. }
    split; [exact KP|]. split.
    { rewrite Forall_map. apply Forall_forall. intros s I. destruct (mg_ks _ _ _ _ _ _ M s I) as (a & X & T). apply Below in X as (X & _). now apply X. }
    split.
    { rewrite Forall_map. apply Forall_forall. intros g G. destruct (mg_gu _ _ _ _ _ _ M g G) as (T & _ & X). unfold packets.
      eexists _, _. split; [reflexivity|]. split; [exact T|]. rewrite Forall_map. apply Forall_forall. intros s I. destruct (X s I) as (a & Y & [A1 A2]).
      apply Below in Y as (_ & Y & _). unfold tag_of in A1. rewrite <- A1. apply Y. unfold tag_of in T. rewrite A1. exact T. }
    split.
    { destruct (proper_user _ _ P) as (u & I & T). destruct (mg_users _ _ _ _ _ _ M u) as (g & G & [A _]); [rewrite in_app_iff; auto|tags|].
      rewrite Exists_exists. exists (packets g). split; [now apply in_map|]. eexists _, _. split; [reflexivity|]. unfold tag_of in *. congruence. }
    split.
    { rewrite Forall_map. apply Forall_forall. intros g G. destruct (mg_gs _ _ _ _ _ _ M g G) as (T & I & X). unfold packets.
      eexists _, _. split; [reflexivity|]. split.
      { (* the subkey tag *)
        assert (Y : forall p l, key_block primary sub l -> In p l -> is_sub (p_tag p) -> p_tag p = sub).
        { clear - TP. intros p l (k & revs & us & subs & -> & K & FR & FU & _ & FS & _) I T. destruct (tag_pair_is _ _ _ TP) as [T1 T2].
          destruct I as [->|I]; [tags|]. rewrite !in_app_iff in I. destruct I as [I|[I|I]].
          - rewrite Forall_forall in FR. apply FR in I as [I _]. tags.
          - apply user_tags in FU. rewrite Forall_map, Forall_forall in FU. apply FU in I. tags.
          - apply in_concat in I as (x & Ix & I). rewrite Forall_forall in FS. apply FS in Ix as (q & sigs & -> & Q & F & _).
            destruct I as [->|I]; [exact Q|]. rewrite Forall_forall in F. apply F in I as [I _]. tags. }
        apply in_app_iff in I as [I|I]; [eapply Y; [exact B|now apply in_map|exact T]|eapply Y; [exact B'|now apply in_map|exact T]]. }
      split.
      { rewrite Forall_map. apply Forall_forall. intros s J. destruct (X s J) as (a & Y & _). now apply Below in Y as (_ & _ & Y). }
      (* the binding *)
      assert (exists b, either ps ps' (fst g) b /\ signature_of (eq 24) (snd b)) as (b & Ab & Sb).
      { apply in_app_iff in I as [I|I].
        - destruct (proper_bound _ _ _ P I T) as (b & Z1 & Z2). exists b. split; [left; exact Z1|exact Z2].
        - destruct (proper_bound _ _ _ P' I T) as (b & Z1 & Z2). exists b. split; [right; exact Z1|exact Z2]. }
      destruct (sig_present _ _ _ _ P P' S _ _ _ _ _ _ M Ab) as (b' & J & A).
      assert (Tb' : tag_of b' = 2) by (destruct A as [-> _]; eapply key_sigs_tag; eassumption).
      pose proof (merged_tags _ _ _ _ _ _ M K) as MT.
      apply in_flat in J as (g' & G' & [J|J]); [destruct (MT g' G') as [Z _]; rewrite J in Tb'; contradiction|].
      assert (O : exists o, either ps ps' o b' /\ alike o (fst g')).
      { destruct G' as [<-|G'].
        - destruct (mg_ks _ _ _ _ _ _ M b' J) as (a & Y & Z). exists a. split; [exact Y|]. exact (below_key _ _ _ _ P P' S _ _ _ _ Er Y Z).
        - apply in_app_iff in G' as [G'|G']; [destruct (mg_gu _ _ _ _ _ _ M g' G') as (_ & _ & Y)|destruct (mg_gs _ _ _ _ _ _ M g' G') as (_ & _ & Y)]; exact (Y b' J). }
      destruct O as (o & O1 & O2). assert (g' = g) as ->.
      { apply (one_group _ _ _ (mg_distinct _ _ _ _ _ _ M)); [exact G'|right; rewrite in_app_iff; auto|].
        eapply alike_trans; [apply alike_sym, O2|]. eapply U; [exact O1|exact Ab|exact A]. }
      rewrite Exists_exists. exists (snd b'). split; [now apply in_map|].
      (* equal octets, so the same signature type *)
      assert (Tb : typed (snd b')).
      { apply (in_map snd) in J. rewrite Forall_forall in TY. apply TY. rewrite map_flat. apply in_concat. exists (packets g). split; [|now right].
        apply in_map. right. rewrite in_app_iff. auto. }
      destruct Sb as [Tb2 (s & Bs & Ty)]. unfold typed in Tb. unfold tag_of in Tb'. rewrite Tb' in Tb. destruct Tb as (s' & Bs').
      split; [exact Tb'|]. exists s'. split; [exact Bs'|]. destruct A as [_ A]. rewrite Bs, Bs' in A. cbn [raw] in A. apply Ok_inj in A.
      assert (V : forall x, In x (ps ++ ps') -> known_version x).
      { intros x Ix. apply in_app_iff in Ix as [Ix|Ix]; [apply (proper_body _ _ _ P Ix)|apply (proper_body _ _ _ P' Ix)]. }
      pose proof (V b' ltac:(apply (either_in _ _ _ _ O1))) as V1. pose proof (V b ltac:(apply (either_in _ _ _ _ Ab))) as V2.
      unfold known_version in V1, V2. rewrite Bs' in V1. rewrite Bs in V2. rewrite Ty. apply type_written; auto. }
    (* no subkeys in version 3 *)
    intros H3. destruct gs as [|g gs']; [reflexivity|]. exfalso. destruct (mg_gs _ _ _ _ _ _ M g (or_introl eq_refl)) as (T & I & _).
    assert (N : forall x l, key_block primary sub (map snd (x :: l)) -> has_version 3 (snd x) -> forall q, In q (x :: l) -> ~ is_sub (tag_of q)).
    { clear - TP. intros x l (k & revs & us & subs & E & K & FR & FU & _ & FS & V) H q I T. destruct (tag_pair_is _ _ _ TP) as [T1 T2].
      cbn [map] in E. assert (snd x = k) by congruence. subst k. rewrite (V H) in E. cbn [concat] in E. rewrite app_nil_r in E.
      destruct I as [<-|I]; [unfold tag_of in T; tags|]. apply (in_map snd) in I. assert (El : map snd l = revs ++ concat us) by congruence. rewrite El in I.
      apply in_app_iff in I as [I|I]; unfold tag_of in T.
      - rewrite Forall_forall in FR. apply FR in I as [I _]. tags.
      - apply user_tags in FU. rewrite Forall_map, Forall_forall in FU. apply FU in I. tags. }
    apply in_app_iff in I as [I|I].
    - rewrite Er in I, B. exact (N k r B H3 _ I T).
    - rewrite Er' in I, B'. refine (N k' r' B' _ _ I T). destruct KK as [KK1 KK2]. unfold tag_of in KK1, KP, KP'.
      assert (Ik : In k ps) by (rewrite Er; now left). assert (Ik' : In k' ps') by (rewrite Er'; now left).
      apply (version_3 (snd k) (snd k') primary); auto; [unfold tag_of in K; congruence|apply (proper_body _ _ _ P Ik)|apply (proper_body _ _ _ P' Ik')|apply (proper_body _ _ _ P Ik)]. }
  unfold tag_pair in TP. destruct TP as [(-> & -> & ->)|(-> & -> & ->)]; [left|right]; auto.
Qed.

(** A key whose packets all differ, merged with itself, keeps exactly its packets. *)
Lemma attached_index ps o s : attached ps o s -> exists pre mid post, ps = pre ++ o :: mid ++ s :: post /\ Forall (fun p => tag_of p = 2) mid /\
  nth_error ps (length (pre ++ o :: mid)) = Some s.
Proof.
  intros (_ & _ & pre & mid & post & -> & F). exists pre, mid, post. split; [reflexivity|]. split; [exact F|].
  replace (pre ++ o :: mid ++ s :: post) with ((pre ++ o :: mid) ++ s :: post) by now rewrite <- app_assoc.
  rewrite nth_error_app2 by lia. now rewrite Nat.sub_diag.
Qed.
Lemma last_owner (a a' b b' : list ptr) o o' : a ++ o :: b = a' ++ o' :: b' -> tag_of o <> 2 -> tag_of o' <> 2 ->
  Forall (fun p => tag_of p = 2) b -> Forall (fun p => tag_of p = 2) b' -> o = o'.
Proof.
  intros E T T' F F'. assert (A : owner (a ++ o :: b) o) by (split; [exact T|]; exists a, b; auto).
  assert (B : owner (a ++ o :: b) o') by (rewrite E; split; [exact T'|]; exists a', b'; auto). clear E F F' T T'.
  revert A B. generalize (a ++ o :: b). intros l. induction l as [|x l IH] using rev_ind; intros A B.
  - destruct A as (_ & [|? ?] & ? & X & _); discriminate.
  - destruct (N.eq_dec (tag_of x) 2) as [E|E].
    + apply owner_sig in A; [|exact E]. apply owner_sig in B; [|exact E]. auto.
    + apply owner_new in A; [|exact E]. apply owner_new in B; [|exact E]. congruence.
Qed.
Lemma distinct_owner ps : distinct ps -> one_owner ps ps.
Proof.
  intros D o s o' s' A B E. assert (A' : attached ps o s) by (destruct A; assumption). assert (B' : attached ps o' s') by (destruct B; assumption).
  clear A B. assert (T : tag_of o <> 2) by apply A'. assert (T' : tag_of o' <> 2) by apply B'.
  apply attached_index in A' as (a & b & c & Ea & Fa & Na). apply attached_index in B' as (a' & b' & c' & Eb & Fb & Nb).
  pose proof (D _ _ _ _ Na Nb E) as L. assert (X : a ++ o :: b = a' ++ o' :: b').
  { replace (a ++ o :: b ++ s :: c) with ((a ++ o :: b) ++ s :: c) in Ea by now rewrite <- app_assoc.
    replace (a' ++ o' :: b' ++ s' :: c') with ((a' ++ o' :: b') ++ s' :: c') in Eb by now rewrite <- app_assoc.
    rewrite Ea in Eb. clear - Eb L. revert L Eb. generalize (a ++ o :: b), (a' ++ o' :: b'). intros x. induction x as [|z x IH]; intros [|y u] L E; try discriminate L; [reflexivity|].
    cbn [app] in E. f_equal; [congruence|]. apply IH; [cbn in L; lia|congruence]. }
  rewrite (last_owner _ _ _ _ _ _ X T T' Fa Fb). apply alike_refl.
Qed.
Lemma distinct_NoDup ps : distinct ps -> NoDup ps.
Proof.
  intros D. apply NoDup_nth_error. intros i j L E. destruct (nth_error ps i) as [p|] eqn:A; [|apply nth_error_None in A; lia].
  eapply D; [exact A|symmetry; exact E|apply alike_refl].
Qed.
Theorem C37_self_partial : forall type ps, proper type ps -> distinct ps ->
  exists np, merge type type ps ps = Ok (np, true) /\ Permutation np ps /\
    forall o s, attached np o s <-> attached ps o s.
Proof.
  intros type ps P D. assert (S : same_key ps ps).
  { destruct (proper_head _ _ P) as (k & r & -> & _). exists k, r, k, r. split; [reflexivity|]. split; [reflexivity|apply alike_refl]. }
  pose proof (distinct_owner ps D) as U. destruct (C37_meaningful _ _ _ _ P P S U) as (np & E & _). exists np. split; [exact E|].
  destruct (C37_nothing_new _ _ _ _ _ _ P P S E) as [NN DN]. pose proof (C37_present _ _ _ _ _ _ P P S E) as PR.
  assert (EQ : forall p q, In p ps -> In q ps -> alike p q -> p = q).
  { intros p q A B X. apply In_nth_error in A as (i & A). apply In_nth_error in B as (j & B). pose proof (D _ _ _ _ A B X). congruence. }
  assert (NN' : forall q, In q np -> In q ps) by (intros q Q; destruct (NN q Q); assumption).
  split.
  - apply NoDup_Permutation; [now apply distinct_NoDup|now apply distinct_NoDup|]. intros x. split; [apply NN'|].
    intros I. destruct (PR x (or_introl I)) as (q & Q & A). now rewrite <- (EQ q x (NN' q Q) I A).
  - intros o s. split.
    + intros A. destruct (attached_in _ _ _ A) as [Io _]. destruct (C37_below _ _ _ _ _ _ P P S E _ _ A) as (o' & O & X).
      assert (O' : attached ps o' s) by (destruct O; assumption). rewrite <- (EQ o' o); [exact O'|apply (attached_in _ _ _ O')|auto|exact X].
    + intros A. destruct (attached_in _ _ _ A) as [Io Is]. destruct (C37_kept _ _ _ _ _ _ P P S U E o s (or_introl A)) as (o' & s' & O & X & Y).
      destruct (attached_in _ _ _ O) as [Io' Is']. rewrite <- (EQ o' o), <- (EQ s' s); auto.
Qed.

(** Different keys are refused and nothing is changed. *)
Theorem C37_different : forall type type' k r k' r', proper type (k :: r) -> proper type' (k' :: r') -> ~ alike k k' ->
  merge type type' (k :: r) (k' :: r') = Throw ERuntime.
Proof.
  intros type type' k r k' r' P P' N. unfold merge.
  destruct (proper_pkey _ _ P) as (pk1 & -> & T1). destruct (proper_pkey _ _ P') as (pk2 & -> & T2). cbn [bind].
  assert (pk_key pk1 = k) as -> by (destruct T1 as [[? X] _ _ _ _ _ _]; congruence).
  assert (pk_key pk2 = k') as -> by (destruct T2 as [[? X] _ _ _ _ _ _]; congruence).
  destruct (same_spec k k') as (b & -> & B); [apply (proper_body _ _ _ P); now left|apply (proper_body _ _ _ P'); now left|].
  cbn [bind]. destruct b; [destruct N; now apply B|reflexivity].
Qed.
(** A meaningful key in which an attribute precedes the user IDs cannot be merged, not even
    with itself. *)
Theorem C37_attribute_refuted : forall type type' k revs x r ps', key_meaningful type (map snd (k :: revs ++ x :: r)) = Ok true ->
  Forall (fun p => tag_of p = 2) revs -> tag_of x = 17 -> merge type type' (k :: revs ++ x :: r) ps' = Throw ERuntime.
Proof.
  intros type type' k revs x r ps' M F X. unfold merge, get_pkey. rewrite M. cbn [bind]. change (vec_at (k :: revs ++ x :: r) 0) with (Ok k). cbn [bind].
  change (skipn 1 (k :: revs ++ x :: r)) with (revs ++ x :: r).
  assert (E : forall pk, pkey_loop pk None None None (revs ++ x :: r) = Throw ERuntime).
  { clear M. induction F as [|p revs T F IH]; intros [k0 ks us ss ua l]; cbn [app pkey_loop].
    - rewrite X. reflexivity.
    - rewrite T. cbn [N.eqb Pos.eqb]. apply IH. }
  now rewrite E.
Qed.

(** Example: a key with two users and a subkey; the other copy has a new subkey, a new
    certification and an attribute below the second user. *)
Definition cert (type n : N) : packet :=
  mkPacket 2 NEW NOT_PARTIAL (PSig (mkTag2 4 type 1 8 [5] [0; n] 0 [] [(false, Sub2 1000)] [(false, Sub16 (repeat 1 8))])).
Definition key_of (tag n : N) : packet := mkPacket tag NEW NOT_PARTIAL (PKey (mkKey 4 n 1 [35; 5] 0)).
Definition user (name : string) : packet := mkPacket 13 NEW NOT_PARTIAL (PRaw (str name)).
Definition photo : packet := mkPacket 17 NEW NOT_PARTIAL (PAttributes [mkImage 1 1 [1; 2; 3]]).
Definition copy_1 : list ptr :=
  [(10, key_of 6 1); (11, user "a"); (12, cert 16 1); (13, user "b"); (14, cert 16 2); (15, key_of 14 2); (16, cert 24 3)].
Definition copy_2 : list ptr :=
  [(40, key_of 6 1); (31, user "b"); (32, cert 19 4); (33, photo); (34, cert 16 5); (35, user "c"); (25, key_of 14 3); (26, cert 24 6); (27, key_of 14 2); (28, cert 24 3)].
Ltac proper_all := split; [repeat (apply Forall_cons; [split; [cbn; eauto|split; [eexists; reflexivity|cbn; auto]]|]); apply Forall_nil|split; [reflexivity|]].
Lemma attributes_follow_b ps : (fix go (i : bool) l := match l with [] => true | p :: r => (negb (tag_of p =? 17) || i) && go (i || (tag_of p =? 13)) r end) false ps = true ->
  attributes_follow ps.
Proof.
  enough (G : forall ps i seen, (fix go (i : bool) l := match l with [] => true | p :: r => (negb (tag_of p =? 17) || i) && go (i || (tag_of p =? 13)) r end) i ps = true ->
    (i = true -> exists u, In u seen /\ tag_of u = 13) -> forall pre x post, ps = pre ++ x :: post -> tag_of x = 17 -> exists u, In u (seen ++ pre) /\ tag_of u = 13).
  { intros H pre x post E T. apply (G ps false [] H ltac:(discriminate) pre x post E T). }
  clear ps. induction ps as [|p ps IH]; intros i seen H S pre x post E T; [destruct pre; discriminate|].
  apply andb_prop in H as [H1 H2]. destruct pre as [|y pre]; cbn [app] in E.
  - assert (p = x) as -> by congruence. rewrite T in H1. cbn in H1. rewrite app_nil_r. auto.
  - assert (p = y) as -> by congruence. replace (seen ++ y :: pre) with ((seen ++ [y]) ++ pre) by now rewrite <- app_assoc.
    apply (IH (i || (tag_of y =? 13)) (seen ++ [y]) H2) with (x := x) (post := post); [|congruence|exact T].
    intros O. apply Bool.orb_true_iff in O as [O|O].
    + destruct (S O) as (u & U & U13). exists u. rewrite in_app_iff. auto.
    + exists y. rewrite in_app_iff. split; [right; now left|lia].
Qed.
Example C37_proper_ex : proper 2 copy_1 /\ proper 2 copy_2 /\ same_key copy_1 copy_2.
Proof.
  split; [proper_all; now apply attributes_follow_b|]. split; [proper_all; now apply attributes_follow_b|].
  unfold same_key, copy_1, copy_2. do 4 eexists. split; [reflexivity|]. split; [reflexivity|]. split; reflexivity.
Qed.
Example C37_merge_ex : merge 2 2 copy_1 copy_2 = Ok (
  [(10, key_of 6 1); (11, user "a"); (12, cert 16 1); (13, user "b"); (14, cert 16 2); (32, cert 19 4); (33, photo); (34, cert 16 5);
   (35, user "c"); (15, key_of 14 2); (16, cert 24 3); (25, key_of 14 3); (26, cert 24 6)], true).
Proof. reflexivity. Qed.
(** Users and subkeys are reordered by the addresses of their objects, so merging a key with
    itself may change it. *)
Definition shuffled : list ptr :=
  [(10, key_of 6 1); (13, user "a"); (12, cert 16 1); (11, user "b"); (14, cert 16 2); (16, key_of 14 2); (15, cert 24 3)].
Lemma distinct_shuffled : distinct shuffled.
Proof.
  intros i j p q A B [E E']. do 7 (destruct i as [|i]; [do 7 (destruct j as [|j]; [cbn in A, B; injection A as <-; injection B as <-; first [reflexivity|discriminate E|discriminate E']|]); destruct j; discriminate B|]).
  destruct i; discriminate A.
Qed.
Example C37_shuffled_ex : proper 2 shuffled /\ same_key shuffled shuffled /\ one_owner shuffled shuffled.
Proof.
  split; [proper_all; now apply attributes_follow_b|]. split; [|exact (distinct_owner _ distinct_shuffled)].
  do 4 eexists. split; [reflexivity|]. split; [reflexivity|]. split; reflexivity.
Qed.
Theorem C37_order_refuted : exists ps np, proper 2 ps /\ distinct ps /\ merge 2 2 ps ps = Ok (np, true) /\ map snd np <> map snd ps.
Proof.
  exists shuffled. eexists. split; [proper_all; now apply attributes_follow_b|]. split; [exact distinct_shuffled|].
  split; [reflexivity|]. discriminate.
Qed.
(** When two subkeys have the same binding signature, the key loses one of them, is left
    without being meaningful, and the call throws. *)
Theorem C37_shared_refuted : exists ps np, proper 2 ps /\ merge 2 2 ps ps = Ok (np, false) /\ key_meaningful 2 (map snd np) = Ok false.
Proof.
  exists [(10, key_of 6 1); (11, user "a"); (12, cert 16 1); (13, key_of 14 2); (14, cert 24 3); (15, key_of 14 3); (16, cert 24 3)].
  eexists. split; [proper_all; now apply attributes_follow_b|]. split; reflexivity.
Qed.
Example C37_attribute_ex :
  merge 2 2 [(1, key_of 6 1); (2, photo); (3, cert 16 1); (4, user "a")] copy_1 = Throw ERuntime.
Proof. apply (C37_attribute_refuted 2 2 (1, key_of 6 1) [] (2, photo)); [reflexivity|constructor|reflexivity]. Qed.
Example C37_different_ex : merge 2 2 copy_1 [(1, key_of 6 2); (4, user "a")] = Throw ERuntime.
Proof. reflexivity. Qed.

Print Assumptions C37_present.
Print Assumptions C37_nothing_new.
Print Assumptions C37_below.
Print Assumptions C37_kept.
Print Assumptions C37_meaningful.
Print Assumptions C37_self_partial.
Print Assumptions C37_different.
Print Assumptions C37_attribute_refuted.
Print Assumptions C37_order_refuted.
Print Assumptions C37_shared_refuted.
