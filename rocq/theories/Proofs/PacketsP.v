(** Packet readers: where their data comes from, and round trips. *)
From Verif Require Export Proofs.ReaderP Model.Packets.

(** ** Compositions *)
Definition r_tag4 : reader contents :=
  rbind octet (fun v => rbind octet (fun t => rbind octet (fun h => rbind octet (fun p =>
  rbind (take 8) (fun k => rbind (lift (if len k =? 8 then Ok tt else Throw ERuntime)) (fun _ =>
  rbind octet (fun l => lift (Ok (POnePass v t h p k l))))))))).
Lemma tag4_eq d p : tag4_read d p = r_tag4 d p.
Proof.
  unfold tag4_read, r_tag4. rsolve. destruct (len x3 =? 8); cbn [bind]; [|reflexivity].
  rewrite bind_bind. cbn [bind]. apply bind_ext; [f_equal; lia|intros]. do 2 f_equal. lia.
Qed.
Lemma good_tag4 : good tag4_read.
Proof. apply (good_ext r_tag4); [apply tag4_eq|]. unfold r_tag4. good. Qed.

Definition r_key : reader key :=
  rbind octet (fun v => rbind (take 4) (fun ts =>
  if v <? 4 then
    rbind octet (fun a => rbind octet (fun b => rbind octet (fun pka =>
    rbind (read_mpis 2) (fun mpi => lift (Ok (mkKey v (u32 (toint256 ts)) pka mpi (expire_of a b)))))))
  else if v =? 4 then
    rbind octet (fun pka =>
    rbind (if is_RSA pka then read_mpis 2 else if pka =? 17 then read_mpis 4
           else if pka =? 16 then read_mpis 3 else lift (Throw ERuntime)) (fun mpi =>
    lift (Ok (mkKey v (u32 (toint256 ts)) pka mpi 0))))
  else lift (Throw ERuntime))).
Lemma good_key : good r_key.
Proof.
  unfold r_key. apply good_bind; [apply good_octet|intros v]. apply good_bind; [apply good_take|intros ts].
  destruct (v <? 4); [good|]. destruct (v =? 4); [|good].
  apply good_bind; [apply good_octet|intros pka]. apply good_bind; [|intros; good].
  destruct (is_RSA pka); [good|]. destruct (pka =? 17); [good|]. destruct (pka =? 16); good.
Qed.
Lemma key_eq d p v : at_ d p = Ok v -> v <= 4 -> key_read d p = r_key d p.
Proof.
  intros H Hv. unfold key_read, r_key. unfold rbind at 1. unfold octet at 1. rewrite H. cbn [bind].
  unfold rbind at 1. unfold take at 1. rewrite bind_bind. apply bind_ext; [reflexivity|intros ts]. cbn [bind].
  destruct (v <? 4) eqn:E1.
  - rsolve. now destruct x2.
  - replace (v =? 4) with true by lia. unfold rbind at 1. unfold octet at 1. rewrite bind_bind. cbn [bind].
    apply bind_ext; [f_equal; lia|intros pka]. unfold rbind.
    replace (p + 1 + 4 + 1) with (p + 6) by lia.
    destruct (is_RSA pka); [|destruct (pka =? 17); [|destruct (pka =? 16)]];
      (apply bind_ext; [reflexivity|intros [ms q]; reflexivity]) || reflexivity.
Qed.
Lemma key_gt d p v : at_ d p = Ok v -> 4 < v -> forall k q, key_read d p = Ok (k, q) -> q = p.
Proof.
  intros H Hv k q. unfold key_read. rewrite H. cbn [bind].
  replace (v <? 4) with false by lia. replace (v =? 4) with false by lia.
  intros E. inv_bind E. now injection E as _ <-.
Qed.
Lemma key_shift pre s p : key_read (pre ++ s) (len pre + p) = shifted (len pre) (key_read s p).
Proof.
  destruct (at_cases s p) as [[v E]|E].
  - destruct (v <=? 4) eqn:Hv.
    + rewrite (key_eq _ _ v), (key_eq s p v) by (rewrite ?at_shift; auto; lia). apply (g_shift _ good_key).
    + unfold key_read. rewrite at_shift, E, <- N.add_assoc, substr_shift. unfold shifted. cbn [bind].
      destruct (substr s (p + 1) 4); cbn [bind]; auto.
      replace (v <? 4) with false by lia. replace (v =? 4) with false by lia. reflexivity.
  - unfold key_read, shifted. rewrite at_shift, E. reflexivity.
Qed.

Lemma s2k_shift k pre s p : s2k_read k (pre ++ s) (len pre + p) = shifted (len pre) (s2k_read k s p).
Proof.
  unfold s2k_read, shifted. rewrite <- !N.add_assoc, !at_shift, !substr_shift.
  destruct (at_ s p); cbn [bind]; auto. destruct (at_ s (p + 1)); cbn [bind]; auto.
  destruct k; cbn [bind].
  - reflexivity.
  - destruct (substr s (p + 2) 8); cbn [bind]; auto. destruct (_ =? _); cbn [bind]; auto.
  - destruct (substr s (p + 2) 8); cbn [bind]; auto. destruct (_ =? _); cbn [bind]; auto.
    destruct (at_ s (p + 10)); cbn [bind]; auto.
Qed.

Lemma secret_shift pre s p L : secret_read (pre ++ s) (len pre + p) L = shifted (len pre) (secret_read s p L).
Proof.
  unfold secret_read. rewrite key_shift. unfold shifted at 1.
  destruct (key_read s p) as [[k q]| | |]; cbn [bind]; try reflexivity.
  rewrite at_shift. destruct (at_ s q) as [con| | |]; cbn [bind]; try reflexivity.
  rewrite <- N.add_assoc, at_shift. cbv zeta.
  destruct ((con =? 254) || (con =? 255)).
  - destruct (at_ s (q + 1)) as [sym| | |]; cbn [bind]; try reflexivity.
    rewrite <- !N.add_assoc, at_shift. destruct (at_ s (q + (1 + 1))) as [t| | |]; cbn [bind]; try reflexivity.
    destruct (s2k_class_of t) as [c| | |]; cbn [bind]; try reflexivity.
    rewrite s2k_shift. unfold shifted at 1. destruct (s2k_read c s _) as [[sk r]| | |]; cbn [bind]; try reflexivity.
    destruct (con =? 0); cbn [bind].
    + rewrite substr_shift. replace (len pre + r - (len pre + p)) with (r - p) by lia.
      unfold shifted. destruct (substr s r _); cbn [bind]; auto; try now rewrite <- N.add_assoc.
    + destruct (map_at block_length sym) as [bl| | |]; cbn [bind]; try reflexivity.
      rewrite substr_shift. destruct (substr s r _) as [iv| | |]; cbn [bind]; try reflexivity.
      rewrite <- N.add_assoc, substr_shift. replace (len pre + (r + len iv) - (len pre + p)) with (r + len iv - p) by lia.
      unfold shifted. destruct (substr s (r + len iv) _); cbn [bind]; auto; try now rewrite <- N.add_assoc.
  - cbn [bind]. destruct (con =? 0); cbn [bind].
    + rewrite substr_shift. replace (len pre + (q + 1) - (len pre + p)) with (q + 1 - p) by lia.
      unfold shifted. destruct (substr s (q + 1) _); cbn [bind]; auto; try now rewrite <- N.add_assoc.
    + destruct (map_at block_length con) as [bl| | |]; cbn [bind]; try reflexivity.
      rewrite substr_shift. destruct (substr s (q + 1) _) as [iv| | |]; cbn [bind]; try reflexivity.
      rewrite <- (N.add_assoc (len pre)), substr_shift.
      replace (len pre + (q + 1 + len iv) - (len pre + p)) with (q + 1 + len iv - p) by lia.
      unfold shifted. destruct (substr s (q + 1 + len iv) _); cbn [bind]; auto; try now rewrite <- N.add_assoc.
Qed.

Lemma tag2_shift pre s p : at_ s p <> Ok 3 ->
  tag2_read (pre ++ s) (len pre + p) = shifted (len pre) (tag2_read s p).
Proof.
  intros H. unfold tag2_read. rewrite tag2_read_n_shift by auto. f_equal.
  apply tag2_fuel; rewrite ?app_length; lia.
Qed.

(** Tags whose reader does not compare the position with the body length. *)
Definition position_free (tag : N) (s : bytes) (p : N) : Prop :=
  tag <> 1 /\ tag <> 17 /\ (tag = 2 -> at_ s p <> Ok 3).

Lemma shifted_map {A B} k (r : result (A * N)) (f : A -> B) :
  (' (x, q) <- shifted k r ;; Ok (f x, q)) = shifted k (' (x, q) <- r ;; Ok (f x, q)).
Proof. destruct r as [[x q]| | |]; reflexivity. Qed.

Definition tag_cases (tag : N) : Prop :=
  In tag [1;2;3;4;5;6;7;8;9;10;11;12;13;14;17;18;19;60;61;62;63].
Lemma contents_new_tags tag c : contents_new tag = Ok c -> tag_cases tag.
Proof.
  unfold contents_new, tag_cases. intros H.
  repeat match type of H with match ?x with _ => _ end = _ => destruct x end;
    try discriminate; cbn [In]; tauto.
Qed.
Lemma contents_new_cases tag : (exists c, contents_new tag = Ok c /\ tag_cases tag) \/ contents_new tag = Throw ERuntime.
Proof.
  destruct (contents_new tag) eqn:E.
  - left. eauto using contents_new_tags.
  - right. revert E. unfold contents_new.
    repeat match goal with |- match ?x with _ => _ end = _ -> _ => destruct x end; intros E; congruence.
  - exfalso. revert E. unfold contents_new.
    repeat match goal with |- match ?x with _ => _ end = _ -> _ => destruct x end; discriminate.
  - exfalso. revert E. unfold contents_new.
    repeat match goal with |- match ?x with _ => _ end = _ -> _ => destruct x end; discriminate.
Qed.

Lemma actual_read_shift tag pre s p L : tag_cases tag -> position_free tag s p ->
  actual_read tag (pre ++ s) (len pre + p) L = shifted (len pre) (actual_read tag s p L).
Proof.
  intros Ht (H1 & H17 & H2). unfold tag_cases in Ht. cbn [In] in Ht.
  repeat destruct Ht as [<-|Ht]; try tauto; cbn [actual_read].
  all: try (unfold raw_read; rewrite substr_shift; unfold shifted; destruct (substr s p L); cbn [bind]; auto;
            now rewrite <- N.add_assoc).
  - rewrite tag2_shift by auto. apply shifted_map.
  - unfold tag3_read. rewrite <- !N.add_assoc, !at_shift.
    destruct (at_ s p); cbn [bind]; auto. destruct (at_ s (p + 1)); cbn [bind]; auto.
    destruct (at_ s (p + 2)); cbn [bind]; auto. destruct (s2k_class_of a1); cbn [bind]; auto.
    rewrite s2k_shift. unfold shifted at 1. destruct (s2k_read a2 s (p + 2)) as [[sk q]| | |]; cbn [bind]; auto.
    replace (len pre + q <? len pre + (p + L)) with (q <? p + L) by lia.
    replace (len pre + (p + L) - (len pre + q)) with (p + L - q) by lia.
    rewrite substr_shift. destruct (q <? p + L); [|reflexivity].
    destruct (substr s q _); cbn [bind]; reflexivity.
  - apply (g_shift _ good_tag4).
  - apply secret_shift.
  - rewrite key_shift. apply shifted_map.
  - apply secret_shift.
  - unfold tag8_read. rewrite at_shift, <- !N.add_assoc, substr_shift.
    destruct (at_ s p); cbn [bind]; auto. destruct (substr s _ _); cbn [bind]; auto.
  - unfold tag11_read. rewrite at_shift. rewrite <- !N.add_assoc. rewrite at_shift. unfold shifted.
    destruct (at_ s p); cbn [bind]; auto. destruct (at_ s (p + 1)); cbn [bind]; auto.
    rewrite <- !N.add_assoc, !substr_shift. destruct (substr s (p + 2) _); cbn [bind]; auto.
    destruct (substr s (p + (2 + a0)) 4); cbn [bind]; auto.
    destruct (substr s (p + (6 + a0)) _); cbn [bind]; auto.
  - rewrite key_shift. apply shifted_map.
  - unfold tag18_read. rewrite at_shift, <- !N.add_assoc, substr_shift.
    destruct (at_ s p); cbn [bind]; auto. destruct (substr s _ _); cbn [bind]; auto.
Qed.

Lemma tag_read_shift tag pre s p L : position_free tag s p ->
  tag_read tag (pre ++ s) (len pre + p) L = tag_read tag s p L.
Proof.
  intros H. unfold tag_read. destruct (contents_new_cases tag) as [(c & E & Ht)|E]; rewrite E; cbn [bind]; auto.
  destruct (L =? 0); auto. rewrite actual_read_shift by auto. unfold shifted.
  destruct (actual_read tag s p L) as [[x q]| | |]; cbn [bind]; auto.
  now replace (len pre + q =? len pre + p + L) with (q =? p + L) by lia.
Qed.

(** ** What follows *)
Definition suffix_free (tag : N) : Prop := In tag [2;4;6;8;9;10;12;13;14;18;19;60;61;62;63].

Lemma tag_read_pos tag c0 d p L c : contents_new tag = Ok c0 -> L <> 0 ->
  (tag_read tag d p L = Ok c <-> actual_read tag d p L = Ok (c, p + L)).
Proof.
  intros E HL. unfold tag_read. rewrite E. cbn [bind]. replace (L =? 0) with false by lia.
  destruct (actual_read tag d p L) as [[x q]| | |]; cbn [bind]; try (split; discriminate).
  destruct (q =? p + L) eqn:Q.
  - replace q with (p + L) by lia. split; intros [= ->]; reflexivity.
  - split; [discriminate|]. intros [= -> ->]. lia.
Qed.

Lemma map_iff {A B} (f : A -> B) (r1 r2 : result (A * N)) q :
  (forall x, r1 = Ok (x, q) <-> r2 = Ok (x, q)) -> forall y,
  (' (x, p) <- r1 ;; Ok (f x, p)) = Ok (y, q) <-> (' (x, p) <- r2 ;; Ok (f x, p)) = Ok (y, q).
Proof.
  intros H y. split; intros E.
  - destruct r1 as [[x p]| | |]; try discriminate. injection E as <- <-.
    assert (r2 = Ok (x, p)) as -> by now apply H. reflexivity.
  - destruct r2 as [[x p]| | |]; try discriminate. injection E as <- <-.
    assert (r1 = Ok (x, p)) as -> by now apply H. reflexivity.
Qed.

Lemma tag_read_local tag body post c : suffix_free tag -> (tag = 2 -> at_ body 0 <> Ok 3) ->
  (tag_read tag (body ++ post) 0 (len body) = Ok c <-> tag_read tag body 0 (len body) = Ok c).
Proof.
  intros Ht H3. destruct (contents_new_cases tag) as [(c0 & E & _)|E].
  2:{ unfold tag_read. rewrite E. tauto. }
  destruct (len body =? 0) eqn:L0.
  { unfold tag_read. rewrite E, L0. tauto. }
  rewrite !(tag_read_pos _ _ _ _ _ _ E) by lia. cbn [N.add].
  assert (A0 : at_ (body ++ post) 0 = at_ body 0) by (apply at_app_l; lia).
  unfold suffix_free in Ht. cbn [In] in Ht.
  assert (R : forall tag, actual_read tag = raw_read ->
     (actual_read tag (body ++ post) 0 (len body) = Ok (c, len body) <->
      actual_read tag body 0 (len body) = Ok (c, len body))).
  { intros t ->. unfold raw_read. rewrite substr_app_l by lia. tauto. }
  repeat destruct Ht as [<-|Ht]; try (apply R; reflexivity); try tauto; cbn [actual_read].
  - specialize (H3 eq_refl). apply map_iff. intros x. unfold tag2_read.
    rewrite (tag2_fuel (S (length body)) (S (length (body ++ post))) body 0) by (rewrite ?app_length; lia).
    destruct (at_cases body 0) as [[v Ev]|Ev]; [|rewrite !tag2_read_n_S, A0, Ev; cbn [bind]; split; discriminate].
    destruct (v =? 4) eqn:V4.
    + apply N.eqb_eq in V4. subst v. rewrite !r_v4_eq by congruence. apply (g_local _ (good_v4 _)). lia.
    + rewrite !tag2_read_n_S, A0, Ev. cbn [bind]. rewrite V4.
      destruct (v =? 3) eqn:V3; [|tauto]. apply N.eqb_eq in V3. congruence.
  - apply (g_local _ good_tag4). lia.
  - apply map_iff. intros x.
    destruct (at_cases body 0) as [[v Ev]|Ev]; [|unfold key_read; rewrite A0, Ev; cbn [bind]; split; discriminate].
    destruct (v <=? 4) eqn:V.
    + rewrite !(key_eq _ _ v) by (try congruence; lia). apply (g_local _ good_key). lia.
    + split; intros H; exfalso; apply (key_gt _ _ v) in H; try lia; congruence.
  - unfold tag8_read. rewrite A0. rewrite substr_app_l by lia. tauto.
  - apply map_iff. intros x.
    destruct (at_cases body 0) as [[v Ev]|Ev]; [|unfold key_read; rewrite A0, Ev; cbn [bind]; split; discriminate].
    destruct (v <=? 4) eqn:V.
    + rewrite !(key_eq _ _ v) by (try congruence; lia). apply (g_local _ good_key). lia.
    + split; intros H; exfalso; apply (key_gt _ _ v) in H; try lia; congruence.
  - unfold tag18_read. rewrite A0. rewrite substr_app_l by lia. tauto.
Qed.
