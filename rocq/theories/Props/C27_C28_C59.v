(** Properties C27, C28, C59: signature packets and subpackets. *)
From Verif Require Import Proofs.SignatureP.

(** ** C59 *)

(** Every subpacket whose fields fit the format is read back from its own octets, notation
    data (type 20) only when name and value are empty. *)
Theorem C59_subpacket_roundtrip_partial : forall s : sub tag2,
  sub_fits sig_fits s -> sub_kept s ->
  exists s0, sub_new (sub_type s) = Ok s0 /\ sub_read tag2_of s0 (sub_raw tag2_raw s) = Ok s.
Proof.
  intros s H Hk. apply (sub_roundtrip tag2_of tag2_raw sig_fits); auto.
  intros x Hx. pose proof (tag2_raw_ne x) as Hne. split; [|auto].
  change (tag2_of (tag2_raw x)) with (tag2_embed (S (length (tag2_raw x))) (tag2_raw x)).
  apply tag2_embed_raw; [auto|]. apply tag2_roundtrip; auto.
Qed.

(** Missing part: notation data with a name or a value never comes back. *)
Theorem C59_notation_refuted : forall flags name value,
  len flags = 4 -> len name < 2 ^ 16 -> len value < 2 ^ 16 -> (name <> [] \/ value <> []) ->
  exists s0 s', sub_new 20 = Ok s0 /\
    sub_read tag2_of s0 (sub_raw tag2_raw (Sub20 flags name value)) = Ok s' /\
    s' = Sub20 flags [] [] /\ s' <> Sub20 flags name value.
Proof.
  intros f m n Hf Hm Hn Hne. do 2 eexists. split; [reflexivity|].
  split; [now apply sub20_lost|]. split; [reflexivity|]. intros E. injection E as <- <-. tauto.
Qed.

Lemma mid d pre x post p n : d = pre ++ x ++ post -> p = len pre -> n = len x -> substr d p n = Ok x.
Proof. intros -> -> ->. now apply substr_app. Qed.
(** Written by others with further octets after the value, notation data is read, and so is a
    revocation key; what follows is dropped. *)
Theorem C59_followed : forall flags name value c p f extra,
  (len flags = 4 -> len name < 2 ^ 16 -> len value < 2 ^ 16 -> extra <> [] ->
   exists s0, sub_new 20 = Ok s0 /\
     sub_read tag2_of s0 (flags ++ be 2 (len name) ++ be 2 (len value) ++ name ++ value ++ extra) = Ok (Sub20 flags name value)) /\
  (len f = 20 -> exists s0, sub_new 12 = Ok s0 /\ sub_read tag2_of s0 (c :: p :: f ++ extra) = Ok (Sub12 c p f)).
Proof.
  intros flags name value c p f extra. split.
  - intros Hf Hm Hn Hx. eexists. split; [reflexivity|]. unfold sub_read, sub_actual_read.
    assert (B : forall n, len (be 2 n) = 2) by (intros; unfold len; now rewrite be_length).
    assert (X : 0 < len extra) by (destruct extra; [congruence|rewrite len_cons; lia]).
    set (d := flags ++ be 2 (len name) ++ be 2 (len value) ++ name ++ value ++ extra).
    assert (L : len d = 8 + len name + len value + len extra) by (unfold d; rewrite !len_app, !B; lia).
    replace (0 <? len d) with true by lia. replace (8 <=? len d) with true by lia.
    rewrite (mid d [] flags (be 2 (len name) ++ be 2 (len value) ++ name ++ value ++ extra)) by (reflexivity || auto). cbn [bind].
    rewrite (mid d flags (be 2 (len name)) (be 2 (len value) ++ name ++ value ++ extra)) by (reflexivity || auto). cbn [bind].
    rewrite (mid d (flags ++ be 2 (len name)) (be 2 (len value)) (name ++ value ++ extra))
      by (unfold d; rewrite <- ?app_assoc; reflexivity || (rewrite len_app, B; lia) || auto). cbn [bind].
    rewrite !toint256_be_small by (auto; cbn; lia). cbv zeta. unfold u16. rewrite !N.mod_small by lia.
    replace (8 + len name + len value <? len d) with true by lia.
    rewrite (mid d (flags ++ be 2 (len name) ++ be 2 (len value)) name (value ++ extra))
      by (unfold d; rewrite <- ?app_assoc; reflexivity || (rewrite !len_app, !B; lia) || auto). cbn [bind].
    rewrite (mid d (flags ++ be 2 (len name) ++ be 2 (len value) ++ name) value extra)
      by (unfold d; rewrite <- ?app_assoc; reflexivity || (rewrite !len_app, !B; lia) || auto). reflexivity.
  - intros Hf. eexists. split; [reflexivity|]. unfold sub_read, sub_actual_read.
    set (d := c :: p :: f ++ extra). assert (L : len d = 22 + len extra) by (unfold d; rewrite !len_cons, len_app; lia).
    replace (0 <? len d) with true by lia. replace (22 <=? len d) with true by lia.
    replace (at_ d 0) with (Ok c) by (symmetry; apply (at_app [] c (p :: f ++ extra)); reflexivity).
    replace (at_ d 1) with (Ok p) by (symmetry; apply (at_app [c] p (f ++ extra)); reflexivity). cbn [bind].
    rewrite (mid d [c; p] f extra) by (reflexivity || auto). reflexivity.
Qed.
Example notation_followed : exists s, sub_read tag2_of (Sub20 [] [] []) ([0;0;0;0;0;1;0;2;97;98;99;100] : bytes) = Ok s /\ s = Sub20 [0;0;0;0] [97] [98;99].
Proof. eexists. split; vm_compute; reflexivity. Qed.

(** Subpackets keep type and critical bit in an area of any number of them. *)
Theorem C59_area_roundtrip_partial : forall l,
  allP (fun c => sub_fits sig_fits (snd c) /\ sub_kept (snd c)) l ->
  len (area tag2_raw l) < 2 ^ 32 ->
  read_subpackets tag2_of (S (length (area tag2_raw l))) (area tag2_raw l) 0 = Ok l.
Proof.
  intros l H Hl. apply (read_area tag2_of tag2_raw sig_fits l []); auto.
  intros x Hx _. pose proof (tag2_raw_ne x) as Hne. split; [|auto].
  change (tag2_of (tag2_raw x)) with (tag2_embed (S (length (tag2_raw x))) (tag2_raw x)).
  apply tag2_embed_raw; [auto|]. apply tag2_roundtrip; auto.
Qed.

(** A version 4 signature by DSA with five kinds of hashed subpackets and an embedded
    signature, a version 3 one by RSA. *)
Definition example_inner : tag2 :=
  mkTag2 4 25 1 8 [77] [1;2] 0 [] [(false, Sub2 1234567890)] [(false, Sub16 [1;2;3;4;5;6;7;8])].
Definition example_v4 : tag2 :=
  mkTag2 4 19 17 8 [5; 6] [9;8] 0 []
    [(true, Sub2 1234567890); (false, Sub27 [3]); (true, Sub6 (str "a*")); (false, Sub12 128 17 (repeat 7 20));
     (false, Sub29 2 (str "gone")); (false, Sub32 (Some example_inner))]
    [(false, Sub16 [1;2;3;4;5;6;7;8])].
Definition example_v3 : tag2 := mkTag2 3 0 1 2 [12345] [9;8] 1000000000 [1;2;3;4;5;6;7;8] [] [].

Lemma fits_77 m : m < 2 ^ 100 -> mpi_fits m.
Proof. intros. apply (N.lt_le_trans _ (2 ^ 100)); [auto|]. apply N.pow_le_mono_r; lia. Qed.
Lemma example_inner_fits : sig_fits example_inner.
Proof.
  cbn [example_inner sig_fits]. split; [reflexivity|]. split; [reflexivity|].
  split; [repeat (apply Forall_cons; [apply fits_77; reflexivity|]); apply Forall_nil|]. left.
  cbn [allP snd sub_fits sub_kept]. unfold word32. repeat split; reflexivity.
Qed.
Example example_v4_fits : sig_fits example_v4 /\ t2_version example_v4 = 4.
Proof.
  split; [|reflexivity].
  unfold example_v4. cbn [sig_fits]. fold sig_fits. split; [reflexivity|]. split; [reflexivity|].
  split; [repeat (apply Forall_cons; [apply fits_77; reflexivity|]); apply Forall_nil|]. left.
  cbn [allP snd sub_fits sub_kept].
  assert (no_final_nul (str "a*")) by (intros r E; apply (f_equal (@rev N)) in E; rewrite rev_app_distr in E; discriminate).
  generalize example_inner_fits. generalize (sig_fits example_inner). intros Q HQ.
  unfold word32. repeat split; auto.
Qed.
Example example_v3_fits : sig_fits example_v3 /\ t2_version example_v3 = 3.
Proof.
  split; [|reflexivity].
  unfold example_v3. cbn [sig_fits]. split; [reflexivity|]. split; [reflexivity|].
  split; [repeat (apply Forall_cons; [apply fits_77; reflexivity|]); apply Forall_nil|]. right.
  repeat split; try reflexivity. cbn; auto.
Qed.

(** ** C27 *)

(** From any position of any stream, with whatever follows. *)
Theorem C27_v4_roundtrip_partial : forall pre post s, sig_fits s -> t2_version s = 4 ->
  tag2_read (pre ++ tag2_raw s ++ post) (len pre) = Ok (s, len (pre ++ tag2_raw s)).
Proof.
  intros pre post s H Hv. unfold tag2_read.
  replace (len pre) with (len pre + 0) at 1 by lia.
  rewrite tag2_read_n_shift.
  - rewrite tag2_roundtrip; [|auto|rewrite !app_length; lia].
    unfold shifted. cbn [bind]. now rewrite len_app.
  - destruct s as [v type pka hash mpi left16 time keyid hd ud]. cbn in Hv. subst v.
    rewrite tag2_raw_v4. cbn [app]. rewrite at_0. discriminate.
Qed.

(** Missing part: the same signature with one notation subpacket comes back changed. *)
Theorem C27_notation_refuted : exists s s',
  t2_hashed s = [(false, Sub20 [128;0;0;0] (str "a@b.c") (str "x"))] /\
  tag2_read (tag2_raw s) 0 = Ok (s', len (tag2_raw s)) /\ s' <> s.
Proof.
  exists (mkTag2 4 0 1 8 [77] [1;2] 0 [] [(false, Sub20 [128;0;0;0] (str "a@b.c") (str "x"))] []).
  eexists. split; [reflexivity|]. split; [vm_compute; reflexivity|]. discriminate.
Qed.

(** ** C28 *)

(** At the start of the data. *)
Theorem C28_v3_roundtrip_partial : forall post s, sig_fits s -> t2_version s = 3 ->
  tag2_read (tag2_raw s ++ post) 0 = Ok (s, len (tag2_raw s)).
Proof. intros post s H _. unfold tag2_read. apply tag2_roundtrip; auto. rewrite app_length. lia. Qed.

(** Missing part: elsewhere the integers are taken from offset 19 of the whole data.  After
    a copy of itself, every version 3 signature is rejected (the cursor is left at the end
    of the first copy). *)
Theorem C28_v3_position_refuted : forall post s, sig_fits s -> t2_version s = 3 ->
  tag2_read (tag2_raw s ++ tag2_raw s ++ post) (len (tag2_raw s)) = Ok (s, len (tag2_raw s)) /\
  tag_read 2 (tag2_raw s ++ tag2_raw s ++ post) (len (tag2_raw s)) (len (tag2_raw s)) = Throw ERuntime.
Proof.
  intros post s H Hv.
  assert (E : tag2_read (tag2_raw s ++ tag2_raw s ++ post) (len (tag2_raw s)) = Ok (s, len (tag2_raw s))).
  { unfold tag2_read. rewrite tag2_read_n_S.
    replace (len (tag2_raw s)) with (len (tag2_raw s) + 0) at 1 by lia.
    rewrite at_shift, tag2_raw_at0, Hv. cbn [bind N.eqb Pos.eqb].
    rewrite (tag2_v3_fields (tag2_raw s) post s H Hv), tag2_v3_mpis by auto. cbn [bind].
    destruct s as [v type pka hash mpi left16 time keyid hd ud]. cbn in Hv. subst v.
    cbn [sig_fits] in H. destruct H as (_ & _ & _ & [(? & _) | (_ & _ & _ & _ & -> & ->)]); [discriminate|].
    reflexivity. }
  split; [exact E|].
  unfold tag_read. cbn [contents_new bind actual_read].
  pose proof (tag2_raw_ne s) as Hne. assert (len (tag2_raw s) <> 0) by (intros L; apply len_0 in L; auto).
  replace (len (tag2_raw s) =? 0) with false by lia. rewrite E. cbn [bind].
  now replace (len (tag2_raw s) =? len (tag2_raw s) + len (tag2_raw s)) with false by lia.
Qed.

Print Assumptions C59_subpacket_roundtrip_partial.
Print Assumptions C59_notation_refuted.
Print Assumptions C59_area_roundtrip_partial.
Print Assumptions C27_v4_roundtrip_partial.
Print Assumptions C27_notation_refuted.
Print Assumptions C28_v3_roundtrip_partial.
Print Assumptions C28_v3_position_refuted.
Print Assumptions C59_followed.
