(** Lemmas about the validation functions. *)
From Verif Require Export Proofs.Lib Spec.Valid Model.Packets Proofs.PgpP.

Lemma mem_In l x : mem l x = true <-> In x l.
Proof.
  unfold mem. rewrite existsb_exists. split; [intros (y & H & E); apply N.eqb_eq in E; now subst|].
  intros H. exists x. split; [auto|apply N.eqb_refl].
Qed.
Lemma check_success b e s : e <> SUCCESS -> (check b e s = SUCCESS <-> b = true /\ s = SUCCESS).
Proof. intros He. destruct b; cbn [check]; intuition congruence. Qed.
Lemma success_iff v : success v = true <-> v = SUCCESS.
Proof. destruct v; cbn; split; congruence. Qed.
Lemma Ok_iff {A} (a b : A) : Ok a = Ok b <-> a = b.
Proof. split; congruence. Qed.
Lemma forallb_mem (f : N -> bool) ids d : (forall a, f a = true <-> In a ids) ->
  (forallb f d = true <-> forall a, In a d -> In a ids).
Proof. intros H. rewrite forallb_forall. split; intros X a Ha; apply H; auto; now apply H, X. Qed.
Lemma flags_iff ids bits d : (forall b, b < 8 -> In (2 ^ b) ids <-> In b bits) ->
  flags_valid ids d = true <-> only_bits bits d.
Proof.
  intros E. unfold flags_valid, only_bits. rewrite forallb_forall. split.
  - intros H o b Ho Hb Ht. specialize (H o Ho). rewrite forallb_forall in H. specialize (H b).
    assert (In b [0;1;2;3;4;5;6;7]).
    { assert (b = 0 \/ b = 1 \/ b = 2 \/ b = 3 \/ b = 4 \/ b = 5 \/ b = 6 \/ b = 7) by lia. cbn [In]. intuition. }
    apply H in H0. rewrite Ht in H0. cbn [negb orb] in H0. now apply E, mem_In.
  - intros H o Ho. apply forallb_forall. intros b Hb. destruct (N.testbit o b) eqn:T; [|reflexivity]. cbn [negb orb].
    assert (B : b < 8) by (cbn [In] in Hb; lia). apply mem_In, E; auto. now apply (H o).
Qed.

(** The tables of the code are the registries. *)
Lemma pka_iff a : pka_valid a = true <-> known_pka a.
Proof. unfold pka_valid, known_pka, experimental. rewrite mem_In. cbn [pka_ids private_ids app In]. lia. Qed.
Lemma sym_iff a : sym_valid a = true <-> known_cipher a.
Proof. unfold sym_valid, known_cipher, experimental. rewrite mem_In. cbn [sym_ids private_ids app In]. lia. Qed.
Lemma comp_iff a : comp_valid a = true <-> known_compression a.
Proof. unfold comp_valid, known_compression, experimental. rewrite mem_In. cbn [comp_ids private_ids app In]. lia. Qed.
Lemma hash_iff a : hash_valid a = true <-> known_hash a.
Proof. unfold hash_valid, known_hash, experimental. rewrite mem_In. cbn [hash_ids private_ids app In]. lia. Qed.
Lemma sigtype_iff a : sigtype_valid a = true <-> known_signature_type a.
Proof. unfold sigtype_valid, known_signature_type. rewrite mem_In. cbn [sigtype_ids In]. lia. Qed.
Lemma reason_iff a : mem revoke_ids a = true <-> known_reason a.
Proof. unfold known_reason, experimental. rewrite mem_In. cbn [revoke_ids private_ids app In]. lia. Qed.
Ltac bits8 := intros b B; assert (b = 0 \/ b = 1 \/ b = 2 \/ b = 3 \/ b = 4 \/ b = 5 \/ b = 6 \/ b = 7) as [->|[->|[->|[->|[->|[->|[->| ->]]]]]]] by lia;
  cbn; intuition discriminate.
Lemma ksp_iff d : flags_valid ksp_ids d = true <-> only_bits preference_bits d.
Proof. apply flags_iff. bits8. Qed.
Lemma key_flag_iff d : flags_valid key_flag_ids d = true <-> only_bits key_flag_bits d.
Proof. apply flags_iff. bits8. Qed.
Lemma feature_iff d : flags_valid feature_ids d = true <-> only_bits feature_bits d.
Proof. apply flags_iff. bits8. Qed.
Lemma all_iff (f : N -> bool) (P : N -> Prop) d : (forall a, f a = true <-> P a) ->
  (forallb f d = true <-> forall a, In a d -> P a).
Proof. intros H. rewrite forallb_forall. split; intros X a Ha; apply H; auto; now apply H, X. Qed.
(** The lengths of the code's map are those of the algorithms. *)
Lemma digest_range h n : digest_octets h = Some n -> In h [1;2;3;8;9;10;11].
Proof. destruct h as [|p]; [discriminate|]. do 4 try (destruct p as [p|p|]; try discriminate); cbn [In]; tauto. Qed.
Lemma digest_iff h n : digest_octets h = Some n <-> exists l, map_at hash_length h = Ok l /\ l / 8 = n.
Proof.
  unfold hash_length. cbn [map_at].
  repeat match goal with |- context [?k =? h] => destruct (N.eqb_spec k h); [subst h; cbn [digest_octets];
    split; [intros [= <-]; eexists; split; reflexivity|intros (l & [= <-] & <-); reflexivity]|] end.
  split; [|intros (l & [=] & _)]. intros H. exfalso. apply digest_range in H. cbn [In] in H. lia.
Qed.
Lemma block_iff a n : block_octets a = Some n <-> exists l, map_at block_length a = Ok l /\ l / 8 = n.
Proof.
  unfold block_length. cbn [map_at]. unfold block_octets.
  repeat match goal with |- context [?k =? a] => destruct (N.eqb_spec k a); [subst a; cbn;
    split; [intros [= <-]; eexists; split; reflexivity|intros (l & [= <-] & <-); reflexivity]|] end.
  split; [|intros (l & [=] & _)].
  destruct (1 <=? a) eqn:?, (a <=? 4) eqn:?, (7 <=? a) eqn:?, (a <=? 13) eqn:?; cbn [andb]; intros; try discriminate; lia.
Qed.

Section valid.
  Variable regex_ok : bytes -> bool.
  Ltac c1 := rewrite check_success by discriminate.
  (** Every subpacket other than an embedded signature. *)
  Lemma sub_valid_iff (emb : tag2 -> result status) embedded (s : sub tag2) : (forall e, s <> Sub32 e) ->
    (sub_valid regex_ok emb s = Ok SUCCESS <-> sub_ok regex_ok embedded s).
  Proof.
    intros H32. destruct s; cbn [sub_valid sub_ok]; rewrite ?Ok_iff; repeat c1;
      try (tauto || (split; [intros _; exact I|reflexivity])).
    - rewrite (all_iff sym_valid known_cipher) by apply sym_iff. tauto.
    - rewrite N.eqb_eq, pka_iff. tauto.
    - rewrite N.eqb_eq. tauto.
    - rewrite N.eqb_eq. rewrite (all_iff (mem notation_ids) (fun a => a = 0 \/ a = 0x80)); [tauto|].
      intros a. rewrite mem_In. cbn [notation_ids In]. intuition lia.
    - rewrite (all_iff hash_valid known_hash) by apply hash_iff. tauto.
    - rewrite (all_iff comp_valid known_compression) by apply comp_iff. tauto.
    - rewrite ksp_iff. tauto.
    - rewrite key_flag_iff. tauto.
    - rewrite reason_iff. tauto.
    - rewrite feature_iff. tauto.
    - rewrite <- pka_iff, digest_iff. destruct (pka_valid pka); [|intuition discriminate].
      destruct (hash_valid hash_alg) eqn:HV.
      + destruct (map_at hash_length hash_alg) as [l| | |] eqn:E; cbn [bind].
        * rewrite Ok_iff. c1. rewrite N.eqb_eq, N.shiftr_div_pow2. change (2 ^ 3) with 8.
          split; [intros [L _]; eauto 7|]. intros (_ & l' & [= <-] & L). auto.
        * split; [discriminate|]. now intros (_ & l' & L & _).
        * split; [discriminate|]. now intros (_ & l' & L & _).
        * split; [discriminate|]. now intros (_ & l' & L & _).
      + split; [discriminate|]. intros (_ & D). exfalso.
        apply digest_iff in D.
        assert (H : known_hash hash_alg) by (apply digest_range in D; unfold known_hash; cbn [In] in D; lia).
        apply hash_iff in H. congruence.
    - exfalso. eapply H32. reflexivity.
  Qed.

  Lemma first_error_iff {A} (f : A -> result status) l :
    first_error f l = Ok SUCCESS <-> forall x, In x l -> f x = Ok SUCCESS.
  Proof.
    induction l as [|x l IH]; cbn [first_error In].
    - split; [tauto|reflexivity].
    - fold (first_error f l). destruct (f x) as [v| | |] eqn:E; cbn [bind].
      + destruct (success v) eqn:S.
        * apply success_iff in S. subst v. rewrite IH. split; [|auto]. intros H y [<-|Hy]; auto.
        * split; [intros [= ->]; discriminate|]. intros H. specialize (H x (or_introl eq_refl)). rewrite E in H. injection H as ->. discriminate.
      + split; [discriminate|]. intros H. specialize (H x (or_introl eq_refl)). congruence.
      + split; [discriminate|]. intros H. specialize (H x (or_introl eq_refl)). congruence.
      + split; [discriminate|]. intros H. specialize (H x (or_introl eq_refl)). congruence.
  Qed.

  Lemma can_sign_iff a : can_sign a = true <-> sig_integers a <> None.
  Proof.
    unfold can_sign. rewrite mem_In. split.
    - cbn [In]. now intros [<-|[<-|[<-|[]]]].
    - unfold sig_integers. destruct a as [|a]; [congruence|]. do 5 try (destruct a as [a|a|]; try congruence); cbn [In]; auto.
  Qed.
  Lemma tag2_valid_iff mpis s :
    tag2_valid regex_ok mpis s = Ok SUCCESS <->
    (t2_version s = 3 \/ t2_version s = 4) /\ known_signature_type (t2_type s) /\
    sig_integers (t2_pka s) <> None /\ known_hash (t2_hash s) /\ len (t2_left16 s) = 2 /\
    (mpis = true -> sig_integers (t2_pka s) = Some (length (t2_mpi s))) /\
    (t2_version s = 4 -> forall x, In x (t2_hashed s ++ t2_unhashed s) ->
       sub_valid regex_ok (tag2_valid regex_ok false) (snd x) = Ok SUCCESS).
  Proof.
    destruct s as [version type pka hash mpi left16 time keyid hashed unhashed].
    cbn [tag2_valid t2_version t2_type t2_pka t2_hash t2_left16 t2_mpi t2_hashed t2_unhashed].
    set (f := fun c : bool * sub tag2 => sub_valid regex_ok (tag2_valid regex_ok false) (snd c)).
    rewrite <- sigtype_iff, <- hash_iff, <- can_sign_iff.
    destruct ((version =? 3) || (version =? 4)) eqn:V; cbn [negb]; [|split; [discriminate|lia]].
    destruct (sigtype_valid type); cbn [negb]; [|intuition discriminate].
    destruct (pka_valid pka) eqn:P; cbn [negb].
    2:{ split; [discriminate|]. intros (_ & _ & C & _). exfalso. unfold can_sign in C. apply mem_In in C. cbn [In] in C.
        destruct C as [<-|[<-|[<-|[]]]]; discriminate. }
    destruct (can_sign pka) eqn:C; cbn [negb]; [|intuition discriminate].
    destruct (hash_valid hash); cbn [negb]; [|intuition discriminate].
    set (subs := if version =? 4 then _ else _).
    assert (HS : subs = Ok SUCCESS <-> (version = 4 -> forall x, In x (hashed ++ unhashed) -> f x = Ok SUCCESS)).
    { unfold subs. destruct (version =? 4) eqn:V4.
      - apply N.eqb_eq in V4. fold f. rewrite <- (first_error_iff f (hashed ++ unhashed)).
        assert (A : forall l1 l2, first_error f (l1 ++ l2) = (v <- first_error f l1 ;; if success v then first_error f l2 else Ok v)).
        { clear. induction l1 as [|x l1 IH]; intros l2; cbn [first_error app]; [reflexivity|]. fold (first_error f (l1 ++ l2)) (first_error f l1).
          destruct (f x) as [v| | |]; cbn [bind]; auto. destruct (success v) eqn:E; [apply IH|]. cbn [bind]. now rewrite E. }
        rewrite A. tauto.
      - split; [intros _ E; lia|reflexivity]. }
    assert (HI : (check (match pka with 1 | 3 => Nat.eqb (length mpi) 1 | 17 => Nat.eqb (length mpi) 2 | _ => false end) INVALID_MPI_COUNT SUCCESS = SUCCESS)
       <-> sig_integers pka = Some (length mpi)).
    { apply mem_In in C. cbn [In] in C. rewrite check_success by discriminate. unfold sig_integers.
      destruct C as [<-|[<-|[<-|[]]]]; rewrite Nat.eqb_eq; split; [intros [-> _]|intros [= <-]|intros [-> _]|intros [= <-]|intros [-> _]|intros [= <-]]; auto. }
    destruct subs as [v| | |]; cbn [bind].
    - destruct (success v) eqn:S.
      + apply success_iff in S. subst v. rewrite Ok_iff, check_success, N.eqb_eq by discriminate.
        destruct mpis; [rewrite HI|]; intuition auto; lia.
      + split; [intros [= ->]; discriminate|]. intros (_ & _ & _ & _ & _ & _ & H). apply HS in H. injection H as ->. discriminate.
    - split; [discriminate|]. intros (_ & _ & _ & _ & _ & _ & H). apply HS in H. discriminate.
    - split; [discriminate|]. intros (_ & _ & _ & _ & _ & _ & H). apply HS in H. discriminate.
    - split; [discriminate|]. intros (_ & _ & _ & _ & _ & _ & H). apply HS in H. discriminate.
  Qed.
End valid.
