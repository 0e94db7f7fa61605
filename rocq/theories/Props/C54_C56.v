(** Properties C54, C55 and C56: validation and equality. *)
From Verif Require Import Proofs.ValidP.

(** ** C54 *)
Lemma write_not_empty p w : write p = Ok w -> w <> [].
Proof.
  unfold write. intros H. inv_bind H.
  assert (N : forall part, write_new_length (p_tag p) a part 0 = Ok w -> w <> []).
  { intros part X. unfold write_new_length in X. destruct part.
    - apply Ok_inj in X. subst w. unfold write_new_plain. repeat match goal with |- context [if ?b then _ else _] => destruct b end; discriminate.
    - destruct (_ <? 512); [discriminate|]. cbv zeta in X. inv_bind X. destruct a0. inv_bind X. apply Ok_inj in X. now subst w. }
  assert (O : forall part, write_old_length (p_tag p) a part 0 <> []).
  { intros part. unfold write_old_length. destruct part; cbv zeta; [|discriminate].
    repeat match goal with |- context [if ?b then _ else _] => destruct b end; discriminate. }
  cbv zeta in H. destruct (p_format p); [destruct (15 <? p_tag p)|]; eauto.
  apply Ok_inj in H. subst w. apply O.
Qed.

(** The status is the validation result, whatever it is; the string is empty exactly if it is
    not SUCCESS, and otherwise it is what write without a status gives. *)
Theorem C54_packet_write : forall regex_ok check_mpi p v w,
  write_status regex_ok check_mpi p = Ok (v, w) ->
  valid regex_ok check_mpi (p_tag p) (p_body p) = Ok v /\ (w = [] <-> v <> SUCCESS) /\
  (v = SUCCESS -> write p = Ok w).
Proof.
  intros r m p v w H. unfold write_status in H. inv_bind H. destruct (success a) eqn:S.
  - apply success_iff in S. subst a. inv_bind H. apply Ok_inj in H. injection H as <- <-.
    split; [auto|]. split; [|auto]. apply write_not_empty in E0. tauto.
  - apply Ok_inj in H. injection H as <- <-. split; [auto|]. assert (a <> SUCCESS) by (intros ->; discriminate). tauto.
Qed.
(** It is reported without trying to write the packet, which might throw. *)
Theorem C54_packet_write_invalid : forall regex_ok check_mpi p v, v <> SUCCESS ->
  valid regex_ok check_mpi (p_tag p) (p_body p) = Ok v -> write_status regex_ok check_mpi p = Ok (v, []).
Proof.
  intros r m p v Hv H. unfold write_status. rewrite H. cbn [bind]. destruct (success v) eqn:S; [|reflexivity].
  apply success_iff in S. contradiction.
Qed.
(** The body alone, the same; an empty body can be valid (an empty user ID). *)
Theorem C54_packet_raw : forall regex_ok check_mpi p v w,
  raw_status regex_ok check_mpi p = Ok (v, w) ->
  valid regex_ok check_mpi (p_tag p) (p_body p) = Ok v /\ (v <> SUCCESS -> w = []) /\
  (v = SUCCESS -> raw (p_body p) = Ok w).
Proof.
  intros r m p v w H. unfold raw_status in H. inv_bind H. destruct (success a) eqn:S.
  - apply success_iff in S. subst a. inv_bind H. apply Ok_inj in H. injection H as <- <-. split; [auto|]. split; [tauto|auto].
  - apply Ok_inj in H. injection H as <- <-. split; [auto|]. split; [auto|]. intros ->. discriminate.
Qed.

(** A PGP object: the packets up to the first invalid one are valid, and that one's result is
    the status; with no invalid one everything is written. *)
Theorem C54_pgp_invalid : forall regex_ok check_mpi st armor g qs p rs v out,
  g_packets g = qs ++ p :: rs -> v <> SUCCESS ->
  (forall q, In q qs -> valid regex_ok check_mpi (p_tag q) (p_body q) = Ok SUCCESS) ->
  write_packets qs = Ok out -> valid regex_ok check_mpi (p_tag p) (p_body p) = Ok v ->
  pgp_write_status regex_ok check_mpi st g armor = Ok (v, []).
Proof.
  intros r m st arm g qs p rs v out Hg Hv Hq Hw Hp. unfold pgp_write_status. rewrite Hg. unfold pgp_raw_status.
  assert (G : forall o st out, write_packets qs = Ok out -> pgp_raw_loop r m st o (qs ++ p :: rs) = Ok (v, [])).
  { clear -Hv Hq Hp. induction qs as [|q qs IH]; intros o st out Hw; cbn [app pgp_raw_loop].
    - rewrite Hp. cbn [bind]. destruct (success v) eqn:S; [apply success_iff in S; contradiction|reflexivity].
    - rewrite Hq by now left. cbn [bind success]. cbn [write_packets] in Hw. inv_bind Hw. inv_bind Hw. rewrite E. cbn [bind].
      eapply IH; eauto. intros x Hx. apply Hq. now right. }
  rewrite (G _ _ _ Hw). cbn [bind]. destruct (success v) eqn:S; [apply success_iff in S; contradiction|reflexivity].
Qed.
Theorem C54_pgp_valid : forall regex_ok check_mpi st arm g, g_packets g <> [] ->
  (forall q, In q (g_packets g) -> valid regex_ok check_mpi (p_tag q) (p_body q) = Ok SUCCESS) ->
  pgp_write_status regex_ok check_mpi st g arm = (w <- pgp_write g arm ;; Ok (SUCCESS, w)).
Proof.
  intros r m st arm g Hne Hq. unfold pgp_write_status, pgp_raw_status, pgp_write.
  assert (G : forall ps o st, (forall q, In q ps -> valid r m (p_tag q) (p_body q) = Ok SUCCESS) -> ps <> [] \/ st = SUCCESS ->
    pgp_raw_loop r m st o ps = (w <- write_packets ps ;; Ok (SUCCESS, o ++ w))).
  { clear. induction ps as [|p ps IH]; intros o st Hq Hs; cbn [pgp_raw_loop write_packets].
    - destruct Hs as [Hs| ->]; [contradiction|]. cbn [bind]. now rewrite app_nil_r.
    - rewrite Hq by now left. cbn [bind success]. destruct (write p) as [w| | |]; cbn [bind]; auto.
      rewrite IH; [|intros; apply Hq; now right|now right].
      destruct (write_packets ps); cbn [bind]; auto. now rewrite app_assoc. }
  rewrite G by auto. destruct (write_packets (g_packets g)) as [w| | |]; cbn [bind success app]; auto.
  destruct arm; cbn [bind]; auto. destruct (g_armored g); auto.
Qed.
(** With no packets nothing is validated: the status stays what the caller's variable was,
    and the result depends on it. *)
Theorem C54_pgp_empty_refuted : forall regex_ok check_mpi st g arm, g_packets g = [] -> st <> SUCCESS ->
  pgp_write_status regex_ok check_mpi st g arm = Ok (st, []).
Proof.
  intros r m st g arm Hg Hs. unfold pgp_write_status. rewrite Hg. cbn [pgp_raw_status pgp_raw_loop bind].
  unfold pgp_raw_status. cbn [pgp_raw_loop bind].
  destruct (success st) eqn:S; [apply success_iff in S; contradiction|reflexivity].
Qed.

(** ** C55 *)

(** Signatures without an embedded signature: accepted exactly if well-formed. *)
Theorem C55_valid_partial : forall regex_ok check_mpi s embedded,
  (forall c e, ~ In (c, Sub32 e) (t2_hashed s ++ t2_unhashed s)) ->
  (valid regex_ok check_mpi 2 (PSig s) = Ok SUCCESS <-> sig_ok regex_ok embedded check_mpi s).
Proof.
  intros r m s emb H32. cbn [valid]. rewrite tag2_valid_iff. unfold sig_ok.
  assert (X : (t2_version s = 4 -> forall x, In x (t2_hashed s ++ t2_unhashed s) -> sub_valid r (tag2_valid r false) (snd x) = Ok SUCCESS) <->
              (t2_version s = 4 -> forall c x, In (c, x) (t2_hashed s ++ t2_unhashed s) -> sub_ok r emb x)).
  { split; intros H V.
    - intros c x Hx. apply (sub_valid_iff r (tag2_valid r false)); [intros e ->; now apply (H32 c e)|]. exact (H V (c, x) Hx).
    - intros [c x] Hx. apply (sub_valid_iff r _ emb); [intros e E; cbn [snd] in E; subst; now apply (H32 c e)|]. now apply (H V c x). }
  rewrite X. tauto.
Qed.

(** The other packets: accepted exactly if well-formed, except that nothing is asked of the
    string-to-key specifier of a secret key. *)
Lemma key_ok_iff m k : key_valid m k = SUCCESS <-> key_ok m k.
Proof.
  unfold key_valid, key_ok. destruct (N.eqb_spec (k_version k) 3) as [V|V].
  - rewrite !check_success, V by discriminate. unfold is_RSA. rewrite mem_In, orb_true_iff, negb_true_iff, Nat.eqb_eq. split.
    + intros (P & M & _). split; [left; cbn [In] in P; lia|]. intros ->. destruct M as [[=]|M]. rewrite M.
      cbn [In] in P. destruct P as [<-|[<-|[<-|[]]]]; reflexivity.
    + intros ([(_ & P)|(X & _)] & M); [|discriminate]. split; [cbn [In]; lia|]. split; [|auto]. destruct m; [right|auto]. specialize (M eq_refl).
      assert (k_pka k = 1 \/ k_pka k = 2 \/ k_pka k = 3) as [E|[E|E]] by lia; rewrite E in M; injection M as <-; reflexivity.
  - destruct (N.eqb_spec (k_version k) 4) as [V4|V4]; [|split; [discriminate|lia]].
    rewrite !check_success, pka_iff, orb_true_iff, negb_true_iff by discriminate.
    assert (I : (match k_pka k with 1 | 2 | 3 => Nat.eqb (length (k_mpi k)) 2 | 17 => Nat.eqb (length (k_mpi k)) 4
                 | 16 => Nat.eqb (length (k_mpi k)) 3 | _ => false end) = true <-> key_integers (k_pka k) = Some (length (k_mpi k))).
    { clear. destruct (k_pka k) as [|p]; [cbn; intuition discriminate|]. 
      do 5 try (destruct p as [p|p|]); cbn [key_integers]; rewrite ?Nat.eqb_eq; split; congruence. }
    rewrite I. split.
    + intros (P & M & _). split; [right; auto|]. intros ->. now destruct M.
    + intros ([(X & _)|(_ & P)] & M); [congruence|]. split; auto. split; auto. destruct m; auto.
Qed.
Lemma s2k_ok_iff s : s2k_valid s = SUCCESS <-> s2k_ok s.
Proof.
  unfold s2k_valid, s2k_ok. rewrite !check_success, N.eqb_eq, hash_iff by discriminate.
  destruct (s2k_kind s); cbn [s2k_id]; rewrite ?check_success, ?N.eqb_eq by discriminate; intuition (try congruence).
Qed.
Theorem C55_packets_partial : forall regex_ok check_mpi tag c embedded,
  (forall s b e, c = PSig s -> ~ In (b, Sub32 e) (t2_hashed s ++ t2_unhashed s)) ->
  (valid regex_ok check_mpi tag c = Ok SUCCESS <-> packet_ok regex_ok embedded (fun _ => True) check_mpi tag c).
Proof.
  intros r m tag c emb H32. destruct c as [v keyid pka mpi|s|v sym s esk|v type hash pka keyid lst|k s|k|a d|f n t d|l|v d|d];
    cbn [valid packet_ok]; rewrite ?Ok_iff.
  - rewrite !check_success, !N.eqb_eq, orb_true_iff, negb_true_iff by discriminate.
    unfold can_encrypt. rewrite mem_In. unfold session_integers. split.
    + intros (-> & L & _ & C & M & _). split; [auto|]. split; [auto|]. cbn [In] in C.
      destruct C as [<-|[<-|[<-|[]]]]; (split; [discriminate|]); intros ->; destruct M as [[=]|M]; apply Nat.eqb_eq in M; now rewrite M.
    + intros (-> & L & C & M). split; [auto|]. split; [auto|].
      destruct pka as [|p]; [congruence|]. do 5 try (destruct p as [p|p|]; try congruence);
        (split; [reflexivity|]); (split; [cbn [In]; auto|]); (split; [|reflexivity]); (destruct m; [right; injection (M eq_refl) as <-; reflexivity|auto]).
  - apply (C55_valid_partial r m s emb). intros b e. now apply H32.
  - rewrite !check_success, !N.eqb_eq, sym_iff by discriminate. destruct s as [k|].
    + rewrite s2k_ok_iff. split; [intros (? & ? & ?); eauto 6|]. intros (? & ? & x & [= <-] & ?). auto.
    + split; [intros (_ & _ & [=])|]. intros (_ & _ & x & [=] & _).
  - rewrite !check_success, !N.eqb_eq, sigtype_iff, hash_iff, pka_iff by discriminate. tauto.
  - rewrite <- key_ok_iff. unfold protection_ok. destruct (key_valid m k); cbn [success]; try (split; [discriminate|intros ([=] & _)]).
    destruct (N.eqb_spec (sk_con s) 0) as [E0|E0].
    + rewrite E0. cbn [orb N.eqb success]. split; auto.
    + rewrite block_iff.
      assert (B : forall x : bool, x = ((sk_con s =? 254) || (sk_con s =? 255)) -> x = true <-> sk_con s = 254 \/ sk_con s = 255) by (intros x ->; lia).
      destruct ((sk_con s =? 254) || (sk_con s =? 255)) eqn:C.
      * specialize (B true eq_refl). destruct (sk_s2k s) as [k'|]; cbn [success].
        -- destruct (map_at block_length (sk_sym s)) as [l| | |]; cbn [bind]; [|split; [discriminate|intros (_ & [?|((x & [=] & _) & _)]); contradiction]..].
           rewrite Ok_iff, check_success, N.eqb_eq, N.shiftr_div_pow2 by discriminate. change (2 ^ 3) with 8.
           split; [intros [L _]; split; [auto|]; right; split; eauto|]. intros (_ & [?|((x & [= <-] & L) & _)]); [contradiction|auto].
        -- split; [discriminate|]. intros (_ & [?|(_ & H)]); [contradiction|]. destruct H as (x & [=] & _). now apply B.
      * specialize (B false eq_refl). assert (NB : ~ (sk_con s = 254 \/ sk_con s = 255)) by (intros X; apply B in X; discriminate).
        destruct (sym_valid (sk_sym s)) eqn:SV; cbn [check success].
        -- destruct (map_at block_length (sk_sym s)) as [l| | |]; cbn [bind]; [|split; [discriminate|intros (_ & [?|((x & [=] & _) & _)]); contradiction]..].
           rewrite Ok_iff, check_success, N.eqb_eq, N.shiftr_div_pow2 by discriminate. change (2 ^ 3) with 8.
           split; [intros [L _]; split; [auto|]; right; split; [eauto|tauto]|]. intros (_ & [?|((x & [= <-] & L) & _)]); [contradiction|auto].
        -- split; [discriminate|]. intros (_ & [?|(X & _)]); [contradiction|]. exfalso. apply block_iff in X.
           assert (known_cipher (sk_sym s)); [|apply sym_iff in H; congruence].
           revert X. unfold block_octets, known_cipher.
           destruct (1 <=? _) eqn:?, (_ <=? 4) eqn:?, (7 <=? _) eqn:?, (_ <=? 13) eqn:?; cbn [andb]; intros; try discriminate; lia.
  - apply key_ok_iff.
  - rewrite check_success, comp_iff by discriminate. tauto.
  - rewrite check_success, mem_In by discriminate. cbn. tauto.
  - rewrite first_error_iff. split; intros H i Hi; specialize (H i Hi).
    + apply Ok_inj in H. rewrite !check_success, !N.eqb_eq in H by discriminate. tauto.
    + rewrite Ok_iff, !check_success, !N.eqb_eq by discriminate. tauto.
  - rewrite check_success, N.eqb_eq by discriminate. tauto.
  - destruct (N.eqb_spec tag 9) as [->|T9]; [rewrite check_success by discriminate; intuition lia|].
    destruct (N.eqb_spec tag 10) as [->|T10].
    { rewrite check_success by discriminate. split; [intros (B & _); apply beq_eq in B; subst; intuition discriminate|].
      intros (_ & P & _). rewrite P by reflexivity. split; reflexivity. }
    destruct (N.eqb_spec tag 12) as [->|T12]; [intuition discriminate|].
    destruct (N.eqb_spec tag 19) as [->|T19]; [rewrite check_success, N.eqb_eq by discriminate; intuition discriminate|].
    split; [intuition congruence|]. intros _.
    destruct tag as [|p]; [reflexivity|]. do 5 try (destruct p as [p|p|]; try reflexivity); congruence.
Qed.
(** The specifier of a secret key is not looked at: any one passes, whatever its type, hash
    or salt (a symmetric session key packet with it would be refused). *)
Theorem C55_specifier_refuted : forall regex_ok check_mpi tag k s x, key_ok check_mpi k ->
  sk_con s = 254 \/ sk_con s = 255 -> sk_s2k s = Some x -> block_octets (sk_sym s) = Some (len (sk_iv s)) ->
  valid regex_ok check_mpi tag (PSecret k s) = Ok SUCCESS.
Proof.
  intros r m tag k s x K C S B. apply (C55_packets_partial r m tag (PSecret k s) (fun _ => True)); [discriminate|].
  split; [exact K|]. right. split; [exact B|]. eauto.
Qed.
(** A protected secret key whose cipher has no block length (unknown, or reserved) is not
    reported invalid: validation throws. *)
Theorem C55_cipher_throws_refuted : forall regex_ok check_mpi tag k s x, key_ok check_mpi k ->
  sk_con s = 254 \/ sk_con s = 255 -> sk_s2k s = Some x -> block_octets (sk_sym s) = None ->
  valid regex_ok check_mpi tag (PSecret k s) = Throw EOutOfRange.
Proof.
  intros r m tag k s x K C S B. cbn [valid]. apply key_ok_iff in K. rewrite K. cbn [success].
  assert (E : (sk_con s =? 254) || (sk_con s =? 255) = true) by lia. rewrite E, S. cbn [success].
  assert (E0 : (sk_con s =? 0) = false) by lia. rewrite E0.
  destruct (map_at block_length (sk_sym s)) as [l|e| |] eqn:M; cbn [bind].
  - assert (X : block_octets (sk_sym s) = Some (l / 8)) by (apply block_iff; eauto). congruence.
  - revert M. unfold block_length. cbn [map_at].
    repeat match goal with |- context [?k =? sk_sym s] => destruct (k =? sk_sym s); [discriminate|] end. congruence.
  - exfalso. revert M. unfold block_length. cbn [map_at].
    repeat match goal with |- context [?k =? sk_sym s] => destruct (k =? sk_sym s); [discriminate|] end. congruence.
  - exfalso. revert M. unfold block_length. cbn [map_at].
    repeat match goal with |- context [?k =? sk_sym s] => destruct (k =? sk_sym s); [discriminate|] end. congruence.
Qed.
(** With one, the answer is the wrong way round: a valid embedded signature makes the whole
    signature invalid ... *)
Theorem C55_embedded_valid_refuted : forall regex_ok check_mpi s c e, t2_version s = 4 ->
  In (c, Sub32 (Some e)) (t2_hashed s ++ t2_unhashed s) -> valid regex_ok false 2 (PSig e) = Ok SUCCESS ->
  valid regex_ok check_mpi 2 (PSig s) <> Ok SUCCESS.
Proof.
  intros r m s c e V Hin He H. cbn [valid] in *. apply tag2_valid_iff in H as (_ & _ & _ & _ & _ & _ & H).
  specialize (H V _ Hin). cbn [snd sub_valid] in H. rewrite He in H. discriminate.
Qed.
(** ... and an invalid one is accepted. *)
Theorem C55_embedded_invalid_refuted : forall regex_ok check_mpi s e v, v <> SUCCESS ->
  sig_ok regex_ok (fun x => x = e) check_mpi s -> valid regex_ok false 2 (PSig e) = Ok v ->
  valid regex_ok check_mpi 2 (PSig s) = Ok SUCCESS.
Proof.
  intros r m s e v Hv (H1 & H2 & H3 & H4 & H5 & H6 & H7) He. cbn [valid] in *. apply tag2_valid_iff.
  do 6 (split; [assumption|]). intros V [c x] Hx. specialize (H7 V c x Hx). cbn [snd].
  assert (D : (exists y, x = Sub32 y) \/ forall y, x <> Sub32 y) by (destruct x; (right; discriminate) || (left; eauto)).
  destruct D as [[y ->]|D].
  - cbn [sub_ok] in H7. destruct H7 as (z & -> & ->). cbn [sub_valid]. rewrite He. cbn [bind].
    destruct (success v) eqn:S; [apply success_iff in S; contradiction|reflexivity].
  - now apply (sub_valid_iff r _ (fun x => x = e)).
Qed.

(** ** C56 *)

(** What equality compares: the type and the packet bodies in order. *)
Lemma raws_eq_iff a : forall b, raws_eq a b = Ok true <->
  exists l, Forall2 (fun p w => raw (p_body p) = Ok w) a l /\ Forall2 (fun p w => raw (p_body p) = Ok w) b l.
Proof.
  induction a as [|x a IH]; intros [|y b]; cbn [raws_eq].
  - split; [exists []; auto|reflexivity].
  - split; [discriminate|]. intros (l & H1 & H2). inversion H1; subst; inversion H2.
  - split; [discriminate|]. intros (l & H1 & H2). inversion H2; subst; inversion H1.
  - split.
    + intros H. inv_bind H. inv_bind H. destruct (beq a0 a1) eqn:B; [|discriminate]. apply beq_eq in B. subst a1.
      apply IH in H as (l & H1 & H2). exists (a0 :: l). auto.
    + intros (l & H1 & H2). inversion H1; subst. inversion H2; subst.
      match goal with A : raw (p_body x) = Ok _, B : raw (p_body y) = Ok _ |- _ => rewrite A, B end.
      cbn [bind]. rewrite beq_refl. apply IH. eauto.
Qed.
Lemma Forall2_len {A B} (R : A -> B -> Prop) l m : Forall2 R l m -> length l = length m.
Proof. induction 1; cbn; congruence. Qed.
Theorem C56_equality_partial : forall a b,
  pgp_eq a b = Ok true <->
  g_type a = g_type b /\
  exists bodies, Forall2 (fun p w => raw (p_body p) = Ok w) (g_packets a) bodies /\
                 Forall2 (fun p w => raw (p_body p) = Ok w) (g_packets b) bodies.
Proof.
  intros a b. unfold pgp_eq. destruct (g_type a =? g_type b) eqn:T.
  - apply N.eqb_eq in T. destruct (Nat.eqb _ _) eqn:L.
    + rewrite raws_eq_iff. tauto.
    + split; [discriminate|]. intros (_ & l & H1 & H2). apply Forall2_len in H1, H2. apply Nat.eqb_neq in L. lia.
  - split; [discriminate|]. intros (E & _). lia.
Qed.
(** Equal packets are equal objects. *)
Theorem C56_same_packets : forall a b w, g_type a = g_type b -> g_packets a = g_packets b ->
  write_packets (g_packets a) = Ok w -> pgp_eq a b = Ok true.
Proof.
  intros a b w Ht Hp Hw. apply C56_equality_partial. split; [auto|]. rewrite <- Hp. clear b Ht Hp.
  revert w Hw. induction (g_packets a) as [|p ps IH]; intros w Hw; [exists []; auto|].
  cbn [write_packets] in Hw. inv_bind Hw. inv_bind Hw. unfold write in E. inv_bind E.
  destruct (IH _ E0) as (l & H1 & _). exists (a2 :: l). auto.
Qed.
(** Tags are not compared: any two packets with the same body octets are taken as equal, such
    as a user ID and a private packet. *)
Theorem C56_tags_refuted : forall type d t1 t2 f1 f2,
  pgp_eq (mkPgp true type [] [mkPacket t1 f1 NOT_PARTIAL (PRaw d)])
         (mkPgp false type [] [mkPacket t2 f2 NOT_PARTIAL (PRaw d)]) = Ok true.
Proof.
  intros. apply C56_equality_partial. split; [reflexivity|]. exists [d]. split; constructor; auto.
Qed.

(** Hypotheses are met. *)
Definition good_sig : tag2 :=
  mkTag2 4 24 1 8 [12345] [1;2] 0 [] [(false, Sub2 1234567890); (true, Sub27 [3])] [(false, Sub16 [1;2;3;4;5;6;7;8])].
Example C55_example : sig_ok (fun _ => true) (fun _ => False) true good_sig.
Proof.
  apply (C55_valid_partial (fun _ => true) true good_sig).
  - intros c e H. cbn in H. intuition discriminate.
  - vm_compute. reflexivity.
Qed.
Definition binding_sig : tag2 :=
  mkTag2 4 24 1 8 [12345] [1;2] 0 [] [(false, Sub2 1234567890); (false, Sub32 (Some good_sig))] [].
Example C55_example_embedded : In (false, Sub32 (Some good_sig)) (t2_hashed binding_sig ++ t2_unhashed binding_sig) /\
  valid (fun _ => true) false 2 (PSig good_sig) = Ok SUCCESS /\
  valid (fun _ => true) true 2 (PSig binding_sig) = Ok INVALID_CONTENTS.
Proof. split; [cbn; auto|]. split; vm_compute; reflexivity. Qed.
Definition bad_sig : tag2 := mkTag2 9 24 1 8 [12345] [1;2] 0 [] [] [].
Definition forged_sig : tag2 :=
  mkTag2 4 24 1 8 [12345] [1;2] 0 [] [(false, Sub2 1234567890); (false, Sub32 (Some bad_sig))] [].
Example C55_example_invalid : valid (fun _ => true) false 2 (PSig bad_sig) = Ok INVALID_VERSION /\
  valid (fun _ => true) true 2 (PSig forged_sig) = Ok SUCCESS.
Proof. split; vm_compute; reflexivity. Qed.
Definition some_key : key := mkKey 4 1234567890 1 [77; 65537] 0.
Definition locked (con sym hash : N) : secret := mkSecret con sym (Some (mkS2k S2K3 3 hash [1;2;3;4;5;6;7;8] 96)) (repeat 0 16) [9;9;9].
Example C55_example_packets :
  packet_ok (fun _ => true) (fun _ => False) s2k_ok true 1 (PSession 3 [1;2;3;4;5;6;7;8] 16 [5;6]) /\
  packet_ok (fun _ => true) (fun _ => False) s2k_ok true 5 (PSecret some_key (locked 254 9 8)) /\
  ~ packet_ok (fun _ => true) (fun _ => False) s2k_ok true 5 (PSecret some_key (locked 254 9 77)) /\
  valid (fun _ => true) true 5 (PSecret some_key (locked 254 9 77)) = Ok SUCCESS /\
  valid (fun _ => true) true 5 (PSecret some_key (locked 254 5 8)) = Throw EOutOfRange.
Proof.
  assert (K : key_ok true some_key) by (split; [right; split; [reflexivity|left; cbn; auto]|reflexivity]).
  split; [repeat split; discriminate|]. split.
  { split; [exact K|]. right. split; [reflexivity|]. intros _. eexists. split; [reflexivity|]. split; [left; cbn; lia|]. right. right. auto. }
  split.
  { intros (_ & [[=]|(_ & H)]). destruct H as (x & [= <-] & [H|H] & _); [now left|cbn in H; lia|unfold experimental in H; cbn in H; lia]. }
  split; vm_compute; reflexivity.
Qed.
Example C54_example : write_status (fun _ => true) true (mkPacket 19 NEW NOT_PARTIAL (PRaw [1;2])) = Ok (INVALID_SHA1_HASH, []) /\
  write_status (fun _ => true) true (mkPacket 13 NEW NOT_PARTIAL (PRaw [65])) = Ok (SUCCESS, [205;1;65]).
Proof. split; vm_compute; reflexivity. Qed.

Print Assumptions C54_packet_write.
Print Assumptions C54_packet_write_invalid.
Print Assumptions C54_packet_raw.
Print Assumptions C54_pgp_invalid.
Print Assumptions C54_pgp_valid.
Print Assumptions C54_pgp_empty_refuted.
Print Assumptions C55_valid_partial.
Print Assumptions C55_packets_partial.
Print Assumptions C55_specifier_refuted.
Print Assumptions C55_cipher_throws_refuted.
Print Assumptions C55_embedded_valid_refuted.
Print Assumptions C55_embedded_invalid_refuted.
Print Assumptions C56_equality_partial.
Print Assumptions C56_same_packets.
Print Assumptions C56_tags_refuted.
