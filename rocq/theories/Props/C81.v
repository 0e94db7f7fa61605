(** C81: copies are copies, and independent. *)
From Verif Require Import Proofs.Lib Proofs.HeapP.
Local Open Scope nat_scope.

(** The clone of a packet has its value; whatever is done afterwards through pointers that existed
    before does not show in the clone; whatever is done through the clone shows in no object that
    existed before. *)
Theorem C81_clone n h a h1 b : closed h -> clone n h a = Ok (h1, b) ->
  (forall k v, value k h a = Some v -> value k h1 b = Some v) /\
  (forall k x v, value k h x = Some v -> value k h1 x = Some v) /\
  (forall held, (forall x, In x held -> x < length h) -> unaffected h1 held [b]) /\
  (forall seen, (forall x, In x seen -> x < length h) -> unaffected h1 [b] seen).
Proof.
  intros CH E. destruct (clone_clones n 0 _ _ _ _ E) as (X & B & _). split; [intros k; apply (clone_clones n k _ _ _ _ E)|]. split; [intros k x v; now apply ext_value|]. split.
  - intros held F. apply (new_unaffected h); auto. intros x [<-|[]]. exact B.
  - intros seen F. apply (old_unaffected h); auto. intros x [<-|[]]. exact B.
Qed.
(** Every object that stands for a packet can be cloned. *)
Theorem C81_clone_ends n h a v : value n h a = Some v -> exists h1 b, clone n h a = Ok (h1, b).
Proof. apply clone_total. Qed.

(** The same for blocks: the copy constructor, operator= and clone of PGP and its subclasses. *)
Theorem C81_copy n h g : closed h -> (forall v, pgp_value n h g = Some v -> exists h1 g1, pgp_copy n h g = Ok (h1, g1)) /\
  forall h1 g1, pgp_copy n h g = Ok (h1, g1) ->
  (forall k v, pgp_value k h g = Some v -> pgp_value k h1 g1 = Some v /\ pgp_value k h1 g = Some v) /\
  (forall held, (forall x, In x held -> x < length h) -> unaffected h1 held (hg_packets g1)) /\
  (forall seen, (forall x, In x seen -> x < length h) -> unaffected h1 (hg_packets g1) seen).
Proof.
  intros CH. assert (M : forall k, monotone (value k)) by (intros k a b c d; apply ext_value). split.
  - intros v. unfold pgp_value, pgp_copy, get_packets_clone. destruct (all (value n h) (hg_packets g)) as [ps|] eqn:A; [|discriminate].
    destruct (all_total _ _ (clone_clones n n) (M n) (clone_total n) _ _ _ A) as (h1 & l1 & E). rewrite E. cbn. eauto.
  - intros h1 g1 H. unfold pgp_copy, get_packets_clone in H. ib H x. destruct x as [h2 l]. apply Ok_inj in H. injection H as <- <-. cbn [hg_packets].
    destruct (clones_all _ _ (clone_clones n 0) (M 0) _ _ _ _ E) as (X & B & _). split; [|split].
    + intros k v. unfold pgp_value. cbn [hg_packets hg_armored hg_type hg_keys]. destruct (all (value k h) (hg_packets g)) as [ps|] eqn:A; [|discriminate].
      destruct (clones_all _ _ (clone_clones n k) (M k) _ _ _ _ E) as (_ & _ & V). rewrite (V _ A). rewrite (all_mono (value k h) (value k h2) _ ps (fun a w => M k h h2 a w X) A). auto.
    + intros held F. now apply (new_unaffected h).
    + intros seen F. now apply (old_unaffected h).
Qed.
(** SecretKey::get_public: the value is the one of the rest of the model, and the public key shares
    no object with the secret key. *)
Lemma public_one_ok n h a h1 b : public_one n h a = Ok (h1, b) -> ext h h1 /\ length h <= b < length h1 /\ forall k p, value k h a = Some p -> exists p', to_public p = Ok p' /\ value k h1 b = Some p'.
Proof.
  unfold public_one, deref. destruct (nth_error h a) as [[t f pf bd| | | |]|] eqn:N; cbn [bind]; try discriminate. intros H.
  destruct (((t =? 5) || (t =? 7))%N) eqn:T.
  - ib H x. destruct x as [ky s]. ib H k'. apply Ok_inj in H. unfold alloc in H. injection H as <- <-.
    destruct (alloc_leaf h (CPacket (if (t =? 5)%N then 6%N else 14%N) NEW NOT_PARTIAL (HPlain (PKey k'))) eq_refl) as (X & B & N2). split; [exact X|]. split; [exact B|].
    intros k p V. destruct k as [|k]; [discriminate|]. cbn [value] in V. rewrite N in V.
    assert (SB : forall sg v, body_value sg h bd = Some v -> v = PSecret ky s).
    { intros sg v. unfold h_secret in E. destruct bd; try discriminate E. destruct s2k as [x|]; cbn [body_value maybe] in *.
      - unfold deref in E. unfold s2k_value. destruct (nth_error h x) as [[]|]; cbn [bind] in E; try discriminate E. apply Ok_inj in E. injection E as <- <-. congruence.
      - apply Ok_inj in E. injection E as <- <-. congruence. }
    destruct (body_value (fun e => sig_of (value k h e)) h bd) as [w|] eqn:W; [|discriminate]. injection V as <-. apply SB in W. subst w.
    exists (mkPacket (if (t =? 5)%N then 6%N else 14%N) NEW NOT_PARTIAL (PKey k')). split; [|cbn [value]; rewrite N2; reflexivity].
    unfold to_public, public_packet, as_secret. cbn [p_tag p_body]. destruct (t =? 5)%N; [cbn [bind]; rewrite E0; reflexivity|]. cbn [orb] in T. rewrite T. cbn [bind]. rewrite E0. reflexivity.
  - destruct (clone_clones n 0 _ _ _ _ H) as (X & B & _). split; [exact X|]. split; [exact B|]. intros k p V. exists p. split; [|now apply (clone_clones n k _ _ _ _ H)].
    destruct k as [|k]; [discriminate|]. cbn [value] in V. rewrite N in V. destruct (body_value _ h bd); [|discriminate]. injection V as <-. unfold to_public. cbn [p_tag].
    apply Bool.orb_false_iff in T as [-> ->]. reflexivity.
Qed.
Theorem C81_public n h g h1 g1 : closed h -> h_get_public n h g = Ok (h1, g1) ->
  (forall k v, pgp_value k h g = Some v -> exists v', get_public_key v = Ok v' /\ pgp_value k h1 g1 = Some v') /\
  (forall held, (forall x, In x held -> x < length h) -> unaffected h1 held (hg_packets g1)) /\
  (forall seen, (forall x, In x seen -> x < length h) -> unaffected h1 (hg_packets g1) seen).
Proof.
  intros CH H. unfold h_get_public in H. ib H x. destruct x as [h2 l]. apply Ok_inj in H. injection H as <- <-. cbn [hg_packets].
  assert (G : forall ps h h2 l, clone_all (public_one n) h ps = Ok (h2, l) -> ext h h2 /\ (forall x, In x l -> length h <= x < length h2) /\
    forall k vs, all (value k h) ps = Some vs -> exists vs', mapM to_public vs = Ok vs' /\ all (value k h2) l = Some vs').
  { clear. induction ps as [|a r IH]; intros h h2 l H; cbn [clone_all] in H.
    - apply Ok_inj in H. injection H as <- <-. split; [apply ext_refl|]. split; [intros x []|]. intros k vs [= <-]. exists []. auto.
    - ib H x. destruct x as [h3 a3]. ib H x. destruct x as [h4 r4]. apply Ok_inj in H. injection H as <- <-.
      apply public_one_ok in E as (X & B & V). apply IH in E0 as (X4 & B4 & V4). assert (L := ext_length _ _ X). assert (L4 := ext_length _ _ X4).
      split; [now apply (ext_trans _ h3)|]. split; [intros x [<-|I]; [lia|specialize (B4 x I); lia]|].
      intros k vs. cbn [all]. destruct (value k h a) as [v|] eqn:VA; [|discriminate]. destruct (all (value k h) r) as [vr|] eqn:VR; [|discriminate]. intros [= <-].
      destruct (V _ _ VA) as (v' & TP & VB). destruct (V4 k vr) as (vr' & MP & AV); [apply (all_mono (value k h)); [intros x w; now apply ext_value|exact VR]|].
      exists (v' :: vr'). cbn [mapM]. rewrite TP. cbn [bind]. rewrite MP. split; [reflexivity|]. rewrite (ext_value _ _ _ _ _ X4 VB), AV. reflexivity. }
  destruct (G _ _ _ _ E) as (X & B & V). split; [|split].
  - intros k v. unfold pgp_value. cbn [hg_packets hg_armored hg_type hg_keys]. destruct (all (value k h) (hg_packets g)) as [ps|] eqn:A; [|discriminate]. intros [= <-].
    destruct (V _ _ A) as (vs' & MP & AV). exists (mkPgp (hg_armored g) 2 (hg_keys g) vs'). unfold get_public_key. cbn [g_packets g_armored g_keys]. rewrite MP, AV. auto.
  - intros held F. now apply (new_unaffected h).
  - intros seen F. now apply (old_unaffected h).
Qed.

(** Assignment: the object assigned to gets the value (also when it is the object itself), and from
    then on neither shows in the other. *)
Theorem C81_assign n h dst src h1 : closed h -> assign n h dst src = Ok h1 ->
  (forall k v, value k h src = Some v -> value k h1 dst = Some v) /\
  (~ reach h [src] dst -> (forall k v, value k h src = Some v -> value k h1 src = Some v) /\ unaffected h1 [src] [dst] /\ unaffected h1 [dst] [src]).
Proof.
  intros CH H. unfold assign, deref in H. destruct (nth_error h src) as [[t f p b| | | |]|] eqn:NS; cbn [bind] in H; try discriminate H; try (destruct (nth_error h dst); discriminate H).
  destruct (nth_error h dst) as [[dt df dp db| | | |]|] eqn:ND; cbn [bind] in H; try discriminate H.
  assert (LS := nth_lt _ _ _ NS). assert (LD := nth_lt _ _ _ ND).
  assert (K : exists h2 b2, h1 = put h2 dst (CPacket t f p b2) /\ ext h h2 /\ (forall x, In x (body_ptrs b2) -> length h <= x < length h2) /\
    forall k v, body_value (sig_at k h) h b = Some v -> body_value (sig_at k h2) h2 b2 = Some v).
  { destruct b; try (apply bind_ok in H; destruct H as ([h2 b2] & E & H); apply Ok_inj in H; exists h2, b2; split; [now rewrite <- H|]; destruct (contents_copied _ (clone_clones n) 0 _ _ _ _ E) as (X & B & _);
      split; [exact X|]; split; [exact B|]; intros kk; apply (contents_copied _ (clone_clones n) kk _ _ _ _ E)).
    destruct s2k as [s2k|]; [|discriminate H]. destruct esk as [esk|]; [|discriminate H]. ib H x. destruct x as [h2 s2]. ib H x. destruct x as [h3 e3]. apply Ok_inj in H.
    destruct (s2k_clones _ _ _ _ E) as (X & B & V). destruct (string_clones _ _ _ _ E0) as (X3 & B3 & V3). assert (L := ext_length _ _ X). assert (L3 := ext_length _ _ X3).
    exists h3, (HSymSession version sym (Some s2) (Some e3)). split; [now rewrite <- H|]. split; [now apply (ext_trans _ h2)|]. split; [intros x [<-|[<-|[]]]; lia|].
    intros k v. cbn [body_value maybe]. destruct (s2k_value h s2k) as [w1|] eqn:W1; [|discriminate]. destruct (string_value h esk) as [w2|] eqn:W2; [|discriminate].
    rewrite (s2k_monotone _ _ _ _ X3 (V _ eq_refl)). rewrite (V3 w2); [auto|]. now apply (string_monotone _ _ _ _ X). }
  clear H. destruct K as (h2 & b2 & Eh & X & B & V). subst h1. assert (L := ext_length _ _ X). set (c := CPacket t f p b2).
  assert (ND1 : nth_error (put h2 dst c) dst = Some c) by (apply put_same; lia).
  assert (NO : forall x, x <> dst -> nth_error (put h2 dst c) x = nth_error h2 x) by (intros x; apply put_other).
  assert (L1 : length (put h2 dst c) = length h2) by apply put_length.
  set (F := fun x => length h <= x < length h2).
  assert (FC : forall y d z, F y -> nth_error h2 y = Some d -> In z (ptrs d) -> F z) by (intros y d z FY N I; exact (ext_nth _ _ _ _ _ X (proj1 FY) N I)).
  assert (FD : forall y, F y -> nth_error (put h2 dst c) y = nth_error h2 y) by (intros y FY; apply NO; unfold F in FY; lia).
  split.
  { intros k v W. destruct k as [|k]; [discriminate|]. cbn [value] in *. rewrite NS in W. rewrite ND1. subst c. cbn iota beta.
    change (fun e => sig_of (value k h e)) with (sig_at k h) in W. destruct (body_value (sig_at k h) h b) as [w|] eqn:BV; [|discriminate].
    rewrite (body_ext (sig_at k h2) _ h2 _ F b2 FD FC); [now rewrite (V _ _ BV)| |exact B]. intros e Fe. unfold sig_at. now rewrite (value_ext F h2 _ FD FC). }
  intros NR. set (R := reach h [src]).
  assert (RL : forall x, R x -> x < length h) by (intros x Rx; induction Rx as [x [<-|[]]|x d y Rx IH N I]; [exact LS|exact (CH x d y N I)]).
  assert (RC : forall x d y, R x -> nth_error h x = Some d -> In y (ptrs d) -> R y) by (intros x d y Rx N I; exact (reach_next _ _ _ _ _ Rx N I)).
  assert (RD : forall x, R x -> x <> dst) by (intros x Rx ->; exact (NR Rx)).
  assert (RN : forall x, R x -> nth_error (put h2 dst c) x = nth_error h x) by (intros x Rx; rewrite NO by (now apply RD); apply ext_old; [exact X|now apply RL]).
  assert (RS : R src) by (apply reach_root; now left).
  assert (RC1 : forall x d y, R x -> nth_error (put h2 dst c) x = Some d -> In y (ptrs d) -> R y) by (intros x d y Rx N I; rewrite (RN x Rx) in N; exact (RC x d y Rx N I)).
  assert (DC : forall d y, nth_error (put h2 dst c) dst = Some d -> In y (ptrs d) -> F y) by (intros d y N I; rewrite ND1 in N; injection N as <-; now apply B).
  assert (FC1 : forall x d y, F x -> nth_error (put h2 dst c) x = Some d -> In y (ptrs d) -> F y) by (intros x d y Fx N I; rewrite (FD x Fx) in N; exact (FC x d y Fx N I)).
  split; [|split].
  - intros k v W. rewrite <- W. apply (value_ext R); [exact RN|exact RC|exact RS].
  - intros h' HI k x v [<-|[]] W. rewrite <- W. apply (value_ext (fun x => x = dst \/ F x)); [| |now left].
    + intros y Fy. apply (history_within (fun x => R x \/ length h2 <= x) (length h2)) with (from := [src]); [auto|exact HI|lia|intros z [<-|[]]; now left| |].
      * intros z d w [Rz|Lz] N I; [left; exact (RC1 z d w Rz N I)|]. apply nth_lt in N. lia.
      * intros [Ry|Ly]; [|destruct Fy as [->|Fy]; [lia|unfold F in Fy; lia]]. destruct Fy as [->|Fy]; [now apply (RD dst)|]. apply RL in Ry. unfold F in Fy. lia.
    + intros y d z [->|Fy] N I; right; [now apply (DC d)|now apply (FC1 y d)].
  - intros h' HI k x v [<-|[]] W. rewrite <- W. apply (value_ext R); [|exact RC1|exact RS].
    intros y Ry. apply (history_within (fun x => x = dst \/ length h <= x) (length h)) with (from := [dst]); [auto|exact HI|lia|intros z [<-|[]]; now left| |].
    + intros z d w [->|Lz] N I; right; [exact (proj1 (DC _ _ N I))|]. assert (LN := nth_lt _ _ _ N). rewrite L1 in LN. exact (proj1 (FC1 z d w (conj Lz LN) N I)).
    + intros [->|Ly]; [now apply (RD dst)|]. apply RL in Ry. lia.
Qed.
(** But assigning a symmetric-key encrypted session key packet that holds no encrypted session key
    (such as every one that encrypting with a passphrase makes) or no specifier reads through a
    null pointer, although cloning it is fine; so does get_s2k_clone without a specifier (as in an
    unprotected secret key). *)
Theorem C81_assign_refuted n h dst src t f p v s s2k esk : nth_error h src = Some (CPacket t f p (HSymSession v s s2k esk)) -> dst < length h -> s2k = None \/ esk = None -> assign n h dst src = UB.
Proof.
  intros N L O. unfold assign, deref. rewrite N. cbn [bind]. destruct (nth_error h dst) as [[]|] eqn:D; cbn [bind]; try reflexivity.
  - destruct s2k, esk; try reflexivity. now destruct O.
Qed.
Theorem C81_get_s2k_clone_refuted h a t f p : (exists v s esk, nth_error h a = Some (CPacket t f p (HSymSession v s None esk))) \/ (exists k c s iv x, nth_error h a = Some (CPacket t f p (HSecret k c s None iv x))) ->
  get_s2k_clone h a = UB.
Proof. intros [(v & s & esk & E)|(k & c & s & iv & x & E)]; unfold get_s2k_clone, deref; rewrite E; reflexivity. Qed.
(** set_packets shares the packets with the caller, who can change them; set_packets_clone does not. *)
Theorem C81_set_packets n h g a l v : closed h -> (forall x, In x (a :: l) -> x < length h) -> pgp_value n h (set_packets g (a :: l)) = Some v ->
  (exists h', history [a] h h' /\ pgp_value n h' (set_packets g (a :: l)) <> Some v) /\
  (exists h1 g1, set_packets_clone n h g (a :: l) = Ok (h1, g1) /\ pgp_value n h1 g1 = Some v /\ unaffected h1 (a :: l) (hg_packets g1)).
Proof.
  intros CH LT H. unfold pgp_value in H. cbn [hg_packets set_packets] in H. destruct (all (value n h) (a :: l)) as [ps|] eqn:A; [|discriminate]. split.
  - exists (put h a (CString [])). split.
    + apply (change [a] h a (CString []) _); [apply reach_root; now left|apply LT; now left|intros b []|apply done].
    + unfold pgp_value. cbn [hg_packets set_packets all]. destruct n as [|n]; cbn [value]; [discriminate|]. rewrite put_same by (apply LT; now left). discriminate.
  - assert (M : monotone (value n)) by (intros x y z w; apply ext_value). destruct (all_total _ _ (clone_clones n n) M (clone_total n) _ _ _ A) as (h1 & l1 & E).
    destruct (clones_all _ _ (clone_clones n n) M _ _ _ _ E) as (X & B & V). exists h1, (set_packets g l1). unfold set_packets_clone. rewrite E. cbn [bind]. split; [reflexivity|]. split.
    + unfold pgp_value. cbn [set_packets hg_packets hg_armored hg_type hg_keys] in *. rewrite (V _ A). exact H.
    + now apply (new_unaffected h).
Qed.
(** A signature can be made to contain itself (set_embedded with [copy] on a subpacket of it), and
    is then cloned without end. *)
Theorem C81_cycle_refuted : exists h0 sig h, closed h0 /\ (exists v, value 1 h0 sig = Some v) /\ history [sig] h0 h /\ closed h /\ forall n, clone n h sig = Diverge.
Proof.
  set (s := CPacket 2 NEW NOT_PARTIAL (HSig 4 0 1 8 [] [] 0 [] [1] [])). set (h0 := [s; CSub false (Sub32 None)]). set (h := [s; CSub false (Sub32 (Some 0))]).
  exists h0, 0, h. split; [|split; [|split; [|split]]].
  - intros [|[|[|a]]] c b E I; cbn in E; try discriminate E; injection E as <-; cbn in I; try tauto. destruct I as [<-|[]]. cbn. lia.
  - eexists. reflexivity.
  - apply (change [0] h0 1 (CSub false (Sub32 (Some 0))) h); [|cbn; lia| |apply done].
    + apply (reach_next h0 [0] 0 s 1); [apply reach_root; now left|reflexivity|now left].
    + intros b [<-|[]]. apply reach_root. now left.
  - intros [|[|[|a]]] c b E I; cbn in E; try discriminate E; injection E as <-; cbn in I; destruct I as [<-|[]]; cbn; lia.
  - induction n as [|n IH]; [reflexivity|]. cbn [clone]. cbn. rewrite IH. reflexivity.
Qed.

(** A protected secret key, a user ID and a certification whose unhashed part embeds a signature. *)
Definition toy_heap : heap :=
  [CPacket 5 NEW NOT_PARTIAL (HSecret (mkKey 4 1 1 [35; 5]%N 0) 254 9 (Some 1) [1; 2]%N [3; 4]%N); CS2k (mkS2k S2K1 1 8 [1; 2; 3; 4; 5; 6; 7; 8]%N 0);
   CPacket 13 NEW NOT_PARTIAL (HPlain (PRaw (str "alice")));
   CPacket 2 NEW NOT_PARTIAL (HSig 4 19 1 8 [7]%N [1; 2]%N 0 [] [4] [5]); CSub false (Sub2 5); CSub false (Sub32 (Some 6));
   CPacket 2 NEW NOT_PARTIAL (HSig 4 25 1 8 [9]%N [3; 4]%N 0 [] [7] []); CSub true (Sub27 [3]%N)].
Definition toy_block : hpgp := mkHpgp true 3 [] [0; 2; 3].
Example C81_ex : closed toy_heap /\ (exists v, pgp_value 2 toy_heap toy_block = Some v) /\ (exists h1 g1, pgp_copy 2 toy_heap toy_block = Ok (h1, g1) /\ length (hg_packets g1) = 3) /\
  (exists h1 g1, h_get_public 2 toy_heap toy_block = Ok (h1, g1)) /\ (exists h1, assign 2 toy_heap 6 3 = Ok h1).
Proof.
  split; [|split; [eexists; reflexivity|split; [do 2 eexists; split; [vm_compute; reflexivity|reflexivity]|split; [do 2 eexists; vm_compute; reflexivity|eexists; vm_compute; reflexivity]]]].
  intros a c b E I. cbn [length toy_heap]. do 8 (destruct a as [|a]; [cbn in E; injection E as <-; cbn in I; lia|]). destruct a; discriminate E.
Qed.
Print Assumptions C81_clone. Print Assumptions C81_clone_ends. Print Assumptions C81_copy. Print Assumptions C81_public. Print Assumptions C81_assign.
Print Assumptions C81_assign_refuted. Print Assumptions C81_get_s2k_clone_refuted. Print Assumptions C81_set_packets. Print Assumptions C81_cycle_refuted. Print Assumptions C81_ex.
