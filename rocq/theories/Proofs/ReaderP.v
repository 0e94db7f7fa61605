(** Readers that move a position forward: closed under composition, unaffected by what
    precedes, and by what follows as long as they end inside the data. *)
From Verif Require Export Proofs.SignatureP.

Definition reader (A : Type) := bytes -> N -> result (A * N).
Definition octet : reader N := fun d p => c <- at_ d p ;; Ok (c, p + 1).
Definition take (n : N) : reader bytes := fun d p => s <- substr d p n ;; Ok (s, p + n).
Definition lift {A} (r : result A) : reader A := fun _ p => x <- r ;; Ok (x, p).
Definition rbind {A B} (r : reader A) (k : A -> reader B) : reader B :=
  fun d p => ' (x, q) <- r d p ;; k x d q.

Record good {A} (r : reader A) : Prop := {
  g_shift : forall pre s p, r (pre ++ s) (len pre + p) = shifted (len pre) (r s p);
  g_mono : forall d p x q, r d p = Ok (x, q) -> p <= q;
  g_local : forall a b p x q, q <= len a -> (r (a ++ b) p = Ok (x, q) <-> r a p = Ok (x, q)) }.

Lemma at_app_l a b p : p < len a -> at_ (a ++ b) p = at_ a p.
Proof.
  intros. unfold at_. rewrite len_app. replace (p <? len a + len b) with true by lia.
  replace (p <? len a) with true by lia. rewrite nth_error_app1; auto. rewrite <- len_nat. lia.
Qed.
Lemma substr_app_l a b p n : p + n <= len a -> substr (a ++ b) p n = substr a p n.
Proof.
  intros. unfold substr. rewrite len_app. replace (len a + len b <? p) with false by lia.
  replace (len a <? p) with false by lia. f_equal.
  replace (N.min n (len a + len b - p)) with n by lia. replace (N.min n (len a - p)) with n by lia.
  rewrite skipn_app, firstn_app, skipn_length.
  pose proof (len_nat a). replace (N.to_nat n - (length a - N.to_nat p))%nat with 0%nat by lia.
  cbn [firstn]. now rewrite app_nil_r.
Qed.

Lemma good_octet : good octet.
Proof.
  split; unfold octet.
  - intros. rewrite at_shift. unfold shifted. destruct (at_ s p); cbn [bind]; auto. f_equal. f_equal. lia.
  - intros d p x q H. inv_bind H. injection H as <- <-. lia.
  - intros a b p x q Hq. destruct (p <? len a) eqn:E.
    + rewrite at_app_l by lia. tauto.
    + split; intros H; inv_bind H; injection H as <- <-; lia.
Qed.
Lemma good_take n : good (take n).
Proof.
  split; unfold take.
  - intros. rewrite substr_shift. unfold shifted. destruct (substr s p n); cbn [bind]; auto. f_equal. f_equal. lia.
  - intros d p x q H. inv_bind H. injection H as <- <-. lia.
  - intros a b p x q Hq. destruct (p + n <=? len a) eqn:E.
    + rewrite substr_app_l by lia. tauto.
    + split; intros H; inv_bind H; injection H as <- <-; lia.
Qed.
Lemma good_lift {A} (r : result A) : good (lift r).
Proof.
  split; unfold lift.
  - intros. unfold shifted. destruct r; reflexivity.
  - intros d p x q H. inv_bind H. injection H as <- <-. lia.
  - tauto.
Qed.
Lemma good_bind {A B} (r : reader A) (k : A -> reader B) :
  good r -> (forall x, good (k x)) -> good (rbind r k).
Proof.
  intros [S1 M1 L1] G. split; unfold rbind.
  - intros. rewrite S1. unfold shifted. destruct (r s p) as [[x q]| | |]; cbn [bind]; auto.
    now rewrite (g_shift _ (G x)).
  - intros d p y q H. destruct (r d p) as [[x q']| | |] eqn:E; try discriminate. cbn [bind] in H.
    apply M1 in E. apply (g_mono _ (G x)) in H. lia.
  - intros a b p y q Hq. split; intros H.
    + destruct (r (a ++ b) p) as [[x q']| | |] eqn:E; try discriminate. cbn [bind] in H.
      pose proof (g_mono _ (G x) _ _ _ _ H). apply L1 in E; [|lia]. rewrite E. cbn [bind].
      apply (g_local _ (G x)) in H; auto.
    + destruct (r a p) as [[x q']| | |] eqn:E; try discriminate. cbn [bind] in H.
      pose proof (g_mono _ (G x) _ _ _ _ H). apply (L1 a b) in E; [|lia]. rewrite E. cbn [bind].
      apply (g_local _ (G x)); auto.
Qed.
Lemma good_ext {A} (r r' : reader A) : (forall d p, r' d p = r d p) -> good r -> good r'.
Proof.
  intros E [S1 M1 L1]. split; intros.
  - now rewrite !E.
  - rewrite E in H. eauto.
  - rewrite !E. auto.
Qed.

Lemma bind_ext {A B} (r1 r2 : result A) (k1 k2 : A -> result B) :
  r1 = r2 -> (forall x, k1 x = k2 x) -> bind r1 k1 = bind r2 k2.
Proof. intros -> H. destruct r2; cbn [bind]; auto. Qed.
Lemma bind_bind {A B C} (r : result A) (f : A -> result B) (g : B -> result C) :
  bind (bind r f) g = bind r (fun x => bind (f x) g).
Proof. now destruct r. Qed.

(** Prove that a model function is a composition of readers. *)
Ltac rsolve := unfold rbind, octet, take, lift;
  repeat (rewrite ?bind_bind; cbn [bind];
          match goal with
          | |- bind _ _ = bind _ _ => apply bind_ext; [repeat (f_equal; try lia)|intros]
          end); rewrite ?bind_bind; cbn [bind].

Lemma good_MPI : good read_MPI.
Proof.
  apply (good_ext (rbind octet (fun hi => rbind octet (fun lo =>
    rbind (take (u16 ((u16 (N.lor (N.shiftl (u8 hi) 8) (u8 lo)) + 7) / 8 * 8) / 8)) (fun raw =>
    lift (rawtompi raw)))))).
  - intros d p. unfold read_MPI. cbv zeta. rsolve. do 2 f_equal. lia.
  - repeat first [apply good_bind; [|intros] | apply good_octet | apply good_take | apply good_lift].
Qed.
Lemma good_mpis k : good (read_mpis k).
Proof.
  induction k as [|k IH].
  - apply (good_ext (lift (Ok []))); [reflexivity|apply good_lift].
  - apply (good_ext (rbind read_MPI (fun m => rbind (read_mpis k) (fun ms => lift (Ok (m :: ms)))))).
    + intros d p. cbn [read_mpis]. unfold rbind, lift. apply bind_ext; [reflexivity|intros [m q]].
      apply bind_ext; [reflexivity|intros [ms r]]. reflexivity.
    + repeat first [apply good_bind; [|intros] | apply good_MPI | exact IH | apply good_lift].
Qed.

Ltac good := repeat first [apply good_octet | apply good_take | apply good_lift
  | apply good_mpis | apply good_MPI | apply good_bind; [|intros]].

Definition r_v4 (n : nat) : reader tag2 :=
  rbind octet (fun _ => rbind octet (fun type => rbind octet (fun pka => rbind octet (fun hash =>
  rbind (take 2) (fun hs => rbind (take (u16 (toint256 hs))) (fun hd =>
  rbind (lift (read_subpackets (tag2_embed n) (S (length hd)) hd 0)) (fun hashed =>
  rbind (take 2) (fun us => rbind (take (u16 (toint256 us))) (fun ud =>
  rbind (lift (read_subpackets (tag2_embed n) (S (length ud)) ud 0)) (fun unhashed =>
  rbind (take 2) (fun left16 => rbind (read_mpis (sig_mpis pka)) (fun mpi =>
  lift (Ok (mkTag2 4 type pka hash mpi left16 0 [] hashed unhashed)))))))))))))).
Lemma good_v4 n : good (r_v4 n).
Proof. unfold r_v4. good. Qed.
Lemma r_v4_eq n d p : at_ d p = Ok 4 -> tag2_read_n (S n) d p = r_v4 n d p.
Proof.
  intros H. rewrite tag2_read_n_S, H. unfold r_v4. unfold rbind at 1. unfold octet at 1. rewrite H.
  cbn [bind N.eqb Pos.eqb]. unfold tag2_v4. rsolve.
  now destruct x9.
Qed.

(** ** Fuel of the signature reader *)
Lemma read_subpackets_ext {S} (e1 e2 : bytes -> result S) n data : forall pos,
  (forall d, len d <= len data -> e1 d = e2 d) ->
  read_subpackets e1 n data pos = read_subpackets e2 n data pos.
Proof.
  induction n; intros pos H; [reflexivity|]. cbn [read_subpackets].
  destruct (pos <? len data); [|reflexivity].
  apply bind_ext; [reflexivity|intros [l q]]. apply bind_ext; [reflexivity|intros t].
  apply bind_ext; [reflexivity|intros s0].
  destruct (substr data (q + 1) (sub64 l 1)) as [d| | |] eqn:E; cbn [bind]; try reflexivity.
  apply bind_ext; [|intros; now rewrite IHn].
  apply substr_len in E. unfold sub_read. destruct (0 <? len d); [|reflexivity].
  destruct s0; try reflexivity. cbn [sub_actual_read]. now rewrite H by lia.
Qed.

Lemma read_subpacket_mono data pos l q : read_subpacket data pos = Ok (l, q) -> pos < q.
Proof.
  unfold read_subpacket, read_one_octet_lengths, read_two_octet_lengths, read_five_octet_lengths.
  intros H. inv_bind H. destruct (_ <? 192); [|destruct (_ && _)]; repeat (inv_bind H); injection H as <- <-; lia.
Qed.

Lemma sub_read_term {S} (emb : bytes -> result S) s d : (emb d <> Diverge) -> sub_read emb s d <> Diverge.
Proof.
  intros He. unfold sub_read. destruct (0 <? len d); [|discriminate].
  assert (A : forall p, at_ d p <> Diverge) by (intros p E; destruct (at_cases d p) as [[? E']|E']; congruence).
  assert (U : forall p n, substr d p n <> Diverge) by (intros p n E; unfold substr in E; destruct (_ <? _); discriminate).
  destruct s; cbn [sub_actual_read]; try discriminate;
    repeat match goal with
    | |- bind (at_ d ?p) _ <> _ => pose proof (A p); destruct (at_ d p); cbn [bind]; try discriminate; try tauto
    | |- bind (substr d ?p ?n) _ <> _ => pose proof (U p n); destruct (substr d p n); cbn [bind]; try discriminate; try tauto
    | |- (if ?b then _ else _) <> _ => destruct b
    | |- bind (emb d) _ <> _ => destruct (emb d); cbn [bind]; try discriminate; try tauto
    end; try discriminate.
Qed.
Lemma at_term d p : at_ d p <> Diverge.
Proof. intros E; destruct (at_cases d p) as [[? E']|E']; congruence. Qed.
Lemma substr_term d p n : substr d p n <> Diverge.
Proof. intros E; unfold substr in E; destruct (_ <? _); discriminate. Qed.
Lemma bind_term {A B} (r : result A) (k : A -> result B) :
  r <> Diverge -> (forall x, r = Ok x -> k x <> Diverge) -> bind r k <> Diverge.
Proof. intros H1 H2. destruct r; cbn [bind]; auto; discriminate. Qed.
Lemma read_subpacket_term d p : read_subpacket d p <> Diverge.
Proof.
  unfold read_subpacket, read_one_octet_lengths, read_two_octet_lengths, read_five_octet_lengths.
  apply bind_term; [apply at_term|intros]. destruct (_ <? 192); [|destruct (_ && _)];
  repeat (apply bind_term; [apply at_term || apply substr_term|intros]); discriminate.
Qed.
Lemma sub_new_term {S} t : @sub_new S t <> Diverge.
Proof. unfold sub_new. repeat match goal with |- match ?x with _ => _ end <> _ => destruct x end; discriminate. Qed.

Lemma read_subpackets_term {S} (emb : bytes -> result S) data :
  (forall d, len d <= len data -> emb d <> Diverge) ->
  forall n pos, len data <= pos + N.of_nat n -> read_subpackets emb (Datatypes.S n) data pos <> Diverge.
Proof.
  intros He. induction n; intros pos Hn.
  - cbn [read_subpackets]. replace (pos <? len data) with false by lia. discriminate.
  - remember (Datatypes.S n) as m. cbn [read_subpackets]. destruct (pos <? len data) eqn:E; [|discriminate].
    apply bind_term; [apply read_subpacket_term|intros [l q] Hq].
    apply bind_term; [apply at_term|intros t _].
    apply bind_term; [apply sub_new_term|intros s0 _].
    apply bind_term; [apply substr_term|intros d Hd].
    apply bind_term; [apply sub_read_term; apply He; apply substr_len in Hd; lia|intros s _].
    apply read_subpacket_mono in Hq.
    apply bind_term; [subst m; apply IHn; lia|discriminate].
Qed.

Lemma read_MPI_term d p : read_MPI d p <> Diverge.
Proof.
  rewrite read_MPI_eq. apply bind_term.
  - apply bind_term; [apply at_term|intros]. apply bind_term; [apply at_term|discriminate].
  - intros x _. cbv zeta. apply bind_term; [apply substr_term|intros]. apply bind_term; [|discriminate].
    destruct x0; discriminate.
Qed.
Lemma read_mpis_term k : forall d p, read_mpis k d p <> Diverge.
Proof.
  induction k; intros; cbn [read_mpis]; [discriminate|].
  apply bind_term; [apply read_MPI_term|intros [m q] _].
  apply bind_term; [apply IHk|intros [ms r] _; discriminate].
Qed.

(** Enough fuel: the result is not Diverge, and more fuel gives the same. *)
Lemma tag2_term : forall k data pos, (length data < k)%nat -> tag2_read_n k data pos <> Diverge.
Proof.
  induction k as [|k IH]; intros data pos Hk; [lia|]. rewrite tag2_read_n_S.
  assert (He : forall d, (length d < k)%nat -> tag2_embed k d <> Diverge).
  { intros d Hd. unfold tag2_embed. destruct (_ <? _); [|discriminate].
    apply bind_term; [apply IH; lia|intros [s p] _]. destruct (_ =? _); discriminate. }
  apply bind_term; [apply at_term|intros v _].
  destruct (v =? 3); [|destruct (v =? 4); [|discriminate]].
  - unfold tag2_v3.
    repeat first [ apply bind_term; [first [apply at_term|apply substr_term]|intros]
                 | match goal with |- (if ?b then _ else _) <> _ => destruct b; [|discriminate] end ].
    apply bind_term; [|intros [ms q] _; discriminate].
    destruct (is_RSA _); [apply read_mpis_term|]. destruct (_ =? _); [apply read_mpis_term|discriminate].
  - unfold tag2_v4.
    apply bind_term; [apply at_term|intros].
    apply bind_term; [apply at_term|intros].
    apply bind_term; [apply at_term|intros].
    apply bind_term; [apply substr_term|intros hs _].
    apply bind_term; [apply substr_term|intros hd Hh].
    pose proof (substr_inv _ _ _ _ Hh) as [? _]; pose proof (substr_len _ _ _ _ Hh). unfold len in *.
    apply bind_term; [apply read_subpackets_term; [intros d Hd; apply He; unfold len in Hd; lia|unfold len; lia]|intros].
    apply bind_term; [apply substr_term|intros us _].
    apply bind_term; [apply substr_term|intros ud Hu].
    pose proof (substr_inv _ _ _ _ Hu) as [? _]; pose proof (substr_len _ _ _ _ Hu). unfold len in *.
    apply bind_term; [apply read_subpackets_term; [intros d Hd; apply He; unfold len in Hd; lia|unfold len; lia]|intros].
    apply bind_term; [apply substr_term|intros].
    apply bind_term; [apply read_mpis_term|intros [ms q] _; discriminate].
Qed.

Lemma tag2_fuel : forall k k' data pos, (length data < k)%nat -> (length data < k')%nat ->
  tag2_read_n k data pos = tag2_read_n k' data pos.
Proof.
  induction k as [|k IH]; intros [|k'] data pos Hk Hk'; try lia. rewrite !tag2_read_n_S.
  assert (He : forall d, (length d < k)%nat -> (length d < k')%nat -> tag2_embed k d = tag2_embed k' d).
  { intros d Hd Hd'. unfold tag2_embed. destruct (_ <? _); [|reflexivity]. now rewrite (IH k'). }
  apply bind_ext; [reflexivity|intros v].
  destruct (v =? 3); [reflexivity|]. destruct (v =? 4); [|reflexivity].
  unfold tag2_v4.
  do 3 (apply bind_ext; [reflexivity|intros]).
  apply bind_ext; [reflexivity|intros hs].
  destruct (substr data (pos + 4 + 2) _) as [hd| | |] eqn:Hh; try reflexivity. cbn [bind].
  pose proof (substr_inv _ _ _ _ Hh) as [? _]; pose proof (substr_len _ _ _ _ Hh).
  apply bind_ext; [apply read_subpackets_ext; intros d Hd; apply He; unfold len in *; lia|intros].
  apply bind_ext; [reflexivity|intros us].
  destruct (substr data (pos + 4 + 2 + _ + 2) _) as [ud| | |] eqn:Hu; try reflexivity. cbn [bind].
  pose proof (substr_inv _ _ _ _ Hu) as [? _]; pose proof (substr_len _ _ _ _ Hu).
  apply bind_ext; [apply read_subpackets_ext; intros d Hd; apply He; unfold len in *; lia|intros].
  reflexivity.
Qed.
