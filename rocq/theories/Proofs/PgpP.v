(** Packet sequences: lemmas about Model.Pgp's binary reader and writer. *)
From Verif Require Export Proofs.PacketRT Model.Pgp Spec.Sequence.

(** ** Termination *)
Ltac term_step := first
  [ apply at_term | apply substr_term | apply read_MPI_term | apply read_mpis_term
  | apply read_subpacket_term | discriminate
  | apply bind_term; [|intros ? ?] ].

Lemma read_MPI_ge d p m q : read_MPI d p = Ok (m, q) -> p + 2 <= q /\ p + 1 <= len d.
Proof.
  rewrite read_MPI_eq. intros H. inv_bind H. cbv zeta in H. inv_bind H. inv_bind H.
  injection H as <- <-. apply substr_inv in E0. lia.
Qed.

Lemma until_term : forall n d p stop, len d <= p + N.of_nat n ->
  read_mpis_until (S n) d p stop <> Diverge.
Proof.
  induction n as [|n IH]; intros d p stop H; cbn [read_mpis_until];
    (destruct (p <? stop); [|discriminate]);
    (apply bind_term; [apply read_MPI_term|intros [m q] E]); apply read_MPI_ge in E as [E1 E2].
  - lia.
  - apply bind_term; [|intros [? ?] _; discriminate]. apply (IH d q stop). lia.
Qed.

Lemma read_subpacket_ge d p l q : read_subpacket d p = Ok (l, q) -> p + 1 <= q.
Proof.
  unfold read_subpacket. intros H. inv_bind H.
  destruct (_ <? 192); [|destruct (_ && _)];
  unfold read_one_octet_lengths, read_two_octet_lengths, read_five_octet_lengths in H;
  repeat (inv_bind H); injection H as <- <-; lia.
Qed.

Lemma image_term d : image_read d <> Diverge.
Proof. unfold image_read. destruct (_ <=? _); repeat term_step. Qed.

Lemma attrs_term : forall n d p stop, len d <= p + N.of_nat n ->
  attrs_read (S (S n)) d p stop <> Diverge.
Proof.
  induction n as [|n IH]; intros d p stop H.
  - cbn [attrs_read]. destruct (p <? stop); [|discriminate].
    apply bind_term; [apply read_subpacket_term|intros [l q] E]. apply read_subpacket_ge in E.
    apply bind_term; [apply at_term|intros t Et].
    assert (q <= len d) by (destruct (N.lt_ge_cases (len d) q) as [X|X]; [apply at_UB in X; congruence|lia]).
    lia.
  - assert (U : attrs_read (S (S (S n))) d p stop = if p <? stop then
      ' (l, pos) <- read_subpacket d p ;;
      t <- at_ d pos ;;
      if t =? 1 then
        x <- substr d (pos + 1) (sub64 l 1) ;;
        im <- image_read x ;;
        ' (rest, pos) <- attrs_read (S (S n)) d (pos + l) stop ;;
        Ok (im :: rest, pos)
      else Throw ERuntime
    else Ok ([], p)) by reflexivity.
    rewrite U. destruct (p <? stop); [|discriminate].
    apply bind_term; [apply read_subpacket_term|intros [l q] E]. apply read_subpacket_ge in E.
    apply bind_term; [apply at_term|intros t Et].
    destruct (t =? 1); [|discriminate].
    apply bind_term; [apply substr_term|intros]. apply bind_term; [apply image_term|intros].
    apply bind_term; [apply IH; lia|intros [? ?] _; discriminate].
Qed.

Lemma s2k_class_term t : s2k_class_of t <> Diverge.
Proof. unfold s2k_class_of. repeat match goal with |- context [match ?x with _ => _ end] => destruct x end; discriminate. Qed.

Lemma s2k_term c d p : s2k_read c d p <> Diverge.
Proof.
  unfold s2k_read. repeat first [term_step | match goal with |- context [match ?x with _ => _ end] => destruct x end].
Qed.

Lemma key_term d p : key_read d p <> Diverge.
Proof.
  unfold key_read. repeat first [term_step | match goal with |- context [match ?x with _ => _ end] => destruct x end].
Qed.

Lemma map_at_term {A} (m : list (N * A)) k : map_at m k <> Diverge.
Proof. induction m as [|[a b] m IH]; cbn [map_at]; [discriminate|]. destruct (_ =? _); [discriminate|auto]. Qed.

Lemma secret_term d p n : secret_read d p n <> Diverge.
Proof.
  unfold secret_read. apply bind_term; [apply key_term|intros [k q] _].
  apply bind_term; [apply at_term|intros con _]. cbv zeta.
  apply bind_term. { destruct (_ || _); repeat term_step. } intros [s q2] _.
  apply bind_term.
  { destruct (_ || _); [|discriminate]. apply bind_term; [apply at_term|intros].
    apply bind_term; [apply s2k_class_term|intros]. apply bind_term; [apply s2k_term|intros [? ?] _; discriminate]. }
  intros [s2 q3] _.
  apply bind_term.
  { destruct (_ =? _); [discriminate|]. apply bind_term; [apply map_at_term|intros]. repeat term_step. }
  intros [iv q4] _. repeat term_step.
Qed.

Lemma contents_new_term tag : contents_new tag <> Diverge.
Proof.
  destruct (contents_new_cases tag) as [(c & E & _)|E]; rewrite E; discriminate.
Qed.

Lemma actual_term tag d p n : tag_cases tag -> actual_read tag d p n <> Diverge.
Proof.
  unfold tag_cases. cbn [In]. intros Ht.
  repeat destruct Ht as [<-|Ht]; try tauto; cbn [actual_read];
    unfold tag3_read, tag4_read, tag8_read, tag11_read, tag17_read, tag18_read, raw_read;
    try (repeat first [term_step | match goal with |- context [if ?b then _ else _] => destruct b end]; fail).
  - unfold tag1_read. do 3 (apply bind_term; [term_step|intros]). apply bind_term; [|intros [? ?] _; discriminate].
    apply until_term. unfold len. lia.
  - apply bind_term; [|intros [? ?] _; discriminate]. apply tag2_term. lia.
  - do 3 (apply bind_term; [term_step|intros]). apply bind_term; [apply s2k_class_term|intros].
    apply bind_term; [apply s2k_term|intros [? ?] _]. apply bind_term; [|discriminate].
    destruct (_ <? _); repeat term_step.
  - apply secret_term.
  - apply bind_term; [apply key_term|intros [? ?] _; discriminate].
  - apply secret_term.
  - apply bind_term; [apply key_term|intros [? ?] _; discriminate].
  - apply bind_term; [apply attrs_term; unfold len; lia|intros [? ?] _; discriminate].
Qed.

Lemma tag_read_term tag d p n : tag_read tag d p n <> Diverge.
Proof.
  unfold tag_read. destruct (contents_new_cases tag) as [(c & E & Ht)|E]; rewrite E; cbn [bind]; [|discriminate].
  destruct (_ =? 0); [discriminate|]. apply bind_term; [now apply actual_term|intros [? ?] _]. destruct (_ =? _); discriminate.
Qed.

Lemma read_plain_term f ctb d p : read_plain f ctb d p <> Diverge.
Proof.
  unfold read_plain, read_one_octet_lengths, read_two_octet_lengths, read_five_octet_lengths.
  repeat first [term_step | match goal with |- context [match ?x with _ => _ end] => destruct x end].
Qed.

Lemma read_plain_pos f ctb d p b : read_plain f ctb d p = Ok (Some b) -> p <= bl_pos b.
Proof.
  unfold read_plain, read_one_octet_lengths, read_two_octet_lengths, read_five_octet_lengths.
  intros H. destruct f; repeat (inv_bind H); cbv zeta in H;
  repeat (match type of H with context [if ?b then _ else _] => destruct b end);
  repeat (inv_bind H);
  repeat (match goal with a : _ * _ |- _ => destruct a end);
  repeat (match goal with E : bind _ _ = Ok _ |- _ => inv_bind E end);
  repeat match goal with E : Ok _ = Ok _ |- _ => apply Ok_inj in E; try discriminate E end;
  try discriminate; subst;
  repeat match goal with E : Some _ = Some _ |- _ => injection E as E; subst b end;
  repeat match goal with E : (_, _) = (_, _) |- _ => injection E as <- <- end;
  cbn [bl_pos]; try lia.
Qed.

Lemma read_plain_none f ctb d p : read_plain f ctb d p = Ok None ->
  f = NEW /\ exists c, at_ d p = Ok c /\ 224 <= u8 c <= 254.
Proof.
  unfold read_plain, read_one_octet_lengths, read_two_octet_lengths, read_five_octet_lengths.
  intros H. destruct f; repeat (inv_bind H); cbv zeta in H;
  repeat (match type of H with context [if ?b then _ else _] => destruct b eqn:? end);
  repeat (inv_bind H); repeat (match goal with a : _ * _ |- _ => destruct a end); try discriminate.
  split; [reflexivity|]. exists a. split; [auto|]. assert (u8 a < 256) by (unfold u8; lia). lia.
Qed.

Lemma unformatted_term f ctb d p : read_packet_unformatted f ctb d p <> Diverge.
Proof.
  unfold read_packet_unformatted. apply bind_term; [apply read_plain_term|intros [b|] E]; [discriminate|].
  apply read_plain_none in E as [-> _].
  apply bind_term; [apply at_term|intros c _]. cbv zeta.
  apply bind_term; [apply substr_term|intros s _].
  apply bind_term; [apply read_partials_terminates; unfold len; lia|intros [acc q] E].
  apply read_partials_stop in E as (c' & E1 & E2 & _).
  apply bind_term; [apply read_plain_term|intros [b|] E].
  - destruct (bl_part b); repeat term_step.
  - apply read_plain_none in E as (_ & c2 & E & H). assert (c2 = c') by congruence. subst. lia.
Qed.

Lemma unformatted_pos f ctb d p b : read_packet_unformatted f ctb d p = Ok b -> p <= bl_pos b.
Proof.
  unfold read_packet_unformatted. intros H. inv_bind H. destruct a as [b'|].
  - apply Ok_inj in H. subst. eauto using read_plain_pos.
  - inv_bind H. cbv zeta in H. inv_bind H. inv_bind H. destruct a1 as [acc q]. inv_bind H.
    apply read_partials_stop in E2 as (_ & _ & _ & L). destruct a1 as [b'|]; [|discriminate].
    apply read_plain_pos in E3. destruct (bl_part b'); inv_bind H || idtac; apply Ok_inj in H; subst; cbn [bl_pos]; lia.
Qed.

Lemma header_term d p : read_packet_header d p <> Diverge.
Proof. unfold read_packet_header. apply bind_term; [apply at_term|intros]. cbv zeta. destruct (_ =? 0); [discriminate|]. destruct (negb _); discriminate. Qed.

Lemma frame_term d p : read_frame d p <> Diverge.
Proof.
  unfold read_frame. apply bind_term; [apply header_term|intros [[[c f] t] q] _].
  apply bind_term; [apply unformatted_term|discriminate].
Qed.

Lemma frame_pos d p f tag b : read_frame d p = Ok (f, tag, b) -> p < bl_pos b.
Proof.
  unfold read_frame. intros H. inv_bind H. destruct a as [[[c f'] t] q]. inv_bind H. apply Ok_inj in H. injection H as -> -> ->.
  apply unformatted_pos in E0. unfold read_packet_header in E. inv_bind E. cbv zeta in E.
  destruct (_ =? 0); [discriminate|]. destruct (negb _); apply Ok_inj in E; injection E as _ _ _ <-; lia.
Qed.

Lemma packet_term d p : read_packet d p <> Diverge.
Proof.
  unfold read_packet. apply bind_term; [apply frame_term|intros [[f t] b] _].
  apply bind_term; [|discriminate]. unfold read_packet_raw.
  destruct (bl_part b); (destruct (_ && _); [discriminate|]); (apply bind_term; [apply tag_read_term|discriminate]).
Qed.

Lemma packet_pos d p x q : read_packet d p = Ok (x, q) -> p < q.
Proof.
  unfold read_packet. intros H. inv_bind H. destruct a as [[f t] b]. inv_bind H. apply Ok_inj in H. injection H as _ <-.
  eauto using frame_pos.
Qed.

Lemma packets_term : forall n d p, len d <= p + N.of_nat n -> read_packets (S n) d p <> Diverge.
Proof.
  induction n as [|n IH]; intros d p H; cbn [read_packets]; (destruct (p <? len d) eqn:E; [|discriminate]).
  - lia.
  - apply bind_term; [apply packet_term|intros [x q] Hq]. apply packet_pos in Hq.
    apply bind_term; [apply IH; lia|discriminate].
Qed.

Lemma packets_fuel : forall n m d p, len d <= p + N.of_nat n -> (S n <= m)%nat ->
  read_packets m d p = read_packets (S n) d p.
Proof.
  induction n as [|n IH]; intros [|m] d p H Hm; try lia; cbn [read_packets]; (destruct (p <? len d) eqn:E; [|reflexivity]).
  - lia.
  - destruct (read_packet d p) as [[x q]| | |] eqn:Hq; cbn [bind]; auto. apply packet_pos in Hq.
    rewrite (IH m d q) by lia. reflexivity.
Qed.

(** ** Sequences *)
Lemma placed_roundtrip pre post tag c w : fits days_kept tag c -> raw c = Ok w -> len w < two64 ->
  placed (len pre) c -> tag_read tag (pre ++ w ++ post) (len pre) (len w) = Ok c.
Proof.
  intros Hf Hw HL Hp.
  destruct c; try (apply packet_roundtrip; auto; exact I).
  - cbn [fits] in Hf. destruct Hf as (-> & -> & Hk & Hm). cbn [raw] in Hw. apply Ok_inj in Hw. subst w.
    exact (proj2 (session_iff pre post keyid pka mpi Hk Hm) Hp).
  - apply packet_roundtrip; auto. cbn [positioned placed] in *. intros V. apply len_0. auto.
  - cbn [fits] in Hf. destruct Hf as (-> & HF). cbn [raw] in Hw. apply Ok_inj in Hw. subst w.
    exact (proj2 (attrs_iff pre post attrs HF) Hp).
Qed.

Lemma frame_written p body pre post : header_ok p (len body) -> raw (p_body p) = Ok body ->
  exists h, write p = Ok (h ++ body) /\
  read_frame (pre ++ (h ++ body) ++ post) (len pre) =
  Ok (p_format p, p_tag p, {| bl_part := NOT_PARTIAL; bl_start := len pre + len h; bl_len := len body;
       bl_data := []; bl_pos := len pre + len h + len body |}).
Proof.
  intros [Hp Hh] Hr. unfold write. rewrite Hr, Hp. cbn [bind].
  replace (if can_have_partial_length (p_tag p) then NOT_PARTIAL else NOT_PARTIAL) with NOT_PARTIAL by now destruct (can_have_partial_length _).
  set (tag := p_tag p) in *. destruct (p_format p).
  - destruct Hh as (Ht & Hl). replace (15 <? tag) with false by lia.
    destruct (write_old_any tag body 0 Ht) as (t & h & E & H & T); [lia|]. rewrite E.
    assert (Ht2 : t < 2) by (apply T; lia).
    exists (128 + 4 * tag + t :: h). split; [reflexivity|]. unfold read_frame. cbn [app].
    destruct (read_header_old pre tag t ((h ++ body) ++ post)) as [-> C]; [lia|lia|]. cbn [bind].
    unfold read_packet_unformatted.
    replace (pre ++ 128 + 4 * tag + t :: (h ++ body) ++ post)
      with ((pre ++ [128 + 4 * tag + t]) ++ h ++ body ++ post)
      by (rewrite <- !app_assoc; reflexivity).
    replace (len pre + 1) with (len (pre ++ [128 + 4 * tag + t])) by (rewrite len_app; reflexivity).
    rewrite (read_plain_old _ _ (len body) t h) by auto. cbn [bind]. do 3 f_equal; rd_side.
  - destruct Hh as (Ht & Hl & H8). cbn [write_new_length].
    destruct (write_new_plain_default tag body Ht) as (h & E & H & H223 & _); [lia|]. rewrite E.
    exists (192 + tag :: h). split; [reflexivity|]. unfold read_frame. cbn [app].
    rewrite read_header_new by auto. cbn [bind]. unfold read_packet_unformatted.
    replace (pre ++ 192 + tag :: (h ++ body) ++ post)
      with ((pre ++ [192 + tag]) ++ h ++ body ++ post) by (rewrite <- !app_assoc; reflexivity).
    replace (len pre + 1) with (len (pre ++ [192 + tag])) by (rewrite len_app; reflexivity).
    rewrite (read_plain_new _ _ (len body) h); [|auto|tauto]. cbn [bind]. do 3 f_equal; rd_side.
Qed.

Lemma header_ok_len p n : header_ok p n -> n < two64.
Proof. intros [_ H]. unfold two64. destruct (p_format p); lia. Qed.

Lemma packet_written p h body pre post : header_ok p (len body) -> raw (p_body p) = Ok body ->
  write p = Ok (h ++ body) -> fits days_kept (p_tag p) (p_body p) -> placed (len pre + len h) (p_body p) ->
  read_packet (pre ++ (h ++ body) ++ post) (len pre) = Ok (p, len pre + len (h ++ body)).
Proof.
  intros Hh Hr Hw Hf Hp. destruct (frame_written p body pre post Hh Hr) as (h' & Hw' & HF).
  assert (h' = h) by (rewrite Hw in Hw'; apply Ok_inj in Hw'; now apply app_inv_tail in Hw'). subst h'.
  unfold read_packet. rewrite HF. cbn [bind bl_part bl_start bl_len bl_pos]. unfold read_packet_raw. cbn [is_partial andb].
  replace (pre ++ (h ++ body) ++ post) with ((pre ++ h) ++ body ++ post) by (rewrite <- !app_assoc; reflexivity).
  replace (len pre + len h) with (len (pre ++ h)) by apply len_app.
  rewrite (placed_roundtrip _ _ _ (p_body p)); auto.
  - cbn [bind]. do 2 f_equal; [|rd_side]. destruct p; cbn in *. f_equal. now destruct Hh.
  - eauto using header_ok_len.
  - now rewrite len_app.
Qed.

Lemma sequence_write off ps : sequence off ps -> exists w, write_packets ps = Ok w.
Proof.
  revert off. induction ps as [|p ps IH]; intros off H; [now exists []|].
  destruct H as (h & b & Hw & _ & _ & _ & _ & Hs). apply IH in Hs as (w & E).
  cbn [write_packets]. rewrite Hw. cbn [bind]. rewrite E. cbn [bind]. eauto.
Qed.

Lemma sequence_read : forall ps n pre post w, sequence (len pre) ps -> write_packets ps = Ok w ->
  (length ps <= n)%nat ->
  read_packets n (pre ++ w ++ post) (len pre) =
  (r <- read_packets (n - length ps) (pre ++ w ++ post) (len (pre ++ w)) ;; Ok (ps ++ r)).
Proof.
  induction ps as [|p ps IH]; intros n pre post w Hs Hw Hn.
  - apply Ok_inj in Hw. subst w. rewrite app_nil_r, Nat.sub_0_r. cbn [app].
    destruct (read_packets n _ _); reflexivity.
  - destruct Hs as (h & b & Hwp & Hr & Hh & Hf & Hp & Hs). cbn [write_packets] in Hw. rewrite Hwp in Hw. cbn [bind] in Hw.
    inv_bind Hw. apply Ok_inj in Hw. subst w. rename a into w.
    destruct n as [|n]; [cbn in Hn; lia|]. cbn [read_packets length Nat.sub].
    pose proof (packet_written p h b pre (w ++ post) Hh Hr Hwp Hf Hp) as HR.
    assert (ED : pre ++ ((h ++ b) ++ w) ++ post = pre ++ (h ++ b) ++ w ++ post) by now rewrite <- (app_assoc (h ++ b)).
    rewrite ED. assert (HL : len pre < len pre + len (h ++ b)) by (eapply packet_pos; eassumption).
    replace (len pre <? len (pre ++ (h ++ b) ++ w ++ post)) with true by (rewrite !(len_app pre), !(len_app (h ++ b)); lia).
    rewrite HR. cbn [bind].
    specialize (IH n (pre ++ h ++ b) post w). rewrite (len_app pre (h ++ b)) in IH.
    rewrite <- (app_assoc pre) in IH. rewrite IH; [|auto|auto|cbn in Hn; lia].
    rewrite <- !(app_assoc pre), bind_bind. reflexivity.
Qed.

Lemma write_packets_length off ps w : sequence off ps -> write_packets ps = Ok w -> (length ps <= length w)%nat.
Proof.
  revert off w. induction ps as [|p ps IH]; intros off w Hs Hw; [cbn; lia|].
  destruct Hs as (h & b & Hwp & Hr & Hh & Hf & Hp & Hs). cbn [write_packets] in Hw. rewrite Hwp in Hw. cbn [bind] in Hw.
  inv_bind Hw. apply Ok_inj in Hw. subst w. specialize (IH _ _ Hs E).
  destruct (frame_written p b [] [] Hh Hr) as (h' & Hw' & HF).
  apply frame_pos in HF. cbn [bl_pos len length N.of_nat] in HF.
  assert (h' = h) by (rewrite Hwp in Hw'; apply Ok_inj in Hw'; now apply app_inv_tail in Hw'). subst h'.
  rewrite app_length, app_length. cbn [length]. unfold len in HF. lia.
Qed.

Lemma sequence_roundtrip ps w : sequence 0 ps -> write_packets ps = Ok w -> read_raw w = Ok ps.
Proof.
  intros Hs Hw. pose proof (write_packets_length _ _ _ Hs Hw) as HL. unfold read_raw.
  pose proof (sequence_read ps (S (length w)) [] [] w Hs Hw ltac:(lia)) as E.
  cbn [app] in E. rewrite app_nil_r in E. cbn [len length N.of_nat] in E. fold (len w) in E. rewrite E.
  replace (S (length w) - length ps)%nat with (S (length w - length ps)) by lia. cbn [read_packets].
  rewrite N.ltb_irrefl. cbn [bind]. now rewrite app_nil_r.
Qed.

(** ** Facts for refutations *)
Lemma frame_partial d p f tag b : len d < two64 -> read_frame d p = Ok (f, tag, b) -> bl_part b = PARTIAL ->
  bl_start b = 0 /\ bl_len b = len (bl_data b).
Proof.
  intros HL H HP. unfold read_frame in H. inv_bind H. destruct a as [[[c f'] t] q]. inv_bind H. apply Ok_inj in H.
  injection H as -> -> ->. unfold read_packet_unformatted in E0. inv_bind E0. destruct a as [b'|].
  - apply Ok_inj in E0. subst b'. unfold read_plain in E1.
    destruct f; repeat (inv_bind E1); cbv zeta in E1;
    repeat (match type of E1 with context [if ?b then _ else _] => destruct b eqn:? end);
    repeat (inv_bind E1);
    repeat (match goal with a : _ * _ |- _ => destruct a end);
    apply Ok_inj in E1; try discriminate; injection E1 as <-; try discriminate HP.
    cbn [bl_start bl_len bl_data]. split; [reflexivity|].
    match goal with X : substr _ _ _ = Ok _ |- _ => pose proof (substr_len _ _ _ _ X) as Y; apply substr_inv in X as [X _] end.
    rewrite Y. unfold sub64, two64 in *. lia.
  - inv_bind E0. cbv zeta in E0. inv_bind E0. inv_bind E0. destruct a1 as [acc r]. inv_bind E0.
    destruct a1 as [b'|]; [|discriminate].
    destruct (bl_part b'); [inv_bind E0|]; apply Ok_inj in E0; subst b; cbn [bl_start bl_len bl_data]; auto.
Qed.

Lemma whole_read tag d c : In tag [8;9;18] -> d <> [] -> tag_read tag d 0 (len d) = Ok c -> raw c = Ok d.
Proof.
  intros Ht Hd H. assert (Hn : len d <> 0) by (intros X; apply len_0 in X; auto).
  cbn [In] in Ht. destruct Ht as [<-|[<-|[<-|[]]]].
  - apply (proj1 (tag_read_pos 8 _ _ _ _ _ eq_refl Hn)) in H; cbn [actual_read] in H. unfold tag8_read in H. destruct d as [|x d]; [tauto|]. rewrite at_0 in H. cbn [bind] in H.
    rewrite substr_cons_r in H by lia. rewrite len_cons in H.
    replace (substr d (0 + 1 - 1) (1 + len d - 1)) with (Ok d) in H by (symmetry; apply substr_all; [reflexivity|lia]).
    cbn [bind] in H. injection H as <-. reflexivity.
  - apply (proj1 (tag_read_pos 9 _ _ _ _ _ eq_refl Hn)) in H; cbn [actual_read] in H. unfold raw_read in H. rewrite substr_all in H by (reflexivity || lia). cbn [bind] in H. injection H as <-. reflexivity.
  - apply (proj1 (tag_read_pos 18 _ _ _ _ _ eq_refl Hn)) in H; cbn [actual_read] in H. unfold tag18_read in H. destruct d as [|x d]; [tauto|]. rewrite at_0 in H. cbn [bind] in H.
    rewrite substr_cons_r in H by lia. rewrite len_cons in H.
    replace (substr d (0 + 1 - 1) (1 + len d - 1)) with (Ok d) in H by (symmetry; apply substr_all; [reflexivity|lia]).
    cbn [bind] in H. injection H as <-. reflexivity.
Qed.
Lemma default_small tag c0 : contents_new tag = Ok c0 -> exists w, raw c0 = Ok w /\ len w < 100.
Proof.
  intros H. assert (Ht := contents_new_tags _ _ H). unfold tag_cases in Ht. cbn [In] in Ht.
  repeat destruct Ht as [<-|Ht]; try tauto; cbn in H; apply Ok_inj in H; subst c0; (eexists; split; [reflexivity|vm_compute; reflexivity]).
Qed.
Lemma read_raw_first w p ps : read_raw w = Ok (p :: ps) -> exists q, read_packet w 0 = Ok (p, q) /\ read_packets (length w) w q = Ok ps.
Proof.
  unfold read_raw. cbn [read_packets]. destruct (0 <? len w); [|discriminate]. intros H. inv_bind H. destruct a as [x q].
  inv_bind H. apply Ok_inj in H. injection H as -> ->. eauto.
Qed.
Lemma read_packets_first n w p ps q0 : read_packets n w q0 = Ok (p :: ps) -> exists q, read_packet w q0 = Ok (p, q).
Proof.
  destruct n; [discriminate|]. cbn [read_packets]. destruct (_ <? len w); [|discriminate]. intros H. inv_bind H. destruct a as [x q].
  inv_bind H. apply Ok_inj in H. injection H as -> ->. eauto.
Qed.

(** ** Safety of framing *)
Lemma safe_if {A} (b : bool) (x y : result A) : (b = true -> safe x) -> (b = false -> safe y) -> safe (if b then x else y).
Proof. destruct b; auto. Qed.

(** A new-format header with a partial length starts at [p]. *)
Definition partial_here (d : bytes) (p : N) : Prop :=
  exists c o, at_ d p = Ok c /\ 192 <= c /\ at_ d (p + 1) = Ok o /\ 224 <= o <= 254.

Lemma at_nz d p c : at_ d p = Ok c -> c <> 0 -> p < len d.
Proof.
  intros H Hc. destruct (N.lt_ge_cases p (len d)) as [L|L]; auto. exfalso.
  unfold at_ in H. replace (p <? len d) with false in H by lia. destruct (p =? len d); congruence.
Qed.
Lemma plain_safe f ctb d p : p <= len d -> safe (read_plain f ctb d p).
Proof.
  intros Hp. assert (A : safe (at_ d p)) by now apply safe_at.
  unfold read_plain, read_one_octet_lengths, read_two_octet_lengths, read_five_octet_lengths.
  destruct f; cbv zeta.
  - repeat (apply safe_if; intros ?);
      repeat first [exact I | apply safe_substr | apply A | apply safe_bind; [|intros [? ?] ?] | apply safe_bind; [|intros ? ?]].
  - apply safe_bind; [auto|intros c Hc]. cbv zeta.
    repeat (apply safe_if; intros ?);
      repeat first [exact I | apply safe_substr | apply A | apply safe_bind; [|intros [? ?] ?] | apply safe_bind; [|intros ? ?]].
    apply safe_at. assert (p < len d); [|lia]. apply (at_nz _ _ _ Hc). intros ->. discriminate.
Qed.

Lemma header_safe d p : p <= len d -> safe (read_packet_header d p).
Proof.
  intros H. unfold read_packet_header. apply safe_bind; [now apply safe_at|intros c _]. cbv zeta.
  destruct (_ =? 0); [exact I|]. destruct (negb _); exact I.
Qed.
Lemma header_new d p c t q : read_packet_header d p = Ok (c, NEW, t, q) -> 192 <= c.
Proof.
  unfold read_packet_header. intros E. inv_bind E. cbv zeta in E. rename a into o.
  destruct (_ =? 0) eqn:E1 in E; [discriminate|]. destruct (negb _) eqn:E2 in E; apply Ok_inj in E; [|discriminate].
  injection E as <- _ _.
  assert (B : u8 o < 256) by (unfold u8; lia). revert E1 E2 B. generalize (u8 o). clear. intros n E1 E2 B.
  assert (X : forallb (fun k => (N.land k 128 =? 0) || (N.land k 64 =? 0) || (192 <=? k)) (map N.of_nat (seq 0 256)) = true) by reflexivity.
  rewrite forallb_forall in X. specialize (X n). rewrite E1 in X. apply negb_true_iff in E2. rewrite E2 in X. cbn [orb] in X.
  enough (192 <=? n = true) by lia. apply X. apply in_map_iff. exists (N.to_nat n). rewrite in_seq. lia.
Qed.
Lemma header_inv d p c f t q : octets d -> read_packet_header d p = Ok (c, f, t, q) -> q = p + 1 /\ at_ d p = Ok c.
Proof.
  intros HO E. unfold read_packet_header in E. inv_bind E. cbv zeta in E. apply at_octet in E0 as L; auto.
  assert (u8 a = a) by (unfold u8; lia). rewrite H in E.
  destruct (_ =? 0); [discriminate|]. destruct (negb _); apply Ok_inj in E; injection E as <- _ _ <-; auto.
Qed.

(** Without a partial length at [p] the frame reader does not leave the data. *)
Lemma frame_safe d p : octets d -> p < len d -> ~ partial_here d p -> safe (read_frame d p).
Proof.
  intros HO Hp Hn. unfold read_frame. apply safe_bind; [apply header_safe; lia|intros [[[c f] t] q] E].
  destruct (header_inv _ _ _ _ _ _ HO E) as [-> Ec].
  apply safe_bind; [|intros; exact I].
  unfold read_packet_unformatted. apply safe_bind; [apply plain_safe; lia|intros [b|] Eb]; [exact I|].
  apply read_plain_none in Eb as (-> & o & Eo & Ho). exfalso. apply Hn.
  apply header_new in E. apply at_octet in Eo as L; auto. assert (u8 o = o) by (unfold u8; lia).
  exists c, o. repeat split; auto; lia.
Qed.

(** Readers that stay in the data if the body is there. *)
Lemma simple_safe tag d p n : In tag [4;8;9;10;11;12;13;18;19;60;61;62;63] ->
  (In tag [8;11;18] -> n <> 0 -> p + n <= len d) -> (tag = 4 -> n <> 0 -> p + 3 <= len d) ->
  safe (tag_read tag d p n).
Proof.
  intros Ht H1 H4. unfold tag_read.
  destruct (contents_new_cases tag) as [(c & E & _)|E]; rewrite E; cbn [bind]; [|exact I].
  apply safe_if; intros Hn; [exact I|]. apply safe_bind; [|intros [? ?] _; apply safe_if; intros; exact I].
  cbn [In] in Ht. repeat destruct Ht as [<-|Ht]; try tauto; cbn [actual_read];
    unfold tag4_read, tag8_read, tag11_read, tag18_read, raw_read;
    try (apply safe_bind; [apply safe_substr|intros; exact I]).
  - specialize (H4 eq_refl ltac:(lia)). do 4 (apply safe_bind; [apply safe_at; lia|intros]).
    apply safe_bind; [apply safe_substr|intros k Hk]. apply substr_len in Hk. apply safe_if; intros; [|exact I].
    apply safe_bind; [apply safe_at; lia|intros; exact I].
  - cbn [In] in H1. apply safe_bind; [apply safe_at; lia|intros]. apply safe_bind; [apply safe_substr|intros; exact I].
  - cbn [In] in H1. do 2 (apply safe_bind; [apply safe_at; lia|intros]). do 3 (apply safe_bind; [apply safe_substr|intros]). exact I.
  - cbn [In] in H1. apply safe_bind; [apply safe_at; lia|intros]. apply safe_bind; [apply safe_substr|intros; exact I].
Qed.
