(** Properties C10, C11 and C12: packet sequences. *)
From Verif Require Import Proofs.PgpP Props.C06_C09.

(** ** C10 *)

(** Whatever [sequence] allows (see Spec.Sequence) is read back: same packets, same order,
    same header formats. *)
Theorem C10_sequence_roundtrip_partial : forall ps w,
  sequence 0 ps -> write_packets ps = Ok w -> read_raw w = Ok ps.
Proof. exact sequence_roundtrip. Qed.

(** The same inside a longer stream: the packets before and after stay where they are. *)
Theorem C10_sequence_inside_partial : forall ps n pre post w,
  sequence (len pre) ps -> write_packets ps = Ok w -> (length ps <= n)%nat ->
  read_packets n (pre ++ w ++ post) (len pre) =
  (r <- read_packets (n - length ps) (pre ++ w ++ post) (len (pre ++ w)) ;; Ok (ps ++ r)).
Proof. exact sequence_read. Qed.

(** Missing part 1: with two recipients (two session key packets of one integer and equal
    size) the sequence is never read back. *)
Theorem C10_two_recipients_refuted : forall p keyid pka m body w,
  p_tag p = 1 -> p_body p = PSession 3 keyid pka [m] -> len keyid = 8 -> mpi_fits m ->
  raw (p_body p) = Ok body -> header_ok p (len body) ->
  write_packets [p; p] = Ok w -> read_raw w <> Ok [p; p].
Proof.
  intros p keyid pka m body w Ht Hb Hk Hm Hr Hh Hw H.
  destruct (frame_written p body [] [] Hh Hr) as (h & Hwp & _).
  cbn [write_packets] in Hw. rewrite Hwp in Hw. cbn [bind] in Hw. apply Ok_inj in Hw. rewrite app_nil_r in Hw. subst w.
  apply read_raw_first in H as (q & H1 & H2).
  assert (HF : forall pre post, read_frame (pre ++ (h ++ body) ++ post) (len pre) =
    Ok (p_format p, p_tag p, {| bl_part := NOT_PARTIAL; bl_start := len pre + len h; bl_len := len body;
         bl_data := []; bl_pos := len pre + len h + len body |})).
  { intros pre post. destruct (frame_written p body pre post Hh Hr) as (h1 & Hw1 & HF1).
    assert (h1 = h) by (rewrite Hwp in Hw1; apply Ok_inj in Hw1; now apply app_inv_tail in Hw1). now subst h1. }
  change (read_packet ([] ++ (h ++ body) ++ h ++ body) (len []) = Ok (p, q)) in H1.
  unfold read_packet in H1. rewrite HF in H1. cbn [bind bl_part bl_start bl_len bl_pos] in H1. inv_bind H1. apply Ok_inj in H1. apply (f_equal snd) in H1. cbn [snd] in H1.
  assert (Q : q = len (h ++ body)) by (rewrite <- H1, len_app; reflexivity). rewrite Q in H2. clear Q H1.
  clear E a. apply read_packets_first in H2 as (q2 & H2).
  unfold read_packet in H2. specialize (HF (h ++ body) []). rewrite app_nil_r in HF. rewrite HF in H2.
  cbn [bind bl_part bl_start bl_len bl_pos] in H2. inv_bind H2. apply Ok_inj in H2. injection H2 as -> _.
  unfold read_packet_raw in E. cbn [is_partial andb] in E. inv_bind E. apply Ok_inj in E.
  assert (a = PSession 3 keyid pka [m]) by (rewrite <- Hb, <- E; reflexivity). subst a.
  rewrite Hb in Hr. cbn [raw] in Hr. apply Ok_inj in Hr.
  pose proof (session_iff ((h ++ body) ++ h) [] keyid pka [m] Hk ltac:(repeat constructor; auto)) as S. cbv zeta in S.
  change (session_raw keyid pka [m]) with (3 :: keyid ++ pka :: concat (map write_MPI [m])) in S. rewrite Hr, Ht in *.
  rewrite app_nil_r, <- app_assoc, len_app in S. apply S in E0. destruct E0 as [E0|E0]; [discriminate|].
  subst body. revert E0. unfold mpis_raw. cbn [removelast map concat]. rewrite !len_app, !len_cons, !len_app, !len_cons, !len_app, len_nil. lia.
Qed.

(** Missing part 2: a new-format packet of 8128 to 8383 octets is lost. *)
Theorem C10_length_223_refuted : forall p body ps w,
  p_format p = NEW -> p_partial p = NOT_PARTIAL -> p_tag p < 64 -> raw (p_body p) = Ok body ->
  8128 <= len body <= 8383 -> write_packets (p :: ps) = Ok w -> read_raw w <> Ok (p :: ps).
Proof.
  intros p body ps w Hf Hp Ht Hr Hl Hw H.
  cbn [write_packets] in Hw. inv_bind Hw. inv_bind Hw. apply Ok_inj in Hw. subst w.
  unfold write in E. rewrite Hr, Hf, Hp in E. cbn [bind] in E.
  replace (if can_have_partial_length (p_tag p) then NOT_PARTIAL else NOT_PARTIAL) with NOT_PARTIAL in E by now destruct (can_have_partial_length _).
  destruct (C06_new_roundtrip_refuted [] a0 (p_tag p) body Ht Hl) as (w' & b & E1 & E2 & E3 & _).
  assert (w' = a) by congruence. subst w'. cbn [app len length N.of_nat] in E2.
  apply read_raw_first in H as (q & H & _). unfold read_packet in H. rewrite E2 in H. cbn [bind] in H. inv_bind H.
  apply Ok_inj in H. injection H as -> _. unfold read_packet_raw in E4. rewrite E3 in E4. unfold tag_read in E4.
  assert (exists c0, contents_new (p_tag p) = Ok c0 /\ p_body p = c0) as (c0 & N0 & B).
  { destruct (bl_part b); (destruct (_ && _); [discriminate|]); inv_bind E4; inv_bind E5; cbn [N.eqb] in E5;
      apply Ok_inj in E4, E5; subst; rewrite <- E4; eauto. }
  apply default_small in N0 as (w & Hw & Hw2). rewrite <- B, Hr in Hw. apply Ok_inj in Hw. subst w. lia.
Qed.

(** Missing part 3: an old-format packet of 65536 octets or more; a user ID comes back
    without its first octet. *)
Theorem C10_old_long_refuted : forall tag x body w, In tag [9;10;12;13] -> x < 256 ->
  2 ^ 16 <= len (x :: body) < 2 ^ 24 ->
  write_packets [mkPacket tag OLD NOT_PARTIAL (PRaw (x :: body))] = Ok w ->
  read_raw w = Ok [mkPacket tag OLD NOT_PARTIAL (PRaw body)].
Proof.
  intros tag x body w Ht Hx Hl Hw. assert (T16 : tag < 16) by (cbn [In] in Ht; lia).
  assert (E : write (mkPacket tag OLD NOT_PARTIAL (PRaw (x :: body))) = Ok (write_old_length tag (x :: body) NOT_PARTIAL 0)).
  { unfold write. cbn [raw p_body bind p_tag p_format p_partial]. replace (15 <? tag) with false by lia.
    now destruct (can_have_partial_length tag). }
  cbn [write_packets] in Hw. rewrite E in Hw. cbn [bind] in Hw. apply Ok_inj in Hw. rewrite app_nil_r in Hw.
  destruct (C07_old_roundtrip_refuted [] [] tag x body T16 Hx Hl) as (b & R & B1 & B2 & _ & B3 & B4).
  cbv zeta in R. rewrite app_nil_r in R. cbn [app] in R. rewrite Hw in R. change (len []) with 0 in *.
  destruct (write_old_any tag (x :: body) 0 T16) as (t & h & E1 & H1 & _); [lia|]. rewrite Hw in E1.
  assert (LH : len h = 4) by (destruct H1; [lia|lia|apply len_be]).
  assert (EW : w = (128 + 4 * tag + t :: h ++ [x]) ++ body).
  { rewrite E1. cbn [app]. rewrite <- app_assoc. reflexivity. }
  assert (LW : len w = 6 + len body) by (rewrite EW; rd_side).
  assert (RP : read_packet w 0 = Ok (mkPacket tag OLD NOT_PARTIAL (PRaw body), bl_pos b)).
  { unfold read_packet. rewrite R. cbn [bind]. rewrite B3. unfold read_packet_raw. cbn [is_partial andb].
    destruct (fits_new days_16 tag (PRaw [1])) as (c0 & C0).
    { cbn [fits]. split; [cbn [In] in *; tauto|discriminate]. }
    assert (NZ : bl_len b <> 0) by lia.
    rewrite (proj2 (tag_read_pos _ _ _ _ _ (PRaw body) C0 NZ)); [reflexivity|].
    assert (ER : actual_read tag = raw_read) by (cbn [In] in Ht; repeat destruct Ht as [<-|Ht]; try reflexivity; tauto).
    rewrite ER. unfold raw_read. rewrite B2, EW. rewrite substr_app_end; [reflexivity|rd_side|].
    rewrite B1, len_cons. lia. }
  unfold read_raw. cbn [read_packets]. replace (0 <? len w) with true by lia. rewrite RP. cbn [bind].
  rewrite (packets_fuel 0 (length w)); [|rewrite B4, B1, B2, LW, len_cons; lia|unfold len in LW; lia].
  cbn [read_packets]. replace (bl_pos b <? len w) with false by (rewrite B4, B1, B2, LW, len_cons; lia). reflexivity.
Qed.

(** Missing part 4: compressed or encrypted data written with partial lengths and followed by
    another packet. *)
Theorem C10_partial_refuted : forall p body ps w w', In (p_tag p) [8;9;18] ->
  p_format p = NEW -> p_partial p = PARTIAL -> raw (p_body p) = Ok body -> 512 <= len body < 2 ^ 31 ->
  write_packets (p :: ps) = Ok w -> write_packets ps = Ok w' -> w' <> [] -> len w < 2 ^ 64 ->
  read_raw w <> Ok (p :: ps).
Proof.
  intros p body ps w w' Ht Hf Hp Hr Hl Hw Hw' Hne HL H.
  cbn [write_packets] in Hw. rewrite Hw' in Hw. inv_bind Hw. cbn [bind] in Hw. apply Ok_inj in Hw. subst w.
  unfold write in E. rewrite Hr, Hf, Hp in E. cbn [bind] in E.
  replace (can_have_partial_length (p_tag p)) with true in E by (cbn [In] in Ht; repeat destruct Ht as [<-|Ht]; try tauto; reflexivity).
  assert (Ht4 : In (p_tag p) [8;9;11;18]) by (cbn [In] in *; tauto).
  destruct (C09_roundtrip_refuted [] w' (p_tag p) body Ht4 Hl Hne) as (w & b & E1 & E2 & E3).
  assert (w = a) by congruence. subst w. cbn [app] in E2. change (len []) with 0 in E2.
  apply read_raw_first in H as (q & H & _). unfold read_packet in H. rewrite E2 in H. cbn [bind] in H. inv_bind H.
  apply Ok_inj in H. injection H as -> _.
  unfold read_packet_raw in E0. destruct (bl_part b) eqn:P.
  - cbn [is_partial andb] in E0. inv_bind E0. apply Ok_inj in E0. rewrite <- E0 in Hp. discriminate.
  - destruct (_ && _) in E0; [discriminate|]. inv_bind E0. apply Ok_inj in E0.
    destruct (frame_partial _ _ _ _ _ HL E2 P) as [B1 B2]. rewrite B1, B2 in E4.
    assert (NE : bl_data b <> []) by (intros X; rewrite X in E3; cbn in E3; lia).
    apply whole_read in E4; auto. rewrite <- E0 in Hr. cbn [p_body] in Hr.
    assert (body = bl_data b) by congruence. subst body. lia.
Qed.

(** ** C11 *)

(** The reader ends for every input: with enough iterations the outcome no longer depends
    on their number, and it is not "ran out of iterations". *)
Theorem C11_terminates : forall data, exists n, forall m, (n <= m)%nat ->
  read_packets m data 0 = read_raw data /\ read_raw data <> Diverge.
Proof.
  intros data. exists (S (length data)). intros m Hm. split.
  - unfold read_raw. rewrite (packets_fuel (length data) m) by (unfold len; lia). reflexivity.
  - apply packets_term. unfold len. lia.
Qed.

(** Each packet consumes at least one octet. *)
Theorem C11_progress : forall data pos p pos', read_packet data pos = Ok (p, pos') -> pos < pos'.
Proof. exact packet_pos. Qed.

Theorem C11_count : forall data ps, read_raw data = Ok ps -> (length ps <= length data)%nat.
Proof.
  assert (G : forall n data pos ps, read_packets n data pos = Ok ps -> N.of_nat (length ps) <= len data - pos).
  { induction n; intros data pos ps H; [discriminate|]. cbn [read_packets] in H.
    destruct (pos <? len data) eqn:L; [|apply Ok_inj in H; subst; cbn; lia].
    inv_bind H. destruct a as [p q]. inv_bind H. apply Ok_inj in H. subst. apply packet_pos in E.
    apply IHn in E0. cbn [length]. lia. }
  intros data ps H. apply G in H. unfold len in H. lia.
Qed.

(** Parsing one packet of any tag at any place ends, too. *)
Theorem C11_packet_terminates : forall tag data pos length, tag_read tag data pos length <> Diverge.
Proof. exact tag_read_term. Qed.

(** ** C12 *)

(** Positions the reader starts a packet at. *)
Inductive reached (data : bytes) : N -> Prop :=
| reached_0 : reached data 0
| reached_next p f tag b : reached data p -> p < len data -> read_frame data p = Ok (f, tag, b) ->
    reached data (bl_pos b).

(** Packet headers other than partial ones are read inside the data, however long the data
    claims the body to be. *)
Theorem C12_header_partial : forall data pos, octets data -> pos < len data ->
  ~ partial_here data pos -> safe (read_frame data pos).
Proof. exact frame_safe. Qed.

(** A stream of packets that hold one string is read inside the data whatever lengths it
    claims; so are compressed, literal and protected data packets that are there to the
    end, and one-pass signatures with three octets. *)
Theorem C12_stream_partial : forall data, octets data -> len data < 2 ^ 64 ->
  (forall p, reached data p -> p < len data ->
     ~ partial_here data p /\
     forall f tag b, read_frame data p = Ok (f, tag, b) ->
       In tag [4;8;9;10;11;12;13;18;19;60;61;62;63] /\
       (In tag [8;11;18] -> bl_part b = NOT_PARTIAL -> bl_len b <> 0 -> bl_start b + bl_len b <= len data) /\
       (tag = 4 -> bl_part b = NOT_PARTIAL -> bl_start b + 3 <= len data)) ->
  safe (read_raw data).
Proof.
  intros data HO HL H.
  assert (G : forall n p, reached data p -> len data <= p + N.of_nat n -> safe (read_packets (S n) data p)).
  { induction n as [|n IH]; intros p Hp Hn; cbn [read_packets]; (apply safe_if; intros L; [|exact I]); [lia|].
    destruct (H p Hp ltac:(lia)) as [Hpart Hfr].
    apply safe_bind.
    - unfold read_packet. apply safe_bind; [apply frame_safe; auto; lia|intros [[f t] b] E].
      destruct (Hfr f t b E) as (Ht & H8 & H4). apply safe_bind; [|intros; exact I].
      unfold read_packet_raw. destruct (bl_part b) eqn:P.
      + cbn [is_partial andb]. apply safe_bind; [|intros; exact I]. apply simple_safe; auto.
      + apply safe_if; intros C; [exact I|]. destruct (frame_partial _ _ _ _ _ HL E P) as [B1 B2]. rewrite B1, B2.
        apply safe_bind; [|intros; exact I]. apply simple_safe; auto; [lia|]. intros ->. discriminate C.
    - intros [x q] E. apply safe_bind; [|intros; exact I].
      assert (Q : exists f t b, read_frame data p = Ok (f, t, b) /\ q = bl_pos b).
      { unfold read_packet in E. inv_bind E. destruct a as [[f t] b]. inv_bind E. apply Ok_inj in E. injection E as _ <-. eauto 6. }
      destruct Q as (f & t & b & Q & ->). apply frame_pos in Q as Q'. apply IH; [|lia].
      eapply reached_next; eauto. lia. }
  apply (G (length data) 0); [constructor|unfold len; lia].
Qed.

(** Missing part: every other packet type, cut after its first octet, makes the reader index
    behind the end of its input. *)
Theorem C12_truncated_refuted : forall tag, In tag [1;2;3;4;5;6;7;14] ->
  read_raw [192 + tag; 1; 4] = UB.
Proof. intros tag Ht. cbn [In] in Ht. repeat destruct Ht as [<-|Ht]; try tauto; vm_compute; reflexivity. Qed.
(** So do a header cut inside its length and a partial body cut after its first chunk. *)
Theorem C12_header_cut_refuted : forall tag, In tag [8;11;18] -> read_raw [192 + tag; 192] = UB.
Proof. intros tag Ht. cbn [In] in Ht. repeat destruct Ht as [<-|Ht]; try tauto; vm_compute; reflexivity. Qed.
Theorem C12_partial_cut_refuted : forall c, len c < 16 -> read_raw (200 :: 228 :: c) = UB.
Proof.
  intros c Hc. unfold read_raw. cbn [read_packets].
  replace (0 <? len (200 :: 228 :: c)) with true by (rewrite !len_cons; lia).
  unfold read_packet, read_frame, read_packet_header. rewrite at_0. cbn [bind].
  change (N.land (u8 200) 128 =? 0) with false. change (negb (N.land (u8 200) 64 =? 0)) with true. cbn [bind].
  unfold read_packet_unformatted, read_plain. rewrite at_cons_r by lia. rewrite at_0. cbn [bind].
  change (u8 228 <? 192) with false. change ((192 <=? u8 228) && (u8 228 <? 223)) with false.
  change (u8 228 =? 255) with false. change (224 <=? u8 228) with true. cbn [bind].
  change (read_partialBodyLen (u8 228)) with 16. change (0 + 1 + 1) with 2.
  rewrite !substr_cons_r by lia. change (2 - 1 - 1) with 0. rewrite substr_all by (reflexivity || lia). cbn [bind].
  rewrite read_partials_step. rewrite (proj2 (at_UB _ _)) by (rewrite !len_cons; lia). reflexivity.
Qed.

(** Hypotheses are met. *)
Lemma C10_fits m : m < 2 ^ 100 -> mpi_fits m.
Proof. intros. apply (N.lt_le_trans _ (2 ^ 100)); [auto|]. apply N.pow_le_mono_r; lia. Qed.
Example C10_example_message : sequence 0
  [mkPacket 1 NEW NOT_PARTIAL (PSession 3 [1;2;3;4;5;6;7;8] 1 [12345]);
   mkPacket 18 NEW NOT_PARTIAL (PProtected 1 (repeat 7 40))].
Proof.
  exists [193; 14]. eexists. split; [vm_compute; reflexivity|]. split; [reflexivity|].
  split; [repeat split; vm_compute; intuition discriminate|]. split.
  { split; [reflexivity|]. split; [reflexivity|]. split; [reflexivity|]. apply Forall_cons; [apply C10_fits; reflexivity|apply Forall_nil]. }
  split; [right; vm_compute; reflexivity|].
  exists [210; 41]. eexists. split; [vm_compute; reflexivity|]. split; [reflexivity|].
  split; [repeat split; vm_compute; intuition discriminate|]. split; [reflexivity|]. split; exact I.
Qed.
(** A user ID packet that claims nine octets and has two. *)
Example C12_example : let data := [205; 9; 65; 66] in
  octets data /\ forall p, reached data p -> p < len data ->
     ~ partial_here data p /\
     forall f tag b, read_frame data p = Ok (f, tag, b) ->
       In tag [4;8;9;10;11;12;13;18;19;60;61;62;63] /\
       (In tag [8;11;18] -> bl_part b = NOT_PARTIAL -> bl_len b <> 0 -> bl_start b + bl_len b <= len data) /\
       (tag = 4 -> bl_part b = NOT_PARTIAL -> bl_start b + 3 <= len data).
Proof.
  intros data. split; [apply octetsb_spec; reflexivity|].
  set (b0 := {| bl_part := NOT_PARTIAL; bl_start := 2; bl_len := 9; bl_data := []; bl_pos := 11 |}).
  assert (F : read_frame data 0 = Ok (NEW, 13, b0)) by (vm_compute; reflexivity).
  assert (R : forall p, reached data p -> p = 0 \/ 4 <= p).
  { intros p H. induction H as [|p f t b H IH L E]; [auto|]. destruct IH as [->|IH]; [|cbn in L; lia].
    rewrite F in E. injection E as _ _ <-. right. cbn. lia. }
  intros p Hp Hl. destruct (R p Hp) as [->|H]; [|cbn in Hl; lia]. split.
  - intros (c & o & _ & _ & E & Ho). vm_compute in E. injection E as <-. lia.
  - intros f t b E. rewrite F in E. injection E as _ <- <-. cbn [In]. repeat split; try tauto; intros; exfalso; intuition discriminate.
Qed.

Print Assumptions C10_sequence_roundtrip_partial.
Print Assumptions C10_sequence_inside_partial.
Print Assumptions C10_two_recipients_refuted.
Print Assumptions C10_length_223_refuted.
Print Assumptions C10_old_long_refuted.
Print Assumptions C10_partial_refuted.
Print Assumptions C11_terminates.
Print Assumptions C11_progress.
Print Assumptions C11_count.
Print Assumptions C11_packet_terminates.
Print Assumptions C12_header_partial.
Print Assumptions C12_stream_partial.
Print Assumptions C12_truncated_refuted.
Print Assumptions C12_header_cut_refuted.
Print Assumptions C12_partial_cut_refuted.
