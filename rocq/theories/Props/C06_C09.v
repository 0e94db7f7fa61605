(** Properties C06-C09: packet and subpacket length headers. *)
From Verif Require Import Proofs.Lib Model.Includes Model.Mpi Model.Length Spec.Framing
  Proofs.IncludesP Proofs.MpiP Proofs.LengthP.

(** The reader reports tag [tag], format [f] and a body lying in the input exactly at
    [body], and moves the cursor just behind it. *)
Definition reads_body (data : bytes) (pos : N) (f : header_format) (tag : N) (body : bytes)
  (next : N) : Prop :=
  exists b, read_frame data pos = Ok (f, tag, b) /\ bl_part b = NOT_PARTIAL /\
    substr data (bl_start b) (bl_len b) = Ok body /\ bl_len b = len body /\ bl_pos b = next.

(** ** C06 *)

(** What is written is a legal RFC 4880 header followed by the body, whatever
    length-of-length is requested (a two-octet request needs a length of 192 or more). *)
Theorem C06_new_writer_rfc : forall tag body octets, tag < 64 -> len body < 2 ^ 32 ->
  (octets = 2 -> 192 <= len body) ->
  exists h, write_new_length tag body NOT_PARTIAL octets = Ok (192 + tag :: h ++ body) /\
    new_len (len body) h.
Proof.
  intros tag body o Ht Hl Ho. destruct (write_new_plain_any tag body o Ht Hl Ho) as (h & E & H).
  exists h. split; [|auto]. cbn [write_new_length]. now rewrite E.
Qed.

(** Every legal header is read correctly, unless its first octet is 223. *)
Theorem C06_new_reader_rfc : forall pre post tag body h, tag < 64 ->
  new_len (len body) h -> nth_error h 0 <> Some 223 ->
  reads_body (pre ++ (192 + tag :: h ++ body) ++ post) (len pre) NEW tag body
    (len (pre ++ (192 + tag :: h ++ body))).
Proof.
  intros pre post tag body h Ht Hh H223. unfold reads_body, read_frame. cbn [app].
  rewrite read_header_new by auto. cbn [bind].
  unfold read_packet_unformatted.
  replace (pre ++ 192 + tag :: (h ++ body) ++ post) with ((pre ++ [192 + tag]) ++ h ++ body ++ post)
    by (rewrite <- !app_assoc; reflexivity).
  replace (len pre + 1) with (len (pre ++ [192 + tag])) by (rewrite len_app; reflexivity).
  rewrite (read_plain_new _ _ (len body) h) by auto. cbn [bind].
  eexists. split; [reflexivity|]. cbn [bl_part bl_start bl_len bl_pos]. repeat split.
  - rewrite app_assoc. apply substr_app; [rewrite !len_app; reflexivity | reflexivity].
  - autorewrite with len. lia.
Qed.

Theorem C06_new_roundtrip_partial : forall pre post tag body, tag < 64 -> len body < 2 ^ 32 ->
  ~ (8128 <= len body <= 8383) ->
  exists w, write_new_length tag body NOT_PARTIAL 0 = Ok w /\
    reads_body (pre ++ w ++ post) (len pre) NEW tag body (len (pre ++ w)).
Proof.
  intros pre post tag body Ht Hl Hn.
  destruct (write_new_plain_default tag body Ht Hl) as (h & E & H & H223 & _).
  eexists. split; [cbn [write_new_length]; rewrite E; reflexivity|].
  apply C06_new_reader_rfc; auto. now rewrite H223.
Qed.

(** The full property fails: every body of 8128..8383 octets is written with first length
    octet 223, which the reader takes for an empty body, leaving the cursor on the length. *)
Theorem C06_new_roundtrip_refuted : forall pre post tag body, tag < 64 ->
  8128 <= len body <= 8383 ->
  exists w b, write_new_length tag body NOT_PARTIAL 0 = Ok w /\
    read_frame (pre ++ w ++ post) (len pre) = Ok (NEW, tag, b) /\
    bl_len b = 0 /\ bl_pos b = len pre + 1.
Proof.
  intros pre post tag body Ht Hl.
  destruct (write_new_plain_default tag body Ht) as (h & E & H & H223 & _); [lia|].
  apply H223 in Hl as H0. destruct h as [|x h]; [discriminate|]. injection H0 as ->.
  exists (192 + tag :: (223 :: h) ++ body). eexists.
  split; [cbn [write_new_length]; now rewrite E|].
  unfold read_frame. cbn [app]. rewrite read_header_new by auto. cbn [bind].
  unfold read_packet_unformatted.
  replace (pre ++ 192 + tag :: 223 :: (h ++ body) ++ post)
    with ((pre ++ [192 + tag]) ++ 223 :: h ++ body ++ post)
    by (rewrite <- !app_assoc; reflexivity).
  replace (len pre + 1) with (len (pre ++ [192 + tag])) by (rewrite len_app; reflexivity).
  rewrite read_plain_223. cbn [bind]. split; [reflexivity|]. split; reflexivity.
Qed.

(** A two-octet request for a short body underflows: the written length is wrong. *)
Theorem C06_two_octet_request_refuted : exists tag body w b,
  len body < 192 /\ write_new_length tag body NOT_PARTIAL 2 = Ok w /\
  read_frame w 0 = Ok (NEW, tag, b) /\ bl_len b <> len body.
Proof.
  exists 11, [1; 2; 3]. eexists. eexists. split; [vm_compute; reflexivity|].
  split; [vm_compute; reflexivity|]. split; [vm_compute; reflexivity|]. vm_compute. discriminate.
Qed.

Example C06_ex : exists w, write_new_length 13 (repeat 65 300) NOT_PARTIAL 0 = Ok w /\
  read_frame (7 :: w ++ [1; 2]) 1 =
    Ok (NEW, 13, {| bl_part := NOT_PARTIAL; bl_start := 4; bl_len := 300; bl_data := []; bl_pos := 304 |}).
Proof. eexists. split; vm_compute; reflexivity. Qed.
Example C06_ex_5 : new_len 3 (255 :: [0; 0; 0; 3]). Proof. exact (NL5 3 eq_refl). Qed.

(** ** C07 *)
Theorem C07_old_writer_rfc : forall tag body octets, tag < 16 -> len body < 2 ^ 32 ->
  exists t h, write_old_length tag body NOT_PARTIAL octets = 128 + 4 * tag + t :: h ++ body /\
    old_len (len body) t h.
Proof.
  intros tag body o Ht Hl. destruct (write_old_any tag body o Ht Hl) as (t & h & E & H & _). eauto.
Qed.

Theorem C07_old_reader_rfc_partial : forall pre post tag body t h, tag < 16 ->
  old_len (len body) t h -> t <> 2 ->
  reads_body (pre ++ (128 + 4 * tag + t :: h ++ body) ++ post) (len pre) OLD tag body
    (len (pre ++ (128 + 4 * tag + t :: h ++ body))).
Proof.
  intros pre post tag body t h Ht Hh H2. unfold reads_body, read_frame. cbn [app].
  assert (Ht2 : t < 2) by (inversion Hh; subst; lia).
  destruct (read_header_old pre tag t ((h ++ body) ++ post)) as [-> C]; [lia|lia|]. cbn [bind].
  unfold read_packet_unformatted.
  replace (pre ++ 128 + 4 * tag + t :: (h ++ body) ++ post)
    with ((pre ++ [128 + 4 * tag + t]) ++ h ++ body ++ post)
    by (rewrite <- !app_assoc; reflexivity).
  replace (len pre + 1) with (len (pre ++ [128 + 4 * tag + t])) by (rewrite len_app; reflexivity).
  rewrite (read_plain_old _ _ (len body) t h) by auto. cbn [bind].
  eexists. split; [reflexivity|]. cbn [bl_part bl_start bl_len bl_pos]. repeat split.
  - rewrite app_assoc. apply substr_app; [rewrite !len_app; reflexivity | reflexivity].
  - autorewrite with len. lia.
Qed.

Theorem C07_old_roundtrip_partial : forall pre post tag body octets, tag < 16 ->
  len body < 2 ^ 16 -> octets <> 5 ->
  let w := write_old_length tag body NOT_PARTIAL octets in
  reads_body (pre ++ w ++ post) (len pre) OLD tag body (len (pre ++ w)).
Proof.
  intros pre post tag body o Ht Hl Ho.
  destruct (write_old_any tag body o Ht) as (t & h & E & H & T); [lia|].
  cbv zeta. rewrite E. apply C07_old_reader_rfc_partial; auto. specialize (T Ho Hl). lia.
Qed.

(** The full property fails for every packet written with a four-octet length: the reader
    skips the first length octet and takes the first body octet as the last one. *)
Theorem C07_old_roundtrip_refuted : forall pre post tag x body, tag < 16 -> x < 256 ->
  2 ^ 16 <= len (x :: body) < 2 ^ 24 ->
  let w := write_old_length tag (x :: body) NOT_PARTIAL 0 in
  exists b, read_frame (pre ++ w ++ post) (len pre) = Ok (OLD, tag, b) /\
    bl_len b = 256 * len (x :: body) + x /\ bl_start b = len pre + 6 /\
    bl_len b <> len (x :: body) /\ bl_part b = NOT_PARTIAL /\ bl_pos b = bl_start b + bl_len b.
Proof.
  intros pre post tag x body Ht Hx Hl.
  destruct (write_old_any tag (x :: body) 0 Ht) as (t & h & E & H & T); [lia|].
  cbv zeta. rewrite E. assert (t = 2 /\ h = be 4 (len (x :: body))) as [-> ->].
  { destruct H; try lia. auto. }
  remember (len (x :: body)) as n.
  unfold read_frame. cbn [app].
  destruct (read_header_old pre tag 2 ((be 4 n ++ x :: body) ++ post)) as [-> C]; [lia|lia|].
  cbn [bind]. unfold read_packet_unformatted, read_plain. rewrite C. cbn [N.eqb Pos.eqb].
  assert (B : be 4 n = 0 :: be 3 n).
  { cbn [be]. f_equal. change (256 ^ N.of_nat 3) with (2 ^ 24). lia. }
  replace (pre ++ 128 + 4 * tag + 2 :: (be 4 n ++ x :: body) ++ post)
    with ((pre ++ [128 + 4 * tag + 2]) ++ 0 :: be 4 (256 * n + x) ++ body ++ post).
  - rewrite read_five_app; [|rewrite len_app; reflexivity | lia]. cbn [bind].
    eexists. split; [reflexivity|]. cbn [bl_len bl_start bl_part bl_pos]. repeat split; lia.
  - rewrite B. rewrite be_S_r. replace ((256 * n + x) / 256) with n by lia.
    replace ((256 * n + x) mod 256) with x by lia.
    rewrite <- !app_assoc. cbn [app]. rewrite <- ?app_assoc. reflexivity.
Qed.

Example C07_ex : read_frame (9 :: write_old_length 6 (repeat 1 300) NOT_PARTIAL 0 ++ [5]) 1 =
  Ok (OLD, 6, {| bl_part := NOT_PARTIAL; bl_start := 4; bl_len := 300; bl_data := []; bl_pos := 304 |}).
Proof. vm_compute. reflexivity. Qed.
Example C07_ex_refuted : read_frame (write_old_length 6 [1; 2; 3] NOT_PARTIAL 5) 0 =
  Ok (OLD, 6, {| bl_part := NOT_PARTIAL; bl_start := 6; bl_len := 769; bl_data := []; bl_pos := 775 |}).
Proof. vm_compute. reflexivity. Qed.

(** ** C08 *)
Theorem C08_subpacket_writer_rfc : forall body, len body < 2 ^ 32 ->
  exists h, write_subpacket body = h ++ body /\ sub_len (len body) h.
Proof. exact write_subpacket_rfc. Qed.

Theorem C08_subpacket_reader_rfc : forall pre h body post, sub_len (len body) h ->
  read_subpacket (pre ++ h ++ body ++ post) (len pre) = Ok (len body, len (pre ++ h)).
Proof.
  intros. rewrite (read_subpacket_rfc pre (len body) h) by auto. now rewrite len_app.
Qed.

Theorem C08_subpacket_roundtrip : forall pre body post, len body < 2 ^ 32 ->
  exists start, read_subpacket (pre ++ write_subpacket body ++ post) (len pre) = Ok (len body, start)
    /\ substr (pre ++ write_subpacket body ++ post) start (len body) = Ok body
    /\ start + len body = len (pre ++ write_subpacket body).
Proof.
  intros pre body post Hl. destruct (write_subpacket_rfc body Hl) as (h & -> & H).
  exists (len (pre ++ h)). rewrite <- !app_assoc. rewrite C08_subpacket_reader_rfc by auto.
  split; [reflexivity|]. split.
  - rewrite app_assoc. apply substr_app; auto.
  - autorewrite with len. lia.
Qed.

Example C08_ex : read_subpacket (1 :: write_subpacket (repeat 7 (100 * 90)) ++ [2]) 1 = Ok (9000, 6).
Proof. vm_compute. reflexivity. Qed.

(** ** C09 *)

(** Reading a legal sequence of partial lengths gathers exactly the body.  What is missing
    from the property is the cursor: it ends [last] octets too far. *)
Theorem C09_reader_gathers_partial : forall pre post tag k c b w h last, tag < 64 ->
  k <= 30 -> len c = 2 ^ k -> partial_body b w h last -> nth_error h 0 <> Some 223 ->
  let stream := 192 + tag :: 224 + k :: c ++ w in
  exists loc, read_frame (pre ++ stream ++ post) (len pre) = Ok (NEW, tag, loc) /\
    bl_part loc = PARTIAL /\ bl_data loc = c ++ b /\ bl_start loc = 0 /\ bl_len loc = len (c ++ b) /\
    bl_pos loc = len (pre ++ stream) + last.
Proof.
  intros pre post tag k c b w h n Ht Hk Hc Hb Hh stream. subst stream.
  unfold read_frame. cbn [app]. rewrite read_header_new by auto. cbn [bind].
  replace (pre ++ 192 + tag :: 224 + k :: (c ++ w) ++ post)
    with ((pre ++ [192 + tag]) ++ (224 + k :: c ++ w) ++ post)
    by (rewrite <- app_assoc; reflexivity).
  replace (len pre + 1) with (len (pre ++ [192 + tag])) by (rewrite len_app; reflexivity).
  rewrite (read_unformatted_partial _ _ k c b w h n post) by auto. cbn [bind].
  eexists. split; [reflexivity|]. cbn [bl_part bl_data bl_start bl_len bl_pos]. repeat split.
  autorewrite with len. lia.
Qed.

(** So the packet following a partial-length packet is not found where it starts. *)
Theorem C09_reader_cursor_refuted : exists stream post loc,
  partial_body [1; 2; 3; 4; 5] stream [3] 3 /\
  read_frame (203 :: stream ++ post) 0 = Ok (NEW, 11, loc) /\
  bl_pos loc <> len (203 :: stream).
Proof.
  exists [225; 1; 2; 3; 3; 4; 5], [200; 1; 2]. eexists. split.
  - apply (PB_chunk 1 [1; 2] [3; 4; 5] [3; 3; 4; 5] [3] 3); [lia|reflexivity|].
    apply (PB_last [3; 4; 5] [3]). constructor. vm_compute. discriminate.
  - split; [vm_compute; reflexivity|]. vm_compute. discriminate.
Qed.

(** Write then read.  It works when the packet is the last one and its length mod 512 is
    below 192 ... *)
Theorem C09_roundtrip_partial : forall pre tag body, In tag [8; 9; 11; 18] ->
  512 <= len body < 2 ^ 31 -> len body mod 512 < 192 ->
  exists w loc, write_new_length tag body PARTIAL 0 = Ok w /\
    read_frame (pre ++ w) (len pre) = Ok (NEW, tag, loc) /\
    bl_part loc = PARTIAL /\ bl_data loc = body /\ bl_start loc = 0 /\ bl_len loc = len body /\
    len (pre ++ w) <= bl_pos loc.
Proof.
  intros pre tag body Ht Hl Hm.
  assert (T : 8 <= tag <= 18) by (cbn [In] in Ht; lia).
  destruct (write_new_partial_shape tag body)
    as (c & last & w & h & -> & Hc & Hw & Ll & Hh & H223 & H1 & _ & E); [lia|lia|].
  rewrite H1 in * by lia. clear H1.
  destruct (read_written_partial (192 + tag) tag (pre ++ [192 + tag]) c w [len last] (len last) last [])
    as (o & r & [= <- <-] & R); auto; [lia|].
  eexists. eexists. split; [exact E|].
  unfold read_frame. rewrite read_header_new by lia. cbn [bind].
  rewrite app_nil_r in R. cbn [app] in R. rewrite <- app_assoc in R. cbn [app] in R.
  replace (len pre + 1) with (len (pre ++ [192 + tag])) by (rewrite len_app; reflexivity).
  cbn [app]. rewrite R. cbn [bind]. cbv zeta.
  rewrite app_nil_r in *. rewrite prefix_all by lia.
  split; [reflexivity|]. cbn [bl_part bl_data bl_start bl_len bl_pos]. repeat split.
  autorewrite with len. lia.
Qed.

(** ... and never works when anything follows: the reader swallows part of it. *)
Theorem C09_roundtrip_refuted : forall pre post tag body, In tag [8; 9; 11; 18] ->
  512 <= len body < 2 ^ 31 -> post <> [] ->
  exists w loc, write_new_length tag body PARTIAL 0 = Ok w /\
    read_frame (pre ++ w ++ post) (len pre) = Ok (NEW, tag, loc) /\
    len body < len (bl_data loc).
Proof.
  intros pre post tag body Ht Hl Hp.
  assert (T : 8 <= tag <= 18) by (cbn [In] in Ht; lia).
  destruct (write_new_partial_shape tag body)
    as (c & last & w & h & -> & Hc & Hw & Ll & Hh & H223 & _ & _ & E); [lia|lia|].
  destruct (read_written_partial (192 + tag) tag (pre ++ [192 + tag]) c w h (len last) last post)
    as (o & r & -> & R); auto; [lia|].
  eexists. eexists. split; [exact E|].
  unfold read_frame. cbn [app]. rewrite read_header_new by lia. cbn [bind].
  replace (len pre + 1) with (len (pre ++ [192 + tag])) by (rewrite len_app; reflexivity).
  replace (pre ++ 192 + tag :: (w ++ 192 + tag :: o :: r ++ last) ++ post)
    with ((pre ++ [192 + tag]) ++ (w ++ 192 + tag :: (o :: r) ++ last) ++ post)
    by (rewrite <- app_assoc; reflexivity).
  rewrite R. cbn [bind]. cbv zeta. split; [reflexivity|]. cbn [bl_data].
  rewrite !len_app, len_prefix, !len_app.
  assert (len post <> 0) by (intros X; apply len_0 in X; auto). lia.
Qed.

(** Bodies shorter than 512 octets cannot be written with partial lengths at all. *)
Theorem C09_short_body_throws : forall tag body octets, len body < 512 ->
  write_new_length tag body PARTIAL octets = Throw ERuntime.
Proof. intros. unfold write_new_length. now replace (len body <? 512) with true by lia. Qed.

Example C09_ex : exists w loc, write_new_length 11 (repeat 65 (512 + 1024 + 100)) PARTIAL 0 = Ok w /\
  read_frame w 0 = Ok (NEW, 11, loc) /\ bl_data loc = repeat 65 (512 + 1024 + 100).
Proof. eexists. eexists. split; [|split]; vm_compute; reflexivity. Qed.

Print Assumptions C06_new_writer_rfc.
Print Assumptions C06_new_reader_rfc.
Print Assumptions C06_new_roundtrip_partial.
Print Assumptions C06_new_roundtrip_refuted.
Print Assumptions C06_two_octet_request_refuted.
Print Assumptions C07_old_writer_rfc.
Print Assumptions C07_old_reader_rfc_partial.
Print Assumptions C07_old_roundtrip_partial.
Print Assumptions C07_old_roundtrip_refuted.
Print Assumptions C08_subpacket_writer_rfc.
Print Assumptions C08_subpacket_reader_rfc.
Print Assumptions C08_subpacket_roundtrip.
Print Assumptions C09_reader_gathers_partial.
Print Assumptions C09_reader_cursor_refuted.
Print Assumptions C09_roundtrip_partial.
Print Assumptions C09_roundtrip_refuted.
Print Assumptions C09_short_body_throws.
