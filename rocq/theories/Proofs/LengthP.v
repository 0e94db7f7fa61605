(** Lemmas about Model.Length. *)
From Verif Require Import Proofs.Lib Model.Includes Model.Mpi Model.Length Spec.Framing
  Proofs.IncludesP Proofs.MpiP.

Lemma at_pre_cons pre x post p : p = len pre -> at_ (pre ++ x :: post) p = Ok x.
Proof. apply at_app. Qed.

Lemma at_pre_cons2 pre x y post p : p = len pre + 1 -> at_ (pre ++ x :: y :: post) p = Ok y.
Proof.
  intros ->. change (pre ++ x :: y :: post) with (pre ++ [x] ++ y :: post).
  rewrite app_assoc. apply at_app. rewrite len_app. reflexivity.
Qed.

Lemma read_one_app pre l post pos : pos = len pre -> l < 256 ->
  read_one_octet_lengths (pre ++ l :: post) pos = Ok (l, pos + 1).
Proof.
  intros -> Hl. unfold read_one_octet_lengths. rewrite at_app by auto. cbn [bind].
  unfold u8. now rewrite N.mod_small.
Qed.

Lemma read_two_new_app pre a b post pos : pos = len pre -> 192 <= a < 256 -> b < 256 ->
  read_two_octet_lengths NEW (pre ++ a :: b :: post) pos = Ok ((a - 192) * 256 + b + 192, pos + 2).
Proof.
  intros -> Ha Hb. unfold read_two_octet_lengths.
  rewrite at_app, at_pre_cons2 by auto. cbn [bind].
  unfold u8. rewrite !N.mod_small by lia. rewrite N.shiftl_mul_pow2. reflexivity.
Qed.

Lemma read_two_old_app pre l post pos : pos = len pre -> l < 2 ^ 16 ->
  read_two_octet_lengths OLD (pre ++ be 2 l ++ post) pos = Ok (l, pos + 2).
Proof.
  intros -> Hl. unfold read_two_octet_lengths.
  rewrite substr_app by (auto; now rewrite len_be). cbn [bind].
  rewrite toint256_be_small by (auto; lia). reflexivity.
Qed.

Lemma read_five_app pre x l post pos : pos = len pre -> l < 2 ^ 32 ->
  read_five_octet_lengths (pre ++ x :: be 4 l ++ post) pos = Ok (l, pos + 5).
Proof.
  intros -> Hl. unfold read_five_octet_lengths.
  change (pre ++ x :: be 4 l ++ post) with (pre ++ [x] ++ be 4 l ++ post). rewrite app_assoc.
  rewrite substr_app by (rewrite ?len_be, ?len_app; auto). cbn [bind].
  rewrite toint256_be_small by (auto; lia). reflexivity.
Qed.

(** A legal new-format length other than first octet 223 is read correctly. *)
Lemma read_plain_new ctb pre l h post : new_len l h -> nth_error h 0 <> Some 223 ->
  read_plain NEW ctb (pre ++ h ++ post) (len pre) =
  Ok (Some {| bl_part := NOT_PARTIAL; bl_start := len pre + len h; bl_len := l; bl_data := [];
              bl_pos := len pre + len h + l |}).
Proof.
  intros H N0. unfold read_plain. destruct H as [H|o1 o2 H1 H2 ->|H]; cbn [app].
  - rewrite at_app by auto. cbn [bind]. rewrite read_one_app by lia.
    unfold u8. rewrite N.mod_small by lia. replace (l <? 192) with true by lia.
    cbn [bind]. reflexivity.
  - rewrite at_app by auto. cbn [bind]. rewrite read_two_new_app by lia.
    cbn in N0. assert (o1 <> 223) by congruence.
    unfold u8. rewrite N.mod_small by lia. replace (o1 <? 192) with false by lia.
    replace ((192 <=? o1) && (o1 <? 223)) with true by lia. reflexivity.
  - rewrite at_app by auto. cbn [bind]. rewrite read_five_app by auto.
    reflexivity.
Qed.

Lemma read_plain_223 ctb pre post :
  read_plain NEW ctb (pre ++ 223 :: post) (len pre) =
  Ok (Some {| bl_part := NOT_PARTIAL; bl_start := 0; bl_len := 0; bl_data := []; bl_pos := len pre |}).
Proof. unfold read_plain. rewrite at_app by auto. reflexivity. Qed.

Lemma read_header_new pre tag post : tag < 64 ->
  read_packet_header (pre ++ 192 + tag :: post) (len pre) = Ok (192 + tag, NEW, tag, len pre + 1).
Proof.
  intros Ht. unfold read_packet_header. rewrite at_app by auto. cbn [bind].
  unfold u8. rewrite N.mod_small by lia.
  change 128 with (2^7) at 1. change 64 with (2^6).
  assert (E : 192 + tag = N.lor (N.shiftl 3 6) tag).
  { rewrite lor_shiftl_add by (change (2^6) with 64; lia). reflexivity. }
  replace (N.land (192 + tag) (2^7) =? 0) with false.
  2:{ symmetry. apply N.eqb_neq. intros X. apply (f_equal (fun z => N.testbit z 7)) in X.
      rewrite N.land_spec, E, N.lor_spec in X. cbn in X. discriminate. }
  replace (N.land (192 + tag) (2^6) =? 0) with false.
  2:{ symmetry. apply N.eqb_neq. intros X. apply (f_equal (fun z => N.testbit z 6)) in X.
      rewrite N.land_spec, E, N.lor_spec in X. cbn in X. discriminate. }
  cbn [negb]. change 63 with (N.ones 6). rewrite land_ones_mod.
  change (2^6) with 64. replace ((192 + tag) mod 64) with tag; [reflexivity|lia].
Qed.

Lemma header_octet_old tag t : tag < 16 -> t < 4 ->
  N.lor (u8 (N.lor 128 (N.shiftl tag 2))) t = 128 + 4 * tag + t.
Proof.
  intros Ht Ht'.
  assert (E : forallb (fun tag => forallb (fun t => N.lor (u8 (N.lor 128 (N.shiftl tag 2))) t =? 128 + 4 * tag + t)
     [0;1;2;3]) (map N.of_nat (seq 0 16)) = true) by reflexivity.
  rewrite forallb_forall in E. specialize (E tag).
  assert (I : In tag (map N.of_nat (seq 0 16))).
  { apply in_map_iff. exists (N.to_nat tag). rewrite in_seq. lia. }
  apply E in I. rewrite forallb_forall in I. specialize (I t).
  assert (H : In t [0;1;2;3]) by (assert (t = 0 \/ t = 1 \/ t = 2 \/ t = 3) by lia; cbn [In]; intuition). apply I in H. lia.
Qed.

Lemma header_octet_new tag : tag < 64 -> u8 (N.lor 192 tag) = 192 + tag.
Proof.
  intros. change 192 with (N.shiftl 3 6). rewrite lor_shiftl_add by (change (2^6) with 64; lia).
  change (N.shiftl 3 6) with 192. change (3 * 2 ^ 6) with 192. unfold u8. apply N.mod_small. lia.
Qed.

Lemma read_header_old pre tag t post : tag < 16 -> t < 4 ->
  read_packet_header (pre ++ 128 + 4 * tag + t :: post) (len pre)
    = Ok (128 + 4 * tag + t, OLD, tag, len pre + 1) /\ N.land (128 + 4 * tag + t) 3 = t.
Proof.
  intros Ht Ht'. unfold read_packet_header. rewrite at_app by auto. cbn [bind].
  unfold u8. rewrite N.mod_small by lia.
  assert (E : forallb (fun tag => forallb (fun t => let c := 128 + 4 * tag + t in
     negb (N.land c 128 =? 0) && (N.land c 64 =? 0) && (N.land (N.shiftr c 2) 15 =? tag) && (N.land c 3 =? t))
     [0;1;2;3]) (map N.of_nat (seq 0 16)) = true) by reflexivity.
  rewrite forallb_forall in E. specialize (E tag).
  assert (I : In tag (map N.of_nat (seq 0 16))).
  { apply in_map_iff. exists (N.to_nat tag). rewrite in_seq. lia. }
  apply E in I. rewrite forallb_forall in I. specialize (I t).
  assert (H : In t [0;1;2;3]) by (assert (t = 0 \/ t = 1 \/ t = 2 \/ t = 3) by lia; cbn [In]; intuition). apply I in H. cbv zeta in H.
  apply andb_true_iff in H as [H H4]. apply andb_true_iff in H as [H H3].
  apply andb_true_iff in H as [H1 H2].
  apply negb_true_iff in H1. rewrite H1, H2. cbn [negb].
  apply N.eqb_eq in H3, H4. rewrite H3, H4. split; reflexivity.
Qed.

(** Writers. *)
Lemma write_new_plain_default tag data : tag < 64 -> len data < 2 ^ 32 ->
  exists h, write_new_plain tag data 0 = 192 + tag :: h ++ data /\ new_len (len data) h /\
    (nth_error h 0 = Some 223 <-> 8128 <= len data <= 8383) /\
    (len data <= 191 -> h = [len data]) /\ (192 <= len data <= 8383 -> len h = 2).
Proof.
  intros Ht Hl. unfold write_new_plain, new_octets. cbn [N.eqb orb andb N.ltb N.compare].
  rewrite header_octet_new by auto.
  destruct (len data <=? 191) eqn:E1.
  - exists [len data]. cbn [app nth_error]. unfold u8. rewrite N.mod_small by lia.
    split; [reflexivity|]. split; [constructor; lia|]. split; [split; [intros [= Z]; lia | intros; exfalso; lia]|].
    split; [auto|lia].
  - replace (192 <=? len data) with true by lia. cbn [andb].
    destruct (len data <=? 8383) eqn:E2.
    + assert (X : sub64 (len data) 192 = len data - 192) by (unfold sub64, two64; lia).
      rewrite X. rewrite N.shiftr_div_pow2. change (2^8) with 256.
      change 255 with (N.ones 8). rewrite land_ones_mod. change (2^8) with 256.
      assert (Y : u8 ((len data - 192) / 256 + 192) = (len data - 192) / 256 + 192)
        by (unfold u8; lia).
      rewrite Y.
      exists [(len data - 192) / 256 + 192; (len data - 192) mod 256]. split; [reflexivity|].
      split; [constructor; lia|]. cbn [nth_error].
      split; [split; [intros [= Z]; lia | intros; f_equal; lia]|]. split; [lia|reflexivity].
    + replace (8383 <? len data) with true by lia. exists (255 :: be 4 (len data)).
      split; [reflexivity|]. split; [now constructor|]. cbn [nth_error].
      split; [split; [discriminate|intros; exfalso; lia]|]. lia.
Qed.

Lemma write_new_plain_any tag data o : tag < 64 -> len data < 2 ^ 32 ->
  (o = 2 -> 192 <= len data) ->
  exists h, write_new_plain tag data o = 192 + tag :: h ++ data /\ new_len (len data) h.
Proof.
  intros Ht Hl Ho.
  assert (D : new_octets (len data) o = 0 \/
     (o = 1 /\ new_octets (len data) o = 1 /\ len data <= 191) \/
     (o = 2 /\ new_octets (len data) o = 2 /\ len data <= 8382) \/
     (new_octets (len data) o = 5)).
  { unfold new_octets. repeat match goal with |- context [if ?b then _ else _] => destruct b eqn:? end; lia. }
  destruct D as [D|[(-> & D & L)|[(-> & D & L)|D]]].
  - destruct (write_new_plain_default tag data Ht Hl) as (h & E & H & _).
    exists h. split; auto. rewrite <- E. unfold write_new_plain. rewrite D.
    change (new_octets (len data) 0) with 0. reflexivity.
  - unfold write_new_plain. rewrite D. rewrite header_octet_new by auto. cbn [N.eqb Pos.eqb orb].
    exists [len data]. unfold u8. rewrite N.mod_small by lia. split; [reflexivity|constructor; lia].
  - specialize (Ho eq_refl).
    unfold write_new_plain. rewrite D. rewrite header_octet_new by auto. cbn [N.eqb Pos.eqb orb andb].
    assert (X : sub64 (len data) 192 = len data - 192) by (unfold sub64, two64; lia).
    rewrite X. rewrite N.shiftr_div_pow2. change (2^8) with 256.
    change 255 with (N.ones 8). rewrite land_ones_mod. change (2^8) with 256.
    assert (Y : u8 ((len data - 192) / 256 + 192) = (len data - 192) / 256 + 192)
        by (unfold u8; lia).
    rewrite Y.
    exists [(len data - 192) / 256 + 192; (len data - 192) mod 256]. split; [reflexivity|].
    constructor; lia.
  - unfold write_new_plain. rewrite D. rewrite header_octet_new by auto.
    cbn [N.eqb Pos.eqb orb andb].
    exists (255 :: be 4 (len data)). split; [reflexivity|now constructor].
Qed.

Lemma write_old_any tag data o : tag < 16 -> len data < 2 ^ 32 ->
  exists t h, write_old_length tag data NOT_PARTIAL o = 128 + 4 * tag + t :: h ++ data /\
    old_len (len data) t h /\ (o <> 5 -> len data < 2 ^ 16 -> t < 2).
Proof.
  intros Ht Hl.
  assert (D : (old_octets (len data) o = 0 /\ o <> 5) \/
     (o = 1 /\ old_octets (len data) o = 1 /\ len data <= 255) \/
     (o = 2 /\ old_octets (len data) o = 2 /\ len data <= 65535) \/
     (old_octets (len data) o = 5 /\ o = 5)).
  { unfold old_octets. repeat match goal with |- context [if ?b then _ else _] => destruct b eqn:? end; lia. }
  unfold write_old_length.
  destruct D as [(D & X)|[(-> & D & L)|[(-> & D & L)|(D & ->)]]]; rewrite D;
    cbn [N.eqb Pos.eqb orb andb].
  - destruct (len data <? 256) eqn:E1.
    + exists 0, [len data]. rewrite header_octet_old by lia.
      unfold u8. rewrite N.mod_small by lia.
      split; [reflexivity|]. split; [constructor; lia | lia].
    + replace (256 <=? len data) with true by lia. cbn [andb].
      destruct (len data <? 65536) eqn:E2.
      * exists 1, (be 2 (len data)). rewrite header_octet_old by lia.
        split; [reflexivity|]. split; [constructor; lia | lia].
      * replace (65536 <=? len data) with true by lia.
        exists 2, (be 4 (len data)). rewrite header_octet_old by lia.
        split; [reflexivity|]. split; [constructor; lia | lia].
  - exists 0, [len data]. rewrite header_octet_old by lia.
    unfold u8. rewrite N.mod_small by lia.
    split; [reflexivity|]. split; [constructor; lia | lia].
  - exists 1, (be 2 (len data)). rewrite header_octet_old by lia.
    split; [reflexivity|]. split; [constructor; lia | lia].
  - exists 2, (be 4 (len data)). rewrite header_octet_old by lia.
    split; [reflexivity|]. split; [constructor; lia | lia].
Qed.

Lemma read_plain_old ctb pre l t h post : old_len l t h -> N.land ctb 3 = t -> t < 2 ->
  read_plain OLD ctb (pre ++ h ++ post) (len pre) =
  Ok (Some {| bl_part := NOT_PARTIAL; bl_start := len pre + len h; bl_len := l; bl_data := [];
              bl_pos := len pre + len h + l |}).
Proof.
  intros H C T. unfold read_plain. rewrite C. destruct H as [H|H|H]; [| |lia].
  - cbn [N.eqb app]. rewrite read_one_app by (auto; lia). reflexivity.
  - cbn [N.eqb Pos.eqb]. rewrite read_two_old_app by auto. reflexivity.
Qed.

(** Subpackets. *)
Lemma write_subpacket_rfc data : len data < 2 ^ 32 ->
  exists h, write_subpacket data = h ++ data /\ sub_len (len data) h.
Proof.
  intros Hl. unfold write_subpacket.
  destruct (len data <? 192) eqn:E1.
  - exists [len data]. unfold u8. rewrite N.mod_small by lia. split; [reflexivity|constructor; lia].
  - replace (192 <=? len data) with true by lia. cbn [andb].
    destruct (len data <? 8383) eqn:E2.
    + assert (X : u16 (sub64 (len data) 192) = len data - 192) by (unfold u16, sub64, two64; lia).
      rewrite X. rewrite N.shiftr_div_pow2. change (2^8) with 256.
      change 255 with (N.ones 8). rewrite land_ones_mod. change (2^8) with 256.
      assert (Y : u8 ((len data - 192) / 256 + 192) = (len data - 192) / 256 + 192)
        by (unfold u8; lia).
      rewrite Y.
      exists [(len data - 192) / 256 + 192; (len data - 192) mod 256]. split; [reflexivity|].
      constructor; lia.
    + exists (255 :: be 4 (len data)). split; [reflexivity|now constructor].
Qed.

Lemma read_subpacket_rfc pre l h post pos : pos = len pre -> sub_len l h ->
  read_subpacket (pre ++ h ++ post) pos = Ok (l, pos + len h).
Proof.
  intros -> H. unfold read_subpacket. destruct H as [H|o1 o2 H1 H2 ->|H]; cbn [app].
  - rewrite at_app by auto. cbn [bind]. rewrite read_one_app by lia.
    unfold u8. rewrite N.mod_small by lia. now replace (l <? 192) with true by lia.
  - rewrite at_app by auto. cbn [bind]. rewrite read_two_new_app by lia.
    unfold u8. rewrite N.mod_small by lia. replace (o1 <? 192) with false by lia.
    replace ((192 <=? o1) && (o1 <? 255)) with true by lia. reflexivity.
  - rewrite at_app by auto. cbn [bind]. rewrite read_five_app by auto. reflexivity.
Qed.

Lemma sub_len_len l h : sub_len l h -> 1 <= len h <= 5.
Proof. intros []; autorewrite with len; cbn; lia. Qed.

Lemma new_len_bound l h : new_len l h -> l < 2 ^ 32.
Proof. intros []; lia. Qed.

(** Partial bodies. *)
Lemma partial_len k : k <= 30 -> read_partialBodyLen (u8 (224 + k)) = 2 ^ k.
Proof.
  intros Hk. unfold read_partialBodyLen, u8. rewrite N.mod_small by lia.
  change 31 with (N.ones 5). rewrite land_ones_mod. change (2^5) with 32.
  replace ((224 + k) mod 32) with k by lia. apply N.shiftl_1_l.
Qed.

Lemma read_partials_step f data pos acc :
  read_partials f data pos acc =
  (c <- at_ data pos ;;
  if (224 <=? u8 c) && (u8 c <=? 254) then
    match f with
    | O => Diverge
    | S f =>
      let l := read_partialBodyLen (u8 c) in
      s <- substr data (pos + 1) l ;;
      read_partials f data (pos + 1 + l) (acc ++ s)
    end
  else Ok (acc, pos)).
Proof. destruct f; reflexivity. Qed.

Lemma new_len_first l h : new_len l h ->
  exists o r, h = o :: r /\ o < 256 /\ (o < 224 \/ o = 255).
Proof. intros [H|o1 o2 H1 H2 _|H]; do 2 eexists; (split; [reflexivity|]); lia. Qed.

(** Reading any legal sequence of partial chunks gathers the body; what remains is the
    last header at position [len pre']. *)
Lemma read_partials_body b w h n : partial_body b w h n ->
  forall pre post acc f, (length w <= f)%nat ->
  exists pre' c last, b = c ++ last /\ n = len last /\ new_len n h /\
    pre ++ w = pre' ++ h ++ last /\
    read_partials f (pre ++ w ++ post) (len pre) acc = Ok (acc ++ c, len pre').
Proof.
  induction 1 as [b h H|k c b w h n Hk Hc H IH]; intros pre post acc f Hf.
  - exists pre, [], b. repeat split; auto. rewrite read_partials_step, app_nil_r.
    destruct (new_len_first _ _ H) as (o & r & -> & O1 & O2).
    rewrite <- !app_assoc. cbn [app]. rewrite at_app by auto. cbn [bind].
    unfold u8. rewrite N.mod_small by auto.
    now replace ((224 <=? o) && (o <=? 254)) with false by lia.
  - destruct f as [|f]; [cbn in Hf; lia|].
    destruct (IH (pre ++ 224 + k :: c) post (acc ++ c) f) as (pre' & c' & last & -> & -> & Hn & E1 & E2).
    { cbn [length] in Hf. rewrite app_length in Hf. lia. }
    exists pre', (c ++ c'), last. repeat split; auto.
    + now rewrite app_assoc.
    + rewrite <- E1. now rewrite <- app_assoc.
    + rewrite read_partials_step. cbn [app]. rewrite at_app by auto. cbn [bind].
      rewrite partial_len by auto.
      unfold u8 at 1 2. rewrite N.mod_small by lia.
      replace ((224 <=? 224 + k) && (224 + k <=? 254)) with true by lia. cbv zeta.
      replace (pre ++ 224 + k :: (c ++ w) ++ post) with ((pre ++ [224 + k]) ++ c ++ w ++ post)
        by (rewrite <- !app_assoc; reflexivity).
      rewrite substr_app by (rewrite ?len_app; auto). cbn [bind].
      replace (len pre + 1 + 2 ^ k) with (len (pre ++ 224 + k :: c))
        by (rewrite len_app, len_cons; lia).
      replace ((pre ++ [224 + k]) ++ c ++ w ++ post) with ((pre ++ 224 + k :: c) ++ w ++ post)
        by (rewrite <- !app_assoc; reflexivity).
      rewrite E2. now rewrite <- app_assoc.
Qed.

Lemma read_unformatted_partial ctb pre k c b w h n post :
  k <= 30 -> len c = 2 ^ k -> partial_body b w h n -> nth_error h 0 <> Some 223 ->
  read_packet_unformatted NEW ctb (pre ++ (224 + k :: c ++ w) ++ post) (len pre) =
  Ok {| bl_part := PARTIAL; bl_start := 0; bl_len := len (c ++ b); bl_data := c ++ b;
        bl_pos := len pre + len (224 + k :: c ++ w) + n |}.
Proof.
  intros Hk Hc H Hh. unfold read_packet_unformatted.
  assert (E : read_plain NEW ctb (pre ++ (224 + k :: c ++ w) ++ post) (len pre) = Ok None).
  { unfold read_plain. cbn [app]. rewrite at_app by auto. cbn [bind].
    unfold u8. rewrite N.mod_small by lia.
    replace (224 + k <? 192) with false by lia.
    replace ((192 <=? 224 + k) && (224 + k <? 223)) with false by lia.
    replace (224 + k =? 255) with false by lia.
    now replace (224 <=? 224 + k) with true by lia. }
  rewrite E. cbn [bind]. clear E. cbn [app]. rewrite at_app by auto. cbn [bind].
  rewrite partial_len by auto. cbv zeta.
  replace (pre ++ 224 + k :: (c ++ w) ++ post) with ((pre ++ [224 + k]) ++ c ++ w ++ post)
    by (rewrite <- !app_assoc; reflexivity).
  rewrite substr_app by (rewrite ?len_app; auto). cbn [bind].
  replace (len pre + 1 + 2 ^ k) with (len (pre ++ 224 + k :: c))
    by (rewrite len_app, len_cons; lia).
  replace ((pre ++ [224 + k]) ++ c ++ w ++ post) with ((pre ++ 224 + k :: c) ++ w ++ post)
    by (rewrite <- !app_assoc; reflexivity).
  destruct (read_partials_body b w h n H (pre ++ 224 + k :: c) post c
              (length ((pre ++ 224 + k :: c) ++ w ++ post)))
    as (pre' & c' & last & -> & -> & Hn & E1 & E2).
  { rewrite !app_length. lia. }
  rewrite E2. cbn [bind].
  replace ((pre ++ 224 + k :: c) ++ w ++ post) with (pre' ++ h ++ last ++ post)
    by (rewrite (app_assoc _ w post), E1, <- !app_assoc; reflexivity).
  rewrite (read_plain_new ctb pre' (len last) h (last ++ post)) by auto. cbn [bind bl_part bl_start bl_len bl_pos].
  rewrite app_assoc. rewrite substr_app by (rewrite ?len_app; auto). cbn [bind].
  rewrite <- !app_assoc. f_equal.
  assert (L : len pre + len (224 + k :: c ++ w) = len pre' + len h + len last).
  { apply (f_equal len) in E1. autorewrite with len in *. lia. }
  rewrite L. reflexivity.
Qed.

(** ** Writing and reading partial chunks *)

Inductive chunked : bytes -> bytes -> Prop :=
| CH_nil : chunked [] []
| CH_cons k c b w : k <= 30 -> len c = 2 ^ k -> chunked b w ->
    chunked (c ++ b) (224 + k :: c ++ w).

Lemma read_partials_chunked b w : chunked b w ->
  forall pre o post acc f, o < 256 -> (o < 224 \/ o = 255) -> (length w <= f)%nat ->
    read_partials f (pre ++ w ++ o :: post) (len pre) acc = Ok (acc ++ b, len (pre ++ w)).
Proof.
  induction 1 as [|k c b w Hk Hc H IH]; intros pre o post acc f O1 O2 Hf.
  - cbn [app]. rewrite read_partials_step, !app_nil_r, at_app by auto. cbn [bind].
    unfold u8. rewrite N.mod_small by auto.
    now replace ((224 <=? o) && (o <=? 254)) with false by lia.
  - destruct f as [|f]; [cbn in Hf; lia|].
    rewrite read_partials_step. cbn [app]. rewrite at_app by auto. cbn [bind].
    rewrite partial_len by auto.
    unfold u8 at 1 2. rewrite N.mod_small by lia.
    replace ((224 <=? 224 + k) && (224 + k <=? 254)) with true by lia. cbv zeta.
    replace (pre ++ 224 + k :: (c ++ w) ++ o :: post) with ((pre ++ [224 + k]) ++ c ++ w ++ o :: post)
      by (rewrite <- !app_assoc; reflexivity).
    rewrite substr_app by (rewrite ?len_app; auto). cbn [bind].
    replace (len pre + 1 + 2 ^ k) with (len (pre ++ 224 + k :: c))
      by (rewrite len_app, len_cons; lia).
    replace ((pre ++ [224 + k]) ++ c ++ w ++ o :: post) with ((pre ++ 224 + k :: c) ++ w ++ o :: post)
      by (rewrite <- !app_assoc; reflexivity).
    rewrite IH; auto.
    + rewrite <- !app_assoc. reflexivity.
    + cbn [length] in Hf. rewrite app_length in Hf. lia.
Qed.

Definition bit_sum (bits : list N) : N := fold_right (fun b s => 2 ^ b + s) 0 bits.

Lemma bit_sum_cons b s : bit_sum (b :: s) = 2 ^ b + bit_sum s.
Proof. reflexivity. Qed.
Lemma bit_sum_nil : bit_sum [] = 0.
Proof. reflexivity. Qed.

Lemma bit_sum_app a b : bit_sum (a ++ b) = bit_sum a + bit_sum b.
Proof. induction a; cbn [app]; rewrite ?bit_sum_cons, ?bit_sum_nil; lia. Qed.

Lemma bit_sum_rev a : bit_sum (rev a) = bit_sum a.
Proof. induction a; cbn [rev]; auto. rewrite bit_sum_app, IHa, !bit_sum_cons, bit_sum_nil. lia. Qed.

Lemma bit_sum_seq x k : bit_sum (filter (N.testbit x) (map N.of_nat (seq 9 k))) + x mod 512
  = x mod 2 ^ (9 + N.of_nat k).
Proof.
  induction k as [|k IH].
  - cbn [seq map filter N.of_nat]. rewrite bit_sum_nil, N.add_0_r, N.add_0_l.
    assert (E : 2 ^ 9 = 512) by reflexivity. now rewrite E.
  - rewrite seq_S, map_app, filter_app, bit_sum_app. cbn [map filter].
    replace (9 + N.of_nat (S k)) with ((9 + N.of_nat k) + 1) by lia.
    rewrite N.pow_add_r, N.pow_1_r, N.mod_mul_r by (first [discriminate | apply N.pow_nonzero; discriminate]).
    rewrite <- IH.
    replace (N.of_nat (9 + k)) with (9 + N.of_nat k) by lia.
    pose proof (N.testbit_spec' x (9 + N.of_nat k)) as T.
    rewrite <- T. generalize (bit_sum (filter (N.testbit x) (map N.of_nat (seq 9 k)))) (x mod 512).
    intros s m. clear. destruct (N.testbit x (9 + N.of_nat k));
      rewrite ?bit_sum_cons, ?bit_sum_nil; cbn [N.b2n]; generalize (2 ^ (9 + N.of_nat k)); intros; lia.
Qed.

Lemma set_bits_sum x : x < 2 ^ 31 -> bit_sum (set_bits x) = x - x mod 512.
Proof.
  intros Hx. unfold set_bits. rewrite bit_sum_rev.
  generalize (bit_sum_seq x 22).
  generalize (bit_sum (filter (N.testbit x) (map N.of_nat (seq 9 22)))).
  intros v H. assert (E : 9 + N.of_nat 22 = 31) by reflexivity. rewrite E in H.
  rewrite (N.mod_small x (2 ^ 31)) in H by exact Hx. rewrite <- H at 1. lia.
Qed.

Lemma set_bits_eq x : set_bits x = rev (filter (N.testbit x) (map N.of_nat (seq 9 22))).
Proof. reflexivity. Qed.

Lemma Forall_rev_filter (P : N -> Prop) f l : Forall P l -> Forall P (rev (filter f l)).
Proof.
  intros H. apply Forall_rev. induction H as [|x l Hx Hl IH]; cbn [filter]; [constructor|].
  destruct (f x); auto.
Qed.

Lemma seq_le30 : Forall (fun b => b <= 30) (map N.of_nat (seq 9 22)).
Proof. cbn [seq map]. repeat constructor; discriminate. Qed.

Lemma set_bits_le x : Forall (fun b => b <= 30) (set_bits x).
Proof. rewrite set_bits_eq. apply Forall_rev_filter. exact seq_le30. Qed.

Lemma write_chunks_spec bits : Forall (fun b => b <= 30) bits ->
  forall pre rest, bit_sum bits <= len rest ->
  exists c last w, rest = c ++ last /\ len c = bit_sum bits /\ chunked c w /\
    write_chunks (pre ++ rest) (len pre) bits = Ok (w, len pre + bit_sum bits).
Proof.
  induction 1 as [|b bits Hb HF IH]; intros pre rest Hl.
  - exists [], rest, []. repeat split; [constructor|]. cbn [write_chunks]. rewrite bit_sum_nil.
    now rewrite N.add_0_r.
  - rewrite bit_sum_cons in Hl.
    destruct (split_at rest (2 ^ b)) as (c0 & r0 & -> & L0); [lia|].
    rewrite len_app in Hl.
    destruct (IH (pre ++ c0) r0) as (c & last & w & -> & Lc & Hw & E); [lia|].
    exists (c0 ++ c), last, (224 + b :: c0 ++ w). repeat split.
    + now rewrite app_assoc.
    + rewrite len_app, bit_sum_cons. lia.
    + constructor; auto.
    + cbn [write_chunks]. rewrite bit_sum_cons.
      rewrite substr_app by (auto; lia). cbn [bind].
      rewrite len_app, L0, <- app_assoc in E. rewrite E. cbn [bind].
      do 2 f_equal; [|lia].
      f_equal. rewrite N.lor_comm. change 224 with (N.shiftl 7 5).
      rewrite lor_shiftl_add by (change (2^5) with 32; lia). reflexivity.
Qed.

Lemma write_new_partial_shape tag data : tag < 64 -> 512 <= len data < 2 ^ 31 ->
  exists c last w h, data = c ++ last /\ chunked c w /\ w <> [] /\ len last = len data mod 512 /\
    new_len (len last) h /\ (nth_error h 0 <> Some 223) /\
    (len last <= 191 -> h = [len last]) /\ (192 <= len last -> len h = 2) /\
    write_new_length tag data PARTIAL 0 = Ok (192 + tag :: w ++ 192 + tag :: h ++ last).
Proof.
  intros Ht Hl. unfold write_new_length.
  replace (len data <? 512) with false by lia.
  change 511 with (N.ones 9). rewrite land_ones_mod. change (2^9) with 512.
  pose proof (set_bits_sum (len data)) as S.
  destruct (write_chunks_spec (set_bits (len data)) (set_bits_le _) [] data) as (c & last & w & E & Lc & Hw & W);
    [lia|].
  change (len []) with 0 in W. cbn [app] in W. rewrite W. cbn [bind].
  rewrite N.add_0_l.
  assert (Ll : len last = len data mod 512).
  { apply (f_equal len) in E. rewrite len_app in E. lia. }
  rewrite <- Lc.
  assert (S2 : substr (c ++ last) (len c) (len data mod 512) = Ok last)
    by (apply substr_app_end; auto; lia).
  rewrite <- E in S2. rewrite S2. cbn [bind].
  destruct (write_new_plain_default tag last) as (h & Eh & Hh & H223 & H1 & H2); [auto|lia|].
  rewrite Eh, header_octet_new by auto.
  exists c, last, w, h. repeat split; auto.
  - intros ->. inversion Hw; subst. change (len []) with 0 in Lc. lia.
  - intros X. apply H223 in X. lia.
  - intros X. apply H2. lia.
Qed.

(** Reading what the partial writer produced: the header octet repeated before the last
    piece is taken for the first octet of a two-octet length. *)
Lemma read_written_partial ctb tag pre c w h l last post : tag < 31 ->
  chunked c w -> w <> [] -> new_len l h ->
  exists o r, h = o :: r /\
  read_packet_unformatted NEW ctb (pre ++ (w ++ 192 + tag :: h ++ last) ++ post) (len pre) =
  (let got := prefix (r ++ last ++ post) (tag * 256 + o + 192) in
   Ok {| bl_part := PARTIAL; bl_start := 0; bl_len := len (c ++ got); bl_data := c ++ got;
         bl_pos := len pre + len w + 2 + 2 * (tag * 256 + o + 192) |}).
Proof.
  intros Ht Hw Hne Hh. destruct (new_len_first _ _ Hh) as (o & r & -> & O1 & _).
  exists o, r. split; [reflexivity|]. inversion Hw as [|k c0 b w0 Hk Hc Hb]; subst; [congruence|]. clear Hne Hw.
  set (data := pre ++ _ ++ post).
  unfold read_packet_unformatted.
  assert (D : data = pre ++ 224 + k :: c0 ++ w0 ++ 192 + tag :: o :: r ++ last ++ post).
  { subst data. rewrite <- !app_assoc. cbn [app]. now rewrite <- !app_assoc. }
  assert (E : read_plain NEW ctb data (len pre) = Ok None).
  { unfold read_plain. rewrite D. rewrite at_app by auto. cbn [bind].
    unfold u8. rewrite N.mod_small by lia.
    replace (224 + k <? 192) with false by lia.
    replace ((192 <=? 224 + k) && (224 + k <? 223)) with false by lia.
    replace (224 + k =? 255) with false by lia.
    now replace (224 <=? 224 + k) with true by lia. }
  rewrite E. cbn [bind]. clear E. rewrite D at 1. rewrite at_app by auto. cbn [bind].
  rewrite partial_len by auto. cbv zeta.
  replace data with ((pre ++ [224 + k]) ++ c0 ++ w0 ++ 192 + tag :: o :: r ++ last ++ post)
    by (rewrite D, <- !app_assoc; reflexivity).
  rewrite substr_app by (rewrite ?len_app; auto). cbn [bind].
  replace (len pre + 1 + 2 ^ k) with (len (pre ++ 224 + k :: c0))
    by (rewrite len_app, len_cons; lia).
  replace ((pre ++ [224 + k]) ++ c0 ++ w0 ++ 192 + tag :: o :: r ++ last ++ post)
    with ((pre ++ 224 + k :: c0) ++ w0 ++ 192 + tag :: o :: r ++ last ++ post)
    by (rewrite <- !app_assoc; reflexivity).
  rewrite (read_partials_chunked _ _ Hb); try lia.
  2:{ rewrite !app_length. lia. }
  cbn [bind].
  set (p1 := (pre ++ 224 + k :: c0) ++ w0).
  replace ((pre ++ 224 + k :: c0) ++ w0 ++ 192 + tag :: o :: r ++ last ++ post)
    with (p1 ++ 192 + tag :: o :: r ++ last ++ post) by (subst p1; now rewrite <- !app_assoc).
  assert (E : read_plain NEW ctb (p1 ++ 192 + tag :: o :: r ++ last ++ post) (len p1) =
    Ok (Some {| bl_part := NOT_PARTIAL; bl_start := len p1 + 2; bl_len := tag * 256 + o + 192;
                bl_data := []; bl_pos := len p1 + 2 + (tag * 256 + o + 192) |})).
  { unfold read_plain. rewrite at_app by auto. cbn [bind]. rewrite read_two_new_app by (auto; lia).
    unfold u8. rewrite N.mod_small by lia.
    replace (192 + tag <? 192) with false by lia.
    replace ((192 <=? 192 + tag) && (192 + tag <? 223)) with true by lia. cbn [bind].
    replace (192 + tag - 192) with tag by lia. reflexivity. }
  rewrite E. cbn [bind bl_part bl_start bl_len bl_pos].
  assert (S : substr (p1 ++ 192 + tag :: o :: r ++ last ++ post) (len p1 + 2) (tag * 256 + o + 192)
     = Ok (prefix (r ++ last ++ post) (tag * 256 + o + 192))).
  { set (n := tag * 256 + o + 192). set (x := r ++ last ++ post).
    change (p1 ++ 192 + tag :: o :: x) with (p1 ++ [192 + tag; o] ++ x). rewrite app_assoc.
    unfold substr. rewrite len_app.
    replace (len (p1 ++ [192 + tag; o]) + len x <? len p1 + 2) with false
      by (rewrite len_app; change (len [192 + tag; o]) with 2; lia).
    unfold prefix. f_equal. f_equal.
    - rewrite len_app. change (len [192 + tag; o]) with 2. f_equal. f_equal. lia.
    - apply skipn_len_app. rewrite app_length. cbn [length]. unfold len. lia. }
  rewrite S. cbn [bind]. rewrite <- !app_assoc. f_equal.
  assert (L : len p1 = len pre + len (224 + k :: c0 ++ w0)).
  { subst p1. autorewrite with len. lia. }
  f_equal. rewrite L. lia.
Qed.

(** ** No fuel problems, safety *)
Lemma pow2_pos k : 1 <= 2 ^ k.
Proof. assert (2 ^ k <> 0) by (apply N.pow_nonzero; lia). lia. Qed.

Lemma partialBodyLen_pos o : 1 <= read_partialBodyLen o.
Proof. unfold read_partialBodyLen. rewrite N.shiftl_1_l. apply pow2_pos. Qed.

Lemma read_partials_terminates f data pos acc : len data <= pos + N.of_nat f ->
  read_partials f data pos acc <> Diverge.
Proof.
  revert pos acc; induction f as [|f IH]; intros pos acc H; rewrite read_partials_step.
  - destruct (at_cases data pos) as [[c E]|E]; rewrite E; cbn [bind]; [|discriminate].
    destruct (_ && _) eqn:G; [|discriminate]. exfalso.
    assert (pos = len data).
    { assert (~ len data < pos) by (intros X; apply at_UB in X; congruence). lia. }
    subst pos. unfold at_ in E. rewrite N.ltb_irrefl, N.eqb_refl in E. injection E as <-.
    discriminate G.
  - destruct (at_cases data pos) as [[c E]|E]; rewrite E; cbn [bind]; [|discriminate].
    destruct (_ && _) eqn:G; [|discriminate]. cbv zeta.
    unfold substr. destruct (len data <? pos + 1); cbn [bind]; [discriminate|].
    apply IH. lia.
Qed.

Lemma read_partials_stop f data pos acc s p : read_partials f data pos acc = Ok (s, p) ->
  exists c, at_ data p = Ok c /\ ((224 <=? u8 c) && (u8 c <=? 254)) = false /\ pos <= p.
Proof.
  revert pos acc; induction f as [|f IH]; intros pos acc H; rewrite read_partials_step in H;
    inv_bind H; destruct (_ && _) eqn:G; try discriminate.
  - injection H as <- <-. exists a. repeat split; auto. lia.
  - inv_bind H. apply IH in H as (c & H1 & H2 & H3). exists c. repeat split; auto. lia.
  - injection H as <- <-. exists a. repeat split; auto. lia.
Qed.
