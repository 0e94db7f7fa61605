(** C91: what is printed about compressed packets. *)
From Verif Require Import Proofs.Lib Proofs.TimesP Proofs.ShowP Props.C91 Spec.Text Spec.Calendar Spec.Listed.
Local Open Scope N_scope.

Lemma contents_inner v a b p : not_compressed p -> contents_show v a (p_tag p) (p_body p) = contents_show v b (p_tag p) (p_body p).
Proof. unfold not_compressed. destruct (p_body p); try reflexivity. intros ->. reflexivity. Qed.
Lemma packets_inner v a b ps : Forall not_compressed ps -> packets_show v a ps = packets_show v b ps.
Proof. induction 1 as [|p ps P F IH]; [reflexivity|]. cbn [packets_show]. unfold packet_show. rewrite IH, (contents_inner v a b p P). reflexivity. Qed.
(** The decompressed octets. *)
Definition expands (v : viewer) (comp : N) (d x : bytes) : Prop := comp = 0 /\ x = d \/ In comp [1; 2; 3] /\ v_unzip v comp d = Some x.
(** The first line of the packet, the algorithm, and below "Compressed Data:" the packets of the message
    that the decompressed octets are, printed as they are anywhere else; if the message is again a
    compressed packet, below the first line of that one. *)
Theorem C91_compressed v i n f part comp d text x ps c : d <> [] -> expands v comp d x -> message_read_raw (v_unzip v) (v_fuel v) x = Ok (ps, c) -> Forall not_compressed ps ->
  show v i n [mkPacket 8 f part (PCompressed comp d)] = Ok text ->
  exists title name ds inside, digits ds /\ number ds = comp /\ announces title (mkPacket 8 f part (PCompressed comp d)) /\
    show v (match c with None => S (S i) | Some _ => S (S (S i)) end) n ps = Ok inside /\
    exists around, match c with None => around = [] | Some (form, p, _) => exists h, announces h (mkPacket 8 form p (PCompressed 0 [])) /\ around = repeat 32 (n * S (S i)) ++ h ++ [10] end /\
    text = repeat 32 (n * i) ++ title ++ [10] ++ repeat 32 (n * S i) ++ str "Compression Algorithm: " ++ name ++ str " (compress " ++ ds ++ str ")" ++ [10] ++ repeat 32 (n * S i) ++ str "Compressed Data:" ++ [10] ++ around ++ inside.
Proof.
  intros D X R F E. unfold show, show_events in *. apply bind_ok in E as (l & El & E). apply Ok_inj in E as <-. cbn [packets_show] in El. apply bind_ok in El as (y & Ey & El). apply Ok_inj in El as <-. rewrite app_nil_r.
  unfold packet_show in Ey. cbn [p_format p_partial p_tag p_body contents_show] in Ey. apply bind_ok in Ey as (t & Et & Ey). apply bind_ok in Ey as (z & Ez & Ey). apply Ok_inj in Ey as <-. apply bind_ok in Ez as (q & Eq & Ez). apply Ok_inj in Ez as <-.
  destruct d as [|d0 d]; [contradiction|]. assert (C : codec (v_unzip v) comp (d0 :: d) = Ok x).
  { unfold codec. destruct X as [[-> ->]|[I U]]; [reflexivity|]. replace (0 <? len (d0 :: d)) with true by (rewrite len_cons; lia). cbn in I. decompose [or] I; try contradiction; subst comp; cbn [N.eqb negb andb mem existsb]; rewrite U; reflexivity. }
  rewrite C in Eq. cbn [bind] in Eq. destruct (v_fuel v) as [|g] eqn:G; [discriminate|]. cbn [inner_show] in Eq. rewrite G, R in Eq. cbn [bind] in Eq. apply bind_ok in Eq as (m & Em & Eq).
  destruct (packets_shaped v _ (inner_shaped v g) ps m Em) as (ts & S & _). rewrite (packets_inner v _ (inner_show v (Datatypes.S g)) ps F) in Em. rewrite Em. cbn [bind].
  exists t, (mapped comp_name comp), (Times.decimal comp). eexists. split; [apply decimal_digits|]. split; [apply decimal_number|]. split; [now apply title_announces|]. split; [reflexivity|]. rewrite (shaped_text _ _ _ _ S). destruct c as [[[form p] k]|].
  - apply bind_ok in Eq as (h & Eh & Eq). apply Ok_inj in Eq as <-. eexists. split; [exists h; split; [now apply title_announces|reflexivity]|].
    assert (W : shaped (below t (Say (str "Compression Algorithm: " ++ named comp_name "compress" comp) :: below (str "Compressed Data:") (below h m)))
                  [Tree t [Tree (str "Compression Algorithm: " ++ named comp_name "compress" comp) []; Tree (str "Compressed Data:") [Tree h ts]]]) by (apply shaped_below, sh_leaf, shaped_below, shaped_below, S).
    rewrite (shaped_text _ _ _ _ W). cbn [map concat drawn app]. unfold named. rewrite ?app_nil_r, <- ?app_assoc. cbn [app]. rewrite ?app_nil_r, <- ?app_assoc. reflexivity.
  - apply Ok_inj in Eq as <-. exists []. split; [reflexivity|].
    assert (W : shaped (below t (Say (str "Compression Algorithm: " ++ named comp_name "compress" comp) :: below (str "Compressed Data:") m))
                  [Tree t [Tree (str "Compression Algorithm: " ++ named comp_name "compress" comp) []; Tree (str "Compressed Data:") ts]]) by (apply shaped_below, sh_leaf, shaped_below, S).
    rewrite (shaped_text _ _ _ _ W). cbn [map concat drawn app]. unfold named. rewrite ?app_nil_r, <- ?app_assoc. cbn [app]. rewrite ?app_nil_r, <- ?app_assoc. reflexivity.
Qed.

(** Only what the decompressed octets are is printed: compressed packets with other octets that expand to
    the same message cannot be told apart. *)
Theorem C91_packed_refuted v i n f part comp d d' x : d <> [] -> d' <> [] -> expands v comp d x -> expands v comp d' x ->
  show v i n [mkPacket 8 f part (PCompressed comp d)] = show v i n [mkPacket 8 f part (PCompressed comp d')].
Proof.
  intros D D' X X'. assert (C : forall y, y <> [] -> expands v comp y x -> codec (v_unzip v) comp y = Ok x).
  { intros y Y Z. destruct y as [|d0 y]; [contradiction|]. unfold codec. destruct Z as [[-> ->]|[I U]]; [reflexivity|]. replace (0 <? len (d0 :: y)) with true by (rewrite len_cons; lia). cbn in I. decompose [or] I; try contradiction; subst comp; cbn [N.eqb negb andb mem existsb]; rewrite U; reflexivity. }
  unfold show, show_events. cbn [packets_show]. unfold packet_show. cbn [p_format p_partial p_tag p_body contents_show]. destruct d as [|d0 d]; [contradiction|]. destruct d' as [|d1 d']; [contradiction|].
  rewrite (C _ D X), (C _ D' X'). reflexivity.
Qed.
(** Of a user attribute only the sizes of the images and the names of the files they are saved in are printed. *)
Theorem C91_attribute_refuted v i n f a b : v_image_size v a = v_image_size v b -> v_number v a = v_number v b -> im_encoding a = im_encoding b ->
  show v i n [mkPacket 17 f NOT_PARTIAL (PAttributes [a])] = show v i n [mkPacket 17 f NOT_PARTIAL (PAttributes [b])].
Proof.
  intros S M E. unfold show, show_events. cbn [packets_show]. unfold packet_show. cbn [p_format p_partial p_tag p_body contents_show flat_map]. unfold image_show. rewrite S, M, E.
  destruct (tag_title NEW NOT_PARTIAL 17); destruct (tag_title f NOT_PARTIAL 17); try reflexivity; cbn [bind]; destruct (v_open v _); reflexivity.
Qed.

(** *** Example: a literal packet that is not compressed in a compressed one, and that in another. *)
Definition stored : bytes := [203; 9; 98; 1; 102; 0; 0; 0; 5; 104; 105].
Example C91_compressed_ex : expands reader 0 stored stored /\
  message_read_raw (v_unzip reader) (v_fuel reader) stored = Ok ([mkPacket 11 NEW NOT_PARTIAL (PLiteral 98 (str "f") 5 (str "hi"))], None) /\
  message_read_raw (v_unzip reader) (v_fuel reader) ([200; 12; 0] ++ stored) = Ok ([mkPacket 11 NEW NOT_PARTIAL (PLiteral 98 (str "f") 5 (str "hi"))], Some (NEW, NOT_PARTIAL, 0)) /\
  (exists text, show reader 0 4 [mkPacket 8 NEW NOT_PARTIAL (PCompressed 0 stored)] = Ok text) /\ exists text, show reader 0 4 [mkPacket 8 NEW NOT_PARTIAL (PCompressed 0 ([200; 12; 0] ++ stored))] = Ok text.
Proof. repeat split; try (left; split; reflexivity); try (vm_compute; reflexivity); eexists; vm_compute; reflexivity. Qed.
(** *** Example: two ways to compress, of which the second is wasteful. *)
Definition two_ways : viewer := let u := fun (_ : N) d => match d with 1 :: x => Some x | 2 :: _ :: x => Some x | _ => None end in
  mkViewer (v_gmtime reader) u (v_fuel reader) (v_size reader) (v_image_size reader) (v_number reader) (v_open reader).
Example C91_packed_ex : expands two_ways 1 (1 :: stored) stored /\ expands two_ways 1 (2 :: 0 :: stored) stored /\ exists text, show two_ways 0 4 [mkPacket 8 NEW NOT_PARTIAL (PCompressed 1 (1 :: stored))] = Ok text.
Proof. split; [right; split; [cbn; tauto|reflexivity]|]. split; [right; split; [cbn; tauto|reflexivity]|]. eexists. vm_compute. reflexivity. Qed.
Example C91_attribute_ex : let a := mkImage 1 1 [1; 2; 3] in let b := mkImage 1 1 [4; 5; 6] in
  a <> b /\ v_image_size reader a = v_image_size reader b /\ v_number reader a = v_number reader b /\ exists text, show reader 0 4 [mkPacket 17 NEW NOT_PARTIAL (PAttributes [a])] = Ok text.
Proof. split; [discriminate|]. split; [reflexivity|]. split; [reflexivity|]. eexists. vm_compute. reflexivity. Qed.
Print Assumptions C91_attribute_ex. Print Assumptions C91_packed_refuted. Print Assumptions C91_attribute_refuted. Print Assumptions C91_packed_ex. Print Assumptions C91_compressed. Print Assumptions C91_compressed_ex.
