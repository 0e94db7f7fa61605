(** Properties C65 and C66: reading and writing Message objects. *)
From Verif Require Import Proofs.PgpP Proofs.ArmorP Proofs.MessageIOP Model.MessageIO Spec.Armor Spec.Grammar Props.C10_C12 Props.C14_C15 Props.C32.
Local Open Scope N_scope.

(** ** C65 *)

(** What decides whether reading ends: the octets found in the compressed packet. *)
Definition opens (unzip : N -> bytes -> option bytes) (outer inner : bytes) : Prop :=
  exists f part alg d, read_raw outer = Ok [mkPacket 8 f part (PCompressed alg d)] /\ codec unzip alg d = Ok inner.

Lemma compressed_ok : message_match false 1 [8] OPENM = Ok true. Proof. reflexivity. Qed.

Lemma read_opens unzip f outer inner : opens unzip outer inner ->
  exists format part alg, message_read_raw unzip (S f) outer =
  (' (ps, c) <- message_read_raw unzip f inner ;;
   Ok (ps, match c with Some x => Some x | None => Some (format, part, alg) end)).
Proof.
  intros (format & part & alg & d & R & C). exists format, part, alg. cbn [message_read_raw]. rewrite R. cbn [bind map p_tag].
  rewrite compressed_ok. cbn [bind decompressed p_tag N.eqb Pos.eqb as_compressed p_body]. now rewrite C.
Qed.

(** Data that decompresses to itself is opened again and again; such data exist for the
    compression algorithms used here. *)
Theorem C65_quine_refuted : forall unzip outer, opens unzip outer outer ->
  forall fuel, message_read_raw unzip fuel outer = Diverge.
Proof.
  intros unzip outer Q. induction fuel as [|f IH]; [reflexivity|].
  destruct (read_opens unzip f outer outer Q) as (? & ? & ? & ->). now rewrite IH.
Qed.
(** So does any endless chain. *)
Theorem C65_chain_refuted : forall unzip (chain : nat -> bytes), (forall i, opens unzip (chain i) (chain (S i))) ->
  forall fuel i, message_read_raw unzip fuel (chain i) = Diverge.
Proof.
  intros unzip chain Q. induction fuel as [|f IH]; intros i; [reflexivity|].
  destruct (read_opens unzip f _ _ (Q i)) as (? & ? & ? & ->). now rewrite IH.
Qed.
Definition quine : bytes := 200 :: 3 :: 1 :: [7; 7].
Example C65_ex : opens (fun _ _ => Some quine) quine quine.
Proof. exists NEW, NOT_PARTIAL, 1, [7; 7]. split; vm_compute; reflexivity. Qed.

(** Nothing else keeps the reader from ending: if [rank] decreases whenever a packet is
    opened, reading [data] ends after [rank data] steps. *)
Theorem C65_ends_partial : forall unzip (rank : bytes -> nat),
  (forall outer inner, opens unzip outer inner -> (rank inner < rank outer)%nat) ->
  forall data fuel, (rank data < fuel)%nat -> message_read_raw unzip fuel data <> Diverge.
Proof.
  intros unzip rank H data fuel. revert data. induction fuel as [|f IH]; intros data L; [lia|]. cbn [message_read_raw].
  destruct (read_raw data) as [ps| | |] eqn:R; [|discriminate|discriminate|].
  2:{ exfalso. revert R. unfold read_raw. apply packets_term. unfold len. lia. }
  cbn [bind]. pose proof (C32_ends false 1 (map p_tag ps) OPENM) as A.
  destruct (message_match false 1 (map p_tag ps) OPENM) as [m| | |]; cbn [bind]; try discriminate; [|now destruct A].
  destruct m; [|discriminate]. unfold decompressed. destruct ps as [|p [|]]; try discriminate.
  destruct (p_tag p =? 8) eqn:T; [|discriminate]. apply N.eqb_eq in T. unfold as_compressed.
  destruct p as [tag format part body]. cbn [p_tag p_body p_format p_partial] in *. subst tag.
  destruct body; try discriminate. cbn [bind].
  destruct (codec unzip comp data0) as [inner| | |] eqn:C; try discriminate.
  2:{ unfold codec in C. destruct (_ && _); [|discriminate]. destruct (mem _ _); [|discriminate]. destruct (unzip _ _); discriminate. }
  cbn [bind]. assert (L2 : (rank inner < f)%nat).
  { pose proof (H data inner). assert (opens unzip data inner) by (exists format, part, comp, data0; auto). specialize (H0 H1). lia. }
  specialize (IH inner L2). destruct (message_read_raw unzip f inner) as [[? ?]| | |]; try discriminate. contradiction.
Qed.
(** Packets that are stored without compression are always shorter than what holds them, so
    a message without real compression is always read to the end. *)
Theorem C65_stored : forall unzip data fuel, (forall alg d, unzip alg d = None) -> len data < N.of_nat fuel ->
  message_read_raw unzip fuel data <> Diverge.
Proof.
  intros unzip data fuel U L. apply (C65_ends_partial unzip (fun d => length d)); [|unfold len in L; lia].
  intros outer inner (f & part & alg & d & R & C). apply compressed_shorter in R. unfold codec in C.
  destruct (_ && _); [destruct (mem _ _); [rewrite U in C|]; discriminate|]. apply Ok_inj in C. subst d. unfold len in R. lia.
Qed.
Definition stored_message : bytes := [200; 10; 0; 203; 7; 98; 0; 0; 0; 0; 1; 65].
Example C65_stored_ex : message_read_raw (fun _ _ => None) 20 stored_message =
  Ok ([mkPacket 11 NEW NOT_PARTIAL (PLiteral 98 [] 1 [65])], Some (NEW, NOT_PARTIAL, 0)).
Proof. vm_compute. reflexivity. Qed.

(** ** C66 *)

(** A message without compression: what write produced is read back.  The packets must not
    be one compressed packet, which read would open; and see C10 and C14 for the sequences
    and armor keys that are not read back. *)
Theorem C66_plain_partial : forall zip unzip fuel m w,
  m_comp m = None -> sequence 0 (g_packets (m_pgp m)) -> openpgp_message (map p_tag (g_packets (m_pgp m))) ->
  map p_tag (g_packets (m_pgp m)) <> [8] ->
  message_write zip m ArmorNo = Ok w -> len w < 2 ^ 63 -> ~ line_begins armor_begin w ->
  message_read unzip fuel w = Ok (mkMessage (mkPgp false 1 [] (g_packets (m_pgp m))) None).
Proof.
  intros zip unzip fuel m w C Hs G N8 W L NB. unfold message_write, message_raw in W. rewrite C in W. inv_bind W. cbn [bind] in W. inv_bind E. apply Ok_inj in W, E. subst.
  assert (PW : pgp_write (m_pgp m) ArmorNo = Ok w) by (unfold pgp_write; now rewrite E0).
  unfold message_read. rewrite (C14_binary_partial _ _ Hs PW L NB). cbn [bind g_packets].
  rewrite (C32_complete _ OPENM openpgp_message eq_refl G). cbn [bind]. unfold decompressed.
  destruct (g_packets (m_pgp m)) as [|p [|]]; try reflexivity. destruct (p_tag p =? 8) eqn:T; [|reflexivity].
  exfalso. apply N8. cbn [map]. f_equal. now apply N.eqb_eq.
Qed.
Theorem C66_armored_partial : forall zip unzip fuel m w,
  m_comp m = None -> sequence 0 (g_packets (m_pgp m)) -> openpgp_message (map p_tag (g_packets (m_pgp m))) ->
  map p_tag (g_packets (m_pgp m)) <> [8] -> Forall armor_key_ok (g_keys (m_pgp m)) ->
  (forall body, write_packets (g_packets (m_pgp m)) = Ok body -> octets body /\ body <> [] /\ len body < 2 ^ 62) ->
  message_write zip m ArmorYes = Ok w ->
  message_read unzip fuel w = Ok (mkMessage (mkPgp true 1 (g_keys (m_pgp m)) (g_packets (m_pgp m))) None).
Proof.
  intros zip unzip fuel m w C Hs G N8 K B W. unfold message_write, message_raw in W. rewrite C in W. inv_bind W. cbn [bind] in W. inv_bind E. apply Ok_inj in E. subst.
  destruct (B a E0) as (B1 & B2 & B3).
  destruct (C14_armor_data_partial 1 (g_keys (m_pgp m)) a ltac:(lia) K B1 B2 B3) as (t & A1 & A2). assert (t = w) by congruence. subst t.
  unfold message_read. rewrite A2, (C10_sequence_roundtrip_partial _ _ Hs E0). cbn [bind g_packets].
  rewrite (C32_complete _ OPENM openpgp_message eq_refl G). cbn [bind]. unfold decompressed. cbn [g_packets g_armored g_keys].
  destruct (g_packets (m_pgp m)) as [|p [|]]; try reflexivity. destruct (p_tag p =? 8) eqn:T; [|reflexivity].
  exfalso. apply N8. cbn [map]. f_equal. now apply N.eqb_eq.
Qed.

(** A compressed message is compressed twice (its length fields have to be readable both
    times, see C06 and C07), and reading opens both packets.  It comes back not armored,
    however it was written. *)
Definition twice (zip : N -> bytes -> option bytes) f alg (inner outer : bytes) : Prop :=
  exists z1 p1 z2, codec zip alg inner = Ok z1 /\ readable_length f (1 + len z1) /\
    write (mkPacket 8 f NOT_PARTIAL (PCompressed alg z1)) = Ok p1 /\
    codec zip alg p1 = Ok z2 /\ readable_length f (1 + len z2) /\
    write (mkPacket 8 f NOT_PARTIAL (PCompressed alg z2)) = Ok outer.
Definition inverse (zip unzip : N -> bytes -> option bytes) : Prop :=
  forall alg d z, zip alg d = Some z -> z <> [] /\ unzip alg z = Some d.

Lemma twice_read zip unzip f alg ps inner outer fuel : inverse zip unzip -> twice zip f alg inner outer ->
  sequence 0 ps -> write_packets ps = Ok inner -> openpgp_message (map p_tag ps) -> map p_tag ps <> [8] ->
  exists z2, read_raw outer = Ok [mkPacket 8 f NOT_PARTIAL (PCompressed alg z2)] /\
  decompressed unzip (message_read_raw unzip (S (S fuel))) [mkPacket 8 f NOT_PARTIAL (PCompressed alg z2)] = Ok (ps, Some (f, NOT_PARTIAL, alg)).
Proof.
  intros I (z1 & p1 & z2 & C1 & R1 & W1 & C2 & R2 & W2) Hs W G N8. exists z2. split; [now apply compressed_read|].
  cbn [decompressed p_tag N.eqb Pos.eqb as_compressed p_body bind].
  rewrite (codec_back zip unzip alg p1 z2); [|intros z; apply I|exact C2]. cbn [bind message_read_raw].
  rewrite (compressed_read f alg z1 p1 R1 W1). cbn [bind map p_tag]. rewrite compressed_ok.
  cbn [bind decompressed p_tag N.eqb Pos.eqb as_compressed p_body].
  rewrite (codec_back zip unzip alg inner z1); [|intros z; apply I|exact C1]. cbn [bind].
  rewrite (C10_sequence_roundtrip_partial _ _ Hs W). cbn [bind]. rewrite (C32_complete _ OPENM openpgp_message eq_refl G). cbn [bind p_format p_partial].
  assert (D : decompressed unzip (message_read_raw unzip fuel) ps = Ok (ps, None)).
  { unfold decompressed. destruct ps as [|p [|]]; try reflexivity. destruct (p_tag p =? 8) eqn:T; [|reflexivity].
    exfalso. apply N8. cbn [map]. f_equal. now apply N.eqb_eq. }
  rewrite D. reflexivity.
Qed.
Theorem C66_compressed_partial : forall zip unzip fuel m f alg inner w, inverse zip unzip ->
  m_comp m = Some (f, NOT_PARTIAL, alg) -> sequence 0 (g_packets (m_pgp m)) ->
  openpgp_message (map p_tag (g_packets (m_pgp m))) -> map p_tag (g_packets (m_pgp m)) <> [8] ->
  write_packets (g_packets (m_pgp m)) = Ok inner -> twice zip f alg inner w ->
  message_write zip m ArmorNo = Ok w /\
  (len w < 2 ^ 63 -> ~ line_begins armor_begin w ->
   message_read unzip (2 + fuel) w = Ok (mkMessage (mkPgp false 1 [] (g_packets (m_pgp m))) (m_comp m))) /\
  (Forall armor_key_ok (g_keys (m_pgp m)) -> octets w -> w <> [] -> len w < 2 ^ 62 ->
   exists text, message_write zip m ArmorYes = Ok text /\
   message_read unzip (2 + fuel) text = Ok (mkMessage (mkPgp false 1 (g_keys (m_pgp m)) (g_packets (m_pgp m))) (m_comp m))).
Proof.
  intros zip unzip fuel m f alg inner w I C Hs G N8 W T.
  destruct (twice_read zip unzip f alg _ inner w fuel I T Hs W G N8) as (z2 & R & D).
  assert (WR : forall a, message_write zip m a = match a with ArmorNo => Ok w | ArmorYes => armor 1 (g_keys (m_pgp m)) w
      | ArmorDefault => if g_armored (m_pgp m) then armor 1 (g_keys (m_pgp m)) w else Ok w end).
  { destruct T as (y1 & p1 & y2 & C1 & _ & W1 & C2 & _ & W2). intros a. unfold message_write, message_raw. rewrite W, C. cbn [bind]. unfold compressed_packet.
    rewrite C1. cbn [bind]. rewrite W1. cbn [bind]. rewrite C2. cbn [bind]. rewrite W2. reflexivity. }
  split; [now rewrite WR|]. split.
  - intros L NB. unfold message_read, pgp_read. rewrite find_begin_none by auto. cbn [bind]. rewrite R. cbn [bind g_packets map p_tag].
    rewrite compressed_ok. cbn [bind]. change (2 + fuel)%nat with (S (S fuel)). rewrite D, C. reflexivity.
  - intros K O NE L. destruct (C14_armor_data_partial 1 (g_keys (m_pgp m)) w ltac:(lia) K O NE L) as (t & A1 & A2).
    exists t. split; [now rewrite WR|]. unfold message_read. rewrite A2, R. cbn [bind g_packets map p_tag].
    rewrite compressed_ok. cbn [bind]. change (2 + fuel)%nat with (S (S fuel)). rewrite D, C. reflexivity.
Qed.
(** A toy codec (one octet in front), to meet the hypotheses: a literal message. *)
Definition toy_zip (_ : N) (d : bytes) : option bytes := Some (9 :: d).
Definition toy_unzip (_ : N) (d : bytes) : option bytes := match d with _ :: r => Some r | [] => None end.
Definition toy_message (c : option (header_format * partial_flag * N)) : message :=
  mkMessage (mkPgp true 1 [(str "Version", str "a b")] [mkPacket 11 NEW NOT_PARTIAL (PLiteral 98 (str "f") 77 (str "hello"))]) c.
Example C66_ex : inverse toy_zip toy_unzip /\
  (exists inner w, write_packets (g_packets (m_pgp (toy_message (Some (NEW, NOT_PARTIAL, 1))))) = Ok inner /\ twice toy_zip NEW 1 inner w /\
     ~ line_begins armor_begin w /\ octets w) /\
  (w <- message_write toy_zip (toy_message None) ArmorYes ;; message_read toy_unzip 5 w) = Ok (toy_message None) /\
  (w <- message_write toy_zip (toy_message (Some (NEW, NOT_PARTIAL, 1))) ArmorYes ;; message_read toy_unzip 5 w) =
    Ok (mkMessage (mkPgp false 1 [(str "Version", str "a b")] (g_packets (m_pgp (toy_message None)))) (Some (NEW, NOT_PARTIAL, 1))).
Proof.
  split; [intros alg d z E; unfold toy_zip in E; injection E as <-; split; [discriminate|reflexivity]|].
  split; [|split; [vm_compute; reflexivity|vm_compute; reflexivity]].
  do 2 eexists. split; [vm_compute; reflexivity|].
  split; [do 3 eexists; split; [vm_compute; reflexivity|]; split; [vm_compute; intuition discriminate|]; split; [vm_compute; reflexivity|]; split; [vm_compute; reflexivity|]; split; [vm_compute; intuition discriminate|vm_compute; reflexivity]|].
  split.
  - intros (b & a & E & _). apply (f_equal (existsb (N.eqb 45))) in E. rewrite !existsb_app in E.
    vm_compute (existsb (N.eqb 45) armor_begin) in E. rewrite orb_true_r in E. discriminate.
  - repeat (apply Forall_cons; [reflexivity|]). constructor.
Qed.

Print Assumptions C65_quine_refuted.
Print Assumptions C65_chain_refuted.
Print Assumptions C65_ends_partial.
Print Assumptions C65_stored.
Print Assumptions C66_plain_partial.
Print Assumptions C66_armored_partial.
Print Assumptions C66_compressed_partial.
