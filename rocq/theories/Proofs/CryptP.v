(** Lemmas about encryption and decryption of messages. *)
From Verif Require Import Proofs.CipherP Proofs.CfbP Proofs.KeyP Proofs.PgpP Proofs.MessageIOP Proofs.MessageP Proofs.PkaP Proofs.MpiP Props.C21_C22 Props.C41_C43_C60.
From Verif Require Export Model.Decrypt Spec.Cipher Spec.Keys Spec.Grammar Spec.Crypt.
Local Open Scope N_scope.

Lemma offered_tables alg : In alg offered ->
  map_at block_length alg = Ok (8 * N.of_nat (block_octets alg)) /\ map_at key_length alg = Ok (8 * N.of_nat (key_octets alg)) /\
  sym_valid alg = true /\ alg <> 0 /\ (8 <= block_octets alg <= 16)%nat /\ (16 <= key_octets alg <= 32)%nat.
Proof. cbn [offered In]. intros H. repeat destruct H as [<-|H]; try tauto; (split; [reflexivity|]; split; [reflexivity|]; split; [reflexivity|]; split; [discriminate|]; split; cbn; lia). Qed.
Lemma shiftr_8 n : N.shiftr (8 * n) 3 = n.
Proof. rewrite N.shiftr_div_pow2. change (2 ^ 3) with 8. rewrite N.mul_comm. now apply N.div_mul. Qed.

Lemma use_ocfb_roundtrip alg tag data key pre extra : In alg offered -> octets key -> length key = key_octets alg -> tag = 9 \/ tag = 18 ->
  length pre = block_octets alg -> (2 <= length extra)%nat -> len data + 18 < two64 ->
  exists y, use_ocfb_encrypt alg tag data key (pre ++ extra) = Ok y /\ len y <> 0 /\ use_ocfb_decrypt alg tag y key = Ok (pre ++ last_two pre ++ data).
Proof.
  intros I O L T P X B. destruct (setup_enciphers alg key I O L) as (c & E & S & (C1 & C2 & C3) & RO).
  destruct (offered_tables alg I) as (_ & _ & _ & N0 & BS & _).
  destruct (ocfb_roundtrip E (block_octets alg) ltac:(lia) C2 c C1 C3 ltac:(unfold two64; lia) tag data pre extra T P X) as (y & Y1 & Y2).
  { unfold two64 in *. lia. }
  exists y. unfold use_ocfb_encrypt, use_ocfb_decrypt. replace (alg =? 0) with false by lia. rewrite S. cbn [bind].
  split; [exact Y1|]. split; [|exact Y2]. intros L0. apply len_0 in L0. subst y.
  pose proof (ocfb_check E (block_octets alg) ltac:(lia) C2 c C1 C3 ltac:(unfold two64; lia) tag [] RO eq_refl) as K.
  replace (Nat.leb (block_octets alg + 2) (length (@nil N))) with false in K by (symmetry; apply Nat.leb_gt; cbn; lia).
  cbn [andb] in K. destruct K as (e & K). congruence.
Qed.

Lemma substr_start a b : substr (a ++ b) 0 (len a) = Ok a.
Proof. rewrite prefix_substr. now rewrite prefix_app. Qed.
Lemma sub64_twice b w : b + 2 + w < two64 -> sub64 (sub64 (b + 2 + w) b) 2 = w.
Proof. intros H. rewrite (sub64_small (b + 2 + w)) by lia. rewrite sub64_small by lia. lia. Qed.
Lemma last_two_len p : (2 <= length p)%nat -> length (last_two p) = 2%nat.
Proof. intros H. unfold last_two. rewrite skipn_length. lia. Qed.
Lemma rand_bytes_ok n rnd : n <= len rnd -> exists x r, rand_bytes n rnd = Ok (x, r) /\ rnd = x ++ r /\ len x = n.
Proof.
  intros H. unfold rand_bytes. replace (len rnd <? n) with false by lia. do 2 eexists. split; [reflexivity|].
  split; [now rewrite firstn_skipn|]. rewrite len_firstn. lia.
Qed.

(** Encrypted data and what decryption makes of it, for any octets to be encrypted. *)
Lemma data_back zip unzip fuel unzip' fuel' a key now now' rnd draws w rest : enc_valid a = true ->
  to_encrypt zip unzip fuel a now now' draws = Ok (Some w, rest) ->
  In (e_sym a) offered -> octets key -> length key = key_octets (e_sym a) -> N.of_nat (block_octets (e_sym a)) <= len rnd ->
  len w < 2 ^ 63 ->
  exists tag y, (tag = (if e_mdc a then 18 else 9)) /\
    encrypt_data zip unzip fuel a key now now' rnd draws =
      Ok (Some (new_packet tag (if e_mdc a then PProtected 1 y else PRaw y))) /\
    decrypt_octets unzip' fuel' (e_sym a) tag y key =
      (' (ps, c) <- message_read_raw unzip' fuel' w ;; Ok (mkMessage (mkPgp false 1 [] ps) c)).
Proof.
  intros V W I O L R B. destruct (offered_tables _ I) as (TB & TK & _ & N0 & BS & _).
  destruct (rand_bytes_ok _ _ R) as (pre & r & RB & -> & LP). assert (LP' : length pre = block_octets (e_sym a)) by (unfold len in LP; lia).
  assert (RP : substr pre (sub64 (len pre) 2) 2 = Ok (last_two pre)).
  { rewrite sub64_small by (unfold two64; lia). unfold substr. replace (len pre <? len pre - 2) with false by lia. f_equal. unfold last_two.
    replace (N.to_nat (len pre - 2)) with (length pre - 2)%nat by (unfold len; lia). apply firstn_all2. rewrite skipn_length. unfold len. lia. }
  assert (L2 : length (last_two pre) = 2%nat) by (apply last_two_len; lia).
  exists (if e_mdc a then 18 else 9).
  unfold encrypt_data. rewrite V, W. cbn [negb bind]. rewrite TB. cbn [bind]. rewrite shiftr_8, RB. cbn [bind]. rewrite RP. cbn [bind]. cbv zeta.
  destruct (e_mdc a); cbn [negb].
  - destruct (hash_use_ok 2 ((pre ++ last_two pre) ++ w ++ [211; 20]) ltac:(cbn; auto)) as (h & H).
    assert (LH : len h = 20) by (apply (hash_use_len _ _ _ _ H eq_refl)).
    assert (WM : write (new_packet 19 (PRaw h)) = Ok (211 :: 20 :: h)).
    { unfold write, new_packet. cbn [p_body raw bind p_tag p_format p_partial]. change (can_have_partial_length 19) with false. cbv iota.
      unfold write_new_length, write_new_plain. rewrite LH. reflexivity. }
    destruct (use_ocfb_roundtrip (e_sym a) 18 (w ++ 211 :: 20 :: h) key pre (last_two pre) I O L ltac:(auto) LP' ltac:(lia)) as (y & Y1 & Y2 & Y3).
    { rewrite len_app, !len_cons. unfold two64. lia. }
    exists y. split; [reflexivity|]. rewrite H. cbn [bind]. rewrite WM. cbn [bind]. rewrite Y1. cbn [bind]. split; [reflexivity|].
    unfold decrypt_octets. replace (len y =? 0) with false by lia. rewrite Y3. cbn [bind]. rewrite TB. cbn [bind]. cbv zeta.
    rewrite shiftr_8. change (18 =? 18) with true. cbv iota.
    set (x := (pre ++ last_two pre) ++ w ++ [211; 20]) in *.
    replace (pre ++ last_two pre ++ w ++ 211 :: 20 :: h) with (x ++ h) by (unfold x; rewrite <- !app_assoc; reflexivity).
    assert (LX : len x = N.of_nat (block_octets (e_sym a)) + 4 + len w) by (unfold x, len; rewrite !app_length; cbn [length]; lia).
    assert (LA : len (x ++ h) < two64) by (rewrite len_app; unfold two64; lia).
    rewrite !sub64_small by (rewrite ?len_app in *; unfold two64 in *; lia).
    replace (len (x ++ h) - 20) with (len x) by (rewrite len_app; lia).
    rewrite substr_app_end by (reflexivity || lia). cbn [bind]. rewrite substr_start. cbn [bind]. rewrite H. cbn [bind]. rewrite beq_refl. cbn [bind].
    rewrite sub64_small by (unfold two64; lia).
    assert (SX : substr x 0 (len x - 2) = Ok ((pre ++ last_two pre) ++ w)).
    { unfold x. rewrite app_assoc. replace (len (((pre ++ last_two pre) ++ w) ++ [211; 20]) - 2) with (len ((pre ++ last_two pre) ++ w)) by (rewrite (len_app _ [211; 20]); change (len [211; 20]) with 2; lia).
      apply substr_start. }
    rewrite SX. cbn [bind]. set (p2 := pre ++ last_two pre) in *.
    assert (LP2 : len p2 = N.of_nat (block_octets (e_sym a)) + 2) by (unfold p2; rewrite len_app; unfold len at 2; lia).
    rewrite (len_app p2), LP2, sub64_twice by (unfold two64; lia). rewrite <- LP2.
    rewrite substr_app_end by (reflexivity || lia). cbn [bind]. reflexivity.
  - destruct (use_ocfb_roundtrip (e_sym a) 9 w key pre (last_two pre) I O L ltac:(auto) LP' ltac:(lia)) as (y & Y1 & Y2 & Y3).
    { unfold two64. lia. }
    exists y. split; [reflexivity|]. rewrite Y1. cbn [bind]. split; [reflexivity|].
    unfold decrypt_octets. replace (len y =? 0) with false by lia. rewrite Y3. cbn [bind]. rewrite TB. cbn [bind]. cbv zeta.
    rewrite shiftr_8. change (9 =? 18) with false. cbv iota. cbn [bind]. rewrite app_assoc.
    set (p2 := pre ++ last_two pre) in *.
    assert (LP2 : len p2 = N.of_nat (block_octets (e_sym a)) + 2) by (unfold p2; rewrite len_app; unfold len at 2; lia).
    rewrite (len_app p2), LP2, sub64_twice by (unfold two64; lia). rewrite <- LP2.
    rewrite substr_app_end by (reflexivity || lia). cbn [bind]. reflexivity.
Qed.

(** The literal packet that is encrypted, and the compressed packet around it. *)
Definition literal_of (a : enc_args) : packet := new_packet 11 (PLiteral 98 (e_filename a) 0 (e_data a)).
Definition comp_of (a : enc_args) : option (header_format * partial_flag * N) :=
  if e_comp a =? 0 then None else Some (NEW, NOT_PARTIAL, e_comp a).
(** The lengths of both can be read back (C06), and the compression can be undone. *)
Definition literal_fits (zip unzip : N -> bytes -> option bytes) (a : enc_args) : Prop :=
  len (e_filename a) < 256 /\ readable_length NEW (6 + len (e_filename a) + len (e_data a)) /\
  (e_comp a = 0 \/
   In (e_comp a) [1; 2; 3] /\ forall w, write (literal_of a) = Ok w ->
     exists z, zip (e_comp a) w = Some z /\ z <> [] /\ unzip (e_comp a) z = Some w /\ readable_length NEW (1 + len z)).

Lemma literal_body a : len (e_filename a) < 256 -> exists body, raw (p_body (literal_of a)) = Ok body /\ len body = 6 + len (e_filename a) + len (e_data a).
Proof.
  intros H. unfold literal_of, new_packet. cbn [p_body raw]. eexists. split; [reflexivity|].
  rewrite ?len_cons, ?len_app, ?len_cons, ?len_app, ?len_be. lia.
Qed.
Lemma literal_read a w : len (e_filename a) < 256 -> readable_length NEW (6 + len (e_filename a) + len (e_data a)) ->
  write (literal_of a) = Ok w -> read_raw w = Ok [literal_of a].
Proof.
  intros F R W. destruct (literal_body a F) as (body & RB & LB).
  assert (HK : header_ok (literal_of a) (len body)).
  { split; [reflexivity|]. rewrite LB. unfold literal_of, new_packet. cbn [p_format p_tag]. unfold readable_length in R. intuition lia. }
  destruct (frame_written _ body [] [] HK RB) as (h & Hw & _). apply sequence_roundtrip.
  - exists h, body. split; [exact Hw|]. split; [exact RB|]. split; [exact HK|]. split; [split; [reflexivity|]; split; [exact F|reflexivity]|]. split; exact I.
  - cbn [write_packets]. rewrite W. cbn [bind]. now rewrite app_nil_r.
Qed.
Lemma new_written tag c body : raw c = Ok body -> exists w, write (new_packet tag c) = Ok w /\ 1 <= len w <= 6 + len body.
Proof.
  intros R. unfold write, new_packet. cbn [p_body p_tag p_format p_partial]. rewrite R. cbn [bind].
  replace (if can_have_partial_length tag then NOT_PARTIAL else NOT_PARTIAL) with NOT_PARTIAL by now destruct (can_have_partial_length tag).
  cbn [write_new_length]. eexists. split; [reflexivity|]. unfold write_new_plain. cbv zeta.
  repeat match goal with |- context [if ?b then _ else _] => destruct b end; rewrite ?len_cons, ?len_app, ?len_be; lia.
Qed.
Lemma plain_back zip unzip fuel a now now' draws unzip' fuel' : e_signer a = None -> literal_fits zip unzip' a ->
  exists w, to_encrypt zip unzip fuel a now now' draws = Ok (Some w, draws) /\ len w < 2 ^ 63 /\
    message_read_raw unzip' (2 + fuel') w = Ok ([literal_of a], comp_of a).
Proof.
  intros NS (F & R & C). destruct (literal_body a F) as (body & RB & LB).
  destruct (new_written 11 _ _ RB) as (w & W & LW). change (new_packet 11 (p_body (literal_of a))) with (literal_of a) in W.
  assert (RL : len body < 2 ^ 32) by (rewrite LB; unfold readable_length in R; lia).
  pose proof (literal_read a w F R W) as RR.
  assert (G : forall f, message_read_raw unzip' (S f) w = Ok ([literal_of a], None)).
  { intros f. cbn [message_read_raw]. rewrite RR. reflexivity. }
  unfold to_encrypt, comp_of. rewrite NS. fold (literal_of a). rewrite W. cbn [bind].
  destruct C as [C|(C & Z)].
  - rewrite C. cbn [N.eqb]. exists w. split; [reflexivity|]. split; [lia|]. exact (G (S fuel')).
  - destruct (Z w W) as (z & Z1 & Z2 & Z3 & Z4). replace (e_comp a =? 0) with false by (cbn [In] in C; lia).
    unfold compressed_packet. replace (codec zip (e_comp a) w) with (@Ok bytes z).
    2:{ unfold codec. replace (e_comp a =? 0) with false by (cbn [In] in C; lia). replace (0 <? len w) with true by lia. cbn [negb andb].
        replace (mem [1; 2; 3] (e_comp a)) with true by (cbn [In] in C; repeat destruct C as [<-|C]; tauto || reflexivity). now rewrite Z1. }
    cbn [bind]. change (mkPacket 8 NEW NOT_PARTIAL (PCompressed (e_comp a) z)) with (new_packet 8 (PCompressed (e_comp a) z)).
    destruct (new_written 8 (PCompressed (e_comp a) z) _ eq_refl) as (w2 & W2 & L2). rewrite len_cons in L2. rewrite W2. cbn [bind]. exists w2.
    split; [reflexivity|]. split; [unfold readable_length in Z4; lia|].
    change (2 + fuel')%nat with (S (S fuel')). cbn [message_read_raw]. rewrite (compressed_read NEW (e_comp a) z w2 Z4 W2).
    cbn [bind map p_tag]. change (message_match false 1 [8] OPENM) with (@Ok bool true).
    cbn [bind decompressed p_tag N.eqb Pos.eqb as_compressed p_body p_format p_partial].
    replace (codec unzip' (e_comp a) z) with (@Ok bytes w).
    2:{ unfold codec. replace (e_comp a =? 0) with false by (cbn [In] in C; lia). replace (0 <? len z) with true by (destruct z; [congruence|rewrite len_cons; lia]). cbn [negb andb].
        replace (mem [1; 2; 3] (e_comp a)) with true by (cbn [In] in C; repeat destruct C as [<-|C]; tauto || reflexivity). now rewrite Z3. }
    cbn [bind]. pose proof (G fuel') as G'. cbn [message_read_raw] in G'. rewrite G'. reflexivity.
Qed.

(** Encryption with a passphrase, for any octets to be encrypted. *)
Lemma sym_back zip unzip fuel a pass kh now now' rnd draws unzip' fuel' w rest : enc_valid a = true ->
  In (e_sym a) offered -> In kh hashes -> 8 + N.of_nat (block_octets (e_sym a)) <= len rnd ->
  to_encrypt zip unzip fuel a now now' draws = Ok (Some w, rest) -> len w < 2 ^ 63 ->
  exists m, encrypt_sym zip unzip fuel a pass kh now now' rnd draws = Ok m /\
    map p_tag (g_packets (m_pgp m)) = [3; if e_mdc a then 18 else 9] /\
    decrypt_sym unzip' fuel' m pass =
      (' (ps, c) <- message_read_raw unzip' fuel' w ;; Ok (mkMessage (mkPgp false 1 [] ps) c)).
Proof.
  intros V I KH R W L. destruct (offered_tables _ I) as (TB & TK & _ & N0 & BS & KS).
  unfold encrypt_sym. rewrite V. cbn [negb].
  destruct (rand_bytes_ok 8 rnd ltac:(lia)) as (salt & r & RB & -> & LS). rewrite RB. cbn [bind]. cbv zeta.
  set (s := mkS2k S2K3 3 kh salt 96).
  assert (SF : s2k_fits s) by (split; [reflexivity|]; split; [exact LS|reflexivity]).
  destruct (s2k_run_ok s pass (N.of_nat (key_octets (e_sym a))) SF KH) as (k & RK & LK & OK).
  assert (GK : get_session_key (e_sym a) (Some s) None pass = Ok (e_sym a :: k)).
  { unfold get_session_key. rewrite TK. cbn [bind]. rewrite shiftr_8, RK. reflexivity. }
  assert (SK : substr (e_sym a :: k) 1 (sub64 (len (e_sym a :: k)) 1) = Ok k).
  { rewrite len_cons, sub64_small by (unfold two64; lia). apply (substr_app_end [e_sym a] k); [reflexivity|lia]. }
  rewrite GK. cbn [bind]. rewrite SK. cbn [bind].
  rewrite len_app in R.
  destruct (data_back zip unzip fuel unzip' fuel' a k now now' r draws w rest V W I OK ltac:(unfold len in LK; lia) ltac:(lia) L) as (tag & y & T & E & D).
  rewrite E. cbn [bind]. eexists. split; [reflexivity|]. split; [subst tag; reflexivity|].
  unfold decrypt_sym. cbn [m_pgp].
  assert (M : message_meaningful false (mkPgp true 1 version_cc [new_packet 3 (PSymSession 4 (e_sym a) (Some s) None); new_packet tag (if e_mdc a then PProtected 1 y else PRaw y)]) = Ok true).
  { subst tag. destruct (e_mdc a); reflexivity. }
  rewrite M. cbn [bind negb g_packets find p_tag new_packet N.eqb Pos.eqb as_sym_session p_body]. rewrite GK. cbn [bind].
  change (at_ (e_sym a :: k) 0) with (@Ok N (e_sym a)). cbn [bind]. rewrite SK. cbn [bind].
  unfold decrypt_data. cbn [m_pgp]. rewrite M. cbn [bind negb g_packets find p_tag].
  change ((3 =? 9) || (3 =? 18)) with false. cbv iota.
  subst tag. destruct (e_mdc a); cbn [p_tag N.eqb Pos.eqb orb as_encrypted as_protected p_body bind]; exact D.
Qed.

(** ** Public keys *)
Lemma encrypting_mem a : encrypting a <-> can_encrypt a = true.
Proof.
  unfold encrypting, can_encrypt, mem. cbn [In existsb]. rewrite !orb_true_iff, !N.eqb_eq. split; [intros [<-|[<-|[<-|[]]]]; auto|intros [H|[H|[H|H]]]; auto; discriminate].
Qed.
Lemma key_packet_tag t : is_key_packet t = true <-> In t [5; 6; 7; 14].
Proof.
  unfold is_key_packet, is_primary_key, is_subkey, mem. cbn [In existsb]. rewrite !orb_true_iff, !N.eqb_eq. split; [intros H; decompose [or] H; subst; auto; discriminate|intros H; decompose [or] H; subst; auto; tauto].
Qed.
Lemma secret_tag t : is_secret t = true <-> In t [5; 7].
Proof. unfold is_secret. cbn [In]. rewrite orb_true_iff, !N.eqb_eq. split; intros H; decompose [or] H; subst; auto; tauto. Qed.
Lemma key_of_as p k : key_of p k -> as_key p = Ok k.
Proof. unfold as_key. intros [->|(s & ->)]; reflexivity. Qed.
Lemma encrypts_found g k last : encrypts_with g k -> find_encrypting (g_packets g) last = Ok (Some k).
Proof.
  intros (before & p & after & -> & T & K & C & F). revert last. induction F as [|q before Q F IH]; intros last; cbn [app find_encrypting].
  - replace (is_key_packet (p_tag p)) with true by (symmetry; now apply key_packet_tag). rewrite (key_of_as _ _ K). cbn [bind].
    apply encrypting_mem in C. now rewrite C.
  - destruct (is_key_packet (p_tag q)) eqn:E; [|apply IH]. apply key_packet_tag in E. destruct (Q E) as (k' & K' & N'). rewrite (key_of_as _ _ K'). cbn [bind].
    destruct (can_encrypt (k_pka k')) eqn:CE; [apply encrypting_mem in CE; tauto|apply IH].
Qed.
Lemma decrypts_found g id k sec last : decrypts_with g id k sec -> find_decrypting (g_packets g) id last = Ok (Some (k, sec)).
Proof.
  intros (before & p & after & -> & T & K & KI & C & F). revert last. induction F as [|q before Q F IH]; intros last; cbn [app find_decrypting].
  - apply secret_tag in T. rewrite T. unfold as_secret. rewrite K. cbn [bind]. rewrite KI. cbn [bind]. apply encrypting_mem in C. now rewrite C, beq_refl.
  - destruct (is_secret (p_tag q)) eqn:E; [|apply IH]. apply secret_tag in E. destruct (Q E) as (k' & s & i & B & KI' & D). unfold as_secret. rewrite B. cbn [bind]. rewrite KI'. cbn [bind].
    replace (beq i id && can_encrypt (k_pka k')) with false; [apply IH|]. symmetry. apply andb_false_iff. destruct D as [D|D].
    + left. now apply beq_neq.
    + right. destruct (can_encrypt _) eqn:X; [|reflexivity]. apply encrypting_mem in X. tauto.
Qed.

Lemma octets_of_value v k : 256 ^ (k - 1) <= v < 256 ^ k -> 1 <= k -> (bitsize v + 7) / 8 = k.
Proof.
  intros [A B] K. rewrite !pow256 in *. assert (U : bitsize v <= 8 * k) by (apply bitsize_le; [lia|exact B]).
  assert (L : 8 * (k - 1) < bitsize v).
  { destruct (N.eq_dec k 1) as [->|K1]; [unfold bitsize; lia|]. destruct (N.le_gt_cases (bitsize v) (8 * (k - 1))) as [X|X]; [|exact X].
    apply bitsize_le in X; lia. }
  clear A B. symmetry. apply N.div_unique with (bitsize v + 7 - 8 * k); lia.
Qed.
Lemma raw_of_octets c l : octets (c :: l) -> c <> 0 -> mpitoraw (be_val (c :: l)) = c :: l.
Proof.
  intros O C. pose proof (be_val_bound _ O) as U. pose proof O as O2. apply Forall_cons_iff in O2 as [Oc Ol].
  assert (L : 256 ^ len l <= be_val (c :: l)).
  { change (c :: l) with ([c] ++ l). rewrite be_val_app. assert (X : be_val [c] = c) by (unfold be_val; cbn; lia). rewrite X. set (q := 256 ^ len l). generalize (be_val l). intros z. clear -C. nia. }
  unfold mpitoraw. rewrite (octets_of_value _ (len (c :: l))); [|split; [|exact U]|rewrite len_cons; lia].
  - unfold len. rewrite Nnat.Nat2N.id. now apply be_be_val.
  - rewrite len_cons. now replace (1 + len l - 1) with (len l) by lia.
Qed.
(** The modulus has the number of octets the encoded block is made for, so the block, whose
    first octet is 0, is below it. *)
Lemma block_below n em : octets em -> len (0 :: em) = len (mpitoraw n) -> em <> [] -> be_val (0 :: em) < n /\ be_val (0 :: em) = be_val em.
Proof.
  intros O L E. assert (V : be_val (0 :: em) = be_val em).
  { change (0 :: em) with ([0] ++ em). rewrite be_val_app. change (be_val [0]) with 0. lia. }
  rewrite V. split; [|reflexivity]. pose proof (be_val_bound em O) as B. rewrite len_cons, mpitoraw_len in L.
  apply N.lt_le_trans with (256 ^ len em); [exact B|]. rewrite pow256.
  destruct (N.le_gt_cases (2 ^ (8 * len em)) n) as [X|X]; [exact X|]. exfalso.
  assert (0 < len em) by (destruct em; [congruence|rewrite len_cons; lia]).
  apply bitsize_le in X; [|lia]. assert (Y : (bitsize n + 7) / 8 <= len em); [|lia].
  apply N.le_trans with ((8 * len em + 7) / 8); [apply N.div_le_mono; lia|]. clear. rewrite (N.mul_comm 8), N.div_add_l by lia. change (7 / 8) with 0. lia.
Qed.
Lemma eme_pad_octets : forall rnd EM size EM' r, octets rnd -> octets EM -> eme_pad rnd EM size = Ok (EM', r) -> octets EM' /\ octets r.
Proof.
  induction rnd as [|c rnd IH]; intros EM size EM' r R O H; cbn [eme_pad] in H; (destruct (len EM <? size); [|apply Ok_inj in H; injection H as <- <-; auto]); [discriminate|].
  apply Forall_cons_iff in R as [C R]. apply IH in H; auto. destruct (c =? 0); [exact O|]. apply octets_app. split; [exact O|]. now repeat constructor.
Qed.
Lemma eme_octets rnd m k em r : octets rnd -> octets m -> eme_encode rnd m k = Ok (em, r) -> octets em /\ octets r.
Proof.
  intros R O H. unfold eme_encode in H. destruct (_ <? _) in H; [apply Ok_inj in H; injection H as <- <-; split; [constructor|exact R]|].
  inv_bind H. destruct a as [EM r']. apply Ok_inj in H. injection H as <- <-. apply eme_pad_octets in E as [A B]; [|exact R|repeat constructor].
  split; [|exact B]. apply octets_app. split; [exact A|]. now constructor.
Qed.
Lemma sum16_len d : len (sum16 d) = 2. Proof. unfold sum16. now rewrite len_be. Qed.
Lemma open_made sym key : len key < 2 ^ 32 -> open_session (sym :: key ++ sum16 key) = Ok (Some (sym, key)).
Proof.
  intros L. unfold open_session. change (at_ (sym :: key ++ sum16 key) 0) with (@Ok N sym). cbn [bind].
  assert (LL : len (sym :: key ++ sum16 key) = 3 + len key) by (rewrite len_cons, len_app, sum16_len; lia).
  rewrite LL, !sub64_small by (unfold two64; lia).
  replace (3 + len key - 2) with (len (sym :: key)) by (rewrite len_cons; lia). change (sym :: key ++ sum16 key) with ((sym :: key) ++ sum16 key).
  rewrite substr_app_end by (reflexivity || (rewrite sum16_len; lia)). cbn [bind].
  change ((sym :: key) ++ sum16 key) with ([sym] ++ key ++ sum16 key). rewrite substr_app by (reflexivity || lia). cbn [bind]. now rewrite beq_refl.
Qed.

(** What encryption to a key returns, and what the secret key makes of it. *)
Lemma pka_back zip unzip fuel a pub pri k sec id vals pass now now' rnd draws unzip' fuel' m :
  enc_valid a = true -> In (e_sym a) offered -> meaningful pub = Ok true -> revoke_check pub = Ok 0%Z -> encrypts_with pub k ->
  secret_meaningful pri = Ok true -> decrypts_with pri id k sec -> decrypt_secret_keys sec pass = Ok vals -> cipher_pair (k_pka k) vals (k_mpi k) ->
  (forall n more, k_mpi k = n :: more -> N.of_nat (key_octets (e_sym a)) + 14 <= len (mpitoraw n) < two32) ->
  octets rnd ->
  encrypt_pka zip unzip fuel a pub now now' rnd draws = Ok m -> g_packets (m_pgp m) <> [] ->
  exists w draws' rest, (draws' = draws \/ exists x, draws = x :: draws') /\ to_encrypt zip unzip fuel a now now' draws' = Ok (Some w, rest) /\
    (len w < 2 ^ 63 -> decrypt_pka unzip' fuel' pri pass m =
      (' (ps, c) <- message_read_raw unzip' fuel' w ;; Ok (mkMessage (mkPgp false 1 [] ps) c))).
Proof.
  intros V I M RC EW SM DW DS CP BIG OR E NE. destruct (offered_tables _ I) as (TB & TK & _ & N0 & BS & KS).
  assert (KI : get_keyid k = Ok id) by (destruct DW as (? & ? & ? & _ & _ & _ & KI & _); exact KI).
  assert (EC : encrypting (k_pka k)) by (destruct DW as (? & ? & ? & _ & _ & _ & _ & EC & _); exact EC).
  unfold encrypt_pka in E. rewrite V, M in E. cbn [negb bind] in E. rewrite RC in E. cbn [bind] in E. change (negb (0 =? 0)%Z) with false in E. cbv iota in E.
  rewrite (encrypts_found _ _ None EW) in E. cbn [bind] in E. rewrite KI in E. cbn [bind] in E. rewrite TK in E. cbn [bind] in E. rewrite shiftr_8 in E.
  apply bind_ok in E as ([session r1] & RS & E).
  assert (RD : rnd = session ++ r1 /\ len session = N.of_nat (key_octets (e_sym a))).
  { unfold rand_bytes in RS. destruct (_ <? _) eqn:L in RS; [discriminate|]. apply Ok_inj in RS. injection RS as <- <-. rewrite firstn_skipn, len_firstn. split; [reflexivity|lia]. }
  destruct RD as [-> LS]. apply octets_app in OR as [OS O1].
  assert (NM : exists n more, k_mpi k = n :: more).
  { unfold cipher_pair in CP. destruct (k_pka k =? 16); [destruct CP as (? & ? & ? & ? & ? & ? & CP & _)|destruct CP as (? & ? & ? & ? & ? & CP & _)]; rewrite CP; eauto. }
  destruct NM as (n & more & KM). specialize (BIG n more KM). rewrite KM in E at 1. change (vec_at (n :: more) 0) with (@Ok N n) in E. cbn [bind] in E.
  set (msg := e_sym a :: session ++ sum16 session) in *.
  assert (LM : len msg = 3 + N.of_nat (key_octets (e_sym a))) by (unfold msg; rewrite len_cons, len_app, sum16_len; lia).
  assert (OM : octets msg).
  { constructor; [|apply octets_app; split; [exact OS|apply be_octets]]. clear -I. cbn [offered In] in I. unfold octet. lia. }
  apply bind_ok in E as ([em r2] & EM & E).
  destruct (C21_roundtrip r1 msg (len (mpitoraw n)) ltac:(lia) ltac:(lia)) as [RT _]. destruct (RT em r2 EM) as (DEC & LE & ps & EQ & NZ & LPS).
  destruct (eme_octets _ _ _ _ _ O1 OM EM) as [OE O2].
  assert (OT : octets (2 :: ps ++ 0 :: msg)) by (rewrite EQ in OE; now apply Forall_cons_iff in OE as [_ OE]).
  destruct (block_below n (2 :: ps ++ 0 :: msg) OT ltac:(rewrite <- EQ; exact LE) ltac:(discriminate)) as [LT VE].
  rewrite EQ in E. cbn [rawtompi bind] in E. rewrite VE in *. set (v := be_val (2 :: ps ++ 0 :: msg)) in *.
  assert (RAW : mpitoraw v = 2 :: ps ++ 0 :: msg) by (apply raw_of_octets; [exact OT|discriminate]).
  apply bind_ok in E as ([mpi draws'] & MP & E). apply bind_ok in E as (o & ED & E).
  assert (PK : (draws' = draws \/ exists x, draws = x :: draws') /\ (if (k_pka k =? 1) || (k_pka k =? 2) then c <- vec_at mpi 0 ;; x <- rsa_decrypt c vals (k_mpi k) ;; Ok (mpitoraw x) else elgamal_decrypt mpi vals (k_mpi k)) = Ok (2 :: ps ++ 0 :: msg)).
  { rewrite <- RAW. unfold cipher_pair in CP. destruct (k_pka k =? 16) eqn:P16.
    - apply N.eqb_eq in P16. rewrite P16 in MP |- *. cbn [N.eqb Pos.eqb orb] in MP |- *. destruct CP as (p & g & y & x & more1 & more2 & K1 & -> & EK).
      rewrite K1 in *. injection KM as <- <-. destruct draws as [|d0 draws]; [|destruct (C42_decrypt p g y x more1 more2 v d0 draws EK LT) as (c & E1 & E2); rewrite E1 in MP; apply Ok_inj in MP; injection MP as <- <-; split; [eauto|exact E2]].
      unfold elgamal_encrypt in MP. cbn [vec_at nth_error bind] in MP. change (vec_at (p :: g :: y :: more1) 0) with (@Ok N p) in MP. cbn [bind] in MP.
      unfold random in MP. destruct (_ =? 0) in MP; discriminate.
    - assert (P12 : (k_pka k =? 1) || (k_pka k =? 2) = true) by (unfold encrypting in EC; cbn [In] in EC; lia).
      rewrite P12 in MP |- *. destruct CP as (n' & e & d & more1 & more2 & K1 & -> & RK). rewrite K1 in *. injection KM as <- <-.
      destruct (C41_decrypt n' e d more1 more2 v RK LT) as (c & E1 & E2). rewrite E1 in MP. cbn [bind] in MP. apply Ok_inj in MP. injection MP as <- <-.
      split; [now left|]. change (vec_at [c] 0) with (@Ok N c). cbn [bind]. rewrite E2. reflexivity. }
  destruct PK as (DR & PK).
  assert (VN : exists x xs, vals = x :: xs).
  { unfold cipher_pair in CP. destruct (k_pka k =? 16); [destruct CP as (? & ? & ? & x & ? & xs & _ & -> & _)|destruct CP as (? & ? & x & ? & xs & _ & -> & _)]; eauto. }
  destruct VN as (x & xs & VN).
  destruct o as [p|]; [|apply Ok_inj in E; subst m; contradiction NE; reflexivity]. apply Ok_inj in E. subst m. cbn [m_pgp g_packets] in *.
  pose proof ED as ED0. unfold encrypt_data in ED0. rewrite V in ED0. cbn [negb] in ED0. apply bind_ok in ED0 as ([ow rest] & TE & ED0). destruct ow as [w|]; [|discriminate].
  exists w, draws', rest. split; [exact DR|]. split; [exact TE|]. intros LW.
  rewrite TB in ED0. cbn [bind] in ED0. apply bind_ok in ED0 as ([pre r3] & RP & _). rewrite shiftr_8 in RP.
  assert (R2 : N.of_nat (block_octets (e_sym a)) <= len r2) by (unfold rand_bytes in RP; destruct (_ <? _) eqn:L in RP; [discriminate|lia]).
  destruct (data_back zip unzip fuel unzip' fuel' a session now now' r2 draws' w rest V TE I OS ltac:(unfold len in LS; lia) R2 LW) as (tag & y & T & E & D).
  rewrite ED in E. apply Ok_inj in E. injection E as ->.
  unfold decrypt_pka. rewrite SM. cbn [bind negb m_pgp].
  assert (MM : message_meaningful false (mkPgp true 1 version_cc [new_packet 1 (PSession 3 id (k_pka k) mpi); new_packet tag (if e_mdc a then PProtected 1 y else PRaw y)]) = Ok true).
  { subst tag. destruct (e_mdc a); reflexivity. }
  rewrite MM. cbn [bind negb g_packets find p_tag new_packet N.eqb Pos.eqb as_session p_body].
  apply encrypting_mem in EC. rewrite EC. cbn [negb]. rewrite (decrypts_found _ _ _ _ None DW). cbn [bind]. rewrite DS. cbn [bind]. rewrite VN in *. cbv iota.
  rewrite PK. cbn [bind]. rewrite <- EQ, DEC. cbn [bind]. replace (len msg =? 0) with false by lia.
  unfold msg. rewrite open_made by lia. cbn [bind].
  unfold decrypt_data. cbn [m_pgp]. rewrite MM. cbn [bind negb g_packets find p_tag new_packet].
  change ((1 =? 9) || (1 =? 18)) with false. cbv iota.
  subst tag. destruct (e_mdc a); cbn [p_tag N.eqb Pos.eqb orb as_encrypted as_protected p_body bind]; exact D.
Qed.

(** Data with any two octets [t] in place of the header of the modification detection code. *)
Lemma protected_back unzip fuel sym key pre w t h : In sym offered -> octets key -> length key = key_octets sym ->
  length pre = block_octets sym -> len w < 2 ^ 63 -> len t = 2 -> hash_use 2 (pre ++ last_two pre ++ w ++ t) = Ok h ->
  exists y, use_ocfb_encrypt sym 18 (w ++ t ++ h) key (pre ++ last_two pre) = Ok y /\
    use_ocfb_decrypt sym 18 y key = Ok ((pre ++ last_two pre ++ w ++ t) ++ h) /\
    decrypt_octets unzip fuel sym 18 y key = (' (ps, c) <- message_read_raw unzip fuel w ;; Ok (mkMessage (mkPgp false 1 [] ps) c)).
Proof.
  intros I O L LP' B LT H. destruct (offered_tables _ I) as (TB & TK & _ & N0 & BS & _).
  assert (L2 : length (last_two pre) = 2%nat) by (apply last_two_len; lia).
  assert (LH : len h = 20) by (apply (hash_use_len _ _ _ _ H eq_refl)).
  destruct (use_ocfb_roundtrip sym 18 (w ++ t ++ h) key pre (last_two pre) I O L ltac:(auto) LP' ltac:(lia)) as (y & Y1 & Y2 & Y3).
  { rewrite !len_app. unfold two64. lia. }
  exists y. split; [exact Y1|]. split; [rewrite Y3, <- !app_assoc; reflexivity|].
  unfold decrypt_octets. replace (len y =? 0) with false by lia. rewrite Y3. cbn [bind]. rewrite TB. cbn [bind]. cbv zeta.
  rewrite shiftr_8. change (18 =? 18) with true. cbv iota.
  set (x := pre ++ last_two pre ++ w ++ t) in *.
  replace (pre ++ last_two pre ++ w ++ t ++ h) with (x ++ h) by (unfold x; rewrite <- !app_assoc; reflexivity).
  assert (LX : len x = N.of_nat (block_octets sym) + 4 + len w) by (unfold x; rewrite !len_app, LT; unfold len at 1 2; lia).
  assert (LA : len (x ++ h) < two64) by (rewrite len_app; unfold two64; lia).
  rewrite !sub64_small by (rewrite ?len_app in *; unfold two64 in *; lia).
  replace (len (x ++ h) - 20) with (len x) by (rewrite len_app; lia).
  rewrite substr_app_end by (reflexivity || lia). cbn [bind]. rewrite substr_start. cbn [bind]. rewrite H. cbn [bind]. rewrite beq_refl. cbn [bind].
  rewrite sub64_small by (unfold two64; lia).
  assert (SX : substr x 0 (len x - 2) = Ok ((pre ++ last_two pre) ++ w)).
  { unfold x. replace (pre ++ last_two pre ++ w ++ t) with (((pre ++ last_two pre) ++ w) ++ t) by (now rewrite <- !app_assoc).
    replace (len (((pre ++ last_two pre) ++ w) ++ t) - 2) with (len ((pre ++ last_two pre) ++ w)) by (rewrite (len_app _ t), LT; lia).
    apply substr_start. }
  rewrite SX. cbn [bind]. set (p2 := pre ++ last_two pre) in *.
  assert (LP2 : len p2 = N.of_nat (block_octets sym) + 2) by (unfold p2; rewrite len_app; unfold len at 2; unfold len; lia).
  rewrite (len_app p2), LP2, sub64_twice by (unfold two64; lia). rewrite <- LP2.
  rewrite substr_app_end by (reflexivity || lia). cbn [bind]. reflexivity.
Qed.

(** What integrity-protected data contained when something came out of it. *)
Lemma protected_inv unzip fuel sym data key m : (forall plain, use_ocfb_decrypt sym 18 data key = Ok plain -> len plain < two64) ->
  decrypt_octets unzip fuel sym 18 data key = Ok m -> g_packets (m_pgp m) <> [] ->
  exists bits plain h x, map_at block_length sym = Ok bits /\ use_ocfb_decrypt sym 18 data key = Ok plain /\
    plain = x ++ h /\ len h = 20 /\ hash_use 2 x = Ok h /\
    exists inner, substr x 0 (sub64 (len x) 2) = Ok inner /\
    exists octs, substr inner (N.shiftr bits 3 + 2) (sub64 (sub64 (len inner) (N.shiftr bits 3)) 2) = Ok octs /\
    message_read_raw unzip fuel octs = Ok (g_packets (m_pgp m), m_comp m).
Proof.
  unfold decrypt_octets. intros MEM E NE. destruct (len data =? 0); [apply Ok_inj in E; subst m; contradiction NE; reflexivity|].
  apply bind_ok in E as (plain & D & E). apply bind_ok in E as (bits & B & E). cbv zeta in E. change (18 =? 18) with true in E. cbv iota in E.
  apply bind_ok in E as (o & C & E). apply bind_ok in C as (chk & S1 & C). apply bind_ok in C as (x & S2 & C). apply bind_ok in C as (h & H & C).
  destruct (beq h chk) eqn:Q; [|apply Ok_inj in C; subst o; apply Ok_inj in E; subst m; contradiction NE; reflexivity].
  apply beq_eq in Q. subst chk. apply bind_ok in C as (inner & S3 & C). apply Ok_inj in C. subst o.
  apply bind_ok in E as (octs & S4 & E). apply bind_ok in E as ([ps c] & RR & E). apply Ok_inj in E. subst m. cbn [m_pgp g_packets m_comp] in *.
  assert (LH : len h = 20) by (apply (hash_use_len _ _ _ _ H eq_refl)).
  exists bits, plain, h, x. split; [exact B|]. split; [exact D|]. split.
  - apply substr_inv in S1 as [P1 E1]. apply substr_inv in S2 as [_ E2]. 
    specialize (MEM plain D). assert (LC : len h = N.min 20 (len plain - sub64 (len plain) 20)) by (rewrite E1, len_firstn, len_skipn; lia).
    assert (G : 20 <= len plain /\ sub64 (len plain) 20 = len plain - 20).
    { destruct (N.le_gt_cases 20 (len plain)) as [G|G]; [split; [exact G|apply sub64_small; assumption]|].
      exfalso. assert (sub64 (len plain) 20 = len plain + (two64 - 20)) by (unfold sub64; rewrite (N.mod_small 20) by reflexivity; apply N.mod_small; unfold two64 in *; lia).
      unfold two64 in *. lia. }
    destruct G as [G Q]. rewrite Q in *. rewrite E1, E2. cbn [N.to_nat skipn]. rewrite <- (firstn_skipn (N.to_nat (len plain - 20)) plain) at 1. f_equal.
    + f_equal. lia.
    + symmetry. apply firstn_all2. rewrite skipn_length. unfold len in *. lia.
  - split; [exact LH|]. split; [exact H|]. exists inner. split; [exact S3|]. exists octs. auto.
Qed.
