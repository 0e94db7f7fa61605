(** C91: what is printed about packets. *)
From Verif Require Import Proofs.Lib Proofs.CommandsP Proofs.CliP Proofs.TimesP Proofs.MpiP Proofs.IncludesP Proofs.ArmorP Proofs.CleartextP Proofs.ShowP Props.C44_C46 Props.C80 Props.C84 Props.C86 Spec.Text Spec.Listed Spec.Invocation Spec.CommandLine.
Local Open Scope N_scope.

(** A list of packets is printed as one outline for each of them, in order; the first line of each
    says the header format, the kind and the number of the packet. *)
Theorem C91_listing v i n ps text : show v i n ps = Ok text ->
  exists trees, Forall2 (fun p t => announces (heading t) p) ps trees /\ text = concat (map (drawn n i) trees).
Proof.
  unfold show, show_events. intros E. inv_bind E. apply Ok_inj in E as <-.
  destruct (packets_shaped v _ (inner_shaped v (v_fuel v)) ps a E0) as (ts & S & F). exists ts. split; [|now apply shaped_text].
  clear - F. induction F as [|p t ps ts H F IH]; constructor; [|exact IH]. pose proof (title_announces _ _ _ (p_body p) _ H) as T. destruct p; exact T.
Qed.

Lemma dates v : is_gmtime (v_gmtime v) -> forall t, time_fits t -> works (date v t).
Proof. intros G t T. destruct (C84_time _ t G T) as (g & y & wd & mo & dd & hh & mm & ss & yy & _ & _ & F & _). eexists. exact F. Qed.
(** Whenever the packets are complete, printing succeeds. *)
Theorem C91_total v i n ps : is_gmtime (v_gmtime v) -> Forall complete ps -> exists text, show v i n ps = Ok text.
Proof.
  intros G F. destruct (packets_works v (dates v G) (inner_show v (v_fuel v)) ps F) as (l & E). unfold show, show_events. rewrite E. eexists. reflexivity.
Qed.
(** So it does for all packets read from octets, but session keys, secret keys, compressed packets and
    keys without a version. *)
Theorem C91_read v i n d ps : is_gmtime (v_gmtime v) -> read_raw d = Ok ps -> Forall ordinary ps -> exists text, show v i n ps = Ok text.
Proof. intros G R F. apply C91_total; [exact G|]. exact (read_packets_complete _ _ _ _ R F). Qed.

(** The packets left out may make the program read what is not there. *)
Theorem C91_session_refuted v i n id : len id = 8 ->
  exists ps, read_raw ([132; 10; 3] ++ id ++ [2]) = Ok ps /\ show v i n ps = UB.
Proof.
  intros L. destruct id as [|a [|b [|c [|d [|e [|f [|g [|h [|x r]]]]]]]]]; try (cbn in L; discriminate).
  - eexists. split; [vm_compute; reflexivity|vm_compute; reflexivity].
  - rewrite !len_cons in L. lia.
Qed.
Theorem C91_empty_key_refuted v i n : is_gmtime (v_gmtime v) -> exists ps, read_raw [152; 0] = Ok ps /\ show v i n ps = UB.
Proof.
  intros G. eexists. split; [vm_compute; reflexivity|]. destruct (dates v G 0) as (t & E); [reflexivity|].
  unfold show, show_events. cbn [packets_show packet_show p_format p_partial p_tag p_body]. unfold packet_show. cbn [p_format p_partial p_tag p_body contents_show].
  replace (tag_title OLD NOT_PARTIAL 6) with (@Ok bytes (str "Old: Public-Key (Tag 6)")) by (vm_compute; reflexivity). cbn [bind]. unfold key_show. cbn [k_time k_version k_mpi]. rewrite E. reflexivity.
Qed.
(** A secret key that ends after its public part: an exception instead of a listing. *)
Theorem C91_secret_refuted v i n : is_gmtime (v_gmtime v) ->
  exists ps, read_raw [149; 0; 13; 4; 0; 0; 0; 0; 1; 0; 1; 1; 0; 1; 1; 0] = Ok ps /\ ~ exists text, show v i n ps = Ok text.
Proof.
  intros G. eexists. split; [vm_compute; reflexivity|]. destruct (dates v G 0) as (t & E); [reflexivity|]. intros (text & X). unfold show, show_events in X. inv_bind X. clear X.
  cbn [packets_show] in E0. inv_bind E0. clear E0. unfold packet_show in E1. cbn [p_format p_partial p_tag p_body contents_show] in E1. inv_bind E1. inv_bind E1. clear E1. inv_bind E2. inv_bind E2.
  match goal with H : secret_show _ _ = Ok _ |- _ => vm_compute in H; discriminate end.
Qed.

(** A user ID may hold line ends: what looks like two packets may be one. *)
Definition uid_packet (a : bytes) : packet := mkPacket 13 NEW NOT_PARTIAL (PRaw a).
Lemma uids_show v inner l : packets_show v inner (map uid_packet l) = Ok (flat_map (fun a => below (str "New: User ID (Tag 13)") [Say (str "User ID: " ++ a)]) l).
Proof.
  induction l as [|a l IH]; [reflexivity|]. cbn [map packets_show flat_map]. rewrite IH. unfold packet_show, uid_packet. cbn [p_format p_partial p_tag p_body contents_show].
  replace (tag_title NEW NOT_PARTIAL 13) with (@Ok bytes (str "New: User ID (Tag 13)")) by (vm_compute; reflexivity). reflexivity.
Qed.
Lemma uids_text v i n l : show v i n (map uid_packet l) = Ok (concat (map (fun a => drawn n i (Tree (str "New: User ID (Tag 13)") [Tree (str "User ID: " ++ a) []])) l)).
Proof.
  unfold show, show_events. rewrite uids_show. cbn [bind]. f_equal. rewrite (shaped_text _ (map (fun a => Tree (str "New: User ID (Tag 13)") [Tree (str "User ID: " ++ a) []]) l)); [now rewrite map_map|].
  induction l as [|a l IH]; [constructor|]. cbn [flat_map map]. apply (shaped_app _ [Tree _ _]); [|exact IH]. apply shaped_below. constructor. constructor.
Qed.
Theorem C91_forged_refuted v i n a b : exists forged text,
  show v i n [uid_packet forged] = Ok text /\ show v i n [uid_packet a; uid_packet b] = Ok text /\ [uid_packet forged] <> [uid_packet a; uid_packet b].
Proof.
  exists (a ++ [10] ++ repeat 32 (n * i) ++ str "New: User ID (Tag 13)" ++ [10] ++ repeat 32 (n * S i) ++ str "User ID: " ++ b). eexists.
  split; [exact (uids_text v i n [_])|]. split; [|discriminate]. change [uid_packet a; uid_packet b] with (map uid_packet [a; b]). rewrite uids_text. f_equal.
  cbn [map concat drawn]. rewrite ?app_nil_r, <- ?app_assoc. reflexivity.
Qed.

(** Printing writes a file for every image that can be written, and no other. *)
Definition image_file (v : viewer) (i : image) : list (bytes * bytes) :=
  let name := str "image" ++ Times.decimal (v_number v i) ++ str "." ++ (if im_encoding i =? 1 then str "JPEG" else if existsb (N.eqb (im_encoding i)) [100; 101; 102; 103; 104; 105; 106; 107; 108; 109; 110] then str "Reserved for private/experimental use" else str "Unknown") in
  if v_open v name then [(name, im_image i)] else [].
Theorem C91_images v ps files : Forall not_compressed ps -> show_files v ps = Ok files -> files = flat_map (image_file v) (flat_map images ps).
Proof.
  intros F E. unfold show_files, show_events in E. inv_bind E. apply Ok_inj in E as <-. rewrite (packets_saved v _ ps a F E0).
  assert (P : forall i, saved (image_show v i) = image_file v i).
  { intros i. unfold image_show, image_file. cbv zeta. rewrite saved_below.
    assert (X : forall k, mapped image_name k = if k =? 1 then str "JPEG" else if existsb (N.eqb k) [100; 101; 102; 103; 104; 105; 106; 107; 108; 109; 110] then str "Reserved for private/experimental use" else str "Unknown").
    { intros k. unfold image_name, private_names, private_ids. cbn [map mapped existsb]. rewrite (N.eqb_sym 1 k). destruct (k =? 1); [reflexivity|].
      rewrite !(N.eqb_sym _ k). repeat (match goal with |- context [k =? ?c] => destruct (k =? c) end; [reflexivity|]). reflexivity. }
    rewrite X. destruct (v_open v _); reflexivity. }
  clear F E0. induction ps as [|p ps IH]; [reflexivity|]. cbn [flat_map]. rewrite flat_map_app, IH. f_equal.
  generalize (images p). intros l. induction l as [|i l IHl]; [reflexivity|]. cbn [flat_map]. now rewrite P, IHl.
Qed.
(** Looking at a packet with an image changes files. *)
Theorem C91_look_refuted v data : (forall name, v_open v name = true) -> exists name,
  show_files v [mkPacket 17 NEW NOT_PARTIAL (PAttributes [mkImage 1 1 data])] = Ok [(name, data)].
Proof. intros O. eexists. unfold show_files, show_events. cbn [packets_show]. unfold packet_show. cbn [p_format p_partial p_tag p_body contents_show flat_map].
  replace (tag_title NEW NOT_PARTIAL 17) with (@Ok bytes (str "New: User Attribute (Tag 17)")) by (vm_compute; reflexivity). cbn [bind]. rewrite ?app_nil_r, saved_below. unfold image_show. rewrite O, saved_below. reflexivity.
Qed.

(** When a key expires: the time it was made and the time after that, if the signature says when it
    was made first and the sum is before 2106. *)
Definition shown_sig (subs : list (bool * sub tag2)) : packet := mkPacket 2 NEW NOT_PARTIAL (PSig (mkTag2 4 19 18 2 [] [1; 2] 0 [] subs [])).
Lemma two_shown v i n c1 c2 t l1 l2 ts1 ts2 t1 t2 :
  sub_title v c1 = Ok t1 -> sub_title v c2 = Ok t2 -> (forall e, snd c1 <> Sub32 e) -> (forall e, snd c2 <> Sub32 e) ->
  shaped l1 ts1 -> shaped l2 ts2 ->
  (forall emb, sub_show v emb (match snd c1 with Sub2 x => x | _ => 0 end) c1 = Ok (below t1 l1)) ->
  (forall emb, sub_show v emb (match snd c2 with Sub2 x => x | _ => match snd c1 with Sub2 x => x | _ => 0 end end) c2 = Ok (below t2 l2)) ->
  show v i n [shown_sig [c1; c2]] = Ok t -> exists tr, t = drawn n i tr /\ forall line s, In s [Tree t1 ts1; Tree t2 ts2] -> mentions line s -> mentions line tr.
Proof.
  intros T1 T2 N1 N2 S1 S2 E1 E2 E. unfold show, show_events in E. cbn [packets_show] in E. unfold packet_show, shown_sig in E. cbn [p_format p_partial p_tag p_body contents_show] in E.
  replace (tag_title NEW NOT_PARTIAL 2) with (@Ok bytes (str "New: Signature (Tag 2)")) in E by (vm_compute; reflexivity). cbn [bind tag2_show] in E.
  change (4 <? 4) with false in E. change (4 =? 4) with true in E. change (is_RSA 18) with false in E. change (18 =? 17) with false in E. cbv iota in E. cbn [subs_show] in E.
  rewrite E1, E2 in E. cbn [bind] in E. apply Ok_inj in E as <-.
  eexists. split.
  - erewrite shaped_text; [|rewrite app_nil_r; apply shaped_below; apply sh_leaf; eapply shaped_app; [eapply shaped_app; [repeat apply sh_leaf; apply sh_nil|]; eapply shaped_app;
      [apply shaped_below; rewrite app_nil_r; eapply shaped_app; [apply shaped_below; exact S1|apply shaped_below; exact S2]|apply sh_nil]|apply sh_leaf; apply sh_nil]].
    cbn [map concat]. rewrite app_nil_r. reflexivity.
  - intros line s I M. eapply inside; [cbn [app In]; do 4 right; left; reflexivity|]. eapply inside; [exact I|exact M].
Qed.
Theorem C91_expiry v i n t dt d text : t + dt < 2 ^ 32 -> dt <> 0 -> show_time (v_gmtime v) (Z.of_N (t + dt)) = Ok d ->
  show v i n [shown_sig [(false, Sub2 t); (false, Sub9 dt)]] = Ok text ->
  exists tr, text = drawn n i tr /\ mentions (str "Key Expiration Time: " ++ d) tr.
Proof.
  intros L NZ D E. assert (D1 : exists d1, date v t = Ok d1).
  { unfold show, show_events in E. inv_bind E. cbn [packets_show] in E0. inv_bind E0. unfold packet_show in E1. inv_bind E1. inv_bind E1. cbn [shown_sig p_body contents_show tag2_show] in E3.
    inv_bind E3. change (4 <? 4) with false in E4. change (4 =? 4) with true in E4. cbv iota in E4. inv_bind E4. inv_bind E5. cbn [subs_show] in E6. inv_bind E6. unfold sub_show in E7. inv_bind E7. cbn [snd sub_lines] in E7.
    destruct (date v t); [eauto|discriminate..]. }
  destruct D1 as (d1 & D1).
  assert (T1 : exists t1, sub_title v (false, Sub2 t) = Ok t1) by (eexists; reflexivity). destruct T1 as (t1 & T1).
  assert (T2 : exists t2, sub_title v (false, Sub9 dt) = Ok t2) by (eexists; reflexivity). destruct T2 as (t2 & T2).
  destruct (two_shown v i n (false, Sub2 t) (false, Sub9 dt) text [Say (str "Creation Time: " ++ d1)] [Say (str "Key Expiration Time: " ++ d)] [Tree (str "Creation Time: " ++ d1) []] [Tree (str "Key Expiration Time: " ++ d) []] t1 t2 T1 T2)
    as (tr & -> & M); try discriminate; try exact E.
  - repeat constructor.
  - repeat constructor.
  - intros emb. unfold sub_show. rewrite T1. cbn [bind snd sub_lines]. rewrite D1. reflexivity.
  - intros emb. unfold sub_show. rewrite T2. cbn [bind snd sub_lines]. apply N.eqb_neq in NZ. rewrite NZ. unfold date, u32. rewrite N.mod_small by exact L. rewrite D. reflexivity.
  - exists tr. split; [reflexivity|]. eapply M; [right; left; reflexivity|]. eapply inside; [left; reflexivity|]. apply here.
Qed.
(** In the other order it is printed as if the key had been made in 1970. *)
Theorem C91_expiry_refuted v i n t dt d text : dt < 2 ^ 32 -> dt <> 0 -> show_time (v_gmtime v) (Z.of_N dt) = Ok d ->
  show v i n [shown_sig [(false, Sub9 dt); (false, Sub2 t)]] = Ok text ->
  exists tr, text = drawn n i tr /\ mentions (str "Key Expiration Time: " ++ d) tr.
Proof.
  intros L NZ D E. apply N.eqb_neq in NZ. assert (DE : date v (u32 (0 + dt)) = Ok d) by (unfold date, u32; rewrite N.mod_small by exact L; exact D).
  assert (T1 : exists t1, sub_title v (false, Sub2 t) = Ok t1) by (eexists; reflexivity). destruct T1 as (t1 & T1).
  assert (T2 : exists t2, sub_title v (false, Sub9 dt) = Ok t2) by (eexists; reflexivity). destruct T2 as (t2 & T2).
  assert (D1 : exists d1, date v t = Ok d1).
  { unfold show, show_events in E. inv_bind E. cbn [packets_show] in E0. inv_bind E0. unfold packet_show in E1. inv_bind E1. inv_bind E1. cbn [shown_sig p_body contents_show tag2_show] in E3.
    inv_bind E3. change (4 <? 4) with false in E4. change (4 =? 4) with true in E4. cbv iota in E4. inv_bind E4. inv_bind E5. cbn [subs_show] in E6. inv_bind E6. inv_bind E6. inv_bind E8. unfold sub_show in E9. inv_bind E9. cbn [snd sub_lines] in E9.
    destruct (date v t); [eauto|discriminate..]. }
  destruct D1 as (d1 & D1).
  destruct (two_shown v i n (false, Sub9 dt) (false, Sub2 t) text [Say (str "Key Expiration Time: " ++ d)] [Say (str "Creation Time: " ++ d1)] [Tree (str "Key Expiration Time: " ++ d) []] [Tree (str "Creation Time: " ++ d1) []] t2 t1 T2 T1)
    as (tr & -> & M); try discriminate; try exact E.
  - repeat constructor.
  - repeat constructor.
  - intros emb. unfold sub_show. rewrite T2. cbn [bind snd sub_lines]. rewrite NZ, DE. reflexivity.
  - intros emb. unfold sub_show. rewrite T1. cbn [bind snd sub_lines]. rewrite D1. reflexivity.
  - exists tr. split; [reflexivity|]. eapply M; [left; reflexivity|]. eapply inside; [left; reflexivity|]. apply here.
Qed.
(** What is said about a revocation without a given reason is not printed. *)
Theorem C91_reason_refuted v i n a b : v_size v (false, Sub29 0 a) = v_size v (false, Sub29 0 b) ->
  show v i n [shown_sig [(false, Sub29 0 a)]] = show v i n [shown_sig [(false, Sub29 0 b)]].
Proof.
  intros S. unfold show, show_events. cbn [packets_show]. unfold packet_show, shown_sig. cbn [p_format p_partial p_tag p_body contents_show tag2_show subs_show snd].
  unfold sub_show. cbn [snd]. assert (T : sub_title v (false, Sub29 0 a) = sub_title v (false, Sub29 0 b)) by (unfold sub_title; rewrite S; reflexivity). rewrite T. reflexivity.
Qed.

(** *** Two keys that look the same are the same. *)
Lemma cut (c : N) a b r s : ~ In c a -> ~ In c b -> a ++ c :: r = b ++ c :: s -> a = b /\ r = s.
Proof.
  revert b. induction a as [|x a IH]; intros [|y b] A B E; cbn [app] in E.
  - injection E as E. auto.
  - injection E as X E. subst. exfalso. apply B. now left.
  - injection E as X E. subst. exfalso. apply A. now left.
  - injection E as X E. subst. destruct (IH b) as [-> ->]; auto; intros I; [apply A|apply B]; now right.
Qed.
Definition one_line (s : bytes) : Prop := ~ In 10 s.
Lemma lines_same size level l l' : Forall one_line l -> Forall one_line l' ->
  concat (map (fun s => drawn size level (Tree s [])) l) = concat (map (fun s => drawn size level (Tree s [])) l') -> l = l'.
Proof.
  intros A. revert l'. induction A as [|s l S A IH]; intros l' B E.
  - destruct B as [|s' l']; [reflexivity|]. exfalso. cbn [map concat drawn] in E. apply (f_equal len) in E. rewrite !len_app, !len_cons in E. rewrite len_nil in E. lia.
  - destruct B as [|s' l' S' B]; cbn [map concat drawn] in E.
    + exfalso. apply (f_equal len) in E. rewrite !len_app, !len_cons in E. rewrite len_nil in E. lia.
    + rewrite !app_nil_r, <- !app_assoc in E. apply app_inv_head in E. apply cut in E as [-> E]; [|exact S|exact S']. f_equal. exact (IH l' B E).
Qed.
Lemma decimal_plain k : one_line (Times.decimal k) /\ ~ In 32 (Times.decimal k).
Proof.
  pose proof (decimal_digits k) as D. unfold digits in D. rewrite Forall_forall in D. split; intros I; apply D in I; lia.
Qed.
Lemma hexdigit_plain d : hexdigit false d <> 10.
Proof. unfold hexdigit. destruct (d <? 10) eqn:E; cbv iota; lia. Qed.
Lemma hex_plain b : one_line (hexlify b).
Proof.
  intros I. apply in_flat_map in I as (c & _ & I). unfold hexlify_char in I. cbn [makehex_c app In] in I. destruct I as [I|[I|[]]]; exact (hexdigit_plain _ I).
Qed.
Lemma app_plain a b : one_line a -> one_line b -> one_line (a ++ b).
Proof. intros A B I. apply in_app_or in I as [I|I]; auto. Qed.
Lemma str_plain s : existsb (N.eqb 10) (str s) = false -> one_line (str s).
Proof. intros E I. assert (X : existsb (N.eqb 10) (str s) = true) by (apply existsb_exists; exists 10; auto). congruence. Qed.
Definition public_names (pka : N) : list string :=
  if is_RSA pka then ["RSA n"; "RSA e"]%string else if pka =? 16 then ["ELGAMAL p"; "ELGAMAL g"; "ELGAMAL y"]%string else ["DSA p"; "DSA q"; "DSA g"; "DSA y"]%string.
(** A key of version 4 with the numbers of its algorithm. *)
Definition whole_key (k : key) : Prop :=
  k_version k = 4 /\ k_time k < 2 ^ 32 /\ k_expire k = 0 /\
  (In (k_pka k) [1; 2; 3] /\ length (k_mpi k) = 2%nat \/ k_pka k = 16 /\ length (k_mpi k) = 3%nat \/ k_pka k = 17 /\ length (k_mpi k) = 4%nat).
Lemma numbers_all names : forall pre l, length l = length names -> numbers names (length pre) (pre ++ l) = Ok (map (fun x => Say (with_bits (fst x) (snd x))) (combine names l)).
Proof.
  induction names as [|m names IH]; intros pre [|a l] L; try discriminate; [reflexivity|]. cbn [numbers combine map fst snd].
  assert (V : vec_at (pre ++ a :: l) (length pre) = Ok a) by (unfold vec_at; rewrite nth_error_app2, Nat.sub_diag by lia; reflexivity). rewrite V. cbn [bind].
  pose proof (IH (pre ++ [a]) l) as X. rewrite app_length in X. cbn [length] in X. rewrite Nat.add_1_r, <- app_assoc in X. cbn [app] in X. rewrite X by (cbn in L; lia). reflexivity.
Qed.
Definition key_lines (k : key) (d : bytes) : list bytes :=
  [str "Version: 4 - New"; str "Creation Time: " ++ d; str "Public Key Algorithm: " ++ named pka_name "pka" (k_pka k)] ++
  map (fun x => with_bits (fst x) (snd x)) (combine (public_names (k_pka k)) (k_mpi k)).
Lemma whole_names k : whole_key k -> length (k_mpi k) = length (public_names (k_pka k)).
Proof.
  intros (_ & _ & _ & [[I L]|[[E L]|[E L]]]); rewrite L; [|rewrite E; reflexivity..]. unfold public_names. destruct (is_RSA (k_pka k)) eqn:R; [reflexivity|]. now apply rsa_not in R.
Qed.
Lemma whole_pka k : whole_key k -> In (k_pka k) [1; 2; 3; 16; 17].
Proof. intros (_ & _ & _ & [[I L]|[[E L]|[E L]]]); [|rewrite E; cbn; tauto..]. cbn in *. tauto. Qed.
Lemma key_text v k d : whole_key k -> date v (k_time k) = Ok d -> key_show v k = Ok (map Say (key_lines k d)).
Proof.
  intros W D. pose proof (whole_names k W) as L. pose proof (whole_pka k W) as P. destruct W as (V & _). unfold key_show. rewrite D, V. cbn [bind].
  change (4 <? 4) with false. change (4 =? 4) with true. cbv iota.
  assert (M : (if is_RSA (k_pka k) then numbers ["RSA n"; "RSA e"]%string 0 (k_mpi k) else if k_pka k =? 16 then numbers ["ELGAMAL p"; "ELGAMAL g"; "ELGAMAL y"]%string 0 (k_mpi k)
    else if k_pka k =? 17 then numbers ["DSA p"; "DSA q"; "DSA g"; "DSA y"]%string 0 (k_mpi k) else Ok []) = numbers (public_names (k_pka k)) 0 (k_mpi k)).
  { unfold public_names. destruct (is_RSA (k_pka k)) eqn:R; [reflexivity|]. destruct (k_pka k =? 16) eqn:S; [reflexivity|]. destruct (k_pka k =? 17) eqn:T; [reflexivity|].
    exfalso. apply N.eqb_neq in S, T. apply rsa_not in R. cbn in P, R. intuition congruence. }
  pose proof (numbers_all _ [] (k_mpi k) L) as NA. cbn [length app] in NA. rewrite M, NA. cbn [bind]. unfold key_lines. rewrite map_app, map_map. reflexivity.
Qed.
Definition public_packet (p : packet) (k : key) : Prop := In (p_tag p) [6; 14] /\ p_partial p = NOT_PARTIAL /\ p_body p = PKey k.
Lemma public_text v i n p k text : public_packet p k -> whole_key k -> show v i n [p] = Ok text ->
  exists d t, date v (k_time k) = Ok d /\ tag_title (p_format p) NOT_PARTIAL (p_tag p) = Ok t /\
    text = repeat 32 (n * i) ++ t ++ [10] ++ concat (map (fun s => drawn n (S i) (Tree s [])) (key_lines k d)).
Proof.
  intros (_ & PP & B) W E. unfold show, show_events in E. cbn [packets_show] in E. unfold packet_show in E. rewrite PP, B in E. cbn [contents_show] in E.
  destruct (tag_title (p_format p) NOT_PARTIAL (p_tag p)) as [a| | |] eqn:T; try discriminate. cbn [bind] in E.
  assert (D : exists d, date v (k_time k) = Ok d) by (unfold key_show in E; destruct (date v (k_time k)); [eauto|discriminate..]). destruct D as (d & D). exists d, a. split; [exact D|]. split; [reflexivity|].
  rewrite (key_text v k d W D) in E. cbn [bind] in E. apply Ok_inj in E as <-. rewrite app_nil_r.
  rewrite (shaped_text _ [Tree a (map (fun s => Tree s []) (key_lines k d))]).
  - cbn [map concat drawn]. rewrite map_map, app_nil_r. reflexivity.
  - apply shaped_below. induction (key_lines k d) as [|x l IH]; [constructor|]. cbn [map]. now constructor.
Qed.
Lemma date_plain v t d : is_gmtime (v_gmtime v) -> t < 2 ^ 32 -> date v t = Ok d -> one_line d.
Proof.
  intros G L E. destruct (C84_time _ t G L) as (g & y & wd & mo & dd & hh & mm & ss & yy & _ & _ & F & W & M & D & _ & (H & _) & (Mi & _) & (S & _) & (Y & _)).
  unfold date in E. rewrite F in E. apply Ok_inj in E as <-.
  assert (P : forall s, digits s -> one_line s) by (intros s X I; unfold digits in X; rewrite Forall_forall in X; apply X in I; lia).
  assert (PW : one_line wd) by (apply nth_error_In in W; cbn in W; decompose [or] W; subst; try contradiction; clear; intros I; cbn in I; intuition discriminate).
  assert (PM : one_line mo) by (apply nth_error_In in M; cbn in M; decompose [or] M; subst; try contradiction; clear; intros I; cbn in I; intuition discriminate).
  repeat first [apply app_plain | assumption | now apply P | now apply str_plain].
Qed.
Lemma lines_plain v k d : is_gmtime (v_gmtime v) -> whole_key k -> date v (k_time k) = Ok d -> Forall one_line (key_lines k d).
Proof.
  intros G W D. pose proof (whole_pka k W) as P. assert (T := W). destruct T as (_ & T & _). pose proof (date_plain v _ d G T D) as PD.
  unfold key_lines. apply Forall_app. split.
  - constructor; [now apply str_plain|]. constructor; [apply app_plain; [now apply str_plain|exact PD]|]. constructor; [|constructor].
    apply app_plain; [now apply str_plain|]. cbn in P. decompose [or] P; try contradiction; match goal with H : _ = k_pka k |- _ => rewrite <- H end; intros I; revert I; vm_compute; intuition discriminate.
  - apply Forall_forall. intros x I. apply in_map_iff in I as ((m & a) & <- & I). apply in_combine_l in I. cbn [fst snd]. unfold with_bits.
    assert (PN : one_line (str m)) by (unfold public_names in I; destruct (is_RSA (k_pka k)); [|destruct (k_pka k =? 16)]; cbn in I; decompose [or] I; try contradiction; subst; now apply str_plain).
    repeat first [apply app_plain | exact PN | now apply str_plain | apply decimal_plain | apply hex_plain].
Qed.
Lemma with_bits_same m a b : with_bits m a = with_bits m b -> a = b.
Proof.
  unfold with_bits, mpitohex. intros E. apply app_inv_head in E. apply app_inv_head in E. change (str " bits): ") with (32 :: str "bits): ") in E. cbn [app] in E.
  apply cut in E as [_ E]; [|apply decimal_plain..]. apply app_inv_head in E.
  assert (X : Ok (mpitoraw a) = Ok (mpitoraw b)) by (rewrite <- (hex_roundtrip false (mpitoraw a)), <- (hex_roundtrip false (mpitoraw b)) by apply mpitoraw_octets; f_equal; exact E).
  injection X as X. rewrite <- (mpitoraw_val a), <- (mpitoraw_val b). now f_equal.
Qed.
Lemma mpis_same names : forall l l', length l = length names -> length l' = length names ->
  map (fun x => with_bits (fst x) (snd x)) (combine names l) = map (fun x => with_bits (fst x) (snd x)) (combine names l') -> l = l'.
Proof.
  induction names as [|m names IH]; intros [|a l] [|b l'] L L' E; try discriminate; [reflexivity|]. cbn [combine map fst snd] in E. injection E as E1 E2.
  apply with_bits_same in E1 as ->. f_equal. apply IH; auto.
Qed.
Theorem C91_key_faithful v i n p q k m text : is_gmtime (v_gmtime v) -> public_packet p k -> public_packet q m -> whole_key k -> whole_key m ->
  show v i n [p] = Ok text -> show v i n [q] = Ok text -> p = q.
Proof.
  intros G P Q W X E F. destruct (public_text _ _ _ _ _ _ P W E) as (d & t & D & T & ET). destruct (public_text _ _ _ _ _ _ Q X F) as (d' & t' & D' & T' & ET').
  rewrite ET' in ET. clear E F ET' text. apply app_inv_head in ET. destruct P as (IP & PP & BP). destruct Q as (IQ & PQ & BQ).
  assert (U : forall f tag t, In tag [6; 14] -> tag_title f NOT_PARTIAL tag = Ok t -> one_line t).
  { clear. intros f tag t I H. destruct I as [<-|[<-|[]]]; destruct f; apply (f_equal (fun r => match r with Ok x => x | _ => [] end)) in H; vm_compute in H; subst t; intros I; vm_compute in I; intuition discriminate. }
  apply cut in ET as [ETt ET]; [|exact (U _ _ _ IQ T')|exact (U _ _ _ IP T)]. subst t'.
  assert (TF : p_tag p = p_tag q /\ p_format p = p_format q).
  { clear - T T' IP IQ. revert T T' IP IQ. generalize (p_tag p) (p_tag q) (p_format p) (p_format q). intros tp tq fp fq T T' IP IQ. destruct IP as [<-|[<-|[]]]; destruct IQ as [<-|[<-|[]]]; destruct fp, fq; try (split; reflexivity); rewrite <- T' in T; vm_compute in T; discriminate. }
  destruct TF as [E1 E2]. apply lines_same in ET; [|exact (lines_plain v m d' G X D')|exact (lines_plain v k d G W D)].
  pose proof (whole_names _ W) as LW. pose proof (whole_names _ X) as LX. pose proof (whole_pka _ W) as KW. pose proof (whole_pka _ X) as KX.
  destruct W as (V1 & T1 & X1 & _). destruct X as (V2 & T2 & X2 & _).
  unfold key_lines in ET. cbn [app] in ET. injection ET as ED EP EM.
  subst d'. pose proof (C84_unique _ _ _ _ G T1 T2 D D') as ET.
  assert (PK : k_pka k = k_pka m).
  { clear - KW KX EP. cbn in KW, KX. decompose [or] KW; decompose [or] KX; try contradiction; try congruence;
      repeat match goal with H : _ = k_pka _ |- _ => rewrite <- H in EP end; vm_compute in EP; discriminate. }
  rewrite PK in *. apply mpis_same in EM; [|exact LX|exact LW].
  destruct p as [pt pf pp pb], q as [qt qf qp qb]. cbn in *. subst. f_equal. f_equal. destruct k, m; cbn in *. congruence.
Qed.

(** *** The commands. *)
Theorem C91_show w v items rest f data g text : calls cli_show items rest [f] -> w_files w f = Some data -> pgp_read pgp_new data = Ok g -> show v 0 4 (g_packets g) = Ok text ->
  prints (with_show w v) (str "show") items rest text.
Proof.
  intros CA F R S. destruct (calls_runs (with_show w v) cli_show uses_show items rest _ ltac:(found) CA) as (p & M & A & P). unfold prints. change (str "show") with (m_name cli_show). rewrite P.
  change (function_of (with_show w v) cli_show) with (w_other (with_show w v) (str "show")). unfold with_show at 1. cbn [w_other]. rewrite beq_refl. unfold run_show.
  rewrite (with_file_ok w p "file" f data) by (try exact F; exact (A 0%nat "file"%string f eq_refl eq_refl)). rewrite R. cbn [bind]. rewrite S. reflexivity.
Qed.
Lemma read_of g data h : pgp_read g data = Ok h -> exists d, read_raw d = Ok (g_packets h).
Proof.
  unfold pgp_read. intros E. inv_bind E. destruct a as [[l r]|].
  - inv_bind E. inv_bind E. destruct a0 as [ks r']. inv_bind E. destruct a0 as [b s]. inv_bind E. inv_bind E. inv_bind E. apply Ok_inj in E as <-. eauto.
  - inv_bind E. apply Ok_inj in E as <-. eauto.
Qed.
(** A file with packets that are not left out above is printed, whatever it holds. *)
Theorem C91_show_file w v items rest f data g : is_gmtime (v_gmtime v) -> calls cli_show items rest [f] -> w_files w f = Some data -> pgp_read pgp_new data = Ok g -> Forall ordinary (g_packets g) ->
  exists trees, Forall2 (fun p t => announces (heading t) p) (g_packets g) trees /\ prints (with_show w v) (str "show") items rest (concat (map (drawn 4 0) trees)).
Proof.
  intros G CA F R O. destruct (read_of _ _ _ R) as (d & RR). destruct (C91_read v 0 4 d _ G RR O) as (text & S). destruct (C91_listing v 0 4 _ _ S) as (trees & T & ->). exists trees. split; [exact T|]. eapply C91_show; eassumption.
Qed.
Theorem C91_show_missing w v items rest f : calls cli_show items rest [f] -> w_files w f = None -> refuses (with_show w v) (str "show") items rest.
Proof.
  intros CA F. destruct (calls_runs (with_show w v) cli_show uses_show items rest _ ltac:(found) CA) as (p & M & A & P). exists cli_show, uses_show, []. split; [found|]. split; [reflexivity|].
  change (str "show") with (m_name cli_show). rewrite P.
  change (function_of (with_show w v) cli_show) with (w_other (with_show w v) (str "show")). unfold with_show at 1. cbn [w_other]. rewrite beq_refl. unfold run_show.
  rewrite (with_file_none w p "file" f) by (try exact F; exact (A 0%nat "file"%string f eq_refl eq_refl)). reflexivity.
Qed.
Lemma cleartext_runs w v items rest f : calls cli_show_cleartext_signature items rest [f] -> exists p, arg p "file" = Ok f /\ arg p "filename" = Throw EOutOfRange /\
  program (with_show w v) (str "show-cleartext-signature" :: line items rest) =
    Some (' (r, out) <- run_show_cleartext w v p ;; Ok (if (r =? -1)%Z then ((-1)%Z, out ++ w_help w cli_show_cleartext_signature ++ [10]) else (0%Z, out))).
Proof.
  intros CA. destruct (calls_runs (with_show w v) cli_show_cleartext_signature uses_show_cleartext_signature items rest _ ltac:(found) CA) as (p & M & A & P). exists p.
  split; [exact (A 0%nat "file"%string f eq_refl eq_refl)|]. split.
  - destruct M as (_ & _ & _ & X & _). apply (X (str "filename")); cbn [cli_show_cleartext_signature m_opts m_pos map In]; intros I; [exact I|]. destruct I as [I|[]]. discriminate.
  - change (str "show-cleartext-signature") with (m_name cli_show_cleartext_signature). rewrite P.
    change (function_of (with_show w v) cli_show_cleartext_signature) with (w_other (with_show w v) (str "show-cleartext-signature")). unfold with_show at 1. cbn [w_other].
    change (beq (str "show-cleartext-signature") (str "show")) with false. cbv iota. rewrite beq_refl. reflexivity.
Qed.
Theorem C91_cleartext w v items rest f data c text : calls cli_show_cleartext_signature items rest [f] -> w_files w f = Some data -> cleartext_load data = Ok c ->
  show v 1 4 (g_packets (cs_sig c)) = Ok text ->
  prints (with_show w v) (str "show-cleartext-signature") items rest (str "Message:" ++ [10] ++ dash_escape (cs_message c) ++ str "Signature:" ++ [10] ++ text ++ [10]).
Proof.
  intros CA F L S. destruct (cleartext_runs w v items rest f CA) as (p & A & _ & P). unfold prints. rewrite P. unfold run_show_cleartext. rewrite A. cbn [bind]. rewrite F, L. cbn [bind].
  unfold cleartext_show. rewrite S. cbn [bind print Nat.mul repeat app]. unfold print. cbn [bind]. change (0 =? -1)%Z with false. cbv iota.
  match goal with |- Some (Ok (_, ?x)) = Some (Ok (_, ?y)) => assert (H : x = y); [|rewrite H; reflexivity] end. change (repeat 32 (0 * 4)) with (@nil N). cbn [app]. repeat (rewrite <- app_assoc; cbn [app]). reflexivity.
Qed.
(** The last line of the message and the next title are printed on one line. *)
Theorem C91_cleartext_line_refuted w v items rest f data c text : calls cli_show_cleartext_signature items rest [f] -> w_files w f = Some data -> cleartext_load data = Ok c ->
  one_line (cs_message c) -> len (cs_message c) < 2 ^ 61 -> cs_message c <> [] -> (forall r, cs_message c <> 45 :: r) -> show v 1 4 (g_packets (cs_sig c)) = Ok text ->
  prints (with_show w v) (str "show-cleartext-signature") items rest (str "Message:" ++ [10] ++ (cs_message c ++ str "Signature:") ++ [10] ++ text ++ [10]).
Proof.
  intros CA F L O LL NE ND S. pose proof (C91_cleartext w v items rest f data c text CA F L S) as P.
  replace (dash_escape (cs_message c)) with (cs_message c) in P; [rewrite <- ?app_assoc in *; exact P|].
  rewrite CleartextP.dash_escape_joined by exact LL. rewrite getlines_last by assumption. cbn [map Text.joined].
  destruct (cs_message c) as [|x r] eqn:EM; [reflexivity|]. cbn. destruct x as [|q]; [reflexivity|]. repeat (destruct q as [q|q|]; try reflexivity). exfalso. eapply ND. reflexivity.
Qed.
Theorem C91_cleartext_missing_refuted w v items rest f : calls cli_show_cleartext_signature items rest [f] -> w_files w f = None -> aborts (with_show w v) (str "show-cleartext-signature") items rest.
Proof.
  intros CA F. destruct (cleartext_runs w v items rest f CA) as (p & A & X & P). exists EOutOfRange. rewrite P. unfold run_show_cleartext. rewrite A. cbn [bind]. rewrite F, X. reflexivity.
Qed.

(** *** Examples. *)
Definition reader : viewer := mkViewer counted (fun _ _ => None) 2 (fun _ => 5) (fun i => len (im_image i)) (fun _ => 1) (fun _ => true).
Definition some_key : packet := mkPacket 6 NEW NOT_PARTIAL (PKey (mkKey 4 1234567890 1 [3233; 17] 0)).
Example C91_text_ex : show reader 0 4 [some_key; uid_packet (str "me")] = Ok (str "New: Public-Key (Tag 6)
    Version: 4 - New
    Creation Time: Fri Feb 13 23:31:30 UTC 2009
    Public Key Algorithm: RSA (Encrypt or Sign) (pka 1)
    RSA n (12 bits): 0ca1
    RSA e (5 bits): 11
New: User ID (Tag 13)
    User ID: me
").
Proof. vm_compute. reflexivity. Qed.
Example C91_total_ex : is_gmtime (v_gmtime reader) /\ Forall complete [some_key; uid_packet (str "me")].
Proof.
  split; [apply C84_ex|]. constructor; [|constructor; [|constructor]]; split; try exact I.
  - exists (str "Public-Key"). cbn. tauto.
  - cbn. split; [reflexivity|]. split; [discriminate|]. intros _. cbn. repeat split; intros; try lia; discriminate.
  - exists (str "User ID"). cbn. tauto.
Qed.
Example C91_read_ex : exists ps, read_raw [180; 2; 109; 101] = Ok ps /\ Forall ordinary ps /\ ps <> [].
Proof.
  eexists. split; [vm_compute; reflexivity|]. split; [|discriminate]. constructor; [|constructor]. split; [cbn; intuition discriminate|discriminate].
Qed.
Example C91_key_ex : public_packet some_key (mkKey 4 1234567890 1 [3233; 17] 0) /\ whole_key (mkKey 4 1234567890 1 [3233; 17] 0).
Proof. split; [split; [cbn; tauto|split; reflexivity]|]. split; [reflexivity|]. split; [reflexivity|]. split; [reflexivity|]. left. split; [cbn; tauto|reflexivity]. Qed.
Example C91_session_ex : exists ps, read_raw ([132; 10; 3] ++ str "8 octets" ++ [2]) = Ok ps /\ show reader 0 4 ps = UB.
Proof. apply C91_session_refuted. reflexivity. Qed.
Example C91_forged_ex : show reader 0 4 [uid_packet (str "Eve
New: User ID (Tag 13)
    User ID: Alice")] = show reader 0 4 [uid_packet (str "Eve"); uid_packet (str "Alice")].
Proof. vm_compute. reflexivity. Qed.
Example C91_images_ex : show_files reader [some_key; mkPacket 17 NEW NOT_PARTIAL (PAttributes [mkImage 1 1 [255; 216]])] = Ok [(str "image1.JPEG", [255; 216])].
Proof. vm_compute. reflexivity. Qed.
Example C91_expiry_ex : exists a b, show reader 0 4 [shown_sig [(false, Sub2 1234567890); (false, Sub9 86400)]] = Ok a /\ show reader 0 4 [shown_sig [(false, Sub9 86400); (false, Sub2 1234567890)]] = Ok b /\
  show_time counted 1234654290 = Ok (str "Sat Feb 14 23:31:30 UTC 2009") /\ show_time counted 86400 = Ok (str "Fri Jan 2 00:00:00 UTC 1970").
Proof. do 2 eexists. split; [vm_compute; reflexivity|]. split; [vm_compute; reflexivity|]. split; [vm_compute; reflexivity|]. vm_compute. reflexivity. Qed.
Example C91_command_ex : prints (with_show (toy_machine 0 [(str "f", [180; 2; 109; 101])] []) reader) (str "show") [Word (str "f")] None (str "Old: User ID (Tag 13)
    User ID: me
") /\ refuses (with_show (toy_machine 0 [] []) reader) (str "show") [Word (str "f")] None.
Proof.
  split.
  - eapply (C91_show _ _ _ _ (str "f") [180; 2; 109; 101]); [call|reflexivity|vm_compute; reflexivity|vm_compute; reflexivity].
  - apply (C91_show_missing _ _ _ _ (str "f")); [call|reflexivity].
Qed.
Example C91_missing_ex : aborts (with_show (toy_machine 0 [] []) reader) (str "show-cleartext-signature") [Word (str "f")] None.
Proof. apply (C91_cleartext_missing_refuted _ _ _ _ (str "f")); [call|reflexivity]. Qed.
Definition signed_text : bytes := match sign_cleartext (mkArgs toy_pri [] 4 2) 5 (str "hello") [3; 5] with Ok (c, _) => match cs_write c with Ok t => t | _ => [] end | _ => [] end.
Definition signed_read : cleartext := match cleartext_load signed_text with Ok c => c | _ => mkCleartext [] [] pgp_new end.
Definition signed_list : bytes := match show reader 1 4 (g_packets (cs_sig signed_read)) with Ok t => t | _ => [] end.
Lemma toy_file t : w_files (toy_machine 0 [(str "f", t)] []) (str "f") = Some t.
Proof. reflexivity. Qed.
Example C91_cleartext_ex : prints (with_show (toy_machine 0 [(str "f", signed_text)] []) reader) (str "show-cleartext-signature") [Word (str "f")] None
  (str "Message:" ++ [10] ++ (str "hello" ++ str "Signature:") ++ [10] ++ signed_list ++ [10]).
Proof.
  assert (M : cs_message signed_read = str "hello") by (vm_compute; reflexivity).
  assert (L : cleartext_load signed_text = Ok signed_read) by (vm_compute; reflexivity).
  assert (S : show reader 1 4 (g_packets (cs_sig signed_read)) = Ok signed_list) by (vm_compute; reflexivity).
  assert (K : calls cli_show_cleartext_signature [Word (str "f")] None [str "f"]) by call.
  generalize dependent signed_list. generalize dependent signed_read. generalize dependent signed_text. intros t c M L x S. rewrite <- M.
  apply (C91_cleartext_line_refuted _ reader _ _ (str "f") t); [exact K|apply toy_file|exact L|rewrite M; apply str_plain; reflexivity|rewrite M; reflexivity|rewrite M; discriminate|rewrite M; discriminate|exact S].
Qed.
Print Assumptions C91_listing. Print Assumptions C91_total. Print Assumptions C91_read. Print Assumptions C91_session_refuted. Print Assumptions C91_empty_key_refuted. Print Assumptions C91_secret_refuted.
Print Assumptions C91_forged_refuted. Print Assumptions C91_images. Print Assumptions C91_look_refuted. Print Assumptions C91_expiry. Print Assumptions C91_expiry_refuted. Print Assumptions C91_reason_refuted.
Print Assumptions C91_key_faithful. Print Assumptions C91_show. Print Assumptions C91_show_file. Print Assumptions C91_show_missing. Print Assumptions C91_cleartext. Print Assumptions C91_cleartext_line_refuted. Print Assumptions C91_cleartext_missing_refuted.
