(** Signature packets and subpackets: round trips, termination. *)
From Verif Require Export Proofs.ReadP Model.Signature Spec.Fields.

Lemma mpi_fits_bitsize m : mpi_fits m -> bitsize m <= 65528.
Proof. intros. now apply bitsize_le; [lia|]. Qed.

(** ** Subpackets *)
Lemma strip_nul_kept r : no_final_nul r -> strip_nul (r ++ [0]) = r.
Proof.
  intros H. unfold strip_nul. rewrite rev_app_distr. cbn [rev app].
  assert (E : strip_nul_rev (0 :: rev r) = strip_nul_rev (rev r)) by reflexivity.
  rewrite E. clear E. destruct (rev r) as [|x l] eqn:E.
  - cbn. rewrite <- (rev_involutive r), E. reflexivity.
  - assert (x <> 0).
    { intros ->. apply (H (rev l)). rewrite <- (rev_involutive r), E. reflexivity. }
    replace (strip_nul_rev (x :: l)) with (x :: l) by (destruct x; [lia|reflexivity]).
    now rewrite <- E, rev_involutive.
Qed.

Lemma read_time_be t : word32 t -> read_time (be 4 t) = t.
Proof.
  intros H. unfold read_time. rewrite toint256_be_small by (auto; cbn; unfold word32 in H; lia).
  unfold u32, two32. apply N.mod_small. exact H.
Qed.

Lemma sub_roundtrip {S} (er : bytes -> result S) (ew : S -> bytes) (ok : S -> Prop) s :
  (forall x, ok x -> er (ew x) = Ok x /\ ew x <> []) ->
  sub_fits ok s -> sub_kept s ->
  exists s0, sub_new (sub_type s) = Ok s0 /\ sub_read er s0 (sub_raw ew s) = Ok s.
Proof.
  intros He Hf Hk.
  destruct s; cbn [sub_type sub_new sub_raw sub_fits sub_kept] in *;
    (eexists; split; [reflexivity|]); unfold sub_read;
    try (cbn [sub_actual_read]; destruct (len _) as [|?] eqn:L; cbn [N.ltb N.compare];
         [apply len_0 in L; now subst|reflexivity]).
  - rewrite len_be. change (0 <? N.of_nat 4) with true. cbn [sub_actual_read]. now rewrite read_time_be.
  - rewrite len_be. change (0 <? N.of_nat 4) with true. cbn [sub_actual_read]. now rewrite read_time_be.
  - now destruct exportable.
  - reflexivity.
  - rewrite len_app. cbn [len length N.of_nat Pos.of_succ_nat]. replace (0 <? len regex + 1) with true by lia.
    cbn [sub_actual_read]. now rewrite strip_nul_kept.
  - now destruct revocable.
  - rewrite len_be. change (0 <? N.of_nat 4) with true. cbn [sub_actual_read]. now rewrite read_time_be.
  - autorewrite with len. replace (0 <? 1 + (1 + len fingerprint)) with true by lia.
    cbn [sub_actual_read]. autorewrite with len. replace (22 <=? 1 + (1 + len fingerprint)) with true by lia.
    rd. rewrite substr_0_all by lia. reflexivity.
  - destruct Hf as (Hf & _ & _), Hk as [-> ->]. autorewrite with len.
    replace (0 <? len flags + _) with true by lia. cbn [sub_actual_read].
    autorewrite with len. replace (8 <=? len flags + _) with true by lia.
    rewrite substr_0 by auto. cbn [bind].
    rewrite substr_app_r by lia. replace (4 - len flags) with 0 by lia.
    rewrite substr_0 by reflexivity. cbn [bind].
    rewrite substr_app_r by lia. replace (6 - len flags) with 2 by lia.
    rewrite substr_app_r by (rewrite len_be; lia). cbn [bind].
    replace (2 - len (be 2 0)) with 0 by reflexivity. rewrite substr_0 by reflexivity. cbn [bind].
    replace (_ <? _) with false; [reflexivity|]. symmetry. rewrite Hf. reflexivity.
  - now destruct primary.
  - autorewrite with len. replace (0 <? 1 + len reason) with true by lia. cbn [sub_actual_read].
    rd. rewrite substr_0_all by (autorewrite with len; lia). reflexivity.
  - autorewrite with len. replace (0 <? 1 + (1 + len hash)) with true by lia. cbn [sub_actual_read].
    autorewrite with len. assert (len hash <> 0) by (intros L; apply len_0 in L; auto).
    replace (2 <? 1 + (1 + len hash)) with true by lia.
    replace (1 + (1 + len hash) - 2) with (len hash) by lia. rd. rewrite substr_0_all by lia. reflexivity.
  - destruct embedded as [x|]; [|reflexivity]. destruct (He x Hf) as [E Hne].
    assert (len (ew x) <> 0) by (intros L; apply len_0 in L; auto).
    replace (0 <? len (ew x)) with true by lia. cbn [sub_actual_read]. now rewrite E.
Qed.

(** Notation data loses its name and value. *)
Lemma sub20_lost {S} (er : bytes -> result S) (ew : S -> bytes) f m n :
  len f = 4 -> len m < 2 ^ 16 -> len n < 2 ^ 16 ->
  sub_read er (Sub20 [] [] []) (sub_raw ew (Sub20 f m n)) = Ok (Sub20 f [] []).
Proof.
  intros Hf Hm Hn. cbn [sub_raw]. unfold sub_read. autorewrite with len.
  replace (0 <? len f + _) with true by lia. cbn [sub_actual_read].
  autorewrite with len. replace (8 <=? len f + _) with true by lia.
  rewrite substr_0 by auto. cbn [bind].
  rewrite substr_app_r by lia. replace (4 - len f) with 0 by lia.
  rewrite substr_0 by reflexivity. cbn [bind].
  rewrite substr_app_r by lia. replace (6 - len f) with 2 by lia.
  rewrite substr_app_r by (rewrite len_be; lia). rewrite !len_be.
  change (2 - N.of_nat 2) with 0. rewrite substr_0 by reflexivity. cbn [bind].
  rewrite !toint256_be_small by (auto; cbn; lia).
  unfold u16. rewrite !N.mod_small by lia.
  replace (8 + len m + len n <? _) with false by lia. reflexivity.
Qed.

Lemma sub_type_bits {S} (s : sub S) (c : bool) :
  N.land (N.lor (sub_type s) (if c then 128 else 0)) 127 = sub_type s /\
  N.testbit (N.lor (sub_type s) (if c then 128 else 0)) 7 = c.
Proof. destruct s, c; split; reflexivity. Qed.

(** ** Subpacket areas *)
Lemma area_cons emb c l : area emb (c :: l) = sub_write emb c ++ area emb l.
Proof. reflexivity. Qed.

Lemma sub_write_ge {S} (ew : S -> bytes) c : 2 <= len (sub_write ew c).
Proof.
  unfold sub_write, write_subpacket. destruct (_ <? _); [|destruct (_ && _)]; autorewrite with len; lia.
Qed.

Lemma sub_write_contains {S} (ew : S -> bytes) c : len (sub_raw ew (snd c)) + 2 <= len (sub_write ew c).
Proof.
  unfold sub_write, write_subpacket. destruct (_ <? _); [|destruct (_ && _)]; autorewrite with len; lia.
Qed.

Lemma sub64_small a b : b <= a < two64 -> sub64 a b = a - b.
Proof.
  intros H. unfold sub64. rewrite (N.mod_small b) by lia.
  replace (a + (two64 - b)) with ((a - b) + 1 * two64) by lia.
  rewrite N.mod_add by discriminate. apply N.mod_small. lia.
Qed.

Lemma read_area (er : bytes -> result tag2) (ew : tag2 -> bytes) (ok : tag2 -> Prop) : forall l pre,
  allP (fun c => sub_fits ok (snd c) /\ sub_kept (snd c)) l ->
  (forall x, ok x -> len (ew x) + 2 <= len (area ew l) -> er (ew x) = Ok x /\ ew x <> []) ->
  len (area ew l) < 2 ^ 32 ->
  forall n, (length (area ew l) < n)%nat ->
  read_subpackets er n (pre ++ area ew l) (len pre) = Ok l.
Proof.
  induction l as [|[c s] l IH]; intros pre H He Hlen n Hn.
  - destruct n; [lia|]. cbn [read_subpackets area map concat]. rewrite app_nil_r.
    now rewrite N.ltb_irrefl.
  - destruct H as [[H1 H2] H]. destruct n as [|n]; [lia|].
    rewrite area_cons in *. rewrite len_app in Hlen. rewrite app_length in Hn.
    pose proof (sub_write_ge ew (c, s)) as Hge.
    pose proof (sub_write_contains ew (c, s)) as Hct. cbn [snd] in Hct.
    cbn [read_subpackets]. rewrite !len_app.
    replace (len pre <? len pre + _) with true by lia.
    unfold sub_write in *. cbn [fst snd] in *.
    destruct (sub_type_bits s c) as [B1 B2].
    set (t := N.lor (sub_type s) (if c then 128 else 0)) in *.
    set (r := sub_raw ew s) in *.
    destruct (write_subpacket_rfc (t :: r)) as (h & Eh & Hh).
    { rewrite len_cons. lia. }
    rewrite Eh in *. rewrite <- !app_assoc.
    rewrite (read_subpacket_rfc _ _ h _ _ eq_refl Hh). cbn [bind].
    rewrite (app_assoc pre). cbn [app].
    assert (E1 : len pre + len h = len (pre ++ h)) by now rewrite len_app.
    rewrite E1, at_app by auto. cbn [bind]. rewrite B1.
    assert (Hroom : forall x, ok x -> s = Sub32 (Some x) -> er (ew x) = Ok x /\ ew x <> []).
    { intros x Hx ->. apply He; auto. subst r. cbn [sub_raw] in *. rewrite len_app. lia. }
    assert (R : exists s0, sub_new (sub_type s) = Ok s0 /\ sub_read er s0 r = Ok s).
    { destruct s; try (apply (sub_roundtrip er ew (fun _ => False)); [intros ? []|exact H1|exact H2]).
      destruct embedded as [x|].
      - apply (sub_roundtrip er ew (fun y => y = x)); [|reflexivity|exact I].
        intros y ->. apply Hroom; auto.
      - apply (sub_roundtrip er ew (fun _ => False)); [intros ? []|exact H1|exact H2]. }
    destruct R as (s0 & -> & R). cbn [bind].
    replace ((pre ++ h) ++ t :: r ++ area ew l) with ((pre ++ h ++ [t]) ++ r ++ area ew l)
      by (rewrite <- !app_assoc; reflexivity).
    rewrite substr_app; [| rewrite !len_app; cbn [len length N.of_nat Pos.of_succ_nat]; lia
      | rewrite len_cons, sub64_small; [lia|]; unfold two64; rewrite !len_app, len_cons in Hlen; lia].
    cbn [bind]. rewrite R. cbn [bind].
    replace ((pre ++ h ++ [t]) ++ r ++ area ew l) with ((pre ++ h ++ t :: r) ++ area ew l)
      by (rewrite <- !app_assoc; reflexivity).
    replace (len (pre ++ h) + len (t :: r)) with (len (pre ++ h ++ t :: r)) by (rewrite !len_app; lia).
    rewrite IH; [cbn [bind]; now rewrite B2|auto| | |].
    + intros x Hx Hl. apply He; auto. rewrite len_app. lia.
    + lia.
    + rewrite app_length in Hn. pose proof (sub_len_len _ _ Hh). cbn [length] in Hn. lia.
Qed.

(** ** MPIs *)
Lemma read_mpis_app k : forall ms pre post, length ms = k -> Forall mpi_fits ms ->
  read_mpis k (pre ++ concat (map write_MPI ms) ++ post) (len pre) =
  Ok (ms, len (pre ++ concat (map write_MPI ms))).
Proof.
  induction k; intros [|m ms] pre post E HF; try discriminate.
  - cbn. now rewrite app_nil_r.
  - inversion HF; subst. cbn [read_mpis map concat]. rewrite <- app_assoc.
    rewrite read_write_MPI by (auto using mpi_fits_bitsize). cbn [bind].
    rewrite (app_assoc pre). replace (len pre + len (write_MPI m)) with (len (pre ++ write_MPI m))
      by now rewrite len_app.
    rewrite IHk by (cbn in E; auto). cbn [bind]. now rewrite <- app_assoc.
Qed.

Lemma read_mpis_shift k pre s p : read_mpis k (pre ++ s) (len pre + p) = shifted (len pre) (read_mpis k s p).
Proof.
  revert p; induction k; intros p; cbn [read_mpis]; auto.
  rewrite read_MPI_shift. unfold shifted. destruct (read_MPI s p) as [[m q]| | |]; cbn [bind]; auto.
  rewrite IHk. unfold shifted. destruct (read_mpis k s q) as [[ms r]| | |]; reflexivity.
Qed.

(** ** Whole signatures *)
Lemma tag2_raw_v4 type pka hash mpi left16 time keyid h u :
  tag2_raw (mkTag2 4 type pka hash mpi left16 time keyid h u) =
  4 :: type :: pka :: hash :: be 2 (len (area tag2_raw h)) ++ area tag2_raw h ++
  be 2 (len (area tag2_raw u)) ++ area tag2_raw u ++ left16 ++ concat (map write_MPI mpi).
Proof.
  cbn [tag2_raw N.eqb Pos.eqb app]. unfold area. rewrite <- !app_assoc. reflexivity.
Qed.
Lemma tag2_raw_v3 type pka hash mpi left16 time keyid h u :
  tag2_raw (mkTag2 3 type pka hash mpi left16 time keyid h u) =
  3 :: 5 :: type :: be 4 time ++ keyid ++ pka :: hash :: left16 ++ concat (map write_MPI mpi).
Proof. cbn [tag2_raw N.eqb Pos.eqb app]. rewrite <- !app_assoc. reflexivity. Qed.

(** The constructor Packet::Tag2(data), as used for embedded signatures. *)
Definition tag2_embed (n : nat) (d : bytes) : result tag2 :=
  if 0 <? len d then
    ' (s, p) <- tag2_read_n n d 0 ;; if p =? len d then Ok s else Throw ERuntime
  else Ok tag2_new.

(** tag2_read_n, one level, in two parts. *)
Definition tag2_v4 (n : nat) (data : bytes) (pos : N) : result (tag2 * N) :=
  type <- at_ data (pos + 1) ;;
  pka <- at_ data (pos + 2) ;;
  hash <- at_ data (pos + 3) ;;
  hs <- substr data (pos + 4) 2 ;;
  hd <- substr data (pos + 4 + 2) (u16 (toint256 hs)) ;;
  hashed <- read_subpackets (tag2_embed n) (S (length hd)) hd 0 ;;
  us <- substr data (pos + 4 + 2 + u16 (toint256 hs)) 2 ;;
  ud <- substr data (pos + 4 + 2 + u16 (toint256 hs) + 2) (u16 (toint256 us)) ;;
  unhashed <- read_subpackets (tag2_embed n) (S (length ud)) ud 0 ;;
  left16 <- substr data (pos + 4 + 2 + u16 (toint256 hs) + 2 + u16 (toint256 us)) 2 ;;
  ' (mpi, pos) <- read_mpis (if pka =? 17 then 2 else 1) data
                    (pos + 4 + 2 + u16 (toint256 hs) + 2 + u16 (toint256 us) + 2) ;;
  Ok (mkTag2 4 type pka hash mpi left16 0 [] hashed unhashed, pos).
Definition tag2_v3 (data : bytes) (pos : N) : result (tag2 * N) :=
  five <- at_ data (pos + 1) ;;
  if five =? 5 then
    type <- at_ data (pos + 2) ;;
    time <- substr data (pos + 3) 4 ;;
    keyid <- substr data (pos + 7) 8 ;;
    if len keyid =? 8 then
      pka <- at_ data (pos + 15) ;;
      hash <- at_ data (pos + 16) ;;
      left16 <- substr data (pos + 17) 2 ;;
      ' (mpi, pos) <-
        (if is_RSA pka then read_mpis 1 data 19
         else if pka =? 17 then read_mpis 2 data 19
         else Throw ERuntime) ;;
      Ok (mkTag2 3 type pka hash mpi left16 (u32 (toint256 time)) keyid [] [], pos)
    else Throw ERuntime
  else Throw ERuntime.
Lemma tag2_read_n_S n data pos :
  tag2_read_n (S n) data pos =
  (version <- at_ data pos ;;
   if version =? 3 then tag2_v3 data pos
   else if version =? 4 then tag2_v4 n data pos else Throw ERuntime).
Proof. reflexivity. Qed.
Lemma tag2_read_n_0 data pos : tag2_read_n 0 data pos = Diverge.
Proof. reflexivity. Qed.

Lemma tag2_v4_shift n pre s p : tag2_v4 n (pre ++ s) (len pre + p) = shifted (len pre) (tag2_v4 n s p).
Proof.
  unfold tag2_v4. rewrite <- !N.add_assoc, !at_shift.
  unfold shifted.
  destruct (at_ s (p + 1)); cbn [bind]; auto.
  destruct (at_ s (p + 2)); cbn [bind]; auto.
  destruct (at_ s (p + 3)); cbn [bind]; auto.
  rewrite substr_shift. destruct (substr s (p + 4) 2) as [hs| | |]; cbn [bind]; auto.
  rewrite substr_shift. rewrite <- !N.add_assoc. destruct (substr s (p + (4 + 2)) _) as [hd| | |]; cbn [bind]; auto.
  destruct (read_subpackets _ _ hd 0); cbn [bind]; auto.
  rewrite substr_shift. destruct (substr s _ 2) as [us| | |]; cbn [bind]; auto.
  rewrite substr_shift. rewrite <- !N.add_assoc. destruct (substr s _ (u16 (toint256 us))) as [ud| | |]; cbn [bind]; auto.
  destruct (read_subpackets _ _ ud 0); cbn [bind]; auto.
  rewrite substr_shift. destruct (substr s _ 2) as [lf| | |]; cbn [bind]; auto.
  rewrite read_mpis_shift. unfold shifted. destruct (read_mpis _ s _) as [[ms q]| | |]; reflexivity.
Qed.

Lemma tag2_read_n_shift n pre s p : at_ s p <> Ok 3 ->
  tag2_read_n n (pre ++ s) (len pre + p) = shifted (len pre) (tag2_read_n n s p).
Proof.
  intros H. destruct n; [reflexivity|]. rewrite !tag2_read_n_S, at_shift.
  destruct (at_ s p) as [v| | |]; cbn [bind]; try reflexivity.
  assert (v =? 3 = false) as -> by (apply N.eqb_neq; intros ->; auto).
  destruct (v =? 4); [apply tag2_v4_shift|reflexivity].
Qed.

Lemma tag2_embed_raw n s : tag2_raw s <> [] ->
  tag2_read_n n (tag2_raw s ++ []) 0 = Ok (s, len (tag2_raw s)) ->
  tag2_embed n (tag2_raw s) = Ok s.
Proof.
  intros Hne H. rewrite app_nil_r in H. unfold tag2_embed.
  assert (len (tag2_raw s) <> 0) by (intros L; apply len_0 in L; auto).
  replace (0 <? _) with true by lia. rewrite H. cbn [bind]. now rewrite N.eqb_refl.
Qed.
Lemma tag2_raw_ne s : tag2_raw s <> [].
Proof. destruct s. cbn [tag2_raw]. discriminate. Qed.

(** A version 3 signature: the fields at any position, the integers from offset 19. *)
Definition v3_mpis (pka : N) (data : bytes) : result (list N * N) :=
  if is_RSA pka then read_mpis 1 data 19
  else if pka =? 17 then read_mpis 2 data 19 else Throw ERuntime.
Lemma tag2_v3_fields pre post s : sig_fits s -> t2_version s = 3 ->
  tag2_v3 (pre ++ tag2_raw s ++ post) (len pre) =
  (' (mpi, pos) <- v3_mpis (t2_pka s) (pre ++ tag2_raw s ++ post) ;;
   Ok (mkTag2 3 (t2_type s) (t2_pka s) (t2_hash s) mpi (t2_left16 s) (t2_time s) (t2_keyid s) [] [], pos)).
Proof.
  destruct s as [v type pka hash mpi left16 time keyid hd ud]. intros H Hv. cbn in Hv. subst v.
  cbn [sig_fits] in H. destruct H as (Hl & Hm & Hf & [(? & _) | (_ & Hp & Ht & Hi & -> & ->)]); [discriminate|].
  cbn [t2_pka t2_type t2_hash t2_left16 t2_time t2_keyid].
  rewrite tag2_raw_v3. unfold tag2_v3, v3_mpis.
  set (D := pre ++ (_ ++ post)). 
  assert (ED : D = pre ++ 3 :: 5 :: type :: be 4 time ++ keyid ++ pka :: hash :: left16 ++ concat (map write_MPI mpi) ++ post).
  { subst D. cbn [app]. rewrite <- !app_assoc. cbn [app]. now rewrite <- app_assoc. }
  clearbody D.
  set (M := fun p : N => if is_RSA p then read_mpis 1 D 19 else if p =? 17 then read_mpis 2 D 19 else Throw ERuntime).
  change (if is_RSA pka then _ else _) with (M pka).
  transitivity (five <- at_ D (len pre + 1) ;;
    if five =? 5 then
      type <- at_ D (len pre + 2) ;;
      time <- substr D (len pre + 3) 4 ;;
      keyid <- substr D (len pre + 7) 8 ;;
      if len keyid =? 8 then
        pka <- at_ D (len pre + 15) ;;
        hash <- at_ D (len pre + 16) ;;
        left16 <- substr D (len pre + 17) 2 ;;
        ' (mpi, pos) <- M pka ;;
        Ok (mkTag2 3 type pka hash mpi left16 (u32 (toint256 time)) keyid [] [], pos)
      else Throw ERuntime
    else Throw ERuntime); [reflexivity|].
  clearbody M. rewrite ED. rewrite !at_shift, !substr_shift. rds. cbn [N.eqb Pos.eqb]. rds.
  rewrite Hi. cbn [N.eqb Pos.eqb]. rds.
  rewrite toint256_be_small by (auto; cbn; unfold word32 in Ht; lia).
  unfold u32, two32. now rewrite N.mod_small by exact Ht.
Qed.
Lemma tag2_v3_mpis s post : sig_fits s -> t2_version s = 3 ->
  v3_mpis (t2_pka s) (tag2_raw s ++ post) = Ok (t2_mpi s, len (tag2_raw s)).
Proof.
  destruct s as [v type pka hash mpi left16 time keyid hd ud]. intros H Hv. cbn in Hv. subst v.
  cbn [sig_fits] in H. destruct H as (Hl & Hm & Hf & [(? & _) | (_ & Hp & Ht & Hi & -> & ->)]); [discriminate|].
  cbn [t2_pka t2_mpi]. rewrite tag2_raw_v3.
  set (P := 3 :: 5 :: type :: be 4 time ++ keyid ++ pka :: hash :: left16).
  assert (EP : forall q, 3 :: 5 :: type :: be 4 time ++ keyid ++ pka :: hash :: left16 ++ q = P ++ q).
  { intros. subst P. cbn [app]. rewrite <- !app_assoc. reflexivity. }
  rewrite EP, <- app_assoc. unfold v3_mpis.
  assert (L : 19 = len P) by (unfold P; rewrite ?len_cons, ?len_app, ?len_be, ?len_cons; lia).
  rewrite L. cbn [In] in Hp. destruct Hp as [<-|[<-|[<-|[<-|[]]]]]; cbn [is_RSA mem existsb N.eqb Pos.eqb orb];
        now apply read_mpis_app.
Qed.
Lemma tag2_raw_at0 s post : at_ (tag2_raw s ++ post) 0 = Ok (t2_version s).
Proof. destruct s. cbn [tag2_raw t2_version app]. apply at_0. Qed.

Lemma tag2_roundtrip : forall k s post, sig_fits s -> (length (tag2_raw s) < k)%nat ->
  tag2_read_n k (tag2_raw s ++ post) 0 = Ok (s, len (tag2_raw s)).
Proof.
  induction k as [|k IH]; intros s post H Hk; [lia|].
  destruct s as [v type pka hash mpi left16 time keyid hd ud].
  cbn [sig_fits] in H. destruct H as (Hl & Hm & Hf & [(-> & -> & -> & Hh & Hu & Lh & Lu) | (-> & Hp & Ht & Hi & -> & ->)]).
  - assert (E : forall x, sig_fits x -> (length (tag2_raw x) < k)%nat ->
                 tag2_embed k (tag2_raw x) = Ok x /\ tag2_raw x <> []).
    { intros x Hx Hlx. pose proof (tag2_raw_ne x). auto using tag2_embed_raw. }
    rewrite tag2_read_n_S. rewrite tag2_raw_v4 in *.
    set (A := area tag2_raw hd) in *. set (B := area tag2_raw ud) in *.
    cbn [app]. rewrite at_0. cbn [bind N.eqb Pos.eqb]. unfold tag2_v4.
    cbn [length] in Hk. rewrite !app_length in Hk.
    assert (LA : len A = N.of_nat (length A)) by reflexivity.
    assert (LB : len B = N.of_nat (length B)) by reflexivity.
    rewrite <- !app_assoc. rds.
    rewrite toint256_be_small by (auto; cbn; lia). unfold u16 at 1 2 3 4 5. rewrite N.mod_small by (cbn; lia). rds.
    pose proof (read_area (tag2_embed k) tag2_raw sig_fits hd [] Hh) as RA.
    cbn [app len length N.of_nat] in RA. fold A in RA. rewrite RA; [|..]; try lia.
    2:{ intros x Hx Hlx. apply E; auto. unfold len in Hlx. lia. }
    cbn [bind]. rds.
    rewrite toint256_be_small by (auto; cbn; lia). unfold u16. rewrite N.mod_small by (cbn; lia). rds.
    pose proof (read_area (tag2_embed k) tag2_raw sig_fits ud [] Hu) as RB.
    cbn [app len length N.of_nat] in RB. fold B in RB. rewrite RB; [|..]; try lia.
    2:{ intros x Hx Hlx. apply E; auto. unfold len in Hlx. lia. }
    cbn [bind]. rds.
    set (P := 4 :: type :: pka :: hash :: be 2 (len A) ++ A ++ be 2 (len B) ++ B ++ left16).
    rewrite ?(N.mod_small (len A)) by (cbn; lia).
    replace (0 + 4 + 2 + len A + 2 + len B + 2) with (len P) by (unfold P; rewrite ?len_cons, ?len_app, ?len_be, ?len_cons; lia).
    match goal with |- context [read_mpis _ ?d _] =>
      replace d with (P ++ concat (map write_MPI mpi) ++ post)
        by (subst P; cbn [app]; rewrite <- !app_assoc; reflexivity) end.
    fold (sig_mpis pka). rewrite read_mpis_app by auto. cbn [bind]. f_equal. f_equal.
    subst P. cbn [app]. rewrite <- !app_assoc. reflexivity.
  - set (s := mkTag2 3 type pka hash mpi left16 time keyid [] []) in *.
    assert (F : sig_fits s) by (cbn [s sig_fits]; auto 15).
    rewrite tag2_read_n_S, tag2_raw_at0. cbn [bind t2_version s N.eqb Pos.eqb].
    change (mkTag2 3 type pka hash mpi left16 time keyid [] []) with s.
    pose proof (tag2_v3_fields [] post s F eq_refl) as R. cbn [app len length N.of_nat] in R.
    now rewrite R, tag2_v3_mpis.
Qed.
