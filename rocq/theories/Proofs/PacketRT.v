(** Packet round trips. *)
From Verif Require Export Proofs.PacketsP.

Lemma s2k_roundtrip pre post s : s2k_fits s ->
  exists k, s2k_class_of (s2k_type s) = Ok k /\
  at_ (pre ++ s2k_raw s ++ post) (len pre) = Ok (s2k_type s) /\
  s2k_read k (pre ++ s2k_raw s ++ post) (len pre) = Ok (s, len (pre ++ s2k_raw s)).
Proof.
  unfold s2k_fits. destruct s as [k t h salt n]. cbn [s2k_type s2k_kind s2k_salt s2k_count s2k_hash].
  assert (B : n < 256 -> be 1 n = [n]).
  { intros. rewrite be_S_r. cbn [be app]. now rewrite N.mod_small. }
  assert (P : forall x, len pre + len x = len (pre ++ x)) by (intros; now rewrite len_app).
  intros H. exists k. unfold s2k_read, s2k_raw.
  replace (len pre) with (len pre + 0) by lia. rewrite <- !N.add_assoc, !at_shift, !substr_shift.
  destruct t as [|[[t|t|]|t|]]; try tauto; destruct H as (-> & H1 & H2); subst;
    cbn [s2k_class_of s2k_type s2k_kind s2k_salt s2k_count s2k_hash app].
  - split; [reflexivity|]. split; [apply at_0|]. rds. do 2 f_equal. rewrite len_app. reflexivity.
  - split; [reflexivity|]. split; [apply at_0|]. rewrite B by auto. rewrite <- app_assoc. rds. rewrite H1. cbn [N.eqb Pos.eqb app].
    rds. do 2 f_equal.
 rd_side.
  - split; [reflexivity|]. split; [apply at_0|]. rds. rewrite H1. cbn [N.eqb Pos.eqb].
    do 2 f_equal. rd_side.
Qed.

Lemma expire_kept n : days_kept n -> expire_of (n / 256) (n mod 256) = n.
Proof.
  intros [H1 H2]. unfold expire_of, signed_char.
  replace (n / 256 <? 128) with true by lia. replace (n mod 256 <? 128) with true by lia.
  unfold two32. rewrite Z.mod_small by lia. lia.
Qed.

Lemma read_mpis_at k ms pre post d p : d = pre ++ concat (map write_MPI ms) ++ post -> p = len pre ->
  length ms = k -> Forall mpi_fits ms ->
  read_mpis k d p = Ok (ms, len pre + len (concat (map write_MPI ms))).
Proof. intros -> -> H1 H2. rewrite read_mpis_app by auto. now rewrite len_app. Qed.

Lemma key_roundtrip k post : key_fits days_kept k ->
  key_read (key_raw k ++ post) 0 = Ok (k, len (key_raw k)).
Proof.
  destruct k as [v t pka ms e]. unfold key_fits, key_raw, key_mpis.
  cbn [k_version k_time k_pka k_mpi k_expire]. intros (Hv & Ht & Hm & Hc & He).
  assert (T : u32 (toint256 (be 4 t)) = t).
  { rewrite toint256_be_small by (auto; cbn; unfold word32 in Ht; lia). unfold u32, two32. now apply N.mod_small. }
  unfold key_read. cbn [app]. rewrite <- !app_assoc.
  destruct (v <? 4) eqn:V.
  - injection Hc as Hc.
    assert (e < 65536) by (destruct He; lia).
    assert (B : be 2 e = [e / 256; e mod 256]) by (rewrite be2, N.mod_small by lia; reflexivity).
    rewrite B. cbn [app]. rds. rewrite V. rds.
    rewrite T.
    rewrite (read_mpis_at 2 ms (v :: be 4 t ++ [e / 256; e mod 256; pka]) post)
      by (first [assumption | rd_side | cbn [app]; rewrite <- !app_assoc; reflexivity]).
    cbn [bind]. rewrite expire_kept by auto. do 2 f_equal. rd_side.
  - assert (v = 4) as -> by lia. subst e. cbn [app]. rds. cbn [N.ltb N.eqb N.compare Pos.compare Pos.compare_cont Pos.eqb].
    rds. rewrite T.
    assert (R : read_mpis (length ms) (4 :: be 4 t ++ pka :: concat (map write_MPI ms) ++ post) (0 + 6) =
                Ok (ms, 6 + len (concat (map write_MPI ms)))).
    { apply (read_mpis_at _ ms (4 :: be 4 t ++ [pka]) post); auto. }
    unfold is_RSA, mem. cbn [existsb].
    assert (Hp : (pka = 1 \/ pka = 2 \/ pka = 3) /\ length ms = 2%nat \/ pka = 17 /\ length ms = 4%nat \/ pka = 16 /\ length ms = 3%nat).
    { destruct pka as [|[[[[?|?|]|[?|?|]|]|[[?|?|]|[?|[?|?|]|]|]|]|[[[?|?|]|[?|?|]|]|[[?|?|]|[?|[?|?|]|]|]|]|]];
        try discriminate; injection Hc as <-; tauto. }
    destruct Hp as [[[->|[->| ->]] L]|[[-> L]|[-> L]]]; rewrite L in R;
      cbn [N.eqb Pos.eqb orb]; rewrite R; cbn [bind]; do 2 f_equal; rd_side.
Qed.

Lemma key_raw_ne k : len (key_raw k) <> 0.
Proof. unfold key_raw. rewrite len_cons. lia. Qed.


(** In the form used below: the object at the start, anything behind. *)
Lemma secret_roundtrip k s w post : key_fits days_kept k -> secret_fits s -> secret_raw k s = Ok w ->
  len w < two64 -> secret_read (w ++ post) 0 (len w) = Ok (PSecret k s, len w).
Proof.
  intros Hk Hs Hw HL. unfold secret_raw in Hw. destruct s as [con sym sk iv sec].
  unfold secret_fits in Hs. cbn [sk_con sk_sym sk_s2k sk_iv sk_secret] in *.
  set (K := key_raw k) in *.
  unfold secret_read.
  destruct (con =? 0) eqn:C0.
  - assert (con = 0) as -> by lia. destruct Hs as (-> & -> & ->). cbn [bind] in Hw. apply Ok_inj in Hw; subst w. cbn [app] in *.
    rewrite <- !app_assoc. unfold K. rewrite key_roundtrip by auto. fold K. cbn [bind app].
    rewrite (at_app K) by auto. cbn [bind N.eqb orb].
    replace (K ++ 0 :: sec ++ post) with ((K ++ [0]) ++ sec ++ post) by (rewrite <- app_assoc; reflexivity).
    rewrite substr_app; [| rd_side | rewrite sub64_small; [rd_side|revert HL; rd_side]]. reflexivity.
  - destruct Hs as [Hiv Hs]. unfold iv_octets in Hiv.
    destruct (map_at block_length sym) as [bl| | |] eqn:BL; try discriminate. injection Hiv as Hiv.
    assert (HB : N.shiftr bl 3 = len iv) by (rewrite N.shiftr_div_pow2; exact Hiv).
    destruct ((con =? 254) || (con =? 255)) eqn:C2.
    + destruct Hs as (x & -> & Hx). cbn [bind] in Hw. apply Ok_inj in Hw; subst w.
      rewrite <- !app_assoc. unfold K. rewrite key_roundtrip by auto. fold K. cbn [bind app].
      rewrite (at_app K) by auto. cbn [bind]. rewrite C2.
      set (D := K ++ con :: sym :: (s2k_raw x ++ iv ++ sec) ++ post).
      assert (E1 : D = (K ++ [con]) ++ sym :: s2k_raw x ++ iv ++ sec ++ post)
        by (unfold D; rewrite <- !app_assoc; reflexivity).
      assert (E2 : D = (K ++ [con; sym]) ++ s2k_raw x ++ iv ++ sec ++ post)
        by (unfold D; rewrite <- !app_assoc; reflexivity).
      assert (E3 : D = (K ++ con :: sym :: s2k_raw x) ++ iv ++ sec ++ post)
        by (unfold D; rewrite <- !app_assoc; cbn [app]; reflexivity).
      assert (E4 : D = (K ++ con :: sym :: s2k_raw x ++ iv) ++ sec ++ post)
        by (unfold D; rewrite <- !app_assoc; cbn [app]; rewrite <- !app_assoc; reflexivity).
      rewrite E1 at 1. rewrite at_app by rd_side. cbn [bind].
      destruct (s2k_roundtrip (K ++ [con; sym]) (iv ++ sec ++ post) x Hx) as (c & Hc & Ha & Hr).
      rewrite <- E2 in Ha, Hr.
      replace (len K + 1 + 1) with (len (K ++ [con; sym])) by rd_side.
      rewrite Ha. cbn [bind]. rewrite Hc. cbn [bind]. rewrite Hr. cbn [bind]. rewrite C0, BL. cbn [bind].
      rewrite HB. rewrite E3 at 1. rewrite substr_app by rd_side. cbn [bind].
      rewrite E4. rewrite substr_app; [reflexivity| rd_side |].
      rewrite sub64_small.
      * rd_side.
      * revert HL. rd_side.
    + destruct Hs as (-> & ->). cbn [bind] in Hw. apply Ok_inj in Hw; subst w. cbn [app] in *.
      rewrite <- !app_assoc. unfold K. rewrite key_roundtrip by auto. fold K. cbn [bind app].
      rewrite (at_app K) by auto. cbn [bind]. rewrite C2. cbn [bind]. rewrite C0, BL. cbn [bind]. rewrite HB.
      rewrite <- !app_assoc.
      set (D := K ++ con :: iv ++ sec ++ post).
      assert (E3 : D = (K ++ [con]) ++ iv ++ sec ++ post) by (unfold D; rewrite <- !app_assoc; reflexivity).
      assert (E4 : D = (K ++ con :: iv) ++ sec ++ post)
        by (unfold D; rewrite <- !app_assoc; cbn [app]; reflexivity).
      rewrite E3 at 1. rewrite substr_app by rd_side. cbn [bind].
      rewrite E4. rewrite substr_app; [reflexivity| rd_side |].
      rewrite sub64_small.
      * rd_side.
      * revert HL. rd_side.
Qed.

(** Session key packets read MPIs up to a position. *)
Lemma write_MPI_ge a : 3 <= len (write_MPI a).
Proof. rewrite write_MPI_len. unfold bitsize. pose proof (N.le_max_l 1 (N.size a)). lia. Qed.

Definition mpis_raw (ms : list N) : bytes := concat (map write_MPI ms).
Lemma mpis_raw_cons m ms : mpis_raw (m :: ms) = write_MPI m ++ mpis_raw ms.
Proof. reflexivity. Qed.
Lemma removelast_cons2 {A} (x y : A) l : removelast (x :: y :: l) = x :: removelast (y :: l).
Proof. reflexivity. Qed.

Lemma until_all : forall ms n pre post stop, Forall mpi_fits ms -> (length ms < n)%nat ->
  (ms = [] -> stop <= len pre) ->
  (ms <> [] -> len pre + len (mpis_raw (removelast ms)) < stop) ->
  stop <= len pre + len (mpis_raw ms) ->
  read_mpis_until n (pre ++ mpis_raw ms ++ post) (len pre) stop = Ok (ms, len pre + len (mpis_raw ms)).
Proof.
  induction ms as [|m ms IH]; intros n pre post stop HF Hn H0 H1 H2; destruct n as [|n]; cbn [length] in Hn; try lia.
  - cbn [read_mpis_until]. specialize (H0 eq_refl). replace (len pre <? stop) with false by lia.
    cbn. do 2 f_equal. lia.
  - inversion HF as [|? ? Hm HF']; subst. cbn [read_mpis_until]. specialize (H1 ltac:(discriminate)).
    replace (len pre <? stop) with true by lia.
    rewrite mpis_raw_cons in *. rewrite <- app_assoc.
    rewrite read_write_MPI by auto using mpi_fits_bitsize. cbn [bind].
    rewrite (app_assoc pre). replace (len pre + len (write_MPI m)) with (len (pre ++ write_MPI m)) by rd_side.
    rewrite len_app in H2.
    rewrite IH; auto; try lia.
    + cbn [bind]. do 2 f_equal. rd_side.
    + intros ->. change (mpis_raw []) with (@nil N) in *. rewrite len_nil in *. rd_side.
    + destruct ms; [tauto|]. intros _. rewrite removelast_cons2, mpis_raw_cons in H1. revert H1. rd_side.
    + rd_side.
Qed.
Lemma until_short : forall ms n pre post stop, Forall mpi_fits ms -> (length ms < n)%nat ->
  ms <> [] -> stop <= len pre + len (mpis_raw (removelast ms)) ->
  exists ms' q, read_mpis_until n (pre ++ mpis_raw ms ++ post) (len pre) stop = Ok (ms', q) /\
    q < len pre + len (mpis_raw ms).
Proof.
  induction ms as [|m ms IH]; intros n pre post stop HF Hn H0 H1; [tauto|].
  inversion HF as [|? ? Hm HF']; subst. destruct n as [|n]; [lia|]. cbn [read_mpis_until].
  pose proof (write_MPI_ge m). rewrite mpis_raw_cons. rewrite len_app.
  destruct (len pre <? stop) eqn:E; [|do 2 eexists; split; [reflexivity|lia]].
  destruct ms as [|m' ms]; [cbn in H1; lia|].
  rewrite <- app_assoc. rewrite read_write_MPI by auto using mpi_fits_bitsize. cbn [bind].
  rewrite (app_assoc pre). replace (len pre + len (write_MPI m)) with (len (pre ++ write_MPI m)) by rd_side.
  destruct (IH n (pre ++ write_MPI m) post stop HF') as (ms' & q & Er & Hq).
  - cbn [length] in *. lia.
  - discriminate.
  - rewrite removelast_cons2, mpis_raw_cons in H1. revert H1. rd_side.
  - rewrite Er. cbn [bind]. do 2 eexists. split; [reflexivity|]. revert Hq. rd_side.
Qed.

Lemma mpis_raw_length ms : (length ms <= length (mpis_raw ms))%nat.
Proof.
  induction ms as [|m ms]; [reflexivity|]. rewrite mpis_raw_cons, app_length. cbn [length].
  pose proof (write_MPI_ge m). unfold len in *. lia.
Qed.
Lemma mpis_raw_last ms : ms <> [] -> len (mpis_raw (removelast ms)) < len (mpis_raw ms).
Proof.
  induction ms as [|m [|m' ms] IH]; [tauto| |]; intros _.
  - cbn [removelast]. rewrite mpis_raw_cons. pose proof (write_MPI_ge m). rewrite len_app. cbn. lia.
  - rewrite removelast_cons2, !(mpis_raw_cons m), !len_app. specialize (IH ltac:(discriminate)). lia.
Qed.

Definition session_raw keyid pka ms : bytes := 3 :: keyid ++ pka :: mpis_raw ms.

(** When a session key packet is read back. *)
Lemma session_iff pre post keyid pka ms : len keyid = 8 -> Forall mpi_fits ms ->
  let w := session_raw keyid pka ms in
  (tag_read 1 (pre ++ w ++ post) (len pre) (len w) = Ok (PSession 3 keyid pka ms) <->
   ms = [] \/ len pre + len (mpis_raw (removelast ms)) < len (mpis_raw ms)).
Proof.
  intros Hk HF w. rewrite (tag_read_pos 1 _ _ _ _ _ eq_refl) by (unfold w, session_raw; rd_side).
  cbn [actual_read]. unfold tag1_read.
  assert (EW : w = 3 :: keyid ++ pka :: mpis_raw ms) by reflexivity.
  assert (LW : len w = 10 + len (mpis_raw ms)) by (rewrite EW; rd_side).
  set (D := pre ++ w ++ post).
  assert (A0 : at_ D (len pre) = Ok 3).
  { replace (len pre) with (len pre + 0) by lia. unfold D. rewrite at_shift, EW. apply at_0. }
  assert (A1 : substr D (len pre + 1) 8 = Ok keyid).
  { unfold D. rewrite substr_shift, EW. cbn [app]. rewrite substr_cons_r by lia. rewrite <- app_assoc. now apply substr_here. }
  assert (A2 : at_ D (len pre + 9) = Ok pka).
  { unfold D. rewrite at_shift, EW. cbn [app]. rewrite at_cons_r by lia. rewrite <- app_assoc. rewrite at_app_r by lia.
    cbn [app]. apply at_here. lia. }
  rewrite A0. cbn [bind]. rewrite A1. cbn [bind]. rewrite A2. cbn [bind].
  set (P := pre ++ 3 :: keyid ++ [pka]).
  assert (EP : len pre + 10 = len P) by (unfold P; rd_side).
  assert (ED : D = P ++ mpis_raw ms ++ post).
  { unfold D, P. rewrite EW. rewrite <- !app_assoc. cbn [app]. rewrite <- !app_assoc. reflexivity. }
  rewrite EP, ED.
  assert (Hn : (length ms < S (length (P ++ mpis_raw ms ++ post)))%nat).
  { pose proof (mpis_raw_length ms). rewrite !app_length. lia. }
  assert (C : ms = [] \/ len pre + len (mpis_raw (removelast ms)) < len (mpis_raw ms) \/
     ms <> [] /\ len w <= len P + len (mpis_raw (removelast ms))).
  { destruct ms; [tauto|]. destruct (N.lt_ge_cases (len pre + len (mpis_raw (removelast (n :: ms)))) (len (mpis_raw (n :: ms)))); [tauto|].
    right; right. split; [discriminate|]. rewrite LW, <- EP. lia. }
  destruct C as [->|[C|[C1 C2]]].
  - assert (L0 : len (mpis_raw []) = 0) by reflexivity.
    rewrite until_all by (auto; rewrite ?L0; lia || tauto).
    cbn [bind]. split; [tauto|]. intros _. do 2 f_equal. lia.
  - rewrite until_all; auto; try lia.
    + cbn [bind]. split; [tauto|]. intros _. do 2 f_equal. lia.
    + intros ->. cbn in C. lia.
  - destruct (until_short ms _ P post (len w) HF Hn C1 C2) as (ms' & q & Er & Hq). rewrite Er. cbn [bind].
    split; [intros [= _ ->]; lia|]. intros [H|H]; [tauto|]. lia.
Qed.

(** User attributes. *)
Definition attr_raw (i : image) : bytes := write_subpacket (1 :: image_raw i).
Definition attrs_raw (l : list image) : bytes := concat (map attr_raw l).
Lemma attrs_raw_cons i l : attrs_raw (i :: l) = attr_raw i ++ attrs_raw l.
Proof. reflexivity. Qed.
Definition image_fits (i : image) : Prop := im_version i = 1 /\ im_encoding i = 1 /\ len (im_image i) < 2 ^ 31.

Lemma image_read_raw i : image_fits i -> image_read (image_raw i) = Ok i.
Proof.
  destruct i as [v e im]. intros (H1 & H2 & _). cbn in H1, H2. subst.
  unfold image_read, image_raw. cbn [im_image repeat app].
  rewrite !len_cons. replace (16 <=? _) with true by lia.
  replace (1 + _ - 16) with (len im) by lia. rd. rewrite substr_0_all by lia. reflexivity.
Qed.
Lemma image_raw_len i : len (image_raw i) = 16 + len (im_image i).
Proof. unfold image_raw. cbn [repeat app]. rd_side. Qed.
Lemma attr_raw_ge i : 18 <= len (attr_raw i).
Proof.
  unfold attr_raw, write_subpacket. pose proof (image_raw_len i).
  destruct (_ <? _); [|destruct (_ && _)]; rd_side.
Qed.
(** One attribute. *)
Lemma attrs_step n i pre rest stop : image_fits i -> len pre < stop ->
  attrs_read (S n) (pre ++ attr_raw i ++ rest) (len pre) stop =
  (' (l, q) <- attrs_read n (pre ++ attr_raw i ++ rest) (len (pre ++ attr_raw i)) stop ;; Ok (i :: l, q)).
Proof.
  intros Hi Hs. cbn [attrs_read]. replace (len pre <? stop) with true by lia.
  pose proof (image_raw_len i) as L. destruct Hi as (Hv & He & Hl). unfold attr_raw.
  destruct (write_subpacket_rfc (1 :: image_raw i)) as (h & Eh & Hh); [rd_side|].
  rewrite Eh. rewrite <- app_assoc.
  rewrite (read_subpacket_rfc _ _ h _ _ eq_refl Hh). cbn [bind].
  set (D := pre ++ h ++ (1 :: image_raw i) ++ rest).
  assert (E1 : D = (pre ++ h) ++ 1 :: image_raw i ++ rest) by (unfold D; rewrite <- !app_assoc; reflexivity).
  assert (E2 : D = (pre ++ h ++ [1]) ++ image_raw i ++ rest) by (unfold D; rewrite <- !app_assoc; reflexivity).
  rewrite E1 at 1. rewrite at_app by rd_side. cbn [bind N.eqb Pos.eqb].
  rewrite E2 at 1. rewrite substr_app; [|rd_side|].
  2:{ rewrite sub64_small; [rd_side|]. rewrite len_cons. unfold two64. lia. }
  cbn [bind]. rewrite image_read_raw by (split; auto). cbn [bind].
  now replace (len pre + len h + len (1 :: image_raw i)) with (len (pre ++ h ++ 1 :: image_raw i)) by rd_side.
Qed.

Lemma attrs_all : forall l n pre post stop, Forall image_fits l -> (length l < n)%nat ->
  (l = [] -> stop <= len pre) ->
  (l <> [] -> len pre + len (attrs_raw (removelast l)) < stop) ->
  stop <= len pre + len (attrs_raw l) ->
  attrs_read n (pre ++ attrs_raw l ++ post) (len pre) stop = Ok (l, len pre + len (attrs_raw l)).
Proof.
  induction l as [|i l IH]; intros n pre post stop HF Hn H0 H1 H2; destruct n as [|n]; cbn [length] in Hn; try lia.
  - cbn [attrs_read]. specialize (H0 eq_refl). replace (len pre <? stop) with false by lia.
    cbn. do 2 f_equal. lia.
  - inversion HF as [|? ? Hm HF']; subst. specialize (H1 ltac:(discriminate)).
    rewrite attrs_raw_cons in *. rewrite <- app_assoc.
    rewrite attrs_step by (auto; lia). rewrite (app_assoc pre).
    rewrite len_app in H2.
    rewrite IH; auto; try lia.
    + cbn [bind]. do 2 f_equal. rd_side.
    + intros ->. change (attrs_raw []) with (@nil N) in *. rewrite len_nil in *. rd_side.
    + destruct l; [tauto|]. intros _. rewrite removelast_cons2, attrs_raw_cons in H1. revert H1. rd_side.
    + rd_side.
Qed.
Lemma attrs_short : forall l n pre post stop, Forall image_fits l -> (length l < n)%nat ->
  l <> [] -> stop <= len pre + len (attrs_raw (removelast l)) ->
  exists l' q, attrs_read n (pre ++ attrs_raw l ++ post) (len pre) stop = Ok (l', q) /\
    q < len pre + len (attrs_raw l).
Proof.
  induction l as [|i l IH]; intros n pre post stop HF Hn H0 H1; [tauto|].
  inversion HF as [|? ? Hm HF']; subst. destruct n as [|n]; [lia|].
  pose proof (attr_raw_ge i). rewrite attrs_raw_cons. rewrite len_app.
  destruct (len pre <? stop) eqn:E.
  2:{ cbn [attrs_read]. rewrite E. do 2 eexists; split; [reflexivity|lia]. }
  destruct l as [|m' l]; [cbn in H1; lia|].
  rewrite <- app_assoc. rewrite attrs_step by (auto; lia).
  rewrite (app_assoc pre).
  destruct (IH n (pre ++ attr_raw i) post stop HF') as (ms' & q & Er & Hq).
  - cbn [length] in *. lia.
  - discriminate.
  - rewrite removelast_cons2, attrs_raw_cons in H1. revert H1. rd_side.
  - rewrite Er. cbn [bind]. do 2 eexists. split; [reflexivity|]. revert Hq. rd_side.
Qed.
Lemma attrs_raw_length l : (length l <= length (attrs_raw l))%nat.
Proof.
  induction l as [|m l]; [reflexivity|]. rewrite attrs_raw_cons, app_length. cbn [length].
  pose proof (attr_raw_ge m). unfold len in *. lia.
Qed.
Lemma attrs_iff pre post l : Forall image_fits l ->
  (tag_read 17 (pre ++ attrs_raw l ++ post) (len pre) (len (attrs_raw l)) = Ok (PAttributes l) <->
   l = [] \/ len pre + len (attrs_raw (removelast l)) < len (attrs_raw l)).
Proof.
  intros HF. destruct l as [|i l0] eqn:El.
  { split; [tauto|]. intros _. reflexivity. }
  rewrite <- El in *. assert (Hne : l <> []) by (subst; discriminate).
  assert (HL : len (attrs_raw l) <> 0).
  { subst l. rewrite attrs_raw_cons. pose proof (attr_raw_ge i). rewrite len_app. lia. }
  rewrite (tag_read_pos 17 _ _ _ _ _ eq_refl) by auto.
  cbn [actual_read]. unfold tag17_read. clear El i l0.
  set (w := attrs_raw l) in *.
  assert (Hn : (length l < S (S (length (pre ++ w ++ post))))%nat).
  { pose proof (attrs_raw_length l). unfold w. rewrite !app_length. lia. }
  destruct (N.lt_ge_cases (len pre + len (attrs_raw (removelast l))) (len w)) as [C|C].
  - pose proof (attrs_all l _ pre post (len w) HF Hn) as U. fold w in U.
    rewrite U by (auto; tauto || lia). cbn [bind]. tauto.
  - destruct (attrs_short l _ pre post (len w) HF Hn Hne C) as (ms' & q & Er & Hq). fold w in Er. rewrite Er. cbn [bind].
    fold w in Hq. split; [intros [= _ ->]; lia|]. intros [H|H]; [tauto|]. lia.
Qed.

(** All packet types.  [pre] must be empty for session keys, user attributes and version 3
    signatures. *)
Definition positioned (c : contents) (pre : bytes) : Prop :=
  match c with
  | PSession _ _ _ _ | PAttributes _ => pre = []
  | PSig s => t2_version s = 3 -> pre = []
  | _ => True
  end.

Lemma raw_pos c w days tag : fits days tag c -> raw c = Ok w ->
  c = PAttributes [] \/ (exists d, c = PRaw d) \/ len w <> 0.
Proof.
  intros Hf H. destruct c; cbn [raw] in H; try (apply Ok_inj in H; subst w; right; right; rd_side).
  - apply Ok_inj in H. subst w. right; right. intros E. apply len_0 in E. now apply tag2_raw_ne in E.
  - unfold secret_raw in H. inv_bind H. apply Ok_inj in H. subst w. right; right. rewrite len_app. pose proof (key_raw_ne k). lia.
  - apply Ok_inj in H. subst w. right; right. apply key_raw_ne.
  - destruct attrs as [|i l]; [tauto|]. right; right. apply Ok_inj in H. subst w.
    change (len (attrs_raw (i :: l)) <> 0). rewrite attrs_raw_cons, len_app. pose proof (attr_raw_ge i). lia.
  - eauto.
Qed.

Lemma sub64_len a b : b <= len a -> len a < two64 -> sub64 (len a) b = len a - b.
Proof. intros. apply sub64_small. lia. Qed.

Lemma tag3_rt v sym x e post : s2k_fits x ->
  tag3_read ((v :: sym :: s2k_raw x ++ e) ++ post) 0 (len (v :: sym :: s2k_raw x ++ e)) =
  Ok (PSymSession v sym (Some x) (match e with [] => None | _ => Some e end), len (v :: sym :: s2k_raw x ++ e)).
Proof.
  intros Hx. unfold tag3_read. cbn [app]. rewrite <- app_assoc.
  destruct (s2k_roundtrip [v; sym] (e ++ post) x Hx) as (k & Hk & Ha & Hr). cbn [app] in Ha, Hr.
  change (len [v; sym]) with (0 + 2) in Ha, Hr. do 3 rd_step. rewrite Ha. cbn [bind]. rewrite Hk. cbn [bind].
  rewrite Hr. cbn [bind].
  replace (0 + len (v :: sym :: s2k_raw x ++ e)) with (len (v :: sym :: s2k_raw x ++ e)) by lia.
  destruct e as [|c e].
  - replace (len (v :: sym :: s2k_raw x) <? _) with false by rd_side. reflexivity.
  - replace (len (v :: sym :: s2k_raw x) <? _) with true by rd_side.
    replace (v :: sym :: s2k_raw x ++ (c :: e) ++ post) with ((v :: sym :: s2k_raw x) ++ (c :: e) ++ post) by reflexivity.
    rewrite substr_app by rd_side. reflexivity.
Qed.

(** The readers other than session keys and attributes, at the start. *)
Lemma actual_roundtrip tag c w post : fits days_kept tag c -> raw c = Ok w -> len w < two64 ->
  (forall v k p m, c <> PSession v k p m) -> (forall l, c <> PAttributes l) ->
  actual_read tag (w ++ post) 0 (len w) = Ok (c, len w).
Proof.
  intros Hf Hw HL N1 N17. destruct c; cbn [fits raw] in *; try (exfalso; eapply N1; reflexivity);
    try (exfalso; eapply N17; reflexivity).
  - destruct Hf as [-> Hs]. apply Ok_inj in Hw; subst w. cbn [actual_read]. unfold tag2_read.
    rewrite tag2_roundtrip by (auto; rewrite app_length; lia). reflexivity.
  - destruct Hf as (-> & (x & -> & Hx) & He). apply Ok_inj in Hw; subst w. cbn [actual_read].
    rewrite tag3_rt by auto. destruct esk as [[|c e]|]; [tauto| |]; reflexivity.
  - destruct Hf as (-> & -> & Hk). apply Ok_inj in Hw; subst w. cbn [actual_read]. unfold tag4_read.
    cbn [app]. rewrite <- !app_assoc. rds. rewrite Hk. cbn [N.eqb Pos.eqb app]. rds. do 2 f_equal. rd_side.
  - destruct Hf as (Ht & Hk & Hs). assert (E : actual_read tag = secret_read) by (destruct Ht as [-> | ->]; reflexivity).
    rewrite E. now apply secret_roundtrip.
  - destruct Hf as (Ht & Hk). apply Ok_inj in Hw; subst w.
    assert (E : actual_read tag = fun d p _ => ' (k, q) <- key_read d p ;; Ok (PKey k, q)) by (destruct Ht as [-> | ->]; reflexivity).
    rewrite E. rewrite key_roundtrip by auto. reflexivity.
  - subst. apply Ok_inj in Hw; subst w. cbn [actual_read]. unfold tag8_read. cbn [app]. rds. reflexivity.
  - destruct Hf as (-> & Hn & Ht). apply Ok_inj in Hw; subst w. cbn [actual_read]. unfold tag11_read.
    assert (U : u8 (len filename) = len filename) by (unfold u8; apply N.mod_small; lia). rewrite U in *.
    cbn [app]. rewrite <- !app_assoc. rds.
    rewrite toint256_be_small by (auto; cbn; unfold word32 in Ht; lia). unfold u32, two32. rewrite N.mod_small by exact Ht.
    rewrite sub64_small by (revert HL; rd_side).
    rds. reflexivity.
  - subst. apply Ok_inj in Hw; subst w. cbn [actual_read]. unfold tag18_read. cbn [app]. rds. reflexivity.
  - destruct Hf as [Ht _]. apply Ok_inj in Hw; subst w.
    assert (E : actual_read tag = raw_read) by (cbn [In] in Ht; repeat destruct Ht as [<-|Ht]; try reflexivity; tauto).
    rewrite E. unfold raw_read. rewrite substr_0 by auto. reflexivity.
Qed.

Lemma fits_new days tag c : fits days tag c -> exists c0, contents_new tag = Ok c0.
Proof.
  destruct c; cbn [fits].
  1-4,6-10: intros H; decompose [and or] H; subst; eexists; reflexivity.
  - intros H; decompose [and or] H; subst; eexists; reflexivity.
  - intros [H _]. cbn [In] in H. repeat destruct H as [<-|H]; try (eexists; reflexivity). tauto.
Qed.

Lemma packet_roundtrip pre post tag c w : fits days_kept tag c -> raw c = Ok w -> len w < two64 ->
  positioned c pre -> tag_read tag (pre ++ w ++ post) (len pre) (len w) = Ok c.
Proof.
  intros Hf Hw HL Hp.
  destruct (raw_pos c w _ _ Hf Hw) as [->|[[d ->]|Hne]].
  - cbn in Hw. injection Hw as <-. cbn [fits] in Hf. destruct Hf as [-> _]. reflexivity.
  - cbn in Hw. injection Hw as <-. cbn [fits] in Hf. destruct Hf as [Ht H10].
    destruct (len d =? 0) eqn:E0.
    + apply N.eqb_eq, len_0 in E0. subst d. unfold tag_read. cbn [In] in Ht.
      repeat destruct Ht as [<-|Ht]; try reflexivity; try tauto.
    + destruct (fits_new days_kept tag (PRaw d)) as (c0 & E); [cbn; tauto|].
      rewrite (tag_read_pos _ _ _ _ _ _ E) by lia.
      assert (ER : actual_read tag = raw_read) by (cbn [In] in Ht; repeat destruct Ht as [<-|Ht]; try reflexivity; tauto).
      rewrite ER. unfold raw_read. rewrite substr_app by auto. reflexivity.
  - destruct c; cbn [positioned] in Hp;
      try (match goal with |- tag_read _ (pre ++ w ++ post) _ _ = Ok ?c =>
             destruct (fits_new _ _ _ Hf) as (c0 & E0);
             replace (len pre) with (len pre + 0) by lia;
             rewrite tag_read_shift;
             [ rewrite (tag_read_pos _ _ _ _ _ _ E0) by auto; apply actual_roundtrip; auto; discriminate
             | cbn [fits] in Hf; unfold position_free; split; [|split]; intros X; decompose [and or] Hf; subst; discriminate ] end; fail).
    + subst pre. cbn [fits raw] in *. destruct Hf as (-> & -> & Hk & Hm). apply Ok_inj in Hw; subst w.
      apply (session_iff [] post); auto. destruct mpi; [tauto|]. right. cbn [len length N.of_nat].
      pose proof (mpis_raw_last (n :: mpi) ltac:(discriminate)). lia.
    + pose proof Hf as Hf0. cbn [fits raw] in *. destruct Hf as (-> & Hs). apply Ok_inj in Hw; subst w.
      destruct (t2_version s =? 3) eqn:V.
      * apply N.eqb_eq in V. rewrite (Hp V). cbn [app].
        rewrite (tag_read_pos 2 _ _ _ _ _ eq_refl) by auto. apply actual_roundtrip; auto; discriminate.
      * replace (len pre) with (len pre + 0) by lia. rewrite tag_read_shift.
        -- rewrite (tag_read_pos 2 _ _ _ _ _ eq_refl) by auto. apply actual_roundtrip; auto; discriminate.
        -- split; [discriminate|]. split; [discriminate|]. intros _. rewrite tag2_raw_at0. intros [= E]. lia.
    + subst pre. cbn [fits raw] in *. destruct Hf as (-> & HF). apply Ok_inj in Hw; subst w.
      apply (attrs_iff [] post); auto. destruct attrs as [|i l]; [tauto|]. right. cbn [len length N.of_nat].
      clear -i l. revert i. induction l as [|j l IH]; intros i.
      * cbn [removelast]. rewrite attrs_raw_cons, len_app. pose proof (attr_raw_ge i). cbn. lia.
      * rewrite removelast_cons2, !(attrs_raw_cons i), !len_app. specialize (IH j). lia.
    + destruct (fits_new _ _ _ Hf) as (c0 & E). cbn [fits raw] in *. destruct Hf as [Ht _].
      apply Ok_inj in Hw; subst w. rewrite (tag_read_pos _ _ _ _ _ _ E) by lia.
      assert (ER : actual_read tag = raw_read) by (cbn [In] in Ht; repeat destruct Ht as [<-|Ht]; try reflexivity; tauto).
      rewrite ER. unfold raw_read. rewrite substr_app by auto. reflexivity.
Qed.

(** Version 2 and 3 keys with any two-octet validity period. *)
Lemma key_v3_read k post : key_fits days_16 k -> k_version k < 4 ->
  key_read (key_raw k ++ post) 0 =
  Ok (mkKey (k_version k) (k_time k) (k_pka k) (k_mpi k) (expire_of (k_expire k / 256) (k_expire k mod 256)),
      len (key_raw k)).
Proof.
  destruct k as [v t pka ms e]. unfold key_fits, key_raw, key_mpis.
  cbn [k_version k_time k_pka k_mpi k_expire]. intros (Hv & Ht & Hm & Hc & He) V.
  assert (T : u32 (toint256 (be 4 t)) = t).
  { rewrite toint256_be_small by (auto; cbn; unfold word32 in Ht; lia). unfold u32, two32. now apply N.mod_small. }
  apply N.ltb_lt in V. rewrite V in *. injection Hc as Hc. unfold days_16 in He.
  assert (B : be 2 e = [e / 256; e mod 256]) by (rewrite be2, N.mod_small by lia; reflexivity).
  unfold key_read. cbn [app]. rewrite <- !app_assoc. rewrite B. cbn [app]. rds. rewrite V. rds. rewrite T.
  rewrite (read_mpis_at 2 ms (v :: be 4 t ++ [e / 256; e mod 256; pka]) post)
    by (first [assumption | rd_side | cbn [app]; rewrite <- !app_assoc; reflexivity]).
  cbn [bind]. do 2 f_equal. rd_side.
Qed.
Lemma expire_lost e : days_16 e -> ~ days_kept e -> expire_of (e / 256) (e mod 256) <> e.
Proof.
  unfold days_16, days_kept, expire_of, signed_char, two32. intros H1 H2 E.
  apply (f_equal Z.of_N) in E. rewrite Z2N.id in E by (apply Z.mod_pos_bound; lia).
  destruct (e / 256 <? 128) eqn:E1, (e mod 256 <? 128) eqn:E2; lia.
Qed.
