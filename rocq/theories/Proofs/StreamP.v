(** Lemmas about the loops around the compression libraries. *)
From Verif Require Export Proofs.Lib Spec.Stream.
Local Open Scope N_scope.

Lemma piece_mid pre mid post : piece (pre ++ mid ++ post) (len pre) (len mid) = Ok mid.
Proof.
  unfold piece. replace (_ <=? _) with true by (symmetry; apply N.leb_le; unfold len; rewrite !app_length; lia). f_equal. rewrite <- !app_assoc.
  rewrite skipn_app, skipn_all2 by (unfold len; lia). replace (N.to_nat (len pre) - length pre)%nat with 0%nat by (unfold len; lia). cbn [skipn app].
  rewrite firstn_app, firstn_all2 by (unfold len; lia). replace (N.to_nat (len mid) - length mid)%nat with 0%nat by (unfold len; lia). now rewrite firstn_O, app_nil_r.
Qed.
(** In the middle of a string that is not too long: the piece is what remains, up to [chunk]. *)
Lemma avail_mid chunk index n : index <= n -> n < 2 ^ 32 -> index + chunk < 2 ^ 32 -> avail chunk index n = N.min chunk (n - index).
Proof.
  intros I L H. unfold avail. assert (Z : 2 ^ 32 = 4294967296) by reflexivity. rewrite Z in *. clear Z.
  rewrite (N.mod_small (index + chunk)) by exact H. destruct (index + chunk <? n) eqn:E; [lia|]. apply N.ltb_ge in E.
  replace (n + 4294967296 - index) with (n - index + 1 * 4294967296) by lia. rewrite N.mod_add by discriminate. rewrite N.mod_small by lia. lia.
Qed.
(** The first piece of what follows [pre]. *)
Definition take (n : N) (l : bytes) : bytes := firstn (N.to_nat n) l.
Definition drop (n : N) (l : bytes) : bytes := skipn (N.to_nat n) l.
Lemma take_drop n l : take n l ++ drop n l = l.
Proof. apply firstn_skipn. Qed.
Lemma len_take n l : len (take n l) = N.min n (len l).
Proof. unfold len, take. rewrite firstn_length. lia. Qed.
Lemma len_drop n l : len (drop n l) = len l - n.
Proof. unfold len, drop. rewrite skipn_length. lia. Qed.
Lemma piece_next pre post n : piece (pre ++ post) (len pre) (N.min n (len post)) = Ok (take n post).
Proof. rewrite <- (take_drop n post) at 1. rewrite <- (len_take n post). apply piece_mid. Qed.

(** Runs compose. *)
Lemma run_stop M t inp : m_status M t <> Open -> run M t inp = (t, [], inp).
Proof. intros H. destruct inp; cbn [run]; destruct (m_status M t); congruence. Qed.
Lemma run_app M : forall a t b, run M t (a ++ b) =
  let '(t1, o1, r1) := run M t a in
  match m_status M t1 with Open => let '(t2, o2, r2) := run M t1 b in (t2, o1 ++ o2, r2) | _ => (t1, o1, r1 ++ b) end.
Proof.
  induction a as [|x a IH]; intros t b.
  - cbn [app run]. destruct (m_status M t) eqn:S; cbn [app]; rewrite ?S; [destruct (run M t b) as [[? ?] ?]; reflexivity|now rewrite run_stop by congruence|now rewrite run_stop by congruence].
  - cbn [app run]. destruct (m_status M t) eqn:S; [|rewrite S; reflexivity|rewrite S; reflexivity].
    destruct (m_feed M t x) as [t' o]. rewrite IH. destruct (run M t' a) as [[t1 o1] r1]. destruct (m_status M t1); [destruct (run M t1 b) as [[t2 o2] r2]; now rewrite app_assoc|reflexivity|reflexivity].
Qed.
(** A run that does not stop early has read everything. *)
Lemma run_open M : forall a t t' o r, run M t a = (t', o, r) -> m_status M t' = Open -> r = [].
Proof.
  induction a as [|x a IH]; intros t t' o r; cbn [run].
  - destruct (m_status M t); intros E; inversion E; congruence.
  - destruct (m_status M t) eqn:S; [|intros E; inversion E; congruence|intros E; inversion E; congruence].
    destruct (m_feed M t x) as [t1 o1]. destruct (run M t1 a) as [[t2 o2] r2] eqn:R. intros E O. inversion E; subst. eapply IH; eauto.
Qed.
Lemma run_used M t used rest t' o : run M t used = (t', o, []) ->
  run M t (used ++ rest) = let '(t2, o2, r2) := run M t' rest in (t2, o ++ o2, r2).
Proof.
  intros R. rewrite run_app, R. destruct (m_status M t') eqn:S; [reflexivity| |]; rewrite run_stop by congruence; now rewrite app_nil_r.
Qed.

Section Inflate.
  Variables (M : machine) (again : bool) (St : Type) (start : St) (f : St -> bytes -> N -> call St) (view : St -> m_state M * bytes).
  Hypothesis D : decoder M again St start f view.
  (** What one call does to the run that is still to come. *)
  Lemma call_step s inp room t owed T O R : 0 < room -> view s = (t, owed) -> m_status M t <> Broken -> (again = true \/ m_status M t = Open \/ owed <> []) ->
    run M t inp = (T, O, R) ->
    exists t' owed' O', view (c_state (f s inp room)) = (t', owed') /\ run M t' (c_rest (f s inp room)) = (T, O', R) /\
      owed ++ O = c_out (f s inp room) ++ owed' ++ O' /\ len (c_out (f s inp room)) <= room /\
      (len (c_out (f s inp room)) < room -> t' = T /\ owed' = [] /\ O' = [] /\ c_rest (f s inp room) = R) /\
      c_code (f s inp room) = match m_status M t' with Broken => Bad | Ended => match owed' with [] => End | _ => Fine end | Open => Fine end.
  Proof.
    intros R0 V NB PRE RUN. destruct D as [_ C]. destruct (C s inp room t owed R0 V NB PRE) as (used & o & t' & owed' & E & RU & V' & EO & LO & LT & CO).
    destruct (run M t' (c_rest (f s inp room))) as [[T2 O2] R2] eqn:R2E. rewrite E, (run_used _ _ _ _ _ _ RU), R2E in RUN.
    assert (T2 = T /\ o ++ O2 = O /\ R2 = R) as (-> & EQ & ->) by (inversion RUN; auto). clear RUN.
    exists t', owed', O2. split; [exact V'|]. split; [exact R2E|]. split; [rewrite <- EQ, app_assoc, EO; now rewrite <- app_assoc|]. split; [exact LO|]. split; [|exact CO].
    intros L. destruct (LT L) as [-> X]. assert (Y : run M t' (c_rest (f s inp room)) = (t', [], c_rest (f s inp room))).
    { destruct X as [X|X]; [rewrite X; cbn [run]; destruct (m_status M t'); reflexivity|now apply run_stop]. }
    rewrite Y in R2E. inversion R2E. auto.
  Qed.
End Inflate.

Lemma app_len {A} (a b c d : list A) : a ++ b = c ++ d -> (length a + length b = length c + length d)%nat.
Proof. intros E. apply (f_equal (@length A)) in E. now rewrite !app_length in E. Qed.

Section Zlib.
  Variables (M : machine) (St : Type) (start : St) (f : St -> bytes -> N -> call St) (view : St -> m_state M * bytes).
  Hypothesis D : decoder M true St start f view.
  Lemma inflate_piece_spec : forall fuel s inp dst t owed T O R, view s = (t, owed) -> m_status M t <> Broken -> run M t inp = (T, O, R) ->
    (length owed + length O < fuel)%nat ->
    (m_status M T = Broken /\ inflate_piece St f fuel s inp dst = Ok None) \/
    (m_status M T <> Broken /\ exists s', inflate_piece St f fuel s inp dst = Ok (Some (s', dst ++ owed ++ O, match m_status M T with Ended => End | _ => Fine end)) /\ view s' = (T, [])).
  Proof.
    induction fuel as [|fuel IH]; intros s inp dst t owed T O R V NB RUN F; [lia|].
    destruct (call_step M true St start f view D s inp zlib_chunk t owed T O R ltac:(reflexivity) V NB ltac:(now left) RUN) as (t' & owed' & O' & V' & R' & EO & LO & LT & CO).
    cbn [inflate_piece]. rewrite CO.
    destruct (m_status M t') eqn:S'.
    - cbn [c_code]. destruct (len (c_out (f s inp zlib_chunk)) =? zlib_chunk) eqn:FU.
      + destruct (IH (c_state (f s inp zlib_chunk)) (c_rest (f s inp zlib_chunk)) (dst ++ c_out (f s inp zlib_chunk)) t' owed' T O' R V' ltac:(congruence) R') as [[B E]|[B (s' & E & VS)]].
        * apply app_len in EO. rewrite app_length in EO. apply N.eqb_eq in FU. assert (PO : 0 < len (c_out (f s inp zlib_chunk))) by (rewrite FU; reflexivity). unfold len in PO. lia.
        * left. split; [exact B|]. exact E.
        * right. split; [exact B|]. exists s'. split; [|exact VS]. rewrite E, <- !app_assoc. now rewrite EO.
      + assert (L : len (c_out (f s inp zlib_chunk)) < zlib_chunk) by lia. destruct (LT L) as (-> & -> & -> & _). right. split; [congruence|].
        eexists. split; [|exact V']. rewrite S'. rewrite EO, app_nil_r. reflexivity.
    - assert (t' = T /\ O' = []) as [-> ->] by (rewrite run_stop in R' by congruence; inversion R'; auto). right. split; [congruence|].
      rewrite app_nil_r in EO. rewrite S'.
      destruct (len (c_out (f s inp zlib_chunk)) =? zlib_chunk) eqn:FU.
      + destruct (IH (c_state (f s inp zlib_chunk)) (c_rest (f s inp zlib_chunk)) (dst ++ c_out (f s inp zlib_chunk)) T owed' T [] R V' ltac:(congruence) R') as [[B E]|[B (s' & E & VS)]].
        * apply app_len in EO. apply N.eqb_eq in FU. assert (PO : 0 < len (c_out (f s inp zlib_chunk))) by (rewrite FU; reflexivity). unfold len in PO. cbn [length]. lia.
        * congruence.
        * exists s'. split; [|exact VS]. rewrite app_nil_r, S', <- app_assoc in E. destruct owed'; rewrite E; f_equal; f_equal; now rewrite EO.
      + assert (L : len (c_out (f s inp zlib_chunk)) < zlib_chunk) by lia. destruct (LT L) as (_ & -> & _ & _).
        eexists. split; [|exact V']. rewrite EO, app_nil_r. reflexivity.
    - left. assert (t' = T) as -> by (rewrite run_stop in R' by congruence; inversion R'; auto). split; [congruence|reflexivity].
  Qed.

  Lemma inflate_pieces_spec : forall fuel pre post s dst t T O R, view s = (t, []) -> m_status M t = Open -> run M t post = (T, O, R) ->
    len (pre ++ post) + zlib_chunk < 2 ^ 32 -> (length O + length post + 1 < fuel)%nat ->
    inflate_pieces St f fuel (pre ++ post) (len (pre ++ post)) (len pre) s dst = Ok (match m_status M T with Ended => Some (dst ++ O) | _ => None end).
  Proof.
    induction fuel as [|fuel IH]; intros pre post s dst t T O R V SO RUN L F; [lia|]. cbn [inflate_pieces].
    assert (LP : len (pre ++ post) = len pre + len post) by (unfold len; rewrite app_length; lia).
    rewrite avail_mid by (unfold zlib_chunk in *; lia). replace (len (pre ++ post) - len pre) with (len post) by lia. rewrite piece_next. cbn [bind].
    destruct (N.min zlib_chunk (len post) =? 0) eqn:Z.
    - assert (post = []) as -> by (destruct post; [reflexivity|rewrite len_cons in Z; unfold zlib_chunk in Z; lia]).
      cbn [run] in RUN. rewrite SO in RUN. inversion RUN; subst. now rewrite SO.
    - pose proof RUN as RUN'. rewrite <- (take_drop zlib_chunk post), run_app in RUN'. destruct (run M t (take zlib_chunk post)) as [[T1 O1] R1] eqn:R1E.
      assert (LO : (length O1 <= length O)%nat).
      { destruct (m_status M T1); [destruct (run M T1 (drop zlib_chunk post)) as [[? ?] ?]; inversion RUN'; rewrite app_length; lia|inversion RUN'; lia|inversion RUN'; lia]. }
      destruct (inflate_piece_spec (S fuel) s (take zlib_chunk post) dst t [] T1 O1 R1 V ltac:(congruence) R1E) as [[B E]|[B (s' & E & V')]]; [cbn [length]; lia| |].
      + rewrite B in RUN'. inversion RUN'; subst. rewrite E. cbn [bind]. now rewrite B.
      + rewrite E. cbn [bind app]. destruct (m_status M T1) eqn:S1; [|inversion RUN'; subst; rewrite S1; reflexivity|congruence]. cbn [ended].
        destruct (run M T1 (drop zlib_chunk post)) as [[T2 O2] R2] eqn:R2E. inversion RUN'; subst T2 O R2.
        assert (EP : pre ++ post = (pre ++ take zlib_chunk post) ++ drop zlib_chunk post) by (now rewrite <- app_assoc, take_drop).
        assert (LI : (len pre + N.min zlib_chunk (len post)) mod 2 ^ 32 = len (pre ++ take zlib_chunk post)).
        { rewrite N.mod_small by (unfold zlib_chunk in *; lia). rewrite len_app, len_take. reflexivity. }
        rewrite LI, EP. rewrite (IH (pre ++ take zlib_chunk post) (drop zlib_chunk post) s' (dst ++ O1) T1 T O2 R V' S1 R2E); [| |].
        * now rewrite <- app_assoc.
        * rewrite <- EP. exact L.
        * assert (LD : len (drop zlib_chunk post) < len post) by (rewrite len_drop; unfold zlib_chunk in *; lia). unfold len in LD. rewrite app_length in F. lia.
  Qed.
End Zlib.

Section Bzip.
  Variables (M : machine) (St : Type) (start : St) (f : St -> bytes -> N -> call St) (view : St -> m_state M * bytes).
  Hypothesis D : decoder M false St start f view.
  (** A piece in which the stream neither ends nor breaks. *)
  Lemma bunzip_piece_open : forall fuel s inp dst t owed T O R, view s = (t, owed) -> m_status M t = Open -> run M t inp = (T, O, R) -> m_status M T = Open ->
    ((fuel <= length owed + length O)%nat /\ bunzip_piece St f fuel s inp dst = Diverge) \/
    (exists s', bunzip_piece St f fuel s inp dst = Ok (s', [], dst ++ owed ++ O, Fine) /\ view s' = (T, [])).
  Proof.
    induction fuel as [|fuel IH]; intros s inp dst t owed T O R V SO RUN TO; [left; split; [lia|reflexivity]|].
    destruct (call_step M false St start f view D s inp bz2_chunk t owed T O R ltac:(reflexivity) V ltac:(congruence) ltac:(auto) RUN) as (t' & owed' & O' & V' & R' & EO & LO & LT & CO).
    assert (S' : m_status M t' = Open) by (destruct (m_status M t') eqn:X; [reflexivity| |]; rewrite run_stop in R' by congruence; inversion R'; subst; congruence).
    cbn [bunzip_piece]. rewrite CO, S'. destruct (len (c_out (f s inp bz2_chunk)) =? bz2_chunk) eqn:FU.
    - destruct (IH (c_state (f s inp bz2_chunk)) (c_rest (f s inp bz2_chunk)) (dst ++ c_out (f s inp bz2_chunk)) t' owed' T O' R V' S' R' TO) as [[L E]|(s' & E & VS)].
      + left. split; [|exact E]. apply app_len in EO. rewrite app_length in EO. apply N.eqb_eq in FU. assert (PO : 0 < len (c_out (f s inp bz2_chunk))) by (rewrite FU; reflexivity). unfold len in PO. lia.
      + right. exists s'. split; [|exact VS]. rewrite E, <- !app_assoc. now rewrite EO.
    - right. assert (L : len (c_out (f s inp bz2_chunk)) < bz2_chunk) by lia. destruct (LT L) as (-> & -> & -> & RE). eexists. split; [|exact V'].
      rewrite RE, EO, app_nil_r. assert (R = []) as -> by (eapply run_open; eauto). reflexivity.
  Qed.
  (** A piece in which it breaks. *)
  Lemma bunzip_piece_broken : forall fuel s inp dst t owed T O R, view s = (t, owed) -> m_status M t = Open -> run M t inp = (T, O, R) -> m_status M T = Broken ->
    (length owed + length O < fuel)%nat -> bunzip_piece St f fuel s inp dst = UB.
  Proof.
    induction fuel as [|fuel IH]; intros s inp dst t owed T O R V SO RUN TB F; [lia|].
    destruct (call_step M false St start f view D s inp bz2_chunk t owed T O R ltac:(reflexivity) V ltac:(congruence) ltac:(auto) RUN) as (t' & owed' & O' & V' & R' & EO & LO & LT & CO).
    cbn [bunzip_piece]. rewrite CO. destruct (m_status M t') eqn:S'; [| |reflexivity].
    - destruct (len (c_out (f s inp bz2_chunk)) =? bz2_chunk) eqn:FU.
      + eapply IH; [exact V'|exact S'|exact R'|exact TB|].
        apply app_len in EO. rewrite app_length in EO. apply N.eqb_eq in FU. assert (PO : 0 < len (c_out (f s inp bz2_chunk))) by (rewrite FU; reflexivity). unfold len in PO. lia.
      + assert (L : len (c_out (f s inp bz2_chunk)) < bz2_chunk) by lia. destruct (LT L) as (-> & _). congruence.
    - rewrite run_stop in R' by congruence. inversion R'; subst. congruence.
  Qed.
  (** A piece in which it ends, the data not filling the buffer. *)
  Lemma bunzip_piece_ended : forall fuel s inp dst t owed T O R, view s = (t, owed) -> m_status M t = Open \/ (m_status M t = Ended /\ owed <> []) -> run M t inp = (T, O, R) -> m_status M T = Ended ->
    owed ++ O = [] \/ len (owed ++ O) mod bz2_chunk <> 0 -> (length owed + length O < fuel)%nat ->
    exists s', bunzip_piece St f fuel s inp dst = Ok (s', R, dst ++ owed ++ O, End).
  Proof.
    induction fuel as [|fuel IH]; intros s inp dst t owed T O R V SO RUN TE NF F; [lia|].
    destruct (call_step M false St start f view D s inp bz2_chunk t owed T O R ltac:(reflexivity) V ltac:(destruct SO as [SO|[SO _]]; congruence) ltac:(tauto) RUN) as (t' & owed' & O' & V' & R' & EO & LO & LT & CO).
    cbn [bunzip_piece]. rewrite CO. destruct (len (c_out (f s inp bz2_chunk)) =? bz2_chunk) eqn:FU.
    - apply N.eqb_eq in FU. assert (PO : 0 < len (c_out (f s inp bz2_chunk))) by (rewrite FU; reflexivity).
      assert (ML : len (owed' ++ O') mod bz2_chunk <> 0).
      { destruct NF as [NF|NF]; [exfalso; rewrite NF in EO; symmetry in EO; apply app_eq_nil in EO as [Z _]; rewrite Z in PO; discriminate|].
        intros Z. apply NF. rewrite EO, len_app, FU. rewrite N.add_mod by discriminate. rewrite Z. reflexivity. }
      assert (PRE : m_status M t' = Open \/ (m_status M t' = Ended /\ owed' <> [])).
      { destruct (m_status M t') eqn:S'; [now left| |rewrite run_stop in R' by congruence; inversion R'; subst; congruence]. right. split; [reflexivity|].
        rewrite run_stop in R' by congruence. inversion R'; subst. intros ->. apply ML. reflexivity. }
      assert (LN : (length owed' + length O' < fuel)%nat).
      { apply app_len in EO. rewrite app_length in EO. unfold len in PO. lia. }
      destruct (IH (c_state (f s inp bz2_chunk)) (c_rest (f s inp bz2_chunk)) (dst ++ c_out (f s inp bz2_chunk)) t' owed' T O' R V' PRE R' TE ltac:(now right) LN) as (s' & E).
      exists s'. rewrite <- app_assoc, <- EO in E. destruct (m_status M t') eqn:S'; [exact E| |destruct PRE as [PRE|[PRE _]]; discriminate]. destruct owed'; exact E.
    - assert (L : len (c_out (f s inp bz2_chunk)) < bz2_chunk) by lia. destruct (LT L) as (-> & -> & -> & RE). rewrite TE, RE, EO, app_nil_r. eexists. reflexivity.
  Qed.
  (** A piece in which it ends, the data filling the buffer to the brim. *)
  Lemma bunzip_piece_full (RF : refuses M St f view) (EG : eager M St f view) : forall k fuel s inp dst t owed T O R, view s = (t, owed) -> m_status M t = Open \/ (m_status M t = Ended /\ owed <> []) ->
    run M t inp = (T, O, R) -> m_status M T = Ended -> len (owed ++ O) = (1 + N.of_nat k) * bz2_chunk -> (k + 1 < fuel)%nat ->
    bunzip_piece St f fuel s inp dst = UB.
  Proof.
    induction k as [|k IH]; intros fuel s inp dst t owed T O R V SO RUN TE LE F; (destruct fuel as [|fuel]; [lia|]);
      destruct (call_step M false St start f view D s inp bz2_chunk t owed T O R ltac:(reflexivity) V ltac:(destruct SO as [SO|[SO _]]; congruence) ltac:(tauto) RUN) as (t' & owed' & O' & V' & R' & EO & LO & LT & CO);
      (assert (FU : len (c_out (f s inp bz2_chunk)) = bz2_chunk);
        [destruct (N.lt_ge_cases (len (c_out (f s inp bz2_chunk))) bz2_chunk) as [X|X]; [|lia]; destruct (LT X) as (_ & -> & -> & _); rewrite EO in LE; cbn [app] in LE; rewrite app_nil_r in LE; rewrite LE in X; unfold bz2_chunk in X; lia|]);
      cbn [bunzip_piece]; rewrite CO; apply N.eqb_eq in FU; rewrite FU; apply N.eqb_eq in FU; rewrite EO, len_app, FU in LE.
    - assert (Z : owed' ++ O' = []) by (destruct (owed' ++ O'); [reflexivity|rewrite len_cons in LE; unfold bz2_chunk in LE; lia]). apply app_eq_nil in Z as [-> ->].
      assert (S' : m_status M t' = Ended).
      { destruct (m_status M t') eqn:S'; [|reflexivity|rewrite run_stop in R' by congruence; inversion R'; subst; congruence]. exfalso.
        destruct (c_rest (f s inp bz2_chunk)) as [|x r] eqn:RE; [cbn [run] in R'; rewrite S' in R'; inversion R'; subst; congruence|].
        destruct (EG _ _ _ _ _ _ _ V' RE S') as [X|X]; [contradiction|]. apply X. cbn [run] in R'. rewrite S' in R'. destruct (m_feed M t' x) as [t1 o1]. destruct (run M t1 r) as [[t2 o2] r2].
        inversion R' as [[A B C]]. now apply app_eq_nil in B as [-> _]. }
      rewrite S'. destruct fuel as [|fuel]; [lia|]. cbn [bunzip_piece]. rewrite (RF _ (c_rest (f s inp bz2_chunk)) bz2_chunk _ V' S'). reflexivity.
    - assert (LE' : len (owed' ++ O') = (1 + N.of_nat k) * bz2_chunk) by (unfold bz2_chunk in *; lia).
      assert (PRE : m_status M t' = Open \/ (m_status M t' = Ended /\ owed' <> [])).
      { destruct (m_status M t') eqn:S'; [now left| |rewrite run_stop in R' by congruence; inversion R'; subst; congruence]. right. split; [reflexivity|].
        rewrite run_stop in R' by congruence. inversion R'; subst. intros ->. change (len (@nil N ++ [])) with 0 in LE'. unfold bz2_chunk in LE'. lia. }
      rewrite (IH fuel _ _ (dst ++ c_out (f s inp bz2_chunk)) _ _ _ _ _ V' PRE R' TE LE') by lia.
      destruct (m_status M t') eqn:S'; [reflexivity| |destruct PRE as [PRE|[PRE _]]; discriminate]. destruct owed'; reflexivity.
  Qed.

  (** One round of the outer loop, inside the string. *)
  Lemma bunzip_round fuel pre post s dst : len (pre ++ post) + bz2_chunk < 2 ^ 32 ->
    bunzip_pieces St f (S fuel) (pre ++ post) (len (pre ++ post)) (len pre) s dst =
    (' (st, rest, dst, rc) <- bunzip_piece St f (S fuel) s (take bz2_chunk post) dst ;;
     _ <- assert_ (empty rest) ;;
     if ended rc then Ok (Some dst)
     else bunzip_pieces St f fuel ((pre ++ take bz2_chunk post) ++ drop bz2_chunk post) (len ((pre ++ take bz2_chunk post) ++ drop bz2_chunk post)) (len (pre ++ take bz2_chunk post)) st dst).
  Proof.
    intros L. cbn [bunzip_pieces].
    assert (LP : len (pre ++ post) = len pre + len post) by (unfold len; rewrite app_length; lia).
    rewrite avail_mid by (unfold bz2_chunk in *; lia). replace (len (pre ++ post) - len pre) with (len post) by lia. rewrite piece_next. cbn [bind].
    assert (EP : (pre ++ take bz2_chunk post) ++ drop bz2_chunk post = pre ++ post) by (now rewrite <- app_assoc, take_drop). rewrite EP.
    replace ((len pre + N.min bz2_chunk (len post)) mod 2 ^ 32) with (len (pre ++ take bz2_chunk post)); [reflexivity|].
    rewrite N.mod_small by (unfold bz2_chunk in *; lia). rewrite len_app, len_take. reflexivity.
  Qed.
  Lemma bunzip_truncated : forall fuel pre post s dst t T O R, view s = (t, []) -> m_status M t = Open -> run M t post = (T, O, R) -> m_status M T = Open ->
    len (pre ++ post) + bz2_chunk < 2 ^ 32 -> bunzip_pieces St f fuel (pre ++ post) (len (pre ++ post)) (len pre) s dst = Diverge.
  Proof.
    induction fuel as [|fuel IH]; intros pre post s dst t T O R V SO RUN TO L; [reflexivity|]. rewrite bunzip_round by exact L.
    rewrite <- (take_drop bz2_chunk post), run_app in RUN. destruct (run M t (take bz2_chunk post)) as [[T1 O1] R1] eqn:R1E.
    assert (S1 : m_status M T1 = Open) by (destruct (m_status M T1) eqn:X; [reflexivity|inversion RUN; subst; congruence|inversion RUN; subst; congruence]).
    destruct (bunzip_piece_open (S fuel) s (take bz2_chunk post) dst t [] T1 O1 R1 V SO R1E S1) as [[_ E]|(s' & E & V')]; rewrite E; [reflexivity|]. cbn [bind assert_ empty ended].
    rewrite S1 in RUN. destruct (run M T1 (drop bz2_chunk post)) as [[T2 O2] R2] eqn:R2E. inversion RUN; subst T2 O R2.
    eapply IH; [exact V'|exact S1|exact R2E|exact TO|]. rewrite <- app_assoc, take_drop. exact L.
  Qed.
  Lemma drop_shorter post : post <> [] -> (length (drop bz2_chunk post) < length post)%nat.
  Proof. intros H. assert (X : len (drop bz2_chunk post) < len post) by (rewrite len_drop; destruct post; [contradiction|]; rewrite len_cons; unfold bz2_chunk; lia). unfold len in X. lia. Qed.
  Lemma bunzip_broken : forall fuel pre post s dst t T O R, view s = (t, []) -> m_status M t = Open -> run M t post = (T, O, R) -> m_status M T = Broken ->
    len (pre ++ post) + bz2_chunk < 2 ^ 32 -> (length O + length post < fuel)%nat -> bunzip_pieces St f fuel (pre ++ post) (len (pre ++ post)) (len pre) s dst = UB.
  Proof.
    induction fuel as [|fuel IH]; intros pre post s dst t T O R V SO RUN TB L F; [lia|]. rewrite bunzip_round by exact L.
    assert (NE : post <> []) by (intros ->; cbn [run] in RUN; rewrite SO in RUN; inversion RUN; subst; congruence). pose proof (drop_shorter _ NE) as DS.
    rewrite <- (take_drop bz2_chunk post), run_app in RUN. destruct (run M t (take bz2_chunk post)) as [[T1 O1] R1] eqn:R1E.
    destruct (m_status M T1) eqn:S1; [|inversion RUN; subst; congruence|].
    - destruct (run M T1 (drop bz2_chunk post)) as [[T2 O2] R2] eqn:R2E. inversion RUN; subst T2 O R2. rewrite app_length in F.
      destruct (bunzip_piece_open (S fuel) s (take bz2_chunk post) dst t [] T1 O1 R1 V SO R1E S1) as [[X E]|(s' & E & V')]; [cbn [length] in X; lia|]. rewrite E. cbn [bind assert_ empty ended].
      eapply IH; [exact V'|exact S1|exact R2E|exact TB| |lia]. rewrite <- app_assoc, take_drop. exact L.
    - inversion RUN; subst. rewrite (bunzip_piece_broken (S fuel) s (take bz2_chunk post) dst t [] T O R1 V SO R1E S1); [reflexivity|cbn [length]; lia].
  Qed.
  (** The pieces before the one in which the stream ends. *)
  Lemma bunzip_prefix : forall n fuel pre whole rest s dst t t' o, view s = (t, []) -> m_status M t = Open -> len whole = N.of_nat n * bz2_chunk -> run M t whole = (t', o, []) -> m_status M t' = Open ->
    len (pre ++ whole ++ rest) + bz2_chunk < 2 ^ 32 -> (length o < fuel)%nat ->
    exists s', view s' = (t', []) /\ bunzip_pieces St f (n + fuel) (pre ++ whole ++ rest) (len (pre ++ whole ++ rest)) (len pre) s dst =
      bunzip_pieces St f fuel ((pre ++ whole) ++ rest) (len ((pre ++ whole) ++ rest)) (len (pre ++ whole)) s' (dst ++ o).
  Proof.
    induction n as [|n IH]; intros fuel pre whole rest s dst t t' o V SO LW RUN TO L F.
    - assert (whole = []) as -> by (destruct whole; [reflexivity|rewrite len_cons in LW; lia]). cbn [run] in RUN. rewrite SO in RUN. inversion RUN; subst. exists s. split; [exact V|].
      cbn [app plus]. now rewrite !app_nil_r.
    - cbn [plus]. rewrite bunzip_round by exact L.
      assert (TK : take bz2_chunk (whole ++ rest) = take bz2_chunk whole).
      { unfold take. rewrite firstn_app. replace (N.to_nat bz2_chunk - length whole)%nat with 0%nat by (unfold len in LW; lia). cbn [firstn]. apply app_nil_r. }
      assert (DK : drop bz2_chunk (whole ++ rest) = drop bz2_chunk whole ++ rest).
      { unfold drop. rewrite skipn_app. replace (N.to_nat bz2_chunk - length whole)%nat with 0%nat by (unfold len in LW; lia). reflexivity. }
      rewrite TK, DK. pose proof RUN as RUN'. rewrite <- (take_drop bz2_chunk whole), run_app in RUN'. destruct (run M t (take bz2_chunk whole)) as [[T1 O1] R1] eqn:R1E.
      assert (S1 : m_status M T1 = Open) by (destruct (m_status M T1) eqn:X; [reflexivity|inversion RUN'; subst; congruence|inversion RUN'; subst; congruence]). rewrite S1 in RUN'.
      destruct (run M T1 (drop bz2_chunk whole)) as [[T2 O2] R2] eqn:R2E. inversion RUN'; subst T2 o R2. rewrite app_length in F.
      destruct (bunzip_piece_open (S (n + fuel)) s (take bz2_chunk whole) dst t [] T1 O1 R1 V SO R1E S1) as [[X E]|(s1 & E & V1)]; [cbn [length] in X; lia|]. rewrite E. cbn [bind assert_ empty ended app].
      destruct (IH fuel (pre ++ take bz2_chunk whole) (drop bz2_chunk whole) rest s1 (dst ++ O1) T1 t' O2 V1 S1) as (s' & V' & E').
      + rewrite len_drop, LW. lia.
      + exact R2E.
      + exact TO.
      + rewrite <- app_assoc. rewrite (app_assoc (take _ _)), take_drop. exact L.
      + lia.
      + exists s'. split; [exact V'|]. rewrite E'. replace ((pre ++ take bz2_chunk whole) ++ drop bz2_chunk whole) with (pre ++ whole) by (now rewrite <- app_assoc, take_drop). replace ((dst ++ O1) ++ O2) with (dst ++ O1 ++ O2) by apply app_assoc. reflexivity.
  Qed.
End Bzip.

Section Deflate.
  Variables (M : machine) (chunk : N) (again : bool) (St : Type) (start : St) (f : St -> bool -> bytes -> N -> call St)
    (past : St -> bytes * bytes) (at_phase : St -> phase) (due : St -> bool -> bytes -> N).
  Hypothesis C0 : 0 < chunk.
  Hypothesis E : encoder M again St start f past at_phase due.
  (** A piece, for a library that may be called after the end. *)
  Lemma deflate_piece_spec : forall m s finish inp i z, again = true \/ finish = false -> (N.to_nat (due s finish inp) <= m)%nat -> past s = (i, z) ->
    match at_phase s with Running => True | Finishing l => finish = true /\ inp = l | Over => finish = true /\ inp = [] end ->
    exists s' out, past s' = (i ++ inp, z ++ out) /\ at_phase s' = (if finish then Over else Running) /\ (finish = true -> stream M (z ++ out) (i ++ inp)) /\
      forall fuel dst, (m < fuel)%nat -> deflate_piece St chunk f fuel s finish inp dst = Ok (s', [], dst ++ out, if finish then End else Fine).
  Proof.
    destruct E as (_ & _ & C). induction m as [m IH] using lt_wf_ind. intros s finish inp i z AG DM P PH.
    destruct (C s finish inp chunk i z C0 P) as (used & EI & P' & LO & LT & DU & CO & PH'); [destruct (at_phase s); intuition congruence|].
    assert (NM : c_code (f s finish inp chunk) <> Misuse) by (destruct CO as [X|[X _]]; congruence).
    destruct (N.eq_dec (len (c_out (f s finish inp chunk))) chunk) as [FU|NF].
    - assert (PO : (0 < length (c_out (f s finish inp chunk)))%nat) by (unfold len in FU; lia).
      assert (LM : (N.to_nat (due (c_state (f s finish inp chunk)) finish (c_rest (f s finish inp chunk))) < m)%nat) by (unfold len in DU; lia).
      destruct (IH _ LM (c_state (f s finish inp chunk)) finish (c_rest (f s finish inp chunk)) _ _ AG (le_n _) P') as (s' & out & P2 & PH2 & ST2 & E2).
      { rewrite PH'. destruct CO as [X|(X & Y & Z & _)]; rewrite X; cbn [ended]; [destruct finish; auto|auto]. }
      exists s', (c_out (f s finish inp chunk) ++ out). assert (EI2 : i ++ inp = i ++ used ++ c_rest (f s finish inp chunk)) by (now rewrite <- EI). rewrite EI2. split; [rewrite P2, <- !app_assoc; reflexivity|]. split; [exact PH2|].
      split; [intros H; specialize (ST2 H); rewrite <- !app_assoc in ST2; exact ST2|].
      intros fuel dst F. destruct fuel as [|fuel]; [lia|]. cbn [deflate_piece]. apply N.eqb_eq in FU. rewrite FU. rewrite (E2 fuel (dst ++ c_out (f s finish inp chunk))) by lia. rewrite <- app_assoc.
      destruct (c_code (f s finish inp chunk)); try reflexivity. congruence.
    - destruct (LT ltac:(lia)) as [RE FE]. rewrite RE, app_nil_r in EI. subst used.
      exists (c_state (f s finish inp chunk)), (c_out (f s finish inp chunk)). split; [exact P'|].
      assert (CE : c_code (f s finish inp chunk) = if finish then End else Fine) by (destruct finish; [now apply FE|destruct CO as [X|(_ & X & _)]; [exact X|discriminate]]).
      split; [rewrite PH', CE; destruct finish; reflexivity|].
      split; [intros H; destruct CO as [X|(_ & _ & _ & X)]; [rewrite (FE H) in X; discriminate|exact X]|].
      intros fuel dst F. destruct fuel as [|fuel]; [lia|]. cbn [deflate_piece]. apply N.eqb_neq in NF. rewrite NF, RE, CE. destruct finish; reflexivity.
  Qed.
  (** One round inside the string. *)
  Lemma deflate_round fuel pre post s dst : 0 < len post \/ pre = [] -> len (pre ++ post) + chunk <= 2 ^ 32 -> chunk < 2 ^ 32 ->
    deflate_pieces St chunk f (S fuel) (pre ++ post) (len (pre ++ post)) (len pre) s dst =
    (' (st, rest, dst, rc) <- deflate_piece St chunk f (S fuel) s (len post <=? chunk) (take chunk post) dst ;;
     _ <- assert_ (empty rest) ;;
     if len post <=? chunk then _ <- assert_ (ended rc) ;; Ok dst
     else deflate_pieces St chunk f fuel ((pre ++ take chunk post) ++ drop chunk post) (len ((pre ++ take chunk post) ++ drop chunk post)) (len (pre ++ take chunk post)) st dst).
  Proof.
    intros NE L CL. cbn [deflate_pieces].
    assert (LP : len (pre ++ post) = len pre + len post) by (unfold len; rewrite app_length; lia).
    assert (PL : pre = [] -> len pre = 0) by (intros ->; reflexivity).
    rewrite avail_mid by (destruct NE as [NE|NE]; [lia|specialize (PL NE); lia]). replace (len (pre ++ post) - len pre) with (len post) by lia. rewrite piece_next. cbn [bind].
    assert (EP : (pre ++ take chunk post) ++ drop chunk post = pre ++ post) by (now rewrite <- app_assoc, take_drop). rewrite EP.
    assert (LI : (len pre + N.min chunk (len post)) mod 2 ^ 32 = len (pre ++ take chunk post)).
    { rewrite N.mod_small by (destruct NE as [NE|NE]; [lia|specialize (PL NE); lia]). rewrite len_app, len_take. reflexivity. }
    rewrite LI. assert (FI : (len (pre ++ take chunk post) =? len (pre ++ post)) = (len post <=? chunk)).
    { rewrite LP, len_app, len_take. apply eq_true_iff_eq. rewrite N.eqb_eq, N.leb_le. lia. }
    rewrite FI. reflexivity.
  Qed.
  Lemma deflate_pieces_spec : again = true -> chunk < 2 ^ 32 -> forall n pre post s dst i z, (length post <= n)%nat -> 0 < len post \/ pre = [] -> len (pre ++ post) + chunk <= 2 ^ 32 -> past s = (i, z) -> at_phase s = Running ->
    exists F out, stream M (z ++ out) (i ++ post) /\ forall fuel, (F < fuel)%nat ->
      deflate_pieces St chunk f fuel (pre ++ post) (len (pre ++ post)) (len pre) s dst = Ok (dst ++ out).
  Proof.
    intros AG CL. induction n as [n IH] using lt_wf_ind. intros pre post s dst i z LN NE L P PH.
    destruct (deflate_piece_spec _ s (len post <=? chunk) (take chunk post) i z (or_introl AG) (le_n _) P ltac:(rewrite PH; exact I)) as (s' & out & P' & PH' & ST & EQ).
    set (m := N.to_nat (due s (len post <=? chunk) (take chunk post))) in *.
    destruct (len post <=? chunk) eqn:LC.
    - apply N.leb_le in LC. assert (TA : take chunk post = post) by (unfold take; apply firstn_all2; unfold len in LC; lia). rewrite TA in *.
      exists m, out. split; [apply ST; reflexivity|]. intros fuel F. destruct fuel as [|fuel]; [lia|]. rewrite deflate_round by assumption. assert (LC' : (len post <=? chunk) = true) by (now apply N.leb_le).
      rewrite LC', TA. rewrite EQ by exact F. reflexivity.
    - pose proof LC as LC'. apply N.leb_gt in LC. assert (LD : len (drop chunk post) = len post - chunk) by apply len_drop.
      assert (LDN : (length (drop chunk post) < n)%nat) by (unfold len in LD, LC; lia).
      destruct (IH _ LDN (pre ++ take chunk post) (drop chunk post) s' (dst ++ out) _ _ (le_n _) ltac:(left; lia) ltac:(rewrite <- app_assoc, take_drop; exact L) P' PH') as (F2 & out2 & ST2 & E2).
      exists (S (Nat.max m F2)), (out ++ out2). split; [rewrite <- !app_assoc, take_drop in ST2; exact ST2|].
      intros fuel F. destruct fuel as [|fuel]; [lia|]. rewrite deflate_round by assumption. rewrite LC'. rewrite EQ by lia. cbn [bind assert_ empty]. rewrite E2 by lia. now rewrite <- app_assoc.
  Qed.
  (** The library refuses a call after the end. *)
  Hypothesis RE : refuses_more St f at_phase.
  Lemma deflate_piece_refusing : forall m s inp i z, (N.to_nat (due s true inp) <= m)%nat -> past s = (i, z) -> at_phase s = Running \/ at_phase s = Finishing inp ->
    (exists s' out, stream M (z ++ out) (i ++ inp) /\ forall fuel dst, (m < fuel)%nat -> deflate_piece St chunk f fuel s true inp dst = Ok (s', [], dst ++ out, End)) \/
    (forall fuel dst, (m < fuel)%nat -> deflate_piece St chunk f fuel s true inp dst = UB).
  Proof.
    destruct E as (_ & _ & C). induction m as [m IH] using lt_wf_ind. intros s inp i z DM P PH.
    destruct (C s true inp chunk i z C0 P) as (used & EI & P' & LO & LT & DU & CO & PH'); [destruct PH as [-> | ->]; auto|].
    assert (NM : c_code (f s true inp chunk) <> Misuse) by (destruct CO as [X|[X _]]; congruence).
    destruct (N.eq_dec (len (c_out (f s true inp chunk))) chunk) as [FU|NF].
    - assert (PO : (0 < length (c_out (f s true inp chunk)))%nat) by (unfold len in FU; lia).
      assert (LM : (N.to_nat (due (c_state (f s true inp chunk)) true (c_rest (f s true inp chunk))) < m)%nat) by (unfold len in DU; lia).
      pose proof FU as FU'. apply N.eqb_eq in FU'.
      destruct CO as [X|(X & _ & Y & _)].
      + rewrite X in PH'. cbn [ended] in PH'.
        destruct (IH _ LM (c_state (f s true inp chunk)) (c_rest (f s true inp chunk)) _ _ (le_n _) P' (or_intror PH')) as [(s' & out & ST2 & E2)|E2].
        * left. exists s', (c_out (f s true inp chunk) ++ out). assert (EI2 : i ++ inp = i ++ used ++ c_rest (f s true inp chunk)) by (now rewrite <- EI). rewrite EI2. rewrite <- !app_assoc in ST2. split; [exact ST2|].
          intros fuel dst F. destruct fuel as [|fuel]; [lia|]. cbn [deflate_piece]. rewrite X, FU', (E2 fuel) by lia. now rewrite <- app_assoc.
        * right. intros fuel dst F. destruct fuel as [|fuel]; [lia|]. cbn [deflate_piece]. rewrite X, FU', (E2 fuel) by lia. reflexivity.
      + right. rewrite X in PH'. cbn [ended] in PH'. intros fuel dst F. destruct fuel as [|fuel]; [lia|]. cbn [deflate_piece]. rewrite X, FU'. destruct fuel as [|fuel]; [lia|]. cbn [deflate_piece]. rewrite (RE _ _ _ _ PH'). reflexivity.
    - destruct (LT ltac:(lia)) as [RR FE]. rewrite RR, app_nil_r in EI. subst used. left.
      exists (c_state (f s true inp chunk)), (c_out (f s true inp chunk)). specialize (FE eq_refl).
      split; [destruct CO as [X|(_ & _ & _ & X)]; [congruence|exact X]|].
      intros fuel dst F. destruct fuel as [|fuel]; [lia|]. cbn [deflate_piece]. apply N.eqb_neq in NF. rewrite NF, RR, FE. reflexivity.
  Qed.
  Lemma deflate_pieces_refusing : chunk < 2 ^ 32 -> forall n pre post s dst i z, (length post <= n)%nat -> 0 < len post \/ pre = [] -> len (pre ++ post) + chunk <= 2 ^ 32 -> past s = (i, z) -> at_phase s = Running ->
    exists F, (exists out, stream M (z ++ out) (i ++ post) /\ forall fuel, (F < fuel)%nat ->
      deflate_pieces St chunk f fuel (pre ++ post) (len (pre ++ post)) (len pre) s dst = Ok (dst ++ out)) \/
      (forall fuel, (F < fuel)%nat -> deflate_pieces St chunk f fuel (pre ++ post) (len (pre ++ post)) (len pre) s dst = UB).
  Proof.
    intros CL. induction n as [n IH] using lt_wf_ind. intros pre post s dst i z LN NE L P PH.
    destruct (len post <=? chunk) eqn:LC.
    - pose proof LC as LC'. apply N.leb_le in LC. assert (TA : take chunk post = post) by (unfold take; apply firstn_all2; unfold len in LC; lia).
      destruct (deflate_piece_refusing _ s post i z (le_n _) P (or_introl PH)) as [(s' & out & ST & EQ)|EQ]; exists (N.to_nat (due s true post)).
      + left. exists out. split; [exact ST|]. intros fuel F. destruct fuel as [|fuel]; [lia|]. rewrite deflate_round by assumption. rewrite LC', TA. rewrite EQ by exact F. reflexivity.
      + right. intros fuel F. destruct fuel as [|fuel]; [lia|]. rewrite deflate_round by assumption. rewrite LC', TA. rewrite EQ by exact F. reflexivity.
    - destruct (deflate_piece_spec _ s false (take chunk post) i z (or_intror eq_refl) (le_n _) P ltac:(rewrite PH; exact I)) as (s' & out & P' & PH' & _ & EQ).
      set (m := N.to_nat (due s false (take chunk post))) in *.
      pose proof LC as LC'. apply N.leb_gt in LC. assert (LD : len (drop chunk post) = len post - chunk) by apply len_drop.
      assert (LDN : (length (drop chunk post) < n)%nat) by (unfold len in LD, LC; lia).
      destruct (IH _ LDN (pre ++ take chunk post) (drop chunk post) s' (dst ++ out) _ _ (le_n _) ltac:(left; lia) ltac:(rewrite <- app_assoc, take_drop; exact L) P' PH') as (F2 & [(out2 & ST2 & E2)|E2]);
        exists (S (Nat.max m F2)).
      + left. exists (out ++ out2). split; [rewrite <- !app_assoc, take_drop in ST2; exact ST2|].
        intros fuel F. destruct fuel as [|fuel]; [lia|]. rewrite deflate_round by assumption. rewrite LC'. rewrite EQ by lia. cbn [bind assert_ empty]. rewrite E2 by lia. now rewrite <- app_assoc.
      + right. intros fuel F. destruct fuel as [|fuel]; [lia|]. rewrite deflate_round by assumption. rewrite LC'. rewrite EQ by lia. cbn [bind assert_ empty]. rewrite E2 by lia. reflexivity.
  Qed.
  (** ... and reports the end with the last octet, and [due] is exact. *)
  Hypothesis PR : prompt St f at_phase due.
  Lemma deflate_piece_full : forall k fuel s inp dst i z, past s = (i, z) -> at_phase s = Running \/ at_phase s = Finishing inp -> due s true inp = (1 + N.of_nat k) * chunk -> (k + 1 < fuel)%nat ->
    deflate_piece St chunk f fuel s true inp dst = UB.
  Proof.
    destruct E as (_ & _ & C). induction k as [|k IH]; intros fuel s inp dst i z P PH DU F; (destruct fuel as [|fuel]; [lia|]); cbn [deflate_piece];
      destruct (C s true inp chunk i z C0 P) as (used & EI & P' & _ & _ & _ & CO & PH'); try (destruct PH as [-> | ->]; now auto);
      destruct (PR s inp chunk C0 PH) as (LO & DN & LE).
    - assert (LF : len (c_out (f s true inp chunk)) = chunk) by (rewrite LO, DU; lia). apply N.eqb_eq in LF. rewrite LF.
      assert (CE : c_code (f s true inp chunk) = End) by (apply LE; lia). rewrite CE in *. cbn [ended] in PH'. destruct fuel as [|fuel]; [lia|]. cbn [deflate_piece]. now rewrite (RE _ _ _ _ PH').
    - assert (LF : len (c_out (f s true inp chunk)) = chunk) by (rewrite LO, DU; nia). pose proof LF as LF'. apply N.eqb_eq in LF. rewrite LF.
      destruct CO as [X|(X & _)].
      + rewrite X in *. cbn [ended] in PH'. eapply IH; [exact P'|right; exact PH'|rewrite DN, DU, LF'; nia|lia].
      + rewrite X in *. cbn [ended] in PH'. destruct fuel as [|fuel]; [lia|]. cbn [deflate_piece]. now rewrite (RE _ _ _ _ PH').
  Qed.
End Deflate.

(** Sizes the 32 bit counters cannot hold. *)
Section Sizes.
  Variables (chunk : N) (St : Type) (f : St -> bool -> bytes -> N -> call St).
  Lemma piece_take src n index a : n <= len src -> index + a <= n -> piece src index a = piece (take n src) index a.
  Proof.
    intros LN LE. unfold piece. rewrite len_take. replace (index + a <=? len src + 1) with true by (symmetry; apply N.leb_le; lia). replace (index + a <=? N.min n (len src) + 1) with true by (symmetry; apply N.leb_le; lia). f_equal.
    assert (X : forall l, index + a <= len l -> firstn (N.to_nat a) (skipn (N.to_nat index) (l ++ [0])) = firstn (N.to_nat a) (skipn (N.to_nat index) l)).
    { intros l H. unfold len in H. rewrite skipn_app, firstn_app, skipn_length. replace (N.to_nat a - (length l - N.to_nat index))%nat with 0%nat by lia. now rewrite firstn_O, app_nil_r. }
    rewrite !X by (rewrite ?len_take; lia). unfold take. rewrite skipn_firstn_comm, firstn_firstn. f_equal. lia.
  Qed.
  Lemma deflate_pieces_take : forall fuel src n index st dst, n <= len src -> index <= n -> n + chunk <= 2 ^ 32 -> 0 < chunk -> (n = 0 \/ index < n) ->
    deflate_pieces St chunk f fuel src n index st dst = deflate_pieces St chunk f fuel (take n src) n index st dst.
  Proof.
    induction fuel as [|fuel IH]; intros src n index st dst LN LI LC C0 NI; [reflexivity|]. cbn [deflate_pieces].
    destruct (N.eq_dec n 0) as [Z|NZ].
    - subst n. assert (index = 0) by lia. subst index.
      assert (A : avail chunk 0 0 = 0) by (unfold avail; destruct (_ <? 0) eqn:X; [apply N.ltb_lt in X; lia|]; reflexivity). rewrite A, (piece_take src 0 0 0) by lia. reflexivity.
    - assert (A : avail chunk index n = N.min chunk (n - index)) by (apply avail_mid; lia). rewrite A, (piece_take src n) by lia.
      destruct (piece (take n src) index (N.min chunk (n - index))) as [b| | | ]; try reflexivity. cbn [bind].
      destruct (deflate_piece St chunk f (S fuel) st ((index + N.min chunk (n - index)) mod 2 ^ 32 =? n) b dst) as [[[[st' rest] dst'] rc]| | | ]; try reflexivity. cbn [bind]. destruct (assert_ (empty rest)); try reflexivity. cbn [bind].
      rewrite (N.mod_small (index + _)) by lia. destruct (index + N.min chunk (n - index) =? n) eqn:FI; [reflexivity|]. apply N.eqb_neq in FI. apply IH; lia.
  Qed.
End Sizes.
Section Wrap.
  Variables (M : machine) (chunk : N) (again : bool) (St : Type) (start : St) (f : St -> bool -> bytes -> N -> call St)
    (past : St -> bytes * bytes) (at_phase : St -> phase) (due : St -> bool -> bytes -> N).
  Hypothesis C0 : 0 < chunk.
  Hypothesis E : encoder M again St start f past at_phase due.
  Lemma deflate_pieces_wrap src : 2 ^ 32 - chunk < len src -> len src + 1 < 2 ^ 32 -> forall j s dst i z, (1 + N.of_nat j) * chunk <= 2 ^ 32 -> past s = (i, z) -> at_phase s = Running ->
    exists F, forall fuel, (F < fuel)%nat -> deflate_pieces St chunk f fuel src (len src) (2 ^ 32 - (1 + N.of_nat j) * chunk) s dst = UB.
  Proof.
    intros L1 L2. assert (Z : 2 ^ 32 = 4294967296) by reflexivity.
    induction j as [|j IH]; intros s dst i z J P PH.
    - exists 0%nat. intros fuel F. destruct fuel as [|fuel]; [lia|]. cbn [deflate_pieces]. replace ((1 + N.of_nat 0) * chunk) with chunk in * by lia.
      assert (A : avail chunk (2 ^ 32 - chunk) (len src) = chunk).
      { unfold avail. replace (2 ^ 32 - chunk + chunk) with (1 * 2 ^ 32) by lia. rewrite N.mod_mul by discriminate. replace (0 <? len src) with true by (symmetry; apply N.ltb_lt; lia). reflexivity. }
      rewrite A. unfold piece. replace (_ <=? _) with false by (symmetry; apply N.leb_gt; lia). reflexivity.
    - set (index := 2 ^ 32 - (1 + N.of_nat (S j)) * chunk).
      assert (IN : index + chunk = 2 ^ 32 - (1 + N.of_nat j) * chunk) by (unfold index; nia).
      assert (IL : index + chunk <= 2 ^ 32 - chunk) by (rewrite IN; nia).
      assert (A : avail chunk index (len src) = chunk). { unfold avail. rewrite N.mod_small by lia. replace (_ <? _) with true by (symmetry; apply N.ltb_lt; lia). reflexivity. }
      assert (PI : exists p, piece src index chunk = Ok p) by (unfold piece; replace (_ <=? _) with true by (symmetry; apply N.leb_le; lia); eauto). destruct PI as [p PI].
      destruct (deflate_piece_spec M chunk again St start f past at_phase due C0 E _ s false p i z (or_intror eq_refl) (le_n _) P ltac:(rewrite PH; exact I)) as (s' & out & P' & PH' & _ & EQ).
      destruct (IH s' (dst ++ out) _ _ ltac:(nia) P' PH') as [F2 E2].
      exists (S (Nat.max (N.to_nat (due s false p)) F2)). intros fuel F. destruct fuel as [|fuel]; [lia|]. cbn [deflate_pieces]. rewrite A, PI. cbn [bind].
      rewrite (N.mod_small (index + chunk)) by lia. replace (index + chunk =? len src) with false by (symmetry; apply N.eqb_neq; lia).
      rewrite EQ by lia. cbn [bind assert_ empty]. rewrite IN. apply E2. lia.
  Qed.
End Wrap.
