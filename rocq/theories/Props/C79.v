(** C79: the loops that feed the compression libraries. *)
From Verif Require Import Proofs.Lib Spec.Stream Proofs.StreamP.
Local Open Scope N_scope.

(** Whatever the sizes of the pieces: zlib data gives exactly the data of the stream, octets behind
    the stream are ignored, and a broken or incomplete stream is an error. *)
Theorem C79_inflate M St start f view : decoder M true St start f view -> m_status M (m_start M) = Open ->
  forall src t d rest, run M (m_start M) src = (t, d, rest) -> len src + zlib_chunk < 2 ^ 32 ->
  exists F, forall fuel, (F < fuel)%nat -> zlib_decompress St f fuel start src = Ok (match m_status M t with Ended => Some d | _ => None end).
Proof.
  intros D SO src t d rest R L. exists (length d + length src + 1)%nat. intros fuel LF. destruct D as [V D].
  unfold zlib_decompress. rewrite N.mod_small by (unfold zlib_chunk in L; lia).
  exact (inflate_pieces_spec M St start f view (conj V D) fuel [] src start [] _ t d rest V SO R L LF).
Qed.

(** The loop of bzip2, for a library that refuses calls after the end.  A stream is read if the
    last piece of it gives no data, or data that does not fill the buffer. *)
Theorem C79_bz2_partial M St start f view : decoder M false St start f view -> m_status M (m_start M) = Open ->
  forall n whole tail t d t' d', len whole = N.of_nat n * bz2_chunk -> 0 < len tail <= bz2_chunk ->
  run M (m_start M) whole = (t, d, []) -> run M t tail = (t', d', []) -> m_status M t' = Ended ->
  d' = [] \/ len d' mod bz2_chunk <> 0 -> len (whole ++ tail) + bz2_chunk < 2 ^ 32 ->
  exists F, forall fuel, (F < fuel)%nat -> bz2_decompress St f fuel start (whole ++ tail) = Ok (Some (d ++ d')).
Proof.
  intros D SO n whole tail t d t' d' LW LT R R' TE ND L. exists (n + (length d + S (length d')))%nat. intros fuel LF. pose proof D as [V _].
  assert (TO : m_status M t = Open) by (destruct (m_status M t) eqn:X; [reflexivity| |]; rewrite run_stop in R' by congruence; destruct tail; try discriminate R'; cbn in LT; lia).
  unfold bz2_decompress. rewrite N.mod_small by (unfold bz2_chunk in L; lia).
  destruct (bunzip_prefix M St start f view D n (fuel - n) [] whole tail start [] _ t d V SO LW R TO L ltac:(lia)) as (s' & V' & E).
  cbn [app] in E. change (len []) with 0 in E. replace (n + (fuel - n))%nat with fuel in E by lia. rewrite E.
  destruct (fuel - n)%nat as [|g] eqn:G; [lia|]. rewrite bunzip_round by exact L.
  assert (TA : take bz2_chunk tail = tail) by (unfold take; apply firstn_all2; unfold len in LT; lia). rewrite TA.
  destruct (bunzip_piece_ended M St start f view D (S g) s' tail d t [] t' d' [] V' (or_introl TO) R' TE ND ltac:(cbn [length]; lia)) as (s'' & E'). rewrite E'. reflexivity.
Qed.
(** It does not hold for every stream: where the data of the last piece fills the buffer, the
    library is called again after the end and the assertion stops the program. *)
Theorem C79_bz2_refuted M St start f view : decoder M false St start f view -> refuses M St f view -> eager M St f view -> m_status M (m_start M) = Open ->
  forall n whole tail t d t' d' k, len whole = N.of_nat n * bz2_chunk -> 0 < len tail <= bz2_chunk ->
  run M (m_start M) whole = (t, d, []) -> run M t tail = (t', d', []) -> m_status M t' = Ended ->
  len d' = (1 + N.of_nat k) * bz2_chunk -> len (whole ++ tail) + bz2_chunk < 2 ^ 32 ->
  exists F, forall fuel, (F < fuel)%nat -> bz2_decompress St f fuel start (whole ++ tail) = UB.
Proof.
  intros D RF EG SO n whole tail t d t' d' k LW LT R R' TE ND L. exists (n + (length d + (k + 2)))%nat. intros fuel LF. pose proof D as [V _].
  assert (TO : m_status M t = Open) by (destruct (m_status M t) eqn:X; [reflexivity| |]; rewrite run_stop in R' by congruence; destruct tail; try discriminate R'; cbn in LT; lia).
  unfold bz2_decompress. rewrite N.mod_small by (unfold bz2_chunk in L; lia).
  destruct (bunzip_prefix M St start f view D n (fuel - n) [] whole tail start [] _ t d V SO LW R TO L ltac:(lia)) as (s' & V' & E).
  cbn [app] in E. change (len []) with 0 in E. replace (n + (fuel - n))%nat with fuel in E by lia. rewrite E.
  destruct (fuel - n)%nat as [|g] eqn:G; [lia|]. rewrite bunzip_round by exact L.
  assert (TA : take bz2_chunk tail = tail) by (unfold take; apply firstn_all2; unfold len in LT; lia). rewrite TA.
  rewrite (bunzip_piece_full M St start f view D RF EG k (S g) s' tail d t [] t' d' [] V' (or_introl TO) R' TE ND ltac:(lia)). reflexivity.
Qed.
(** Octets behind the stream, in the piece where it ends: stopped by an assertion. *)
Theorem C79_bz2_trailing_refuted M St start f view : decoder M false St start f view -> m_status M (m_start M) = Open ->
  forall z d more, stream M z d -> d = [] \/ len d mod bz2_chunk <> 0 -> more <> [] -> len (z ++ more) <= bz2_chunk ->
  exists F, forall fuel, (F < fuel)%nat -> bz2_decompress St f fuel start (z ++ more) = UB.
Proof.
  intros D SO z d more (t & R & TE) ND NM LZ. exists (length d + 1)%nat. intros fuel LF. pose proof D as [V _].
  assert (L : len (z ++ more) + bz2_chunk < 2 ^ 32) by (unfold bz2_chunk in *; lia).
  unfold bz2_decompress. rewrite N.mod_small by (unfold bz2_chunk in L; lia). destruct fuel as [|g]; [lia|].
  pose proof (bunzip_round St f g [] (z ++ more) start [] L) as RO. cbn [app] in RO. change (len []) with 0 in RO. rewrite RO. clear RO.
  assert (TA : take bz2_chunk (z ++ more) = z ++ more) by (unfold take; apply firstn_all2; unfold len in LZ; lia). rewrite TA.
  assert (R2 : run M (m_start M) (z ++ more) = (t, d, more)) by (rewrite run_app, R, TE; reflexivity).
  destruct (bunzip_piece_ended M St start f view D (S g) start (z ++ more) [] _ [] t d more V (or_introl SO) R2 TE ND ltac:(cbn [length]; lia)) as (s'' & E'). rewrite E'.
  destruct more; [contradiction|reflexivity].
Qed.
(** A stream that was cut off is never given up: the loop does not end. *)
Theorem C79_bz2_truncated_refuted M St start f view : decoder M false St start f view ->
  forall src t d rest, run M (m_start M) src = (t, d, rest) -> m_status M (m_start M) = Open -> m_status M t = Open -> len src + bz2_chunk < 2 ^ 32 ->
  forall fuel, bz2_decompress St f fuel start src = Diverge.
Proof.
  intros D src t d rest R SO TO L fuel. pose proof D as [V _]. unfold bz2_decompress. rewrite N.mod_small by (unfold bz2_chunk in L; lia).
  exact (bunzip_truncated M St start f view D fuel [] src start [] _ t d rest V SO R TO L).
Qed.
(** Data that is not bzip2 data is not an error that is returned: an assertion stops the program. *)
Theorem C79_bz2_broken_refuted M St start f view : decoder M false St start f view ->
  forall src t d rest, run M (m_start M) src = (t, d, rest) -> m_status M (m_start M) = Open -> m_status M t = Broken -> len src + bz2_chunk < 2 ^ 32 ->
  exists F, forall fuel, (F < fuel)%nat -> bz2_decompress St f fuel start src = UB.
Proof.
  intros D src t d rest R SO TB L. exists (length d + length src)%nat. intros fuel LF. pose proof D as [V _]. unfold bz2_decompress. rewrite N.mod_small by (unfold bz2_chunk in L; lia).
  exact (bunzip_broken M St start f view D fuel [] src start [] _ t d rest V SO R TB L LF).
Qed.

(** Compressing, with a library that may be called after the end (zlib): the loops end, no
    assertion fails, and the result is a whole stream for the data. *)
Theorem C79_compress M chunk St start f past at_phase due : encoder M true St start f past at_phase due -> 0 < chunk < 2 ^ 32 ->
  forall src, len src + chunk <= 2 ^ 32 ->
  exists F dst, stream M dst src /\ forall fuel, (F < fuel)%nat -> compress_with St chunk f fuel start src = Ok dst.
Proof.
  intros E [C0 CL] src L. pose proof E as (P & PH & _).
  destruct (deflate_pieces_spec M chunk true St start f past at_phase due C0 E eq_refl CL _ [] src start [] _ _ (le_n _) (or_intror eq_refl) L P PH) as (F & out & ST & EQ).
  exists F, out. split; [exact ST|]. intros fuel LF. unfold compress_with. rewrite N.mod_small by lia. exact (EQ fuel LF).
Qed.
(** What zlib_compress makes, zlib_decompress reads. *)
Theorem C79_round_trip M St start f past at_phase due St' start' g view :
  encoder M true St start f past at_phase due -> decoder M true St' start' g view -> m_status M (m_start M) = Open ->
  forall src, len src + zlib_chunk <= 2 ^ 32 ->
  exists F z, (forall fuel, (F < fuel)%nat -> compress_with St zlib_chunk f fuel start src = Ok z) /\
    (len z + zlib_chunk < 2 ^ 32 -> exists F', forall fuel, (F' < fuel)%nat -> zlib_decompress St' g fuel start' z = Ok (Some src)).
Proof.
  intros E D SO src L. destruct (C79_compress M zlib_chunk St start f past at_phase due E ltac:(split; reflexivity) src L) as (F & z & (t & R & TE) & EQ).
  exists F, z. split; [exact EQ|]. intros LZ. destruct (C79_inflate M St' start' g view D SO z t src [] R LZ) as (F' & E'). exists F'. intros fuel LF. rewrite (E' fuel LF), TE. reflexivity.
Qed.
(** With a library that refuses calls after the end (bzip2): a whole stream, or an assertion. *)
Theorem C79_bz2_compress_partial M St start f past at_phase due : encoder M false St start f past at_phase due ->
  refuses_more St f at_phase ->
  forall src, len src + bz2_chunk <= 2 ^ 32 ->
  exists F, (exists dst, stream M dst src /\ forall fuel, (F < fuel)%nat -> compress_with St bz2_chunk f fuel start src = Ok dst) \/
    (forall fuel, (F < fuel)%nat -> compress_with St bz2_chunk f fuel start src = UB).
Proof.
  intros E RE src L. pose proof E as (P & PH & _).
  destruct (deflate_pieces_refusing M bz2_chunk false St start f past at_phase due ltac:(reflexivity) E RE ltac:(reflexivity) _ [] src start [] _ _ (le_n _) (or_intror eq_refl) L P PH) as (F & [(out & ST & EQ)|EQ]);
    exists F; [left; exists out; split; [exact ST|]|right]; intros fuel LF; unfold compress_with; rewrite N.mod_small by (unfold bz2_chunk in L; lia); exact (EQ fuel LF).
Qed.
(** The assertion does fail, for data whose compressed form fills the buffer exactly. *)
Theorem C79_bz2_compress_refuted M St start f past at_phase due : encoder M false St start f past at_phase due ->
  refuses_more St f at_phase ->
  prompt St f at_phase due ->
  forall src k, len src <= bz2_chunk -> due start true src = (1 + N.of_nat k) * bz2_chunk ->
  forall fuel, (k + 1 < fuel)%nat -> compress_with St bz2_chunk f fuel start src = UB.
Proof.
  intros E RE PR src k L DU fuel LF. pose proof E as (P & PH & _). destruct fuel as [|fuel]; [lia|].
  unfold compress_with. rewrite N.mod_small by (unfold bz2_chunk in L; lia).
  pose proof (deflate_round bz2_chunk St f ltac:(reflexivity) fuel [] src start [] (or_intror eq_refl) ltac:(cbn [app]; unfold bz2_chunk in *; lia) ltac:(reflexivity)) as RO.
  cbn [app] in RO. change (len []) with 0 in RO. rewrite RO. clear RO.
  assert (TA : take bz2_chunk src = src) by (unfold take; apply firstn_all2; unfold len in L; lia). rewrite TA. apply N.leb_le in L. rewrite L.
  rewrite (deflate_piece_full M bz2_chunk false St start f past at_phase due ltac:(reflexivity) E RE PR k (S fuel) start src [] _ _ P (or_introl PH) DU LF). reflexivity.
Qed.
(** Sizes are cut to 32 bits: of data of 4 GiB and more only the first part is compressed, and
    the result is a whole stream for that part. *)
Theorem C79_truncates_refuted M chunk St start f past at_phase due : encoder M true St start f past at_phase due -> 0 < chunk < 2 ^ 32 ->
  forall src, 2 ^ 32 <= len src -> len src mod 2 ^ 32 + chunk <= 2 ^ 32 ->
  exists F dst, stream M dst (firstn (N.to_nat (len src mod 2 ^ 32)) src) /\ ~ stream M dst src /\
    forall fuel, (F < fuel)%nat -> compress_with St chunk f fuel start src = Ok dst.
Proof.
  intros E [C0 CL] src BIG L.
  assert (ML : len src mod 2 ^ 32 < 2 ^ 32) by (apply N.mod_lt; discriminate).
  assert (LT : len (take (len src mod 2 ^ 32) src) = len src mod 2 ^ 32) by (rewrite len_take; lia).
  destruct (C79_compress M chunk St start f past at_phase due E (conj C0 CL) (take (len src mod 2 ^ 32) src) ltac:(lia)) as (F & dst & ST & EQ).
  exists F, dst. split; [exact ST|]. split.
  - intros (t2 & R2 & _). destruct ST as (t1 & R1 & _). rewrite R1 in R2. assert (X : take (len src mod 2 ^ 32) src = src) by congruence. rewrite X in LT. lia.
  - intros fuel LF. rewrite <- (EQ fuel LF). unfold compress_with. rewrite LT. rewrite (N.mod_small (len src mod 2 ^ 32)) by exact ML. apply deflate_pieces_take; lia.
Qed.
(** A size just below 4 GiB: the index wraps and octets behind the string are compressed. *)
Theorem C79_wrap_refuted M chunk again St start f past at_phase due : encoder M again St start f past at_phase due ->
  forall j, (1 + N.of_nat j) * chunk = 2 ^ 32 ->
  forall src, 2 ^ 32 - chunk < len src -> len src + 1 < 2 ^ 32 ->
  exists F, forall fuel, (F < fuel)%nat -> compress_with St chunk f fuel start src = UB.
Proof.
  intros E j J src L1 L2. pose proof E as (P & PH & _).
  destruct (deflate_pieces_wrap M chunk again St start f past at_phase due ltac:(lia) E src L1 L2 j start [] _ _ ltac:(lia) P PH) as (F & EQ).
  exists F. intros fuel LF. unfold compress_with. rewrite N.mod_small by lia. replace 0 with (2 ^ 32 - (1 + N.of_nat j) * chunk) by lia. exact (EQ fuel LF).
Qed.

(** *** Libraries like these exist. *)
(** A library for any format: it reads while what it has to deliver fits. *)
Fixpoint eat (M : machine) (room : N) (t : m_state M) (owed inp : bytes) : m_state M * bytes * bytes :=
  match m_status M t with
  | Open => match inp with [] => (t, owed, []) | x :: r => if len owed <=? room then let '(t', o) := m_feed M t x in eat M room t' (owed ++ o) r else (t, owed, inp) end
  | _ => (t, owed, inp)
  end.
Definition toy (M : machine) (refuse : bool) (s : m_state M * bytes) (inp : bytes) (room : N) : call (m_state M * bytes) :=
  let '(t, owed) := s in
  if refuse && match m_status M t with Ended => true | _ => false end && empty owed then mkCall s inp [] Misuse
  else
    let '(t', buf, rest) := eat M room t owed inp in
    mkCall (t', drop room buf) rest (take room buf)
      match m_status M t' with Broken => Bad | Ended => match drop room buf with [] => End | _ => Fine end | Open => Fine end.
Lemma eat_spec M room : forall inp t owed t' buf rest, eat M room t owed inp = (t', buf, rest) ->
  exists used o, inp = used ++ rest /\ run M t used = (t', o, []) /\ buf = owed ++ o /\ (rest = [] \/ m_status M t' <> Open \/ room < len buf).
Proof.
  induction inp as [|x r IH]; intros t owed t' buf rest; cbn [eat]; destruct (m_status M t) eqn:ST; intros E;
    try (inversion E; subst; exists [], []; cbn [run app]; rewrite ST, app_nil_r; repeat split; try reflexivity; first [now left|right; left; congruence]).
  destruct (len owed <=? room) eqn:L.
  - destruct (m_feed M t x) as [t1 o1] eqn:FE. destruct (IH _ _ _ _ _ E) as (used & o & -> & R & -> & C). exists (x :: used), (o1 ++ o). cbn [run app]. rewrite ST, FE, R. rewrite <- app_assoc in C |- *. repeat split; auto.
  - apply N.leb_gt in L. inversion E; subst. exists [], []. rewrite app_nil_r. cbn [run app]. rewrite ST. repeat split; auto.
Qed.
Lemma toy_decoder M refuse : decoder M (negb refuse) (m_state M * bytes) (m_start M, []) (toy M refuse) (fun s => s).
Proof.
  split; [reflexivity|]. intros s inp room t owed R0 -> NB AL. unfold toy.
  replace (refuse && _ && empty owed) with false.
  2: { symmetry. destruct refuse; [|reflexivity]. destruct AL as [X|[X|X]]; [discriminate|rewrite X; reflexivity|destruct owed; [contradiction|]; cbn; now rewrite Bool.andb_false_r]. }
  destruct (eat M room t owed inp) as [[t' buf] rest] eqn:EA. destruct (eat_spec M room _ _ _ _ _ _ EA) as (used & o & EI & R & EB & CO).
  exists used, o, t', (drop room buf). cbn [c_rest c_out c_state c_code]. split; [exact EI|]. split; [exact R|]. split; [reflexivity|].
  split; [rewrite take_drop; now symmetry|]. rewrite len_take. split; [lia|]. split; [|reflexivity].
  intros LT. split; [apply len_0; rewrite len_drop; lia|]. destruct CO as [X|[X|X]]; auto; lia.
Qed.
Lemma toy_refuses M : refuses M _ (toy M true) (fun s => s).
Proof. intros s inp room t -> TE. unfold toy. rewrite TE. reflexivity. Qed.
Lemma toy_eager M : eager M _ (toy M true) (fun s => s).
Proof.
  intros s inp room t owed x r. unfold toy. destruct s as [t0 owed0]. destruct (true && _ && empty owed0) eqn:X.
  - cbn. intros V R TO. inversion V; subst. rewrite TO in X. discriminate.
  - destruct (eat M room t0 owed0 inp) as [[t' buf] rest] eqn:EA. destruct (eat_spec M room _ _ _ _ _ _ EA) as (used & o & EI & R & EB & CO). cbn [c_state c_rest].
    intros V RE TO. inversion V; subst. left. destruct CO as [Y|[Y|Y]]; try congruence. intros Z. apply (f_equal len) in Z. rewrite len_drop in Z. change (len []) with 0 in Z. lia.
Qed.

(** A format: a count and the octet to repeat; the count 0 ends the stream, 255 is an error. *)
Inductive runs := Count | Octet (n : N) | Done | Wrong.
Definition rle : machine := mkMachine runs Count
  (fun t x => match t with
              | Count => (if x =? 255 then Wrong else Octet x, [])
              | Octet n => if n =? 0 then (Done, []) else (Count, repeat x (N.to_nat n))
              | _ => (t, []) end)
  (fun t => match t with Done => Ended | Wrong => Broken | _ => Open end).
(** A compressor: the data taken, the octets given, and the phase. *)
Inductive turn := T_run | T_finish | T_over.
Definition written (i : bytes) (p : turn) : bytes := flat_map (fun b => [1; b]) i ++ match p with T_run => [] | _ => [0; 0] end.
Definition given (i : bytes) (k : N) (p : turn) : N := match p with T_over => len (written i p) | _ => N.min k (len (written i p)) end.
Definition pack (refuse : bool) (s : bytes * N * turn) (finish : bool) (inp : bytes) (room : N) : call (bytes * N * turn) :=
  let '(i, k, p) := s in
  match p with
  | T_over => mkCall s inp [] (if refuse then Misuse else End)
  | _ =>
    let w := written (i ++ inp) (if finish then T_finish else T_run) in
    let out := take room (drop (given i k p) w) in
    let k' := given i k p + len out in
    let over := finish && (k' =? len w) in
    mkCall (i ++ inp, k', if over then T_over else if finish then T_finish else T_run) [] out (if over then End else Fine)
  end.
Definition pack_past (s : bytes * N * turn) : bytes * bytes := let '(i, k, p) := s in (i, take (given i k p) (written i p)).
Definition pack_phase (s : bytes * N * turn) : phase := match snd s with T_run => Running | T_finish => Finishing [] | T_over => Over end.
Definition pack_due (s : bytes * N * turn) (finish : bool) (inp : bytes) : N :=
  let '(i, k, p) := s in match p with T_over => 0 | _ => len (written (i ++ inp) (if finish then T_finish else T_run)) - given i k p end.
Lemma rle_stream i : stream rle (written i T_over) i.
Proof.
  exists Done. split; [|reflexivity]. unfold written. change (m_start rle) with Count. induction i as [|x i IH]; [reflexivity|].
  cbn [flat_map app]. cbn [run]. cbn [m_status rle m_feed]. change (1 =? 255) with false. cbn iota beta. change (1 =? 0) with false. cbn iota beta. rewrite IH. reflexivity.
Qed.
Lemma pack_step i k p inp q : (p = T_run \/ (p = T_finish /\ inp = [] /\ q = T_finish)) ->
  given i k p <= len (written (i ++ inp) q) /\ take (given i k p) (written (i ++ inp) q) = take (given i k p) (written i p).
Proof.
  intros H. assert (X : exists w, written (i ++ inp) q = written i p ++ w).
  { unfold written. destruct H as [->|(-> & -> & ->)]; [exists (flat_map (fun b => [1; b]) inp ++ match q with T_run => [] | _ => [0; 0] end); rewrite flat_map_app, app_nil_r, <- app_assoc; reflexivity|exists []; now rewrite !app_nil_r]. }
  destruct X as [w ->]. assert (G : given i k p <= len (written i p)) by (destruct H as [->|(-> & _)]; unfold given; lia).
  split; [rewrite len_app; lia|]. unfold take. rewrite firstn_app. replace (N.to_nat (given i k p) - length (written i p))%nat with 0%nat by (unfold len in G; lia). now rewrite firstn_O, app_nil_r.
Qed.
Lemma firstn_add {A} : forall a b (l : list A), firstn (a + b) l = firstn a l ++ firstn b (skipn a l).
Proof. induction a as [|a IH]; intros b l; [reflexivity|]. destruct l; cbn; [now rewrite firstn_nil|]. now rewrite IH. Qed.
Lemma take_more n room (w : bytes) : take n w ++ take room (drop n w) = take (n + len (take room (drop n w))) w.
Proof.
  rewrite len_take, len_drop. unfold take, drop. rewrite N2Nat.inj_add, firstn_add. f_equal.
  destruct (N.le_gt_cases room (len w - n)); [f_equal; lia|]. rewrite !firstn_all2; [reflexivity| |]; rewrite skipn_length; unfold len in *; lia.
Qed.
Definition pack_call (i : bytes) (g : N) (finish : bool) (inp : bytes) (room : N) : call (bytes * N * turn) :=
  let w := written (i ++ inp) (if finish then T_finish else T_run) in
  let out := take room (drop g w) in
  let over := finish && (g + len out =? len w) in
  mkCall (i ++ inp, g + len out, if over then T_over else if finish then T_finish else T_run) [] out (if over then End else Fine).
Lemma pack_eq refuse i k p finish inp room : p <> T_over -> pack refuse (i, k, p) finish inp room = pack_call i (given i k p) finish inp room.
Proof. intros H. destruct p; [reflexivity|reflexivity|contradiction]. Qed.
Lemma due_eq i k p finish inp : p <> T_over -> pack_due (i, k, p) finish inp = len (written (i ++ inp) (if finish then T_finish else T_run)) - given i k p.
Proof. intros H. destruct p; [reflexivity|reflexivity|contradiction]. Qed.
(** The state after a call. *)
Lemma pack_next i g (finish : bool) inp room r : let w := written (i ++ inp) (if finish then T_finish else T_run) in
  let out := take room (drop g w) in g <= len w -> r = snd (c_state (pack_call i g finish inp room)) ->
  written (i ++ inp) r = w /\ given (i ++ inp) (g + len out) r = g + len out.
Proof.
  intros w out GL ->. assert (LO : len out = N.min room (len w - g)) by (unfold out; rewrite len_take, len_drop; reflexivity).
  unfold pack_call. cbn [c_state snd]. fold w. fold out. destruct finish; cbn [andb].
  - destruct (g + len out =? len w) eqn:OV.
    + apply N.eqb_eq in OV. split; [reflexivity|]. unfold given. change (written (i ++ inp) T_over) with w. lia.
    + split; [reflexivity|]. unfold given. fold w. lia.
  - split; [reflexivity|]. unfold given. fold w. lia.
Qed.
Lemma pack_encoder refuse : encoder rle (negb refuse) (bytes * N * turn) ([], 0, T_run) (pack refuse) pack_past pack_phase pack_due.
Proof.
  split; [reflexivity|]. split; [reflexivity|]. intros [[i k] p] finish inp room i0 z R0 P PH.
  assert (PC : p = T_over \/ p <> T_over) by (destruct p; auto; right; discriminate). destruct PC as [->|NP].
  - cbn [pack_phase snd] in PH. destruct PH as (RE & -> & ->). destruct refuse; [discriminate|]. cbn [pack c_rest c_out c_state c_code]. exists []. inversion P; subst. rewrite !app_nil_r. split; [reflexivity|]. split; [reflexivity|].
    split; [cbn; lia|]. split; [auto|]. split; [cbn; lia|]. split; [|reflexivity]. right. split; [reflexivity|]. split; [reflexivity|]. split; [reflexivity|].
    unfold given, take. rewrite firstn_all2 by (unfold len; lia). apply rle_stream.
  - rewrite (pack_eq refuse i k p finish inp room NP). set (q := if finish then T_finish else T_run).
    destruct (pack_step i k p inp q) as [GL GT].
    { unfold pack_phase in PH. cbn [snd] in PH. subst q. destruct p; [now left|right; destruct PH as [-> ->]; auto|contradiction]. }
    set (w := written (i ++ inp) q) in *. set (g := given i k p) in *. set (out := take room (drop g w)).
    assert (LO : len out = N.min room (len w - g)) by (unfold out; rewrite len_take, len_drop; reflexivity).
    assert (EI : i0 = i /\ z = take g w) by (cbn [pack_past] in P; inversion P; subst; split; [reflexivity|symmetry; exact GT]). destruct EI as [-> ->].
    pose proof (pack_next i g finish inp room _ GL eq_refl) as NX. cbv zeta in NX. fold q in NX. fold w in NX. fold out in NX. destruct NX as [WE GE].
    exists inp. split; [unfold pack_call; cbn [c_rest]; now rewrite app_nil_r|].
    split; [unfold pack_call in WE, GE |- *; cbn [c_state snd c_out pack_past] in *; fold q in WE, GE |- *; fold w in WE, GE |- *; fold out in WE, GE |- *; rewrite WE, GE; unfold out; now rewrite take_more|].
    unfold pack_call. cbn [c_out c_rest c_state c_code]. fold q. fold w. fold out.
    split; [lia|].
    split; [intros LT; split; [reflexivity|]; intros ->; cbn [andb]; replace (g + len out =? len w) with true by (symmetry; apply N.eqb_eq; lia); reflexivity|].
    split.
    { rewrite (due_eq i k p finish inp NP). fold q. fold w. fold g. destruct (finish && (g + len out =? len w)) eqn:OV; [cbn [pack_due]; lia|].
      rewrite due_eq by (unfold q; destruct finish; discriminate). fold q. rewrite app_nil_r. fold w.
      assert (GE' : given (i ++ inp) (g + len out) q = g + len out) by (unfold q, given; destruct finish; fold q; fold w; lia). rewrite GE'. lia. }
    split.
    { destruct finish; cbn [andb]; [|left; reflexivity]. destruct (g + len out =? len w) eqn:OV; [right|left; reflexivity].
      split; [reflexivity|]. split; [reflexivity|]. split; [reflexivity|]. unfold out. rewrite take_more. fold out. apply N.eqb_eq in OV. rewrite OV. unfold take. rewrite firstn_all2 by (unfold len; lia). apply rle_stream. }
    unfold pack_phase, q. cbn [snd]. destruct finish; cbn [andb]; [destruct (g + len out =? len w)|]; reflexivity.
Qed.
Lemma pack_refuses : refuses_more _ (pack true) pack_phase.
Proof. intros [[i k] []] finish inp room; cbn; intros H; try discriminate H; reflexivity. Qed.
Lemma pack_live s inp : pack_phase s = Running \/ pack_phase s = Finishing inp -> exists i k p, s = (i, k, p) /\ p <> T_over /\ (p = T_run \/ (p = T_finish /\ inp = [])).
Proof.
  destruct s as [[i k] p]. unfold pack_phase. cbn [snd]. intros [H|H]; exists i, k, p; destruct p; try discriminate H; split; try reflexivity; split; try discriminate; [now left|].
  right. split; [reflexivity|congruence].
Qed.
Lemma pack_prompt : prompt _ (pack true) pack_phase pack_due.
Proof.
  intros s inp room R0 PH. destruct (pack_live s inp PH) as (i & k & p & -> & NP & PC). rewrite due_eq by exact NP. rewrite pack_eq by exact NP.
  assert (ST : p = T_run \/ (p = T_finish /\ inp = [] /\ T_finish = T_finish)) by intuition auto.
  destruct (pack_step i k p inp T_finish ST) as [GL _]. set (g := given i k p) in *.
  pose proof (pack_next i g true inp room _ GL eq_refl) as NX. cbv zeta in NX.
  unfold pack_call in NX |- *. cbn [c_state snd c_out c_rest c_code andb] in *. set (w := written (i ++ inp) T_finish) in *. set (out := take room (drop g w)) in *.
  assert (LO : len out = N.min room (len w - g)) by (unfold out; rewrite len_take, len_drop; reflexivity). split; [exact LO|].
  destruct (g + len out =? len w) eqn:OV.
  - apply N.eqb_eq in OV. cbn [pack_due]. split; [lia|auto].
  - apply N.eqb_neq in OV. split; [|lia]. rewrite due_eq by discriminate. destruct NX as [_ GE]. rewrite GE, app_nil_r. fold w. lia.
Qed.

(** *** Examples. *)
Example inflate_example : zlib_decompress _ (toy rle false) 3 (Count, []) [3; 7; 2; 9; 0; 0; 42] = Ok (Some [7; 7; 7; 9; 9]) /\
  zlib_decompress _ (toy rle false) 3 (Count, []) [3; 7; 2] = Ok None /\ zlib_decompress _ (toy rle false) 3 (Count, []) [255] = Ok None.
Proof. split; [vm_compute; reflexivity|]. split; vm_compute; reflexivity. Qed.
Example inflate_applies : exists F, forall fuel, (F < fuel)%nat -> zlib_decompress _ (toy rle false) fuel (Count, []) [3; 7; 2; 9; 0; 0; 42] = Ok (Some [7; 7; 7; 9; 9]).
Proof. exact (C79_inflate rle _ _ _ _ (toy_decoder rle false) eq_refl [3; 7; 2; 9; 0; 0; 42] Done _ [42] eq_refl ltac:(reflexivity)). Qed.
Example bz2_applies : exists F, forall fuel, (F < fuel)%nat -> bz2_decompress _ (toy rle true) fuel (Count, []) [3; 7; 0; 0] = Ok (Some [7; 7; 7]).
Proof.
  apply (C79_bz2_partial rle _ _ _ _ (toy_decoder rle true) eq_refl 0 [] [3; 7; 0; 0] Count [] Done [7; 7; 7]); try reflexivity.
  - split; [reflexivity|]. vm_compute. discriminate.
  - right. vm_compute. discriminate.
Qed.
Definition full_page : bytes := flat_map (fun _ => [254; 7]) (repeat 0 16) ++ [32; 7; 0; 0].
Example bz2_full_applies : exists F, forall fuel, (F < fuel)%nat -> bz2_decompress _ (toy rle true) fuel (Count, []) full_page = UB.
Proof.
  apply (C79_bz2_refuted rle _ _ _ _ (toy_decoder rle true) (toy_refuses rle) (toy_eager rle) eq_refl 0 [] full_page Count [] Done (repeat 7 4096) 0); try (vm_compute; reflexivity).
  split; [reflexivity|]. vm_compute. discriminate.
Qed.
Example bz2_trailing_applies : exists F, forall fuel, (F < fuel)%nat -> bz2_decompress _ (toy rle true) fuel (Count, []) ([3; 7; 0; 0] ++ [42]) = UB.
Proof.
  apply (C79_bz2_trailing_refuted rle _ _ _ _ (toy_decoder rle true) eq_refl [3; 7; 0; 0] [7; 7; 7] [42]); [exists Done; split; reflexivity|right; vm_compute; discriminate|discriminate|vm_compute; discriminate].
Qed.
Example bz2_truncated_applies fuel : bz2_decompress _ (toy rle true) fuel (Count, []) [3; 7; 0] = Diverge.
Proof. exact (C79_bz2_truncated_refuted rle _ _ _ _ (toy_decoder rle true) [3; 7; 0] (Octet 0) _ _ eq_refl eq_refl eq_refl ltac:(reflexivity) fuel). Qed.
Example bz2_broken_applies : exists F, forall fuel, (F < fuel)%nat -> bz2_decompress _ (toy rle true) fuel (Count, []) [3; 7; 255; 1] = UB.
Proof. exact (C79_bz2_broken_refuted rle _ _ _ _ (toy_decoder rle true) [3; 7; 255; 1] Wrong _ _ eq_refl eq_refl eq_refl ltac:(reflexivity)). Qed.
Example compress_example : compress_with _ zlib_chunk (pack false) 3 ([], 0, T_run) [7; 7; 9] = Ok [1; 7; 1; 7; 1; 9; 0; 0].
Proof. vm_compute. reflexivity. Qed.
Example round_trip_applies src : len src + zlib_chunk <= 2 ^ 32 ->
  exists F z, (forall fuel, (F < fuel)%nat -> compress_with _ zlib_chunk (pack false) fuel ([], 0, T_run) src = Ok z) /\
    (len z + zlib_chunk < 2 ^ 32 -> exists F', forall fuel, (F' < fuel)%nat -> zlib_decompress _ (toy rle false) fuel (Count, []) z = Ok (Some src)).
Proof. exact (C79_round_trip rle _ _ _ _ _ _ _ _ _ _ (pack_encoder false) (toy_decoder rle false) eq_refl src). Qed.
Example bz2_compress_applies := C79_bz2_compress_partial rle _ _ _ _ _ _ (pack_encoder true) pack_refuses [7; 7; 9] ltac:(vm_compute; discriminate).
Example bz2_compress_full fuel : (1 < fuel)%nat -> compress_with _ bz2_chunk (pack true) fuel ([], 0, T_run) (repeat 7 2047) = UB.
Proof. exact (C79_bz2_compress_refuted rle _ _ _ _ _ _ (pack_encoder true) pack_refuses pack_prompt (repeat 7 2047) 0 ltac:(vm_compute; discriminate) ltac:(vm_compute; reflexivity) fuel). Qed.
Lemma len_zeros n : len (repeat 0 (N.to_nat n)) = n.
Proof. unfold len. rewrite repeat_length. apply N2Nat.id. Qed.
Example truncates_applies := C79_truncates_refuted rle zlib_chunk _ _ _ _ _ _ (pack_encoder false) ltac:(split; reflexivity) (repeat 0 (N.to_nat (2 ^ 32 + 5)))
  ltac:(rewrite len_zeros; vm_compute; discriminate) ltac:(rewrite len_zeros; vm_compute; discriminate).
Example wrap_applies := C79_wrap_refuted rle zlib_chunk true _ _ _ _ _ _ (pack_encoder false) (N.to_nat (2 ^ 18 - 1)) ltac:(rewrite N2Nat.id; reflexivity) (repeat 0 (N.to_nat (2 ^ 32 - 3)))
  ltac:(rewrite len_zeros; reflexivity) ltac:(rewrite len_zeros; reflexivity).

Print Assumptions C79_inflate. Print Assumptions C79_bz2_partial. Print Assumptions C79_bz2_refuted. Print Assumptions C79_bz2_trailing_refuted.
Print Assumptions C79_bz2_truncated_refuted. Print Assumptions C79_bz2_broken_refuted. Print Assumptions C79_compress. Print Assumptions C79_round_trip.
Print Assumptions C79_bz2_compress_partial. Print Assumptions C79_bz2_compress_refuted. Print Assumptions C79_truncates_refuted. Print Assumptions C79_wrap_refuted.
