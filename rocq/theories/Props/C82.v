(** C82: separate messages can be written by separate threads, unless one was assigned from the
    other. *)
From Verif Require Import Proofs.Lib Proofs.HeapP Model.Threads Spec.Concurrent.
Local Open Scope nat_scope.

Lemma nth_replace {A} (l : list A) i x j : nth_error (replace l i x) j = if (i =? j) && (j <? length l) then Some x else nth_error l j.
Proof.
  revert i j. induction l as [|y r IH]; intros [|i] [|j]; cbn; try reflexivity; [now rewrite Bool.andb_false_r|]. rewrite IH. reflexivity.
Qed.
Lemma nth_replace_same {A} (l : list A) i x y : nth_error l i = Some y -> nth_error (replace l i x) i = Some x.
Proof. intros E. rewrite nth_replace, Nat.eqb_refl. replace (i <? length l) with true; [reflexivity|]. symmetry. apply Nat.ltb_lt, nth_error_Some. congruence. Qed.
Lemma nth_replace_other {A} (l : list A) i x j : i <> j -> nth_error (replace l i x) j = nth_error l j.
Proof. intros D. rewrite nth_replace. apply Nat.eqb_neq in D. now rewrite D. Qed.

Section Run.
  Variable zip : N -> bytes -> option bytes.
  (** Where a thread is in the call on a message, and what its packet holds. *)
  Definition inside (h : heap) (m : message) (whole : bool) (t : thread) : Prop :=
    t_whole t = whole /\ t_pc t <= t_last t /\
    exists f p alg d, m_comp m = Some (f, p, alg) /\ nth_error h (t_comp t) = Some (CPacket 8 f p (HPlain (PCompressed alg d))) /\
    match t_val t with
    | Ok v =>
      match t_pc t with
      | 0 => write_packets (g_packets (m_pgp m)) = Ok v
      | 1 => write_packets (g_packets (m_pgp m)) = Ok v /\ codec zip alg v = Ok d
      | 4 => message_raw zip m = Ok v /\ codec zip alg v = Ok d
      | 5 => message_write zip m ArmorNo = Ok v
      | _ => message_raw zip m = Ok v
      end
    | r => alone zip m whole = r
    end.
  Lemma inside_start h m whole t : starts h m whole t -> inside h m whole t.
  Proof.
    intros ((f & p & alg & d & MC & N) & E). rewrite E. split; [reflexivity|]. split; [unfold t_last; cbn; destruct whole; lia|]. exists f, p, alg, d. split; [exact MC|]. split; [exact N|].
    cbn. destruct (write_packets (g_packets (m_pgp m))) eqn:W; [reflexivity|..]; unfold alone, message_write, message_raw; rewrite W; destruct whole; reflexivity.
  Qed.
  Lemma inside_over h m whole t : inside h m whole t -> over t -> alone zip m whole = t_val t.
  Proof.
    intros (W & _ & f & p & alg & d & MC & N & K) [O|O].
    - unfold alone. destruct (t_val t); [|exact K..]. rewrite O in K. unfold t_last in K. rewrite W in K. destruct whole; exact K.
    - destruct (t_val t); [now destruct (O a)|exact K..].
  Qed.
  (** A step of the thread itself; it changes only the thread's packet. *)
  Lemma inside_go h m whole t h' t' : inside h m whole t -> go zip h t = (h', t') ->
    inside h' m whole t' /\ t_comp t' = t_comp t /\ (forall a, a <> t_comp t -> nth_error h' a = nth_error h a) /\ (over t \/ t_pc t' = S (t_pc t)).
  Proof.
    intros (W & PC & f & p & alg & d & MC & N & K) H. unfold go in H.
    assert (LT := nth_lt _ _ _ N).
    assert (SET : forall x, set_data zip h (t_comp t) x = (z <- codec zip alg x ;; Ok (put h (t_comp t) (CPacket 8 f p (HPlain (PCompressed alg z)))))) by (intros x; unfold set_data, tag8_at, deref; rewrite N; reflexivity).
    assert (EM : emit h (t_comp t) = write (mkPacket 8 f p (PCompressed alg d))) by (unfold emit, tag8_at, deref; rewrite N; reflexivity).
    assert (RAW : forall x, write_packets (g_packets (m_pgp m)) = Ok x -> message_raw zip m = compressed_packet zip (f, p, alg) x) by (intros x X; unfold message_raw; rewrite X; cbn [bind]; now rewrite MC).
    assert (WR : forall x, message_raw zip m = Ok x -> message_write zip m ArmorNo = compressed_packet zip (f, p, alg) x).
    { intros x X. unfold message_write. rewrite X. cbn [bind]. rewrite MC. destruct (compressed_packet zip (f, p, alg) x); reflexivity. }
    assert (WF : forall r, message_raw zip m = r -> (forall x, r <> Ok x) -> alone zip m whole = r).
    { intros r X NO. unfold alone. destruct whole; [|exact X]. unfold message_write. rewrite X. destruct r; [now destruct (NO a)|reflexivity..]. }
    destruct (t_val t) as [v| | |] eqn:TV.
    2-4: injection H as <- <-; split; [split; [exact W|]; split; [exact PC|]; exists f, p, alg, d; rewrite TV; auto|]; split; [reflexivity|]; split; [reflexivity|]; left; right; rewrite TV; discriminate.
    destruct (t_last t <=? t_pc t) eqn:LE.
    { apply Nat.leb_le in LE. injection H as <- <-. split; [split; [exact W|]; split; [exact PC|]; exists f, p, alg, d; rewrite TV; auto|]. split; [reflexivity|]. split; [reflexivity|]. left. left. lia. }
    apply Nat.leb_gt in LE.
    assert (KEEP : forall z a, a <> t_comp t -> nth_error (put h (t_comp t) (CPacket 8 f p (HPlain (PCompressed alg z)))) a = nth_error h a) by (intros z a D; now apply put_other).
    assert (PUT : forall z, nth_error (put h (t_comp t) (CPacket 8 f p (HPlain (PCompressed alg z)))) (t_comp t) = Some (CPacket 8 f p (HPlain (PCompressed alg z)))) by (intros z; now apply put_same).
    assert (LW : t_pc t < 5) by (unfold t_last in LE; destruct (t_whole t); lia).
    assert (W3 : 3 <= t_pc t -> whole = true) by (unfold t_last in LE; rewrite W in LE; destruct whole; [reflexivity|lia]).
    assert (TL : forall c w pc x, t_last (mkThread c w pc x) = if w then 5 else 3) by reflexivity.
    rewrite !SET in H. rewrite EM in H.
    destruct (t_pc t) as [|[|[|[|[|pc]]]]] eqn:TP; try lia.
    - (* set_data(out) *)
      destruct (codec zip alg v) as [z|e| |] eqn:CZ; cbn [bind] in H; injection H as <- <-; (split; [|split; [reflexivity|split; [auto|now right]]]).
      all: split; [exact W|]; split; [rewrite TL; unfold t_last in LE; cbn; lia|].
      + exists f, p, alg, z. split; [exact MC|]. split; [apply PUT|]. cbn. auto.
      + exists f, p, alg, d. split; [exact MC|]. split; [exact N|]. cbn. apply WF; [|discriminate]. rewrite (RAW _ K). cbn. now rewrite CZ.
      + exists f, p, alg, d. split; [exact MC|]. split; [exact N|]. cbn. apply WF; [|discriminate]. rewrite (RAW _ K). cbn. now rewrite CZ.
      + exists f, p, alg, d. split; [exact MC|]. split; [exact N|]. cbn. apply WF; [|discriminate]. rewrite (RAW _ K). cbn. now rewrite CZ.
    - (* write() *)
      injection H as <- <-. destruct K as [K CZ]. assert (RW := RAW _ K). unfold compressed_packet in RW. rewrite CZ in RW. cbn [bind] in RW.
      split; [|split; [reflexivity|split; [auto|now right]]]. split; [exact W|]. split; [rewrite TL; unfold t_last in LE; cbn; lia|]. exists f, p, alg, d. split; [exact MC|]. split; [exact N|].
      cbn [t_val t_pc]. destruct (write (mkPacket 8 f p (PCompressed alg d))); [exact RW|apply WF; [exact RW|discriminate]..].
    - (* set_data("") *)
      assert (C0 : codec zip alg [] = Ok []) by (unfold codec; rewrite Bool.andb_false_r; reflexivity). rewrite C0 in H. cbn [bind] in H. injection H as <- <-.
      split; [|split; [reflexivity|split; [auto|now right]]]. split; [exact W|]. split; [rewrite TL; unfold t_last in LE; cbn; lia|]. exists f, p, alg, []. split; [exact MC|]. split; [apply PUT|]. cbn. exact K.
    - (* set_data(packet_string) *)
      assert (WT := W3 (le_n 3)). destruct whole; [|discriminate WT].
      destruct (codec zip alg v) as [z|e| |] eqn:CZ; cbn [bind] in H; injection H as <- <-; (split; [|split; [reflexivity|split; [auto|now right]]]).
      all: split; [exact W|]; split; [rewrite TL, W; cbn; lia|].
      + exists f, p, alg, z. split; [exact MC|]. split; [apply PUT|]. cbn. auto.
      + exists f, p, alg, d. split; [exact MC|]. split; [exact N|]. cbn [t_val]. unfold alone. rewrite (WR _ K). cbn. now rewrite CZ.
      + exists f, p, alg, d. split; [exact MC|]. split; [exact N|]. cbn [t_val]. unfold alone. rewrite (WR _ K). cbn. now rewrite CZ.
      + exists f, p, alg, d. split; [exact MC|]. split; [exact N|]. cbn [t_val]. unfold alone. rewrite (WR _ K). cbn. now rewrite CZ.
    - (* write() *)
      assert (WT : whole = true) by (apply W3; lia). destruct whole; [|discriminate WT]. injection H as <- <-. destruct K as [K CZ]. assert (RW := WR _ K). unfold compressed_packet in RW. rewrite CZ in RW. cbn [bind] in RW.
      split; [|split; [reflexivity|split; [auto|now right]]]. split; [exact W|]. split; [rewrite TL, W; cbn; lia|]. exists f, p, alg, d. split; [exact MC|]. split; [exact N|].
      cbn [t_val t_pc]. destruct (write (mkPacket 8 f p (PCompressed alg d))); unfold alone; exact RW.
  Qed.
  Lemma inside_heap h h' m whole t : inside h m whole t -> nth_error h' (t_comp t) = nth_error h (t_comp t) -> inside h' m whole t.
  Proof. intros (W & PC & f & p & alg & d & MC & N & K) E. split; [exact W|]. split; [exact PC|]. exists f, p, alg, d. rewrite E. auto. Qed.
End Run.

(** Threads that write messages with packets of their own: for every schedule, a call that is over
    gave what it gives alone; and it is over after five steps. *)
Theorem C82_separate zip h (ms : list (message * bool)) ts : length ts = length ms -> NoDup (map t_comp ts) ->
  (forall i m whole t, nth_error ms i = Some (m, whole) -> nth_error ts i = Some t -> starts h m whole t) ->
  forall schedule h' ts', run zip h ts schedule = (h', ts') ->
  forall i m whole t', nth_error ms i = Some (m, whole) -> nth_error ts' i = Some t' ->
    (over t' -> t_val t' = alone zip m whole) /\ (5 <= count_occ Nat.eq_dec schedule i -> over t').
Proof.
  intros LEN ND ST.
  assert (I0 : forall i m whole t, nth_error ms i = Some (m, whole) -> nth_error ts i = Some t -> inside zip h m whole t /\ t_pc t = 0).
  { intros i m whole t A B. specialize (ST i m whole t A B). split; [now apply inside_start|]. destruct ST as [_ E]. now rewrite E. }
  clear ST. intros schedule h' ts' R i m whole t' A B.
  assert (G : inside zip h' m whole t' /\ (over t' \/ count_occ Nat.eq_dec schedule i <= t_pc t')).
  { assert (I1 : forall i m whole t, nth_error ms i = Some (m, whole) -> nth_error ts i = Some t -> inside zip h m whole t) by (intros; now apply (I0 i0)).
    assert (CN : forall t, nth_error ts i = Some t -> over t \/ 0 <= t_pc t) by (intros; right; lia). clear I0.
    assert (GG : forall sched n h ts, length ts = length ms -> NoDup (map t_comp ts) -> run zip h ts sched = (h', ts') ->
      (forall i m whole t, nth_error ms i = Some (m, whole) -> nth_error ts i = Some t -> inside zip h m whole t) -> (forall t, nth_error ts i = Some t -> over t \/ n <= t_pc t) ->
      inside zip h' m whole t' /\ (over t' \/ n + count_occ Nat.eq_dec sched i <= t_pc t')).
    { clear - A B. induction sched as [|j sched IH]; intros n h ts LEN ND R I1 CN; cbn [run] in R.
      - injection R as <- <-. split; [now apply (I1 i)|]. cbn [count_occ]. rewrite Nat.add_0_r. now apply CN.
      - destruct (nth_error ts j) as [t|] eqn:TJ.
        + destruct (go zip h t) as [h2 t2] eqn:GO.
          assert (JM : j < length ms) by (rewrite <- LEN; apply nth_error_Some; congruence).
          destruct (nth_error ms j) as [[mj wj]|] eqn:MJ; [|apply nth_error_None in MJ; lia].
          destruct (inside_go zip h mj wj t h2 t2 (I1 _ _ _ _ MJ TJ) GO) as (IN2 & TC & KEEP & ADV).
          assert (MC : map t_comp (replace ts j t2) = map t_comp ts).
          { clear - TJ TC. revert j TJ. induction ts as [|y r IH]; intros [|j] TJ; cbn in *; try discriminate; [injection TJ as ->; now rewrite TC|]. f_equal. now apply IH. }
          assert (LR : length (replace ts j t2) = length ms) by (rewrite <- LEN; rewrite <- (map_length t_comp (replace ts j t2)), MC; apply map_length).
          specialize (IH (if Nat.eq_dec j i then S n else n) h2 (replace ts j t2) LR). rewrite MC in IH. specialize (IH ND R).
          assert (NE : forall k tk, nth_error ts k = Some tk -> j <> k -> t_comp tk <> t_comp t).
          { intros k tk TK D E. apply D. apply (proj1 (NoDup_nth_error (map t_comp ts)) ND); [rewrite map_length; apply nth_error_Some; congruence|]. rewrite (map_nth_error t_comp _ _ TJ), (map_nth_error t_comp _ _ TK). now rewrite E. }
          destruct IH as [G1 G2].
          * intros k mk wk tk MK TK. destruct (Nat.eq_dec j k) as [->|D].
            -- rewrite (nth_replace_same _ _ _ _ TJ) in TK. injection TK as <-. rewrite MJ in MK. injection MK as <- <-. exact IN2.
            -- rewrite nth_replace_other in TK by exact D. apply (inside_heap zip h); [now apply (I1 k)|]. apply KEEP. now apply (NE k).
          * intros tk TK. destruct (Nat.eq_dec j i) as [->|D].
            -- rewrite (nth_replace_same _ _ _ _ TJ) in TK. injection TK as <-. destruct (CN _ TJ) as [O|O]; [left|destruct ADV as [O2|E]; [left|right; lia]].
               ++ destruct O as [O|O]; unfold go in GO; [destruct (t_val t) eqn:TV; try (injection GO as <- <-; now left); replace (t_last t <=? t_pc t) with true in GO by (symmetry; apply Nat.leb_le; lia); injection GO as <- <-; now left|].
                  destruct (t_val t) eqn:TV; [now destruct (O a)|injection GO as <- <-; right; rewrite TV; discriminate..].
               ++ destruct O2 as [O2|O2]; unfold go in GO; [destruct (t_val t) eqn:TV; try (injection GO as <- <-; now left); replace (t_last t <=? t_pc t) with true in GO by (symmetry; apply Nat.leb_le; lia); injection GO as <- <-; now left|].
                  destruct (t_val t) eqn:TV; [now destruct (O2 a)|injection GO as <- <-; right; rewrite TV; discriminate..].
            -- rewrite nth_replace_other in TK by exact D. now apply CN.
          * split; [exact G1|]. cbn [count_occ]. destruct (Nat.eq_dec j i); [|exact G2]. destruct G2 as [G2|G2]; [now left|right; lia].
        + specialize (IH n h ts LEN ND R I1 CN) as [G1 G2]. split; [exact G1|]. cbn [count_occ]. destruct (Nat.eq_dec j i) as [->|D]; [|exact G2].
          assert (nth_error ts i <> None); [|contradiction]. apply nth_error_Some. rewrite LEN. apply nth_error_Some. congruence. }
    destruct (GG schedule 0 h ts LEN ND R I1 CN) as [G1 G2]. split; [exact G1|]. exact G2. }
  destruct G as [G1 G2]. split; [intros O; symmetry; now apply (inside_over zip h')|]. intros C. destruct G2 as [G2|G2]; [exact G2|]. left.
  destruct G1 as (_ & PC & _). unfold t_last in *. destruct (t_whole t'); lia.
Qed.

(** A message made by the copy constructor has a packet of its own for this, with the same
    contents, and shares nothing with the first one. *)
Theorem C82_copy n h m h1 m1 c k v : closed h -> (forall x, In x (hg_packets (hm_pgp m)) -> x < length h) -> hm_comp m = Some c -> hmessage_copy n h m = Ok (h1, m1) ->
  value k h c = Some v -> pgp_value k h (hm_pgp m) <> None ->
  pgp_value k h1 (hm_pgp m1) = pgp_value k h (hm_pgp m) /\
  exists c1, hm_comp m1 = Some c1 /\ c1 <> c /\ value k h1 c1 = Some v /\
    unaffected h1 (c :: hg_packets (hm_pgp m)) (c1 :: hg_packets (hm_pgp m1)) /\ unaffected h1 (c1 :: hg_packets (hm_pgp m1)) (c :: hg_packets (hm_pgp m)).
Proof.
  intros CH LP MC H V PV. unfold hmessage_copy in H. ib H x. destruct x as [h2 g2]. rewrite MC in H. cbn [clone_opt] in H. ib H x. destruct x as [h3 c3]. apply Ok_inj in H. injection H as <- <-. cbn [hm_pgp hm_comp].
  unfold pgp_copy, get_packets_clone in E. ib E x. destruct x as [h2' l]. apply Ok_inj in E. injection E as <- <-. ib E0 x. destruct x as [h3' c1]. apply Ok_inj in E0. injection E0 as <- <-. cbn [hg_packets].
  assert (M : forall k, monotone (value k)) by (intros kk a b cc d; apply ext_value).
  destruct (clones_all _ _ (clone_clones n k) (M k) _ _ _ _ E1) as (X & B & VL). destruct (clone_clones n k _ _ _ _ E) as (X2 & B2 & V2). assert (L := ext_length _ _ X). assert (L2 := ext_length _ _ X2).
  assert (LC : c < length h) by (destruct k as [|k]; [discriminate|]; cbn in V; destruct (nth_error h c) eqn:NC; [now apply nth_lt in NC|discriminate]).
  assert (X3 := ext_trans _ _ _ X X2).
  split.
  { unfold pgp_value in *. cbn [hg_packets hg_armored hg_type hg_keys]. destruct (all (value k h) (hg_packets (hm_pgp m))) as [ps|] eqn:A; [|congruence].
    rewrite (all_mono (value k h2') (value k h3') l ps (fun a w => M k h2' h3' a w X2) (VL _ eq_refl)). reflexivity. }
  exists c1. split; [reflexivity|]. split; [lia|]. split; [apply V2, (M k h h2' c v X V)|].
  assert (BN : forall x, In x (c1 :: l) -> length h <= x < length h3') by (intros x [<-|I]; [lia|specialize (B x I); lia]).
  assert (BO : forall x, In x (c :: hg_packets (hm_pgp m)) -> x < length h) by (intros x [<-|I]; [exact LC|now apply LP]).
  split; [now apply (new_unaffected h)|now apply (old_unaffected h)].
Qed.
(** A message that is assigned to another shares the packet with it; then writing both (or one of
    them twice) at once can lose the contents: there is a schedule in which the second call
    returns an empty compressed packet. *)
Theorem C82_assigned_refuted zip h m t f p alg : starts h m false t -> m_comp m = Some (f, p, alg) ->
  forall w w0, message_raw zip m = Ok w -> write (mkPacket 8 f p (PCompressed alg [])) = Ok w0 ->
  (forall n h m h1 m1, hmessage_assign n h m = Ok (h1, m1) -> hm_comp m1 = hm_comp m) /\
  exists h' t1 t2, run zip h [t; t] [0; 1; 0; 0; 1; 1] = (h', [t1; t2]) /\ over t1 /\ t_val t1 = Ok w /\ over t2 /\ t_val t2 = Ok w0.
Proof.
  intros ((f' & p' & alg' & d & MC & N) & E) MC' w w0 RW W0. rewrite MC in MC'. injection MC' as -> -> ->. split.
  { intros n h0 m0 h1 m1 H. unfold hmessage_assign in H. ib H x. destruct x as [h2 g]. apply Ok_inj in H. injection H as <- <-. reflexivity. }
  unfold message_raw in RW. ib RW out. rename E0 into WP. rewrite MC in RW. unfold compressed_packet in RW. ib RW z. rename E0 into CZ. rewrite E, WP. set (a := t_comp t) in *. clearbody a. clear E t.
  assert (C0 : codec zip alg [] = Ok []) by (unfold codec; rewrite Bool.andb_false_r; reflexivity).
  assert (LT := nth_lt _ _ _ N).
  set (h1 := put h a (CPacket 8 f p (HPlain (PCompressed alg z)))). set (h2 := put h1 a (CPacket 8 f p (HPlain (PCompressed alg z)))). set (h3 := put h2 a (CPacket 8 f p (HPlain (PCompressed alg [])))).
  assert (N1 : nth_error h1 a = Some (CPacket 8 f p (HPlain (PCompressed alg z)))) by now apply put_same.
  assert (N2 : nth_error h2 a = Some (CPacket 8 f p (HPlain (PCompressed alg z)))) by (apply put_same; unfold h1; now rewrite put_length).
  assert (N3 : nth_error h3 a = Some (CPacket 8 f p (HPlain (PCompressed alg [])))) by (apply put_same; unfold h2, h1; now rewrite !put_length).
  exists (put h3 a (CPacket 8 f p (HPlain (PCompressed alg [])))), (mkThread a false 3 (Ok w)), (mkThread a false 3 (Ok w0)).
  split; [|split; [now left|split; [reflexivity|split; [now left|reflexivity]]]].
  assert (S1 : forall hh dd x y, nth_error hh a = Some (CPacket 8 f p (HPlain (PCompressed alg dd))) -> codec zip alg x = Ok y -> set_data zip hh a x = Ok (put hh a (CPacket 8 f p (HPlain (PCompressed alg y))))).
  { intros hh dd x y NN CC. unfold set_data, tag8_at, deref. rewrite NN. cbn [bind]. now rewrite CC. }
  assert (S2 : forall hh dd, nth_error hh a = Some (CPacket 8 f p (HPlain (PCompressed alg dd))) -> emit hh a = write (mkPacket 8 f p (PCompressed alg dd))).
  { intros hh dd NN. unfold emit, tag8_at, deref. now rewrite NN. }
  cbn [run nth_error]. unfold go at 1. cbn [t_val t_pc t_comp t_whole t_last Nat.leb]. rewrite (S1 h d out z N CZ). cbn [replace run nth_error].
  unfold go at 1. cbn [t_val t_pc t_comp t_whole t_last Nat.leb]. fold h1. rewrite (S1 h1 z out z N1 CZ). cbn [replace run nth_error].
  unfold go at 1. cbn [t_val t_pc t_comp t_whole t_last Nat.leb]. fold h2. rewrite (S2 h2 z N2), RW. cbn [replace run nth_error].
  unfold go at 1. cbn [t_val t_pc t_comp t_whole t_last Nat.leb]. rewrite (S1 h2 z [] [] N2 C0). cbn [replace run nth_error].
  unfold go at 1. cbn [t_val t_pc t_comp t_whole t_last Nat.leb]. fold h3. rewrite (S2 h3 [] N3), W0. cbn [replace run nth_error].
  unfold go at 1. cbn [t_val t_pc t_comp t_whole t_last Nat.leb]. rewrite (S1 h3 [] [] [] N3 C0). reflexivity.
Qed.

Definition toy_zip (alg : N) (d : bytes) : option bytes := Some (alg :: d).
Definition toy_lit : packet := mkPacket 11 NEW NOT_PARTIAL (PLiteral 98 [] 0 [104; 105]%N).
Definition toy_message : message := mkMessage (mkPgp true 1 [] [toy_lit]) (Some (NEW, NOT_PARTIAL, 1%N)).
Definition toy_other : message := mkMessage (mkPgp true 1 [] [toy_lit; toy_lit]) (Some (NEW, NOT_PARTIAL, 2%N)).
Definition toy_comps : heap := [CPacket 8 NEW NOT_PARTIAL (HPlain (PCompressed 1 [])); CPacket 8 NEW NOT_PARTIAL (HPlain (PCompressed 2 []))].
Example C82_ex : exists t1 t2, starts toy_comps toy_message false t1 /\ starts toy_comps toy_other true t2 /\ NoDup (map t_comp [t1; t2]) /\
  (exists w w0, message_raw toy_zip toy_message = Ok w /\ write (mkPacket 8 NEW NOT_PARTIAL (PCompressed 1 [])) = Ok w0 /\ w <> w0) /\
  (exists h1 m1, hmessage_copy 1 (toy_comps ++ [CPacket 13 NEW NOT_PARTIAL (HPlain (PRaw [65%N]))]) (mkHmessage (mkHpgp true 1 [] [2]) (Some 0)) = Ok (h1, m1)).
Proof.
  exists (mkThread 0 false 0 (write_packets [toy_lit])), (mkThread 1 true 0 (write_packets [toy_lit; toy_lit])). split; [split; [do 4 eexists; split; reflexivity|reflexivity]|].
  split; [split; [do 4 eexists; split; reflexivity|reflexivity]|]. split; [repeat constructor; cbn; intuition discriminate|]. split; [do 2 eexists; split; [vm_compute; reflexivity|split; [vm_compute; reflexivity|discriminate]]|].
  do 2 eexists. vm_compute. reflexivity.
Qed.
Print Assumptions C82_separate. Print Assumptions C82_copy. Print Assumptions C82_assigned_refuted. Print Assumptions C82_ex.
