(** Signed octets. *)
From Verif Require Export Spec.Signed Proofs.KeyP Proofs.ArmorP.

(** ** Text *)
Lemma canonical_plain l : plain_line l -> canonical_line l = l ++ CRLF.
Proof.
  intros [_ H]. unfold canonical_line, CRLF. f_equal. destruct (rev l) as [|x r] eqn:E; [reflexivity|].
  destruct (N.eq_dec x 13) as [->|D].
  - exfalso. apply (H (rev r)). rewrite <- (rev_involutive l), E. reflexivity.
  - repeat match goal with |- context [match ?p with _ => _ end] => destruct p; try reflexivity end. now contradiction D.
Qed.
Lemma canonical_cr l : canonical_line (l ++ [13]) = l ++ CRLF.
Proof. unfold canonical_line, CRLF. rewrite rev_app_distr. cbn [rev app]. now rewrite <- app_assoc. Qed.
Lemma canonical_form l : ~ In 10 l -> exists l', canonical_line l = l' ++ CRLF /\ ~ In 10 l' /\ (l = l' \/ l = l' ++ [13]).
Proof.
  intros H. unfold canonical_line, CRLF. destruct (rev l) as [|x r] eqn:E.
  - exists l. auto.
  - destruct (N.eq_dec x 13) as [->|D].
    + exists (rev r). assert (L : l = rev r ++ [13]) by (rewrite <- (rev_involutive l), E; reflexivity).
      rewrite L at 1. rewrite <- app_assoc. split; [reflexivity|]. split; [|auto].
      intros I. apply H. rewrite L. apply in_or_app. auto.
    + exists l. split; [|auto]. f_equal.
      repeat match goal with |- context [match ?p with _ => _ end] => destruct p; try reflexivity end. now contradiction D.
Qed.
Lemma canonical_nil : text_to_canonical [] = []. Proof. reflexivity. Qed.
Lemma canonical_step l r : ~ In 10 l -> text_to_canonical (l ++ 10 :: r) = canonical_line l ++ text_to_canonical r.
Proof. intros H. unfold text_to_canonical. rewrite getlines_line by auto. reflexivity. Qed.
Lemma canonical_last l : ~ In 10 l -> l <> [] -> text_to_canonical l = canonical_line l.
Proof. intros H N0. unfold text_to_canonical. rewrite getlines_last by auto. cbn [map concat]. apply app_nil_r. Qed.

Lemma canonical_text ls last : Forall (fun x => plain_line (fst x)) ls -> plain_line last ->
  text_to_canonical (text ls last) = crlf_text (map fst ls ++ match last with [] => [] | _ => [last] end).
Proof.
  intros F P. unfold text, crlf_text. induction ls as [|[l b] ls IH].
  - cbn [map concat app]. destruct last as [|x r]; [reflexivity|]. destruct P as [P1 P2].
    rewrite canonical_last by easy. cbn [map concat]. rewrite app_nil_r. now apply canonical_plain.
  - inversion F as [|? ? Hl F']; subst. cbn [fst] in Hl. cbn [map concat fst snd app]. rewrite <- !app_assoc.
    rewrite <- IH by auto. pose proof Hl as [L1 L2]. destruct b; unfold CRLF, LF; cbn [app].
    + replace (l ++ 13 :: 10 :: _) with ((l ++ [13]) ++ 10 :: (concat (map (fun x => fst x ++ if snd x : bool then CRLF else LF) ls) ++ last))
        by (rewrite <- app_assoc; reflexivity).
      rewrite canonical_step; [|intros I; apply in_app_or in I; destruct I as [I|[I|[]]]; [auto|discriminate]].
      now rewrite canonical_cr, <- app_assoc.
    + rewrite canonical_step by auto. rewrite canonical_plain by auto. now rewrite <- app_assoc.
Qed.

(** Every text is cut into lines. *)
Lemma line_ind (P : bytes -> Prop) :
  P [] -> (forall l, ~ In 10 l -> l <> [] -> P l) -> (forall l r, ~ In 10 l -> P r -> P (l ++ 10 :: r)) -> forall t, P t.
Proof.
  intros H0 H1 H2 t. assert (G : forall n t, (length t <= n)%nat -> P t).
  { clear t. induction n as [|n IH]; intros t L.
    - destruct t; [exact H0|cbn in L; lia].
    - destruct (in_dec N.eq_dec 10 t) as [I|I].
      + apply in_split in I. 
        assert (exists l r, t = l ++ 10 :: r /\ ~ In 10 l) as (l & r & -> & Nl).
        { clear - I. destruct I as (a & b & ->). induction a as [|x a IH].
          - exists [], b. auto.
          - destruct (N.eq_dec x 10) as [->|D].
            + exists [], (a ++ 10 :: b). auto.
            + destruct IH as (l & r & E & Nl). exists (x :: l), r. cbn [app]. rewrite E. split; [reflexivity|].
              intros [I|I]; auto. }
        apply H2; auto. apply IH. rewrite app_length in L. cbn [length] in L. lia.
      + destruct t; [exact H0|]. now apply H1. }
  now apply (G (length t)).
Qed.
Lemma canonical_crlf l r : ~ In 10 l -> text_to_canonical (l ++ CRLF ++ r) = l ++ CRLF ++ text_to_canonical r.
Proof.
  intros H. replace (l ++ CRLF ++ r) with ((l ++ [13]) ++ 10 :: r) by (unfold CRLF; rewrite <- app_assoc; reflexivity).
  rewrite canonical_step, canonical_cr, <- app_assoc; [reflexivity|].
  intros I. apply in_app_or in I. destruct I as [I|[I|[]]]; [auto|discriminate].
Qed.
Lemma canonical_idempotent t : text_to_canonical (text_to_canonical t) = text_to_canonical t.
Proof.
  induction t as [|l Nl N0|l r Nl IH] using line_ind.
  - reflexivity.
  - rewrite (canonical_last l) by auto. destruct (canonical_form l Nl) as (l' & -> & Nl' & _).
    pose proof (canonical_crlf l' [] Nl') as C. rewrite canonical_nil, !app_nil_r in C. exact C.
  - rewrite (canonical_step l) by auto. destruct (canonical_form l Nl) as (l' & -> & Nl' & _).
    rewrite <- !app_assoc. rewrite canonical_crlf by auto. now rewrite IH.
Qed.
Lemma canonical_ends t : t <> [] -> exists x, text_to_canonical t = x ++ CRLF.
Proof.
  pattern t. apply line_ind; clear t; [|intros l Nl N0|intros l r Nl IH]; intros Ht.
  - easy.
  - rewrite (canonical_last l) by auto. destruct (canonical_form l Nl) as (l' & -> & _). eauto.
  - rewrite (canonical_step l) by auto. destruct (canonical_form l Nl) as (l' & -> & _).
    destruct r as [|c r].
    + rewrite canonical_nil, app_nil_r. eauto.
    + destruct IH as (x & ->); [easy|]. exists ((l' ++ CRLF) ++ x). now rewrite app_assoc.
Qed.
(** No bare line feed remains. *)
Lemma first_lf l r a b : ~ In 10 l -> l ++ 10 :: r = a ++ 10 :: b ->
  (l = a /\ r = b) \/ exists a', a = l ++ 10 :: a' /\ r = a' ++ 10 :: b.
Proof.
  revert a. induction l as [|x l IH]; intros a Nl E.
  - destruct a as [|y a]; cbn [app] in E; inversion E; subst; [now left|right; now exists a].
  - destruct a as [|y a]; cbn [app] in E; inversion E; subst.
    + exfalso. apply Nl. now left.
    + destruct (IH a) as [[-> ->]|(a' & -> & ->)]; auto.
      * intros I. apply Nl. now right.
      * right. now exists a'.
Qed.
Lemma canonical_no_bare t a b : text_to_canonical t = a ++ 10 :: b -> exists a', a = a' ++ [13].
Proof.
  assert (N13 : forall l, ~ In 10 l -> ~ In 10 (l ++ [13])).
  { intros l H I. apply in_app_or in I. destruct I as [I|[I|[]]]; [auto|discriminate]. }
  revert a b. pattern t. apply line_ind; clear t; [|intros l Nl N0|intros l r Nl IH]; intros a b E.
  - rewrite canonical_nil in E. destruct a; discriminate.
  - rewrite canonical_last in E by auto. destruct (canonical_form l Nl) as (l' & F & Nl' & _). rewrite F in E.
    replace (l' ++ CRLF) with ((l' ++ [13]) ++ 10 :: []) in E by (unfold CRLF; rewrite <- app_assoc; reflexivity).
    apply first_lf in E as [[<- _]|(a' & _ & E)]; [eauto|destruct a'; discriminate|auto].
  - rewrite canonical_step in E by auto. destruct (canonical_form l Nl) as (l' & F & Nl' & _). rewrite F in E.
    replace ((l' ++ CRLF) ++ text_to_canonical r) with ((l' ++ [13]) ++ 10 :: text_to_canonical r) in E
      by (unfold CRLF; rewrite <- !app_assoc; reflexivity).
    apply first_lf in E as [[<- _]|(a' & -> & E)]; [eauto| |auto].
    apply IH in E as (a'' & ->). exists ((l' ++ [13]) ++ 10 :: a''). rewrite <- (app_assoc _ _ [13]). reflexivity.
Qed.

(** ** Trailer of a version 4 signature *)
Lemma v4_upto s : t2_version s = 4 -> get_up_to_hashed s =
  Ok (4 :: t2_type s :: t2_pka s :: t2_hash s :: be 2 (len (area tag2_raw (t2_hashed s))) ++ area tag2_raw (t2_hashed s)).
Proof. intros V. unfold get_up_to_hashed. rewrite V. reflexivity. Qed.
Definition v4_trailer (s : tag2) : bytes :=
  4 :: t2_type s :: t2_pka s :: t2_hash s :: be 2 (len (area tag2_raw (t2_hashed s))) ++ area tag2_raw (t2_hashed s).
Lemma v4_add d s : t2_version s = 4 ->
  addtrailer d s = Ok (d ++ v4_trailer s ++ [4; 255] ++ be 4 (len (v4_trailer s))).
Proof. intros V. unfold addtrailer. rewrite v4_upto by auto. cbn [bind]. now rewrite V. Qed.
Lemma v4_trailer_len s : len (v4_trailer s) = 6 + len (area tag2_raw (t2_hashed s)).
Proof. unfold v4_trailer. rewrite !len_cons, len_app, len_be. lia. Qed.
Lemma app_inj_tail_len {A} (a b c d : list A) : a ++ b = c ++ d -> length b = length d -> a = c /\ b = d.
Proof.
  intros E L. assert (length a = length c) by (apply (f_equal (@length A)) in E; rewrite !app_length in E; lia).
  now apply app_inj_len.
Qed.
Lemma be_inj n a b : a < 256 ^ N.of_nat n -> b < 256 ^ N.of_nat n -> be n a = be n b -> a = b.
Proof. intros A B E. apply (f_equal be_val) in E. rewrite !be_val_be, !N.mod_small in E; auto. Qed.

Lemma v4_trailer_inj d d' s s' :
  t2_version s = 4 -> t2_version s' = 4 ->
  len (area tag2_raw (t2_hashed s)) < 2 ^ 16 -> len (area tag2_raw (t2_hashed s')) < 2 ^ 16 ->
  addtrailer d s = addtrailer d' s' ->
  d = d' /\ t2_type s = t2_type s' /\ t2_pka s = t2_pka s' /\ t2_hash s = t2_hash s' /\
  area tag2_raw (t2_hashed s) = area tag2_raw (t2_hashed s').
Proof.
  intros V V' B B' E. rewrite !v4_add in E by auto. apply Ok_inj in E.
  rewrite !app_assoc in E. apply app_inj_tail_len in E as [E L]; [|now rewrite !be_length].
  apply be_inj in L; [|rewrite v4_trailer_len; change (256 ^ N.of_nat 4) with 4294967296; lia|rewrite v4_trailer_len; change (256 ^ N.of_nat 4) with 4294967296; lia].
  apply app_inv_tail in E. apply app_inj_tail_len in E as [-> E]; [|unfold len in L; lia].
  unfold v4_trailer in E.
  set (x := be 2 _ ++ _) in E. set (y := be 2 _ ++ _) in E.
  assert (E4 : x = y) by congruence. subst x y.
  apply app_inj_len in E4 as [_ E4]; [|now rewrite !be_length]. repeat split; congruence.
Qed.

(** Octets of a subpacket determine it. *)
Lemma sub_raw_inj (s s' : sub tag2) : sub_fits sig_fits s -> sub_fits sig_fits s' ->
  sub_type s = sub_type s' -> sub_raw tag2_raw s = sub_raw tag2_raw s' -> s = s'.
Proof.
  intros F F' T R.
  assert (G : sub_kept s -> sub_kept s' -> s = s').
  { intros K K'. assert (He : forall x, sig_fits x -> tag2_of (tag2_raw x) = Ok x /\ tag2_raw x <> []).
    { intros x Hx. pose proof (tag2_raw_ne x) as Hne. split; [|auto].
      change (tag2_of (tag2_raw x)) with (tag2_embed (S (length (tag2_raw x))) (tag2_raw x)).
      apply tag2_embed_raw; [auto|]. apply tag2_roundtrip; auto. }
    destruct (sub_roundtrip tag2_of tag2_raw sig_fits s He F K) as (s0 & N0 & R0).
    destruct (sub_roundtrip tag2_of tag2_raw sig_fits s' He F' K') as (s1 & N1 & R1).
    rewrite T in N0. rewrite N0 in N1. apply Ok_inj in N1. subst s1. rewrite R in R0. rewrite R0 in R1.
    now apply Ok_inj in R1. }
  destruct s; try (destruct s'; try discriminate T; apply G; exact I).
  destruct s'; try discriminate T. cbn [sub_raw sub_fits] in *. destruct F as (F1 & F2 & F3), F' as (F1' & F2' & F3').
  apply app_inj_len in R as [-> R]; [|unfold len in *; lia].
  apply app_inj_len in R as [L R]; [|now rewrite !be_length].
  apply app_inj_len in R as [L' R]; [|now rewrite !be_length].
  apply be_inj in L; [|change (256 ^ N.of_nat 2) with 65536; lia|change (256 ^ N.of_nat 2) with 65536; lia].
  apply app_inj_len in R as [-> ->]; [reflexivity|]. unfold len in L. lia.
Qed.
Lemma area_inj : forall l l', allP (fun c => sub_fits sig_fits (snd c)) l -> allP (fun c => sub_fits sig_fits (snd c)) l' ->
  len (area tag2_raw l) < 2 ^ 32 -> area tag2_raw l = area tag2_raw l' -> l = l'.
Proof.
  assert (NE : forall c l, area tag2_raw (c :: l) <> []).
  { intros c l E. apply (f_equal len) in E. rewrite area_cons, len_app in E. pose proof (sub_write_ge tag2_raw c).
    unfold len at 3 in E. cbn in E. lia. }
  induction l as [|[c s] l IH]; intros [|[c' s'] l'] F F' B E.
  - reflexivity.
  - symmetry in E. now apply NE in E.
  - now apply NE in E.
  - destruct F as [F1 F], F' as [F1' F']. cbn [snd] in *.
    pose proof B as B'. rewrite E in B'. rewrite !area_cons in *. rewrite len_app in B, B'.
    unfold sub_write in *. cbn [fst snd] in *.
    pose proof (sub_type_bits s c) as [T1 T2]. pose proof (sub_type_bits s' c') as [T1' T2'].
    set (t := N.lor (sub_type s) (if c then 128 else 0)) in *.
    set (t' := N.lor (sub_type s') (if c' then 128 else 0)) in *.
    assert (W : forall x, len x <= len (write_subpacket x)).
    { intros x. unfold write_subpacket. destruct (_ <? _); [|destruct (_ && _)]; autorewrite with len; lia. }
    destruct (write_subpacket_rfc (t :: sub_raw tag2_raw s)) as (h & Eh & Hh); [pose proof (W (t :: sub_raw tag2_raw s)); lia|].
    destruct (write_subpacket_rfc (t' :: sub_raw tag2_raw s')) as (h' & Eh' & Hh'); [pose proof (W (t' :: sub_raw tag2_raw s')); lia|].
    rewrite Eh, Eh' in E.
    pose proof (read_subpacket_rfc [] _ h ((t :: sub_raw tag2_raw s) ++ area tag2_raw l) 0 eq_refl Hh) as P.
    pose proof (read_subpacket_rfc [] _ h' ((t' :: sub_raw tag2_raw s') ++ area tag2_raw l') 0 eq_refl Hh') as P'.
    cbn [app] in P, P'. cbn [app] in E. rewrite <- !app_assoc in E. cbn [app] in E. rewrite E, P' in P.
    apply Ok_inj in P. pose proof (f_equal fst P) as P1. pose proof (f_equal snd P) as P2. cbn [fst snd] in P1, P2.
    apply app_inj_len in E as [_ E]; [|unfold len in P2; lia].
    assert (E0 : t = t') by congruence. assert (E1 : sub_raw tag2_raw s ++ area tag2_raw l = sub_raw tag2_raw s' ++ area tag2_raw l') by congruence.
    apply app_inj_len in E1 as [E1 E2]; [|rewrite !len_cons in P1; unfold len in P1; lia].
    assert (c = c') by (rewrite <- T2, <- T2', E0; reflexivity).
    assert (sub_type s = sub_type s') by (rewrite <- T1, <- T1', E0; reflexivity).
    clearbody t t'. clear T2 T2' T1 T1'. subst c'.
    f_equal; [f_equal; apply sub_raw_inj; auto|]. apply IH; auto. rewrite E2 in *. lia.
Qed.
Lemma v4_signed d d' s s' : hashed_fits s -> hashed_fits s' -> addtrailer d s = addtrailer d' s' ->
  d = d' /\ t2_type s = t2_type s' /\ t2_pka s = t2_pka s' /\ t2_hash s = t2_hash s' /\ t2_hashed s = t2_hashed s'.
Proof.
  intros (V & F & B) (V' & F' & B') E. destruct (v4_trailer_inj d d' s s') as (-> & -> & -> & -> & A); auto.
  repeat (split; [reflexivity|]). apply area_inj; auto. lia.
Qed.
Lemma v3_signed d d' s s' : t2_version s = 3 -> t2_version s' = 3 -> word32 (t2_time s) -> word32 (t2_time s') ->
  addtrailer d s = addtrailer d' s' -> d = d' /\ t2_type s = t2_type s' /\ t2_time s = t2_time s'.
Proof.
  intros V V' T T' E. unfold addtrailer, get_up_to_hashed in E. rewrite V, V' in E. cbn [N.eqb Pos.eqb bind skipn] in E.
  apply Ok_inj in E. apply app_inj_tail_len in E as [-> E]; [|cbn [length]; now rewrite !be_length].
  split; [reflexivity|]. split; [congruence|]. assert (E' : be 4 (t2_time s) = be 4 (t2_time s')) by congruence.
  apply be_inj in E'; auto.
Qed.
Lemma v3_v4_signed d d' s s' : t2_version s = 3 -> t2_version s' = 4 -> t2_type s <> 255 -> addtrailer d s <> addtrailer d' s'.
Proof.
  intros V V' T E. rewrite (v4_add d') in E by auto. unfold addtrailer, get_up_to_hashed in E. rewrite V in E.
  cbn [N.eqb Pos.eqb bind skipn] in E. apply Ok_inj in E.
  rewrite (app_assoc d'), (app_assoc _ [4; 255]) in E.
  change [4; 255] with ([4] ++ [255]) in E. rewrite (app_assoc _ [4]), <- (app_assoc _ [255]) in E.
  apply app_inj_tail_len in E as [_ E]; [|cbn [length app]; now rewrite !be_length]. cbn [app] in E. congruence.
Qed.

(** ** Keys *)
Lemma key_raw_inj k k' : key_fits days_16 k -> key_fits days_16 k' -> key_raw k = key_raw k' -> k = k'.
Proof.
  intros F F' E.
  assert (V : k_version k = k_version k') by (unfold key_raw in E; congruence).
  destruct (k_version k <? 4) eqn:Hv.
  - destruct k as [v t p m e], k' as [v' t' p' m' e']. unfold key_fits, key_raw in *.
    cbn [k_version k_time k_pka k_mpi k_expire] in *. subst v'. rewrite Hv in *.
    destruct F as (F1 & F2 & F3 & F4 & F5), F' as (_ & F2' & F3' & F4' & F5').
    assert (E1 : be 4 t ++ be 2 e ++ p :: concat (map write_MPI m) = be 4 t' ++ be 2 e' ++ p' :: concat (map write_MPI m')) by congruence.
    apply app_inj_len in E1 as [Et E1]; [|now rewrite !be_length].
    apply app_inj_len in E1 as [Ee E1]; [|now rewrite !be_length].
    apply be_inj in Et; [|exact F2|exact F2']. apply be_inj in Ee; [|exact F5|exact F5']. subst t' e'.
    assert (G : forall p m, Forall mpi_fits m -> key_mpis v p = Some (length m) -> key_fits days_kept (mkKey v t p m 0)).
    { intros p0 m0 M L. unfold key_fits. cbn [k_version k_time k_pka k_mpi k_expire]. rewrite Hv.
      repeat (split; [assumption|]). split; reflexivity. }
    pose proof (key_roundtrip _ [] (G p m F3 F4)) as R. pose proof (key_roundtrip _ [] (G p' m' F3' F4')) as R'.
    unfold key_raw in R, R' at 1. cbn [k_version k_time k_pka k_mpi k_expire] in R, R'. rewrite Hv, E1 in R. rewrite Hv in R'.
    rewrite R' in R. apply Ok_inj in R. congruence.
  - assert (K : forall k, k_version k <? 4 = false -> key_fits days_16 k -> key_fits days_kept k)
      by (intros k0 H0; unfold key_fits; now rewrite H0).
    pose proof (key_roundtrip k [] (K _ Hv F)) as R. rewrite V in Hv. pose proof (key_roundtrip k' [] (K _ Hv F')) as R'.
    rewrite E, R' in R. apply Ok_inj in R. congruence.
Qed.
Lemma overkey_inj k k' x x' : key_fits days_16 k -> key_fits days_16 k' ->
  len (key_raw k) < 2 ^ 16 -> len (key_raw k') < 2 ^ 16 ->
  overkey k ++ x = overkey k' ++ x' -> k = k' /\ x = x'.
Proof.
  intros F F' B B' E. unfold overkey in E. cbn [app] in E. rewrite <- !app_assoc in E.
  assert (E1 : be 2 (len (key_raw k)) ++ key_raw k ++ x = be 2 (len (key_raw k')) ++ key_raw k' ++ x') by congruence.
  apply app_inj_len in E1 as [L E1]; [|now rewrite !be_length].
  apply be_inj in L; [|exact B|exact B']. apply app_inj_len in E1 as [E1 E2]; [|unfold len in L; lia].
  split; [now apply key_raw_inj|auto].
Qed.
Lemma cert_parts type k tag id s x : input_cert type k tag id s = Ok x ->
  t2_type s = type /\ exists c, certification (t2_version s) tag id = Ok c /\ addtrailer (overkey k ++ c) s = Ok x.
Proof.
  unfold input_cert. destruct (t2_type s =? type) eqn:E; [|discriminate]. intros H.
  split; [lia|]. apply bind_ok in H as (c & C & H). eauto.
Qed.
Lemma certification_inj tag tag' id id' c c' : (tag = 13 \/ tag = 17) -> (tag' = 13 \/ tag' = 17) ->
  fits days_kept tag id -> fits days_kept tag' id' ->
  (forall w, raw id = Ok w -> len w < 2 ^ 32) -> (forall w, raw id' = Ok w -> len w < 2 ^ 32) ->
  certification 4 tag id = Ok c -> certification 4 tag' id' = Ok c' -> c = c' -> tag = tag' /\ id = id'.
Proof.
  intros T T' F F' B B' C C' E. unfold certification in C, C'. cbn [N.eqb Pos.eqb] in C, C'.
  apply bind_ok in C as (w & W & C). apply bind_ok in C' as (w' & W' & C').
  specialize (B w W). specialize (B' w' W').
  assert (G : be 4 (len w) ++ w = be 4 (len w') ++ w' -> w = w').
  { intros H. apply app_inj_len in H as [_ H]; [auto|now rewrite !be_length]. }
  assert (TW : tag = tag' /\ w = w').
  { destruct T as [-> | ->], T' as [-> | ->]; cbn [N.eqb Pos.eqb] in C, C'; apply Ok_inj in C, C'; subst c c';
      try discriminate E; (split; [reflexivity|]); apply G; congruence. }
  destruct TW as [<- <-]. split; [reflexivity|].
  assert (P : forall i, fits days_kept tag i -> raw i = Ok w -> tag_read tag w 0 (len w) = Ok i).
  { intros i Fi Wi. pose proof (packet_roundtrip [] [] tag i w Fi Wi) as R. rewrite app_nil_r in R. apply R.
    - unfold two64. lia.
    - destruct i; cbn; auto. }
  pose proof (P id F W) as R. rewrite (P id' F' W') in R. now apply Ok_inj in R.
Qed.

(** ** Times *)
Lemma scan_hashed l : forall a b e, scan_times true l (a, b, e) =
  (last_value creation l a, last_value sig_expiry l b, last_value key_expiry l e).
Proof.
  induction l as [|[c s] l IH]; intros a b e; [reflexivity|].
  change (scan_times true ((c, s) :: l) (a, b, e)) with (scan_times true l
    (match s with Sub2 x => (x, b, e) | Sub3 x => (a, x, e) | Sub9 x => (a, b, x) | _ => (a, b, e) end)).
  cbn [last_value snd]. destruct s; cbn [creation sig_expiry key_expiry]; apply IH.
Qed.
Lemma scan_unhashed l : forall a b e, scan_times false l (a, b, e) =
  (a, last_value sig_expiry l b, last_value key_expiry l e).
Proof.
  induction l as [|[c s] l IH]; intros a b e; [reflexivity|].
  change (scan_times false ((c, s) :: l) (a, b, e)) with (scan_times false l
    (match s with Sub3 x => (a, x, e) | Sub9 x => (a, b, x) | _ => (a, b, e) end)).
  cbn [last_value snd]. destruct s; cbn [sig_expiry key_expiry]; apply IH.
Qed.
Lemma last_none f l v : Forall (fun c => f (snd c) = None) l -> last_value f l v = v.
Proof. induction 1 as [|c l H _ IH]; [reflexivity|]. cbn [last_value]. now rewrite H. Qed.

(** A missing line feed at the end changes nothing. *)
Lemma canonical_final d : d <> [] -> (forall x, d <> x ++ [10]) -> text_to_canonical (d ++ [10]) = text_to_canonical d.
Proof.
  pattern d. apply line_ind; clear d; [|intros l Nl N0|intros l r Nl IH]; intros D E.
  - easy.
  - rewrite canonical_step by auto. rewrite canonical_nil, app_nil_r. now rewrite canonical_last.
  - rewrite <- app_assoc. cbn [app]. rewrite (canonical_step l (r ++ [10])), (canonical_step l r) by auto. f_equal. apply IH.
    + intros ->. now apply (E l).
    + intros x ->. apply (E (l ++ 10 :: x)). now rewrite <- app_assoc.
Qed.
Lemma canonical_ge t : t <> [] -> 2 <= len (text_to_canonical t).
Proof. intros H. destruct (canonical_ends t H) as (x & ->). rewrite len_app. unfold CRLF. cbn [len length N.of_nat]. lia. Qed.
Lemma canonical_body t x : text_to_canonical t = x ++ CRLF -> len (text_to_canonical t) < two64 ->
  prefix (text_to_canonical t) (sub64 (len (text_to_canonical t)) 2) = x.
Proof.
  intros E B. rewrite E in *. rewrite sub64_small by (rewrite len_app in *; unfold CRLF in *; cbn [len length N.of_nat] in *; lia).
  apply prefix_app. rewrite len_app. unfold CRLF. cbn [len length N.of_nat Pos.of_succ_nat Pos.succ]. lia.
Qed.
