(** Lemmas about ASCII armor. *)
From Verif Require Export Proofs.PgpP Proofs.Radix64P Spec.Armor.
From Verif Require Import Proofs.IncludesP.

Lemma getlines_aux_line : forall l cur r, ~ In 10 l -> getlines_aux cur (l ++ 10 :: r) = (rev cur ++ l) :: getlines_aux [] r.
Proof.
  induction l as [|c l IH]; intros cur r H; cbn [app getlines_aux].
  - rewrite N.eqb_refl. now rewrite app_nil_r.
  - replace (c =? 10) with false by (symmetry; apply N.eqb_neq; intros ->; apply H; now left).
    rewrite IH by (intros X; apply H; now right). cbn [rev]. now rewrite <- app_assoc.
Qed.
Lemma getlines_line l r : ~ In 10 l -> getlines (l ++ 10 :: r) = l :: getlines r.
Proof. intros H. unfold getlines. now rewrite getlines_aux_line. Qed.
Lemma getlines_aux_last : forall l cur, ~ In 10 l -> l <> [] -> getlines_aux cur l = [rev cur ++ l].
Proof.
  induction l as [|c l IH]; intros cur H Hn; [contradiction|]. cbn [getlines_aux].
  replace (c =? 10) with false by (symmetry; apply N.eqb_neq; intros ->; apply H; now left).
  destruct l as [|d l].
  - cbn [getlines_aux rev]. destruct (rev cur ++ [c]) eqn:E; auto. 
  - rewrite IH; [|intros X; apply H; now right|discriminate]. cbn [rev]. now rewrite <- app_assoc.
Qed.
Lemma getlines_last l : ~ In 10 l -> l <> [] -> getlines l = [l].
Proof. intros H Hn. unfold getlines. now rewrite getlines_aux_last. Qed.
Lemma getlines_unlines ls r : (forall l, In l ls -> ~ In 10 l) -> getlines (unlines ls ++ r) = ls ++ getlines r.
Proof.
  induction ls as [|l ls IH]; intros H; [reflexivity|]. cbn [unlines flat_map app].
  rewrite <- !app_assoc. cbn [app]. rewrite getlines_line by (apply H; now left). f_equal.
  apply IH. intros x Hx. apply H. now right.
Qed.

(** Trimming. *)
Lemma mem_char_blank c : mem_char c whitespace = true <-> blank c.
Proof.
  unfold mem_char. rewrite existsb_exists. unfold blank, whitespace. split.
  - intros (x & H & E). apply N.eqb_eq in E. now subst.
  - intros H. exists c. split; [auto|apply N.eqb_refl].
Qed.
Lemma mem_char_not c : ~ blank c -> mem_char c whitespace = false.
Proof. intros H. destruct (mem_char c whitespace) eqn:E; auto. apply mem_char_blank in E. contradiction. Qed.
Lemma trim_back_id v c fr : ~ blank c -> len (v ++ [c]) < two64 - 1 -> (fr = true -> exists d w, v ++ [c] = d :: w /\ ~ blank d) ->
  trim_whitespace (v ++ [c]) fr true = Ok (v ++ [c]).
Proof.
  intros H HL Hf. unfold trim_whitespace. apply trim_id; auto.
  - intros E. destruct (Hf E) as (d & w & -> & Hd). cbn. now apply mem_char_not.
  - intros _. rewrite rev_app_distr. cbn. now apply mem_char_not.
Qed.
Lemma trim_front_one s v : blank s -> len (s :: v) < two64 - 1 -> (exists c w, v = c :: w /\ ~ blank c) -> (exists w c, v = w ++ [c] /\ ~ blank c) ->
  trim_whitespace (s :: v) true true = Ok v.
Proof.
  intros Hs HL (c & w & Ev & Hc) (w' & c' & Ev' & Hc'). unfold trim_whitespace.
  destruct (trim_spec whitespace (s :: v) true true HL) as (a & t & b & -> & E & F & A & B). f_equal.
  apply Forall_app in F as [Fa Fb].
  assert (b = []).
  { destruct (list_eq_dec N.eq_dec b []) as [|N]; auto. exfalso. destruct (exists_last N) as (b0 & x0 & ->).
    rewrite Ev', !app_assoc in E. change (s :: w' ++ [c']) with ((s :: w') ++ [c']) in E. apply app_inj_tail in E as [_ <-].
    apply Forall_app in Fb as [_ Fb]. inversion Fb; subst. apply mem_char_blank in H1. contradiction. }
  subst b. rewrite app_nil_r in E. destruct a as [|x a].
  - cbn [app] in E. subst t. change (mem_char s whitespace = false) in A. apply mem_char_blank in Hs. congruence.
  - cbn [app] in E. injection E as _ E. destruct a as [|y a]; [now cbn in E|].
    exfalso. rewrite Ev in E. injection E as -> _. inversion Fa; subst. inversion H2; subst. apply mem_char_blank in H3. contradiction.
Qed.
Lemma trim_clean l fr : (forall c, In c l -> ~ blank c) -> l <> [] -> len l < two64 - 1 -> trim_whitespace l fr true = Ok l.
Proof.
  intros H Hn HL. destruct (exists_last Hn) as (v & c & ->). apply trim_back_id; auto.
  - apply H. apply in_or_app. right. now left.
  - intros _. destruct v as [|d v]; [exists c, []|exists d, (v ++ [c])]; (split; [reflexivity|]); apply H; now left.
Qed.

(** Lines of n characters. *)
Lemma chunks_lines n : (0 < n)%nat -> forall f s, (length s <= f)%nat -> cut_in_lines n s (chunks n f s).
Proof.
  intros Hn. induction f as [|f IH]; intros s Hs.
  - destruct s; [|cbn in Hs; lia]. split; [reflexivity|]. split; [intros l []|]. intros [|] ? ? [=].
  - cbn [chunks]. destruct s as [|x s0] eqn:Es.
    { split; [reflexivity|]. split; [intros l []|]. intros [|] ? ? [=]. }
    rewrite <- Es in *. assert (L : (1 <= length s)%nat) by (subst; cbn; lia). clear Es.
    destruct (IH (skipn n s)) as (C & B & T); [rewrite skipn_length; lia|].
    split; [|split].
    + cbn [concat]. rewrite C. apply firstn_skipn.
    + intros l [<-|Hl]; [rewrite firstn_length; lia|auto].
    + intros [|a0 a] l b E Hb; cbn [app] in E.
      * injection E as <- E. rewrite firstn_length.
        assert (n < length s)%nat; [|lia]. destruct (le_lt_dec (length s) n) as [X|X]; auto. exfalso.
        rewrite skipn_all2 in E by lia. destruct f; cbn in E; congruence.
      * injection E as _ E. eauto.
Qed.
Lemma chunks_more k : forall f1 f2 s, (0 < k)%nat -> (length s <= f1)%nat -> (length s <= f2)%nat -> chunks k f1 s = chunks k f2 s.
Proof.
  induction f1; intros f2 s Hk H1 H2.
  - destruct s; [|cbn in H1; lia]. destruct f2; reflexivity.
  - destruct f2; [destruct s; [reflexivity | cbn in H2; lia]|].
    cbn [chunks]. destruct s as [|y s]; auto. f_equal. apply IHf1; auto; rewrite skipn_length; cbn [length] in *; lia.
Qed.
Lemma filter_unlines ls : (forall l, In l ls -> ~ In 10 l) -> filter (fun c => negb (c =? 10)) (unlines ls) = concat ls.
Proof.
  induction ls as [|l ls IH]; intros H; [reflexivity|]. cbn [unlines flat_map concat]. rewrite <- app_assoc.
  fold (unlines ls). rewrite !filter_app. cbn [filter N.eqb negb app]. rewrite IH by (intros; apply H; now right). f_equal.
  assert (X : ~ In 10 l) by (apply H; now left). clear -X. induction l as [|c l IH]; [reflexivity|]. cbn [filter].
  replace (c =? 10) with false by (symmetry; apply N.eqb_neq; intros ->; apply X; now left). cbn [negb]. f_equal. apply IH. intros H. apply X. now right.
Qed.

(** Lines of encoded data. *)
Definition code_char (c : N) : Prop := in_alphabet 43 47 c \/ c = 61.
Lemma code_not_blank c : code_char c -> ~ blank c.
Proof. unfold code_char, in_alphabet, blank. cbn [In]. lia. Qed.
Definition code_line (l : bytes) : Prop :=
  (exists c r, l = c :: r /\ in_alphabet 43 47 c) /\ (forall c, In c l -> code_char c).
Lemma code_lines : forall f body p, Forall (in_alphabet 43 47) body -> (p <= 2)%nat -> ((length body + p) mod 4 = 0)%nat ->
  (length body + p <= f)%nat -> forall l, In l (chunks 64 f (body ++ repeat 61 p)) -> code_line l.
Proof.
  induction f as [|f IH]; intros body p F Hp Hm Hf l Hl; [destruct Hl|]. cbn [chunks] in Hl.
  assert (AC : forall c, In c (body ++ repeat 61 p) -> code_char c).
  { intros c Hc. apply in_app_or in Hc as [Hc|Hc]; [left; rewrite Forall_forall in F; auto|right; apply repeat_spec in Hc; auto]. }
  destruct (body ++ repeat 61 p) as [|x s] eqn:E; [destruct Hl|]. rewrite <- E in *.
  destruct body as [|c body].
  { cbn [app] in E. destruct p as [|[|[|]]]; cbn in Hm, E; try lia; discriminate. }
  destruct Hl as [<-|Hl].
  - split.
    + exists c, (firstn 63 (body ++ repeat 61 p)). split; [reflexivity|]. now inversion F.
    + intros d Hd. apply AC. rewrite <- (firstn_skipn 64 ((c :: body) ++ repeat 61 p)). apply in_or_app. now left.
  - destruct (le_lt_dec (length (c :: body) + p) 64) as [L|L].
    + rewrite skipn_all2 in Hl by (rewrite app_length, repeat_length; lia). destruct f; destruct Hl.
    + assert (64 <= length (c :: body))%nat by lia.
      rewrite skipn_app in Hl. replace (64 - length (c :: body))%nat with O in Hl by lia. cbn [skipn] in Hl.
      apply (IH (skipn 63 body) p); auto.
      * inversion F; subst. rewrite Forall_forall in *. intros y Hy. apply H3. rewrite <- (firstn_skipn 63 body). apply in_or_app. now right.
      * rewrite skipn_length. cbn [length] in *. lia.
      * rewrite skipn_length. cbn [length] in *. lia.
Qed.

(** The lines of an armored text. *)
Definition key_text (k : bytes * bytes) : bytes := fst k ++ str ": " ++ snd k.
Definition code_part (body : bytes) : list bytes := chunks 64 (length (ascii2radix64 body)) (ascii2radix64 body).
Definition sum_line (body : bytes) : bytes := 61 :: ascii2radix64 (be 3 (crc24 body)).
Definition armor_parts (h : bytes) (keys : list (bytes * bytes)) (body : bytes) : list bytes :=
  (armor_begin ++ h ++ dashes) :: map key_text keys ++ [] :: code_part body ++ [sum_line body].

Lemma unlines_app a b : unlines (a ++ b) = unlines a ++ unlines b.
Proof. unfold unlines. apply flat_map_app. Qed.
Lemma unlines_cons l b : unlines (l :: b) = l ++ 10 :: unlines b.
Proof. unfold unlines. cbn [flat_map]. now rewrite <- app_assoc. Qed.
Lemma unlines_keys keys : unlines (map key_text keys) = flat_map (fun k => fst k ++ str ": " ++ snd k ++ [10]) keys.
Proof.
  induction keys as [|k keys IH]; [reflexivity|]. cbn [map flat_map]. rewrite unlines_cons, IH. unfold key_text.
  rewrite <- !app_assoc. reflexivity.
Qed.

Lemma armor_text t keys body h : vec_at armor_headers (N.to_nat t) = Ok h ->
  armor t keys body = Ok (unlines (armor_parts h keys body) ++ armor_end ++ h ++ dashes).
Proof.
  intros E. unfold armor. rewrite E. cbn [bind]. f_equal. unfold armor_parts.
  rewrite unlines_cons, unlines_app, unlines_keys, unlines_cons, unlines_app, unlines_cons.
  unfold format_string, max_line_length. fold (code_part body). fold (unlines (code_part body)).
  unfold sum_line. cbn [unlines flat_map]. change (str "=") with [61]. rewrite <- !app_assoc. cbn [app]. 
  repeat (rewrite <- ?app_assoc; cbn [app]). reflexivity.
Qed.

Lemma code_part_lines body : octets body -> body <> [] -> concat (code_part body) = ascii2radix64 body /\
  (forall l, In l (code_part body) -> code_line l /\ (length l <= 64)%nat).
Proof.
  intros O Hn. unfold code_part. destruct (chunks_lines 64 ltac:(lia) _ (ascii2radix64 body) (Nat.le_refl _)) as (C & B & _).
  split; [exact C|]. intros l Hl. split; [|now apply B].
  unfold ascii2radix64 in *.
  destruct (radix64_shape 43 47 body O) as (b & p & E & Hp & F & L). rewrite E in *.
  eapply code_lines; [exact F|exact Hp| | |exact Hl].
  - unfold len in L. rewrite app_length, repeat_length in L. lia.
  - rewrite app_length, repeat_length. lia.
Qed.
Lemma sum_line_code body : (forall c, In c (sum_line body) -> code_char c) /\ length (sum_line body) = 5%nat /\
  radix642ascii (ascii2radix64 (be 3 (crc24 body))) = Ok (be 3 (crc24 body)).
Proof.
  assert (O := be_octets 3 (crc24 body)). assert (L := be_length 3 (crc24 body)).
  assert (N : be 3 (crc24 body) <> []) by (intros X; rewrite X in L; discriminate).
  split; [|split].
  - unfold sum_line, ascii2radix64. destruct (radix64_shape 43 47 _ O) as (b & p & E & Hp & F & _). rewrite E.
    intros c [<-|Hc]; [now right|]. apply in_app_or in Hc as [Hc|Hc]; [left; rewrite Forall_forall in F; auto|right; apply repeat_spec in Hc; auto].
  - unfold sum_line, ascii2radix64. destruct (radix64_shape 43 47 _ O) as (b & p & E & Hp & F & L2). cbn [length]. unfold len in L2.
    rewrite L in L2. cbn [N.of_nat] in L2. change (4 * ((N.pos (Pos.of_succ_nat 2) + 2) / 3)) with 4 in L2. lia.
  - unfold radix642ascii, ascii2radix64. apply radix64_roundtrip; auto; [apply good62_default|]. unfold len. rewrite L. unfold two64. lia.
Qed.

Lemma split_colon_app k v : ~ In 58 k -> split_colon (k ++ 58 :: v) = Some (k, v).
Proof.
  induction k as [|c k IH]; intros H; cbn [app split_colon]; [reflexivity|].
  replace (c =? 58) with false by (symmetry; apply N.eqb_neq; intros ->; apply H; now left).
  rewrite IH; auto. intros X. apply H. now right.
Qed.
Lemma key_line_read k : armor_key_ok k -> len (key_text k) =? 0 = false /\ trim_whitespace (key_text k) false true = Ok (key_text k) /\
  armor_key (key_text k) = Ok (Some k).
Proof.
  destruct k as [k v]. intros (H1 & H2 & H3 & (c & w & E1 & B1) & (w' & c' & E2 & B2) & HL). cbn [fst snd] in *.
  unfold key_text. cbn [fst snd]. change (str ": ") with [58; 32]. cbn [app].
  assert (L : len (k ++ 58 :: 32 :: v) < 2 ^ 63) by (unfold len; rewrite app_length; cbn [length]; lia).
  repeat split.
  - apply N.eqb_neq. unfold len. rewrite app_length. cbn [length]. lia.
  - rewrite E2 at 1 2. replace (k ++ 58 :: 32 :: w' ++ [c']) with ((k ++ 58 :: 32 :: w') ++ [c']) by (rewrite <- app_assoc; reflexivity).
    apply trim_back_id; auto; [|discriminate]. rewrite <- app_assoc. cbn [app]. rewrite <- E2. unfold two64. lia.
  - unfold armor_key. rewrite split_colon_app by auto.
    replace (0 <? len (32 :: v)) with true by (symmetry; apply N.ltb_lt; unfold len; cbn [length]; lia).
    rewrite trim_front_one; eauto.
    + cbn [In blank]. unfold blank. now left.
    + unfold len in *. rewrite app_length in L. cbn [length] in *. unfold two64. lia.
Qed.

Lemma armor_keys_read keys rest : Forall armor_key_ok keys ->
  armor_keys (map key_text keys ++ [] :: rest) = Ok (keys, rest).
Proof.
  induction 1 as [|k keys Hk _ IH]; cbn [map app armor_keys]; [reflexivity|].
  destruct (key_line_read k Hk) as (E1 & E2 & E3). rewrite E1, E2. cbn [bind]. rewrite E1, E3. cbn [bind].
  rewrite IH. reflexivity.
Qed.

Lemma at_hd c r : at_ (c :: r) 0 = Ok c.
Proof. apply (at_pre_cons [] c r). reflexivity. Qed.
Lemma armor_lines_code : forall ls b s rest, (forall l, In l ls -> code_line l /\ (length l <= 64)%nat) ->
  armor_lines (ls ++ rest) b s = armor_lines rest (b ++ concat ls) s.
Proof.
  induction ls as [|l ls IH]; intros b s rest H; cbn [app concat]; [now rewrite app_nil_r|].
  destruct (H l (or_introl eq_refl)) as [[(c & r & -> & Hc) Ha] Hl]. cbn [armor_lines].
  rewrite trim_clean; [|intros d Hd; now apply code_not_blank, Ha|discriminate|unfold len, two64; lia].
  cbn [bind]. rewrite at_hd.
  assert (c <> 61 /\ c <> 45) as [N1 N2] by (unfold in_alphabet in Hc; lia).
  cbn [bind].
  replace (c =? 61) with false by (symmetry; now apply N.eqb_neq).
  replace (starts_with armor_end (c :: r)) with false.
  2:{ change armor_end with (45 :: tl armor_end). cbn [starts_with]. replace (45 =? c) with false; [reflexivity|]. symmetry. apply N.eqb_neq. auto. }
  rewrite IH by (intros; apply H; now right). f_equal. now rewrite <- app_assoc.
Qed.

Lemma starts_with_app h s : starts_with h (h ++ s) = true.
Proof. induction h; cbn; auto. now rewrite N.eqb_refl. Qed.

(** What a reader finds in an armored text. *)
Definition armor_type_ok (t : N) : Prop := 1 <= t <= 6.
Lemma header_line t : armor_type_ok t -> exists h, vec_at armor_headers (N.to_nat t) = Ok h /\
  armor_type (armor_begin ++ h ++ dashes) = Ok t /\ ~ In 10 (armor_begin ++ h ++ dashes) /\ ~ In 10 (armor_end ++ h ++ dashes) /\
  trim_whitespace (armor_begin ++ h ++ dashes) false true = Ok (armor_begin ++ h ++ dashes) /\
  trim_whitespace (armor_end ++ h ++ dashes) false true = Ok (armor_end ++ h ++ dashes).
Proof.
  intros H. unfold armor_type_ok in H.
  assert (t = 1 \/ t = 2 \/ t = 3 \/ t = 4 \/ t = 5 \/ t = 6) as [->|[->|[->|[->|[->| ->]]]]] by lia;
    (eexists; split; [reflexivity|]); (split; [vm_compute; reflexivity|]);
    (split; [vm_compute; intros X; decompose [or] X; discriminate || auto|]);
    (split; [vm_compute; intros X; decompose [or] X; discriminate || auto|]);
    (split; [vm_compute; reflexivity|]); vm_compute; reflexivity.
Qed.

Lemma armored_read_gen g t keys ks body : armor_type_ok t -> (forall k, In k keys -> ~ In 10 (key_text k)) ->
  (forall rest, armor_keys (map key_text keys ++ [] :: rest) = Ok (ks, rest)) -> octets body -> body <> [] -> len body < 2 ^ 62 ->
  exists text, armor t keys body = Ok text /\
    pgp_read g text = (ps <- read_raw body ;; Ok (mkPgp true t (g_keys g ++ ks) ps)).
Proof.
  intros Ht Hk HK Ho Hb Hl. destruct (header_line t Ht) as (h & Eh & Et & N1 & N2 & T1 & T2).
  eexists. split; [apply armor_text; exact Eh|].
  destruct (code_part_lines body Ho Hb) as [C1 C2]. destruct (sum_line_code body) as (S1 & S2 & S3).
  assert (CN : forall c, code_char c -> c <> 10) by (unfold code_char, in_alphabet; lia).
  unfold pgp_read. rewrite getlines_unlines.
  2:{ unfold armor_parts. intros l [<-|Hi]; [auto|]. apply in_app_or in Hi as [Hi|[<-|Hi]].
      - apply in_map_iff in Hi as (k & <- & Hi). auto.
      - auto.
      - apply in_app_or in Hi as [Hi|[<-|[]]]; intros X; [|now apply S1, CN in X]. destruct (C2 l Hi) as [[_ A] _]. now apply A, CN in X. }
  rewrite getlines_last; [|auto|discriminate].
  unfold armor_parts. cbn [app find_begin]. rewrite T1. cbn [bind]. rewrite starts_with_app. cbn [bind].
  rewrite Et. cbn [bind]. rewrite <- !app_assoc. cbn [app]. rewrite HK. cbn [bind].
  rewrite <- app_assoc. rewrite armor_lines_code by auto. cbn [app armor_lines].
  rewrite trim_clean; [|intros c Hc; now apply code_not_blank, S1|discriminate|unfold len, two64; rewrite S2; lia].
  cbn [bind]. unfold sum_line at 1. rewrite at_hd. cbn [bind N.eqb Pos.eqb].
  rewrite T2. cbn [bind]. change (at_ (armor_end ++ h ++ dashes) 0) with (@Ok N 45). cbn [bind N.eqb Pos.eqb]. rewrite starts_with_app. cbn [bind].
  rewrite C1.
  replace (0 <? len (sum_line body)) with true by (symmetry; apply N.ltb_lt; unfold len; rewrite S2; lia).
  replace (substr (sum_line body) 1 (len (sum_line body) - 1)) with (@Ok bytes (ascii2radix64 (be 3 (crc24 body)))).
  2:{ unfold sum_line. change (61 :: ascii2radix64 (be 3 (crc24 body))) with ([61] ++ ascii2radix64 (be 3 (crc24 body))).
      symmetry. rewrite <- (app_nil_r (ascii2radix64 (be 3 (crc24 body)))) at 1 2. apply substr_app; [reflexivity|].
      unfold len. rewrite app_nil_r, app_length. cbn [length]. lia. }
  cbn [bind]. rewrite S3. cbn [bind]. unfold radix642ascii, ascii2radix64. rewrite radix64_roundtrip; auto.
  - apply good62_default.
  - unfold two64. lia.
Qed.
Lemma key_text_line k : armor_key_ok k -> ~ In 10 (key_text k).
Proof.
  intros (K1 & K2 & K3 & _). unfold key_text. intros X. apply in_app_or in X as [X|X]; [auto|].
  apply in_app_or in X as [X|X]; [|auto]. destruct X as [X|[X|[]]]; discriminate.
Qed.
Lemma armored_read g t keys body : armor_type_ok t -> Forall armor_key_ok keys -> octets body -> body <> [] -> len body < 2 ^ 62 ->
  exists text, armor t keys body = Ok text /\
    pgp_read g text = (ps <- read_raw body ;; Ok (mkPgp true t (g_keys g ++ keys) ps)).
Proof.
  intros Ht Hk. apply armored_read_gen; auto.
  - rewrite Forall_forall in Hk. auto using key_text_line.
  - intros. now apply armor_keys_read.
Qed.

(** Data without an armor header line. *)
Lemma getlines_aux_in : forall s cur l, In l (getlines_aux cur s) ->
  (exists b, rev cur ++ s = l ++ b) \/ exists x b, s = x ++ 10 :: l ++ b.
Proof.
  induction s as [|c s IH]; intros cur l H; cbn [getlines_aux] in H.
  - left. exists []. rewrite !app_nil_r. destruct cur as [|y cur]; [destruct H|]. destruct (rev (y :: cur)) eqn:E.
    + destruct H as [<-|[]]; reflexivity.
    + destruct H as [<-|[]]; reflexivity.
  - destruct (c =? 10) eqn:Ec.
    + apply N.eqb_eq in Ec. subst c. destruct H as [<-|H]; [left; eexists; reflexivity|].
      right. apply IH in H as [(b & E)|(x & b & E)].
      * exists [], b. cbn in E. now rewrite E.
      * exists (10 :: x), b. now rewrite E.
    + apply IH in H as [(b & E)|(x & b & E)].
      * left. exists b. rewrite <- E. cbn [rev]. now rewrite <- app_assoc.
      * right. exists (c :: x), b. now rewrite E.
Qed.
Lemma getlines_in s l : In l (getlines s) -> exists x b, s = x ++ l ++ b /\ (x = [] \/ exists y, x = y ++ [10]).
Proof.
  intros H. apply getlines_aux_in in H as [(b & E)|(x & b & E)].
  - exists [], b. cbn in E. auto.
  - exists (x ++ [10]), b. rewrite <- app_assoc. cbn [app]. split; [exact E|right; eauto].
Qed.
Lemma starts_with_iff h s : starts_with h s = true -> exists r, s = h ++ r.
Proof.
  revert s. induction h as [|x h IH]; intros s H; [exists s; auto|]. destruct s as [|y s]; [discriminate|]. cbn [starts_with] in H.
  apply andb_true_iff in H as [H1 H2]. apply N.eqb_eq in H1. apply IH in H2 as [r ->]. exists r. now subst.
Qed.
Lemma find_begin_none data : len data < 2 ^ 63 -> ~ line_begins armor_begin data -> find_begin (getlines data) = Ok None.
Proof.
  intros HL H. assert (G : forall l, In l (getlines data) -> len l <= len data /\ ~ exists r, l = armor_begin ++ r).
  { intros l Hl. apply getlines_in in Hl as (x & b & E & Hx). split; [rewrite E; unfold len; rewrite !app_length; lia|].
    intros (r & ->). apply H. exists x, (r ++ b). rewrite <- app_assoc in E. auto. }
  induction (getlines data) as [|l ls IH]; [reflexivity|]. cbn [find_begin].
  destruct (G l (or_introl eq_refl)) as [L1 L2].
  destruct (trim_spec whitespace l false true) as (a & t & b & E & El & _ & A & _); [unfold two64; lia|].
  unfold trim_whitespace at 1. rewrite E. cbn [bind]. cbn in A. subst a.
  destruct (starts_with armor_begin t) eqn:S.
  - exfalso. apply L2. apply starts_with_iff in S as [r ->]. cbn [app] in El. rewrite El, <- app_assoc. eauto.
  - apply IH. intros; apply G; now right.
Qed.
