(** C14, C15: ASCII armor. *)
From Verif Require Import Proofs.ArmorP Props.C10_C12.

(** ** C14 *)

(** The armored text of [body] is parsed as the same type, the same header keys and whatever
    packets [body] itself is parsed as; outcomes other than success included. *)
Theorem C14_armor_data_partial : forall type keys body,
  1 <= type <= 6 -> Forall armor_key_ok keys -> octets body -> body <> [] -> len body < 2 ^ 62 ->
  exists text, armor type keys body = Ok text /\
    pgp_read pgp_new text = (ps <- read_raw body ;; Ok (mkPgp true type keys ps)).
Proof. intros. apply (armored_read pgp_new); auto. Qed.

(** Round trip of whole objects, for packet sequences the binary reader gives back (C10).
    Missing: the types UNKNOWN and SIGNED_MESSAGE, keys with an empty value, no packets and
    the sequences C10 leaves out; each is refuted below or there. *)
Theorem C14_armor_roundtrip_partial : forall g text body,
  1 <= g_type g <= 6 -> Forall armor_key_ok (g_keys g) -> sequence 0 (g_packets g) ->
  write_packets (g_packets g) = Ok body -> octets body -> body <> [] -> len body < 2 ^ 62 ->
  pgp_write g ArmorYes = Ok text ->
  pgp_read pgp_new text = Ok (mkPgp true (g_type g) (g_keys g) (g_packets g)).
Proof.
  intros g text body Ht Hk Hs Hb Ho Hn HL Hw. unfold pgp_write in Hw. rewrite Hb in Hw. cbn [bind] in Hw.
  destruct (armored_read pgp_new _ _ _ Ht Hk Ho Hn HL) as (t & E & R). rewrite Hw in E. apply Ok_inj in E. subst t.
  rewrite R. rewrite (C10_sequence_roundtrip_partial _ _ Hs Hb). reflexivity.
Qed.

(** Without armor: read back as long as no line looks like an armor header. *)
Theorem C14_binary_partial : forall g body,
  sequence 0 (g_packets g) -> pgp_write g ArmorNo = Ok body -> len body < 2 ^ 63 ->
  ~ line_begins armor_begin body ->
  pgp_read pgp_new body = Ok (mkPgp false 0 [] (g_packets g)).
Proof.
  intros g body Hs Hw HL Hn. unfold pgp_write in Hw. inv_bind Hw. apply Ok_inj in Hw. subst a.
  unfold pgp_read. rewrite find_begin_none by auto. cbn [bind].
  rewrite (C10_sequence_roundtrip_partial _ _ Hs E). reflexivity.
Qed.

Definition C14_packets : list packet :=
  [mkPacket 13 NEW NOT_PARTIAL (PRaw (repeat 65 100)); mkPacket 12 OLD NOT_PARTIAL (PRaw [1;2;3])].
Example C14_ex : let g := mkPgp true 1 [(str "Version", str "a b"); (str "Comment", str "x")] C14_packets in
  exists body text, (1 <= g_type g <= 6) /\ Forall armor_key_ok (g_keys g) /\ sequence 0 (g_packets g) /\
    write_packets (g_packets g) = Ok body /\ octets body /\ body <> [] /\ len body < 2 ^ 62 /\
    pgp_write g ArmorYes = Ok text /\ ~ line_begins armor_begin body.
Proof.
  cbv zeta. eexists _, _. split; [cbn [g_type]; lia|]. split.
  { repeat constructor; cbn [fst snd]; try (intros X; vm_compute in X; decompose [or] X; discriminate || contradiction).
    - exists 97, [32; 98]. split; [reflexivity|]. intros X. vm_compute in X. decompose [or] X; discriminate || contradiction.
    - exists [97; 32], 98. split; [reflexivity|]. intros X. vm_compute in X. decompose [or] X; discriminate || contradiction.
    - exists 120, []. split; [reflexivity|]. intros X. vm_compute in X. decompose [or] X; discriminate || contradiction.
    - exists [], 120. split; [reflexivity|]. intros X. vm_compute in X. decompose [or] X; discriminate || contradiction. }
  split.
  { exists [205; 100], (repeat 65 100). repeat split; try (vm_compute; reflexivity); try (cbn; lia); try (vm_compute; lia).
    exists [176; 3], [1;2;3]. repeat split; try (vm_compute; reflexivity); [cbn; auto|]. discriminate. }
  split; [vm_compute; reflexivity|]. split; [apply octetsb_spec; vm_compute; reflexivity|].
  split; [discriminate|]. split; [vm_compute; reflexivity|]. split; [vm_compute; reflexivity|].
  intros (b & a & E & _). apply (f_equal (existsb (N.eqb 45))) in E. rewrite !existsb_app in E.
  vm_compute (existsb (N.eqb 45) armor_begin) in E. rewrite orb_true_r in E. discriminate.
Qed.

(** Missing parts.  A text of unknown type is never read back: the reader throws. *)
Theorem C14_unknown_type_refuted : forall keys body, exists text,
  armor 0 keys body = Ok text /\ forall g, pgp_read g text = Throw ERuntime.
Proof.
  intros keys body. eexists. split; [apply armor_text; reflexivity|]. intros g. unfold pgp_read, armor_parts.
  rewrite unlines_cons, <- app_assoc. cbn [app]. rewrite (getlines_line (armor_begin ++ [] ++ dashes)).
  - reflexivity.
  - vm_compute. intros X. decompose [or] X; discriminate || auto.
Qed.
(** So it is with the type SIGNED_MESSAGE. *)
Theorem C14_signed_type_refuted : forall keys body, exists text,
  armor 7 keys body = Ok text /\ forall g, pgp_read g text = Throw ERuntime.
Proof.
  intros keys body. eexists. split; [apply armor_text; reflexivity|]. intros g. unfold pgp_read, armor_parts.
  rewrite unlines_cons, <- app_assoc. cbn [app]. rewrite (getlines_line (armor_begin ++ str "SIGNED MESSAGE" ++ dashes)).
  - reflexivity.
  - vm_compute. intros X. decompose [or] X; discriminate || auto.
Qed.
(** A type outside the list makes the writer index its table out of range. *)
Theorem C14_bad_type_refuted : forall type keys body, 7 < type -> armor type keys body = UB.
Proof.
  intros type keys body H. unfold armor, vec_at.
  replace (nth_error armor_headers (N.to_nat type)) with (@None bytes); [reflexivity|].
  symmetry. apply nth_error_None. cbn [armor_headers length]. lia.
Qed.
(** An object without packets: the text it is written as makes the reader index an empty
    string out of range. *)
Theorem C14_empty_refuted : forall type keys, 1 <= type <= 6 -> Forall armor_key_ok keys ->
  exists text, pgp_write (mkPgp true type keys []) ArmorYes = Ok text /\ pgp_read pgp_new text = UB.
Proof.
  intros type keys Ht Hk. destruct (header_line type Ht) as (h & Eh & Et & N1 & N2 & T1 & T2).
  eexists. split; [unfold pgp_write; cbn [write_packets g_packets bind g_type g_keys]; apply armor_text; exact Eh|].
  unfold pgp_read. rewrite getlines_unlines.
  2:{ unfold armor_parts. intros l [<-|Hi]; [auto|]. apply in_app_or in Hi as [Hi|[<-|Hi]].
      - apply in_map_iff in Hi as (k & <- & Hi). rewrite Forall_forall in Hk. destruct (Hk k Hi) as (K1 & K2 & K3 & _).
        unfold key_text. intros X. apply in_app_or in X as [X|X]; [auto|]. apply in_app_or in X as [X|X]; [|auto]. destruct X as [X|[X|[]]]; discriminate.
      - auto.
      - destruct Hi as [<-|[]]. vm_compute. intros X. decompose [or] X; discriminate || auto. }
  rewrite getlines_last; [|auto|discriminate].
  unfold armor_parts. cbn [app find_begin]. rewrite T1. cbn [bind]. rewrite starts_with_app. cbn [bind].
  rewrite Et. cbn [bind]. rewrite <- ?app_assoc. cbn [app]. rewrite armor_keys_read by auto. cbn [bind].
  change (code_part []) with (@nil bytes). cbn [app armor_lines].
  replace (sum_line []) with [61; 116; 119; 84; 79] by (vm_compute; reflexivity).
  rewrite trim_clean; [|intros c Hc X; vm_compute in Hc, X; decompose [or] Hc; subst; decompose [or] X; discriminate || contradiction|discriminate|vm_compute; reflexivity].
  cbn [bind]. rewrite at_hd. cbn [bind N.eqb Pos.eqb].
  rewrite T2. cbn [bind]. change (at_ (armor_end ++ h ++ dashes) 0) with (@Ok N 45). cbn [bind N.eqb Pos.eqb]. rewrite starts_with_app. cbn [bind].
  replace (substr [61; 116; 119; 84; 79] 1 (len [61; 116; 119; 84; 79] - 1)) with (@Ok bytes [116; 119; 84; 79]) by (vm_compute; reflexivity).
  replace (radix642ascii [116; 119; 84; 79]) with (@Ok bytes [183; 4; 206]) by (vm_compute; reflexivity).
  reflexivity.
Qed.

(** A key whose value is empty is lost. *)
Theorem C14_empty_value_refuted : forall type key body,
  1 <= type <= 6 -> ~ In 10 key -> ~ In 58 key -> len key < 2 ^ 62 ->
  octets body -> body <> [] -> len body < 2 ^ 62 ->
  exists text, armor type [(key, [])] body = Ok text /\
    pgp_read pgp_new text = (ps <- read_raw body ;; Ok (mkPgp true type [] ps)).
Proof.
  intros type key body Ht H1 H2 HL. apply (armored_read_gen pgp_new type [(key, [])] []); auto.
  - intros k [<-|[]]. unfold key_text. cbn [fst snd]. intros X. apply in_app_or in X as [X|X]; [auto|].
    destruct X as [X|[X|[]]]; discriminate.
  - intros rest. cbn [map app armor_keys]. unfold key_text. cbn [fst snd]. change (str ": " ++ []) with [58; 32].
    replace (len (key ++ [58; 32]) =? 0) with false by (symmetry; apply N.eqb_neq; unfold len; rewrite app_length; cbn [length]; lia).
    replace (trim_whitespace (key ++ [58; 32]) false true) with (@Ok bytes (key ++ [58])).
    2:{ destruct (trim_spec whitespace (key ++ [58; 32]) false true) as (a & t & b & E & El & F & A & B).
        - unfold len in *. rewrite app_length. cbn [length]. unfold two64. lia.
        - unfold trim_whitespace. rewrite E. f_equal. cbn in A. subst a. cbn [app] in *.
          assert (key ++ [58] <> []) by (destruct key; discriminate).
          destruct b as [|x b] using rev_ind.
          + exfalso. rewrite app_nil_r in El. subst t. rewrite rev_app_distr in B. discriminate.
          + clear IHb. replace (key ++ [58; 32]) with ((key ++ [58]) ++ [32]) in El by (now rewrite <- app_assoc).
            rewrite app_assoc in El. apply app_inj_tail in El as [El _].
            destruct b as [|y b] using rev_ind; [now rewrite app_nil_r in El|].
            exfalso. rewrite app_assoc in El. apply app_inj_tail in El as [_ <-].
            apply Forall_app in F as [F _]. apply Forall_app in F as [_ F]. inversion F. discriminate. }
    cbn [bind]. replace (len (key ++ [58]) =? 0) with false by (symmetry; apply N.eqb_neq; unfold len; rewrite app_length; cbn [length]; lia).
    unfold armor_key. rewrite split_colon_app by auto. reflexivity.
Qed.
Example C14_empty_value_ex : ~ In 10 (str "Comment") /\ ~ In 58 (str "Comment").
Proof. split; intros X; vm_compute in X; decompose [or] X; discriminate || contradiction. Qed.

(** Reading into an object that has keys adds the text's keys to them. *)
Theorem C14_reread_refuted : forall g type keys body, 1 <= type <= 6 -> Forall armor_key_ok keys ->
  octets body -> body <> [] -> len body < 2 ^ 62 ->
  exists text, armor type keys body = Ok text /\
    pgp_read g text = (ps <- read_raw body ;; Ok (mkPgp true type (g_keys g ++ keys) ps)).
Proof. intros. now apply armored_read. Qed.

(** ** C15 *)

(** format_string: lines of [n] characters, each ended by a newline, that make up the text. *)
Theorem C15_format : forall s n, (0 < n)%nat ->
  exists ls, format_string s n = unlines ls /\ cut_in_lines n s ls.
Proof.
  intros s n Hn. exists (chunks n (length s) s). split; [reflexivity|]. now apply chunks_lines.
Qed.
(** Without its newlines the result is the text again. *)
Theorem C15_restore : forall s n, (0 < n)%nat -> ~ In 10 s ->
  filter (fun c => negb (c =? 10)) (format_string s n) = s.
Proof.
  intros s n Hn H. destruct (C15_format s n Hn) as (ls & -> & C & _). rewrite filter_unlines; auto.
  intros l Hl X. apply H. rewrite <- C. apply in_concat. eauto.
Qed.
(** The result is determined: two cuts of the same text are the same lines. *)
Theorem C15_unique : forall n s ls ls', cut_in_lines n s ls -> cut_in_lines n s ls' -> ls = ls'.
Proof.
  intros n s ls. revert s. induction ls as [|l ls IH]; intros s ls' (C & B & T) (C' & B' & T').
  - destruct ls' as [|l' ls']; auto. exfalso. specialize (B' l' (or_introl eq_refl)).
    cbn in C, C'. subst s. destruct l'; [cbn in B'; lia|discriminate].
  - destruct ls' as [|l' ls'].
    { exfalso. specialize (B l (or_introl eq_refl)). cbn in C, C'. subst s. destruct l; [cbn in B; lia|discriminate]. }
    assert (X : forall m (ms : list bytes), (forall l, In l (m :: ms) -> (1 <= length l <= n)%nat) ->
       (forall a l b, m :: ms = a ++ l :: b -> b <> [] -> length l = n) -> m ++ concat ms = s -> m = firstn n s /\ concat ms = skipn n s).
    { intros m ms Bm Tm Cm. destruct ms as [|m2 ms].
      - cbn in Cm. rewrite app_nil_r in Cm. subst m. specialize (Bm s (or_introl eq_refl)).
        rewrite firstn_all2, skipn_all2 by lia. auto.
      - specialize (Tm [] m (m2 :: ms) eq_refl). rewrite <- Cm, <- Tm by discriminate.
        rewrite firstn_app, skipn_app, Nat.sub_diag, firstn_all, skipn_all. cbn [firstn skipn]. rewrite app_nil_r. auto. }
    destruct (X l ls B T C) as [-> E]. destruct (X l' ls' B' T' C') as [-> E']. f_equal.
    apply (IH (skipn n s)); (split; [auto|split]).
    + intros x Hx. apply B. now right.
    + intros a x b Ea. apply (T (firstn n s :: a)). cbn [app]. now rewrite Ea.
    + intros x Hx. apply B'. now right.
    + intros a x b Ea. apply (T' (firstn n s :: a)). cbn [app]. now rewrite Ea.
Qed.
Example C15_ex : format_string (str "abcdefg") 3 = str "abc" ++ [10] ++ str "def" ++ [10] ++ str "g" ++ [10] /\
  ~ In 10 (str "abcdefg") /\ cut_in_lines 3 (str "abcdefg") [str "abc"; str "def"; str "g"].
Proof.
  split; [reflexivity|]. split; [intros X; vm_compute in X; decompose [or] X; discriminate || contradiction|].
  apply (chunks_lines 3 ltac:(lia) 7). vm_compute. lia.
Qed.

Print Assumptions C14_armor_data_partial.
Print Assumptions C14_armor_roundtrip_partial.
Print Assumptions C14_binary_partial.
Print Assumptions C14_unknown_type_refuted.
Print Assumptions C14_signed_type_refuted.
Print Assumptions C14_bad_type_refuted.
Print Assumptions C14_empty_refuted.
Print Assumptions C14_empty_value_refuted.
Print Assumptions C14_reread_refuted.
Print Assumptions C15_format.
Print Assumptions C15_restore.
Print Assumptions C15_unique.
