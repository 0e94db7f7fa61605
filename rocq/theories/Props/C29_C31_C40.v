(** Properties C29, C30, C31, C40: the octets that are signed. *)
From Verif Require Import Proofs.SigcalcP.

(** ** C29 *)

(** The octets hashed for a binary document by a version 4 signature give back the document
    and every hashed field. *)
Theorem C29_v4 : forall d d' s s', hashed_fits s -> hashed_fits s' ->
  input_00 d s = input_00 d' s' ->
  d = d' /\ t2_type s = t2_type s' /\ t2_pka s = t2_pka s' /\ t2_hash s = t2_hash s' /\ t2_hashed s = t2_hashed s'.
Proof. exact v4_signed. Qed.
(** Only those fields: the unhashed area, the integers and the rest are not covered. *)
Theorem C29_v4_only : forall d s us,
  input_00 d (with_unhashed s us) = input_00 d s.
Proof. intros d [] us. reflexivity. Qed.
(** A version 3 signature: document, type and time. *)
Theorem C29_v3 : forall d d' s s', t2_version s = 3 -> t2_version s' = 3 ->
  word32 (t2_time s) -> word32 (t2_time s') ->
  input_00 d s = input_00 d' s' -> d = d' /\ t2_type s = t2_type s' /\ t2_time s = t2_time s'.
Proof. exact v3_signed. Qed.
(** A version 3 signature of an assigned type is not a version 4 one of any document. *)
Theorem C29_versions : forall d d' s s', t2_version s = 3 -> t2_version s' = 4 -> t2_type s <> 255 ->
  input_00 d s <> input_00 d' s'.
Proof. exact v3_v4_signed. Qed.
(** A standalone signature and a timestamp sign the empty document. *)
Theorem C29_standalone : forall s s', hashed_fits s -> hashed_fits s' ->
  (input_02 s = input_02 s' \/ (t2_type s = 64 /\ t2_type s' = 64 /\ input_40 s = input_40 s')) ->
  t2_type s = t2_type s' /\ t2_pka s = t2_pka s' /\ t2_hash s = t2_hash s' /\ t2_hashed s = t2_hashed s'.
Proof.
  intros s s' F F' H. apply (v4_signed [] [] s s' F F'). pose proof F as [V _]. pose proof F' as [V' _].
  unfold input_02, input_40 in H. rewrite V, V' in H. destruct H as [H|(T & T' & H)]; [exact H|].
  now rewrite T, T' in H.
Qed.
(** A text document: the canonical text is determined. *)
Theorem C29_text_partial : forall t t' s s', hashed_fits s -> hashed_fits s' -> t <> [] -> t' <> [] ->
  len (text_to_canonical t) < 2 ^ 64 -> len (text_to_canonical t') < 2 ^ 64 ->
  input_01 t s = input_01 t' s' ->
  text_to_canonical t = text_to_canonical t' /\ t2_type s = t2_type s' /\ t2_pka s = t2_pka s' /\
  t2_hash s = t2_hash s' /\ t2_hashed s = t2_hashed s'.
Proof.
  intros t t' s s' F F' N0 N0' B B' E. unfold input_01 in E.
  destruct (canonical_ends t N0) as (x & X), (canonical_ends t' N0') as (x' & X').
  rewrite (canonical_body t x X B), (canonical_body t' x' X' B') in E.
  apply v4_signed in E as (-> & E); auto. split; [congruence|auto].
Qed.
(** Missing part: a line feed at the end of any text is not covered by its signature. *)
Theorem C29_text_refuted : forall t s, t <> [] -> (forall x, t <> x ++ [10]) ->
  input_01 (t ++ [10]) s = input_01 t s.
Proof. intros t s H E. unfold input_01. now rewrite canonical_final. Qed.

Definition signed_example : tag2 :=
  mkTag2 4 0 1 8 [77] [1;2] 0 [] [(true, Sub2 1234567890); (false, Sub3 86400); (false, Sub20 [128;0;0;0] (str "a@b") (str "c"))] [].
Example signed_example_fits : hashed_fits signed_example.
Proof. repeat split. Qed.
Example signed_octets : input_00 (str "hi") signed_example = Ok (str "hi" ++
  [4;0;1;8;0;26; 5;130;73;150;2;210; 5;3;0;1;81;128; 13;20;128;0;0;0;0;3;0;1;97;64;98;99; 4;255;0;0;0;32]).
Proof. vm_compute. reflexivity. Qed.

(** ** C30 *)

(** User IDs (tag 13) and user attributes (tag 17), certifications of any of the five types. *)
Theorem C30_v4 : forall type type' k k' tag tag' id id' s s' x,
  hashed_fits s -> hashed_fits s' -> key_fits days_16 k -> key_fits days_16 k' ->
  len (key_raw k) < 2 ^ 16 -> len (key_raw k') < 2 ^ 16 ->
  (tag = 13 \/ tag = 17) -> (tag' = 13 \/ tag' = 17) ->
  fits days_kept tag id -> fits days_kept tag' id' ->
  (forall w, raw id = Ok w -> len w < 2 ^ 32) -> (forall w, raw id' = Ok w -> len w < 2 ^ 32) ->
  input_cert type k tag id s = Ok x -> input_cert type' k' tag' id' s' = Ok x ->
  k = k' /\ tag = tag' /\ id = id' /\ type = type' /\ t2_pka s = t2_pka s' /\ t2_hash s = t2_hash s' /\
  t2_hashed s = t2_hashed s'.
Proof.
  intros type type' k k' tag tag' id id' s s' x F F' K K' B B' T T' I I' L L' E E'.
  apply cert_parts in E as (<- & c & C & E). apply cert_parts in E' as (<- & c' & C' & E').
  pose proof F as [V _]. pose proof F' as [V' _]. rewrite V in C. rewrite V' in C'.
  rewrite <- E' in E. apply v4_signed in E as (E & -> & -> & -> & ->); auto.
  apply overkey_inj in E as [-> E]; auto.
  destruct (certification_inj tag tag' id id' c c') as [-> ->]; auto. now repeat split.
Qed.
(** Subkey and primary key bindings determine both keys, direct key signatures the key. *)
Theorem C30_binding_v4 : forall p p' k k' s s', hashed_fits s -> hashed_fits s' ->
  key_fits days_16 p -> key_fits days_16 p' -> key_fits days_16 k -> key_fits days_16 k' ->
  len (key_raw p) < 2 ^ 16 -> len (key_raw p') < 2 ^ 16 -> len (key_raw k) < 2 ^ 16 -> len (key_raw k') < 2 ^ 16 ->
  input_18 p k s = input_18 p' k' s' -> p = p' /\ k = k' /\ t2_type s = t2_type s'.
Proof.
  intros p p' k k' s s' F F' P P' K K' B1 B2 B3 B4 E. apply v4_signed in E as (E & T & _); auto.
  apply overkey_inj in E as [-> E]; auto. rewrite <- (app_nil_r (overkey k)), <- (app_nil_r (overkey k')) in E.
  apply overkey_inj in E as [-> _]; auto.
Qed.
Theorem C30_direct_v4 : forall k k' s s', hashed_fits s -> hashed_fits s' ->
  key_fits days_16 k -> key_fits days_16 k' -> len (key_raw k) < 2 ^ 16 -> len (key_raw k') < 2 ^ 16 ->
  input_1f k s = input_1f k' s' -> k = k' /\ t2_type s = t2_type s'.
Proof.
  intros k k' s s' F F' K K' B B' E. apply v4_signed in E as (E & T & _); auto.
  rewrite <- (app_nil_r (overkey k)), <- (app_nil_r (overkey k')) in E. apply overkey_inj in E as [-> _]; auto.
Qed.
(** Not for version 3: a certification of an attribute is one of a user ID with its octets. *)
Theorem C30_v3_refuted : forall type k l w s, t2_version s = 3 -> raw (PAttributes l) = Ok w ->
  input_cert type k 17 (PAttributes l) s = input_cert type k 13 (PRaw w) s.
Proof. intros type k l w s V W. unfold input_cert, certification. rewrite V. cbn [N.eqb Pos.eqb]. now rewrite W. Qed.

Definition cert_sig : tag2 := mkTag2 4 19 1 8 [77] [1;2] 0 [] [(false, Sub2 1234567890); (false, Sub27 [3])] [].
Definition cert_key : key := mkKey 4 1234567890 1 [3233; 17] 0.
Example cert_hypotheses : hashed_fits cert_sig /\ key_fits days_16 cert_key /\ len (key_raw cert_key) < 2 ^ 16 /\
  fits days_kept 13 (PRaw (str "alice")).
Proof.
  split; [repeat split|]. split; [|split; [reflexivity|split; [cbn; auto 10|discriminate]]].
  split; [discriminate|]. split; [reflexivity|]. split; [|split; reflexivity].
  assert (forall m, m < 2 ^ 20 -> mpi_fits m) as M.
  { intros m H. apply (N.lt_le_trans _ (2 ^ 20)); [auto|]. apply N.pow_le_mono_r; lia. }
  repeat (apply Forall_cons; [apply M; reflexivity|]). apply Forall_nil.
Qed.
Example cert_octets : input_cert 19 cert_key 13 (PRaw (str "alice")) cert_sig = Ok
  ([153; 0;13; 4;73;150;2;210;1;0;12;12;161;0;5;17; 180;0;0;0;5] ++ str "alice" ++
   [4;19;1;8;0;9; 5;2;73;150;2;210; 2;27;3; 4;255;0;0;0;15]).
Proof. vm_compute. reflexivity. Qed.

(** ** C31 *)

(** The creation time is the last one of the hashed area, whatever the unhashed area. *)
Theorem C31_creation : forall s us a b e, t2_version s = 4 ->
  get_times (with_unhashed s us) = Ok (a, b, e) -> a = last_value creation (t2_hashed s) 0.
Proof.
  intros [v ty p h m l ti k hs us0] us a b e V E. cbn [t2_version] in V. subst v. cbn [t2_hashed].
  unfold get_times, with_unhashed in E. cbn [t2_version t2_hashed t2_unhashed N.eqb Pos.eqb] in E.
  rewrite scan_hashed, scan_unhashed in E. destruct (_ =? 0); [discriminate|]. apply Ok_inj in E. congruence.
Qed.
(** All times are those of the hashed area when the unhashed one has no times. *)
Theorem C31_hashed_partial : forall s, t2_version s = 4 ->
  Forall (fun c => sig_expiry (snd c) = None /\ key_expiry (snd c) = None) (t2_unhashed s) ->
  get_times s =
    let a := last_value creation (t2_hashed s) 0 in
    let b := last_value sig_expiry (t2_hashed s) 0 in
    let e := last_value key_expiry (t2_hashed s) 0 in
    if a =? 0 then Throw ERuntime
    else Ok (a, if b =? 0 then 0 else (a + b) mod 2 ^ 32, if e =? 0 then 0 else (a + e) mod 2 ^ 32).
Proof.
  intros s V U. unfold get_times. rewrite V. cbn [N.eqb Pos.eqb]. rewrite scan_hashed, scan_unhashed.
  rewrite (last_none sig_expiry (t2_unhashed s)), (last_none key_expiry (t2_unhashed s)).
  - cbv zeta. destruct (_ =? 0); [reflexivity|]. rewrite !(N.add_comm (last_value creation _ _)). reflexivity.
  - revert U. apply Forall_impl. tauto.
  - revert U. apply Forall_impl. tauto.
Qed.
(** Missing part: one more unhashed subpacket gives any signature any expiration time. *)
Theorem C31_expiration_refuted : forall s a b e t, t2_version s = 4 -> get_times s = Ok (a, b, e) -> 0 < t ->
  let s' := with_unhashed s (t2_unhashed s ++ [(false, Sub3 t)]) in
  (forall d, input_00 d s' = input_00 d s) /\ get_times s' = Ok (a, (t + a) mod 2 ^ 32, e).
Proof.
  intros [v ty p h m l ti k hs us] a b e t V E T. cbn [t2_version] in V. subst v. cbv zeta.
  split; [reflexivity|]. unfold get_times, with_unhashed in *. cbn [t2_version t2_hashed t2_unhashed N.eqb Pos.eqb] in *.
  rewrite scan_hashed, scan_unhashed in *.
  assert (L : forall f l v, last_value f (l ++ [(false, Sub3 t)]) v =
     match f (Sub3 t) with Some x => x | None => last_value f l v end).
  { intros f l0. induction l0 as [|c l0 IH]; intros v; [reflexivity|]. cbn [app last_value]. apply IH. }
  rewrite !L. cbn [sig_expiry key_expiry]. destruct (_ =? 0); [discriminate|]. apply Ok_inj in E.
  replace (t =? 0) with false by lia. unfold u32 in *. change two32 with (2 ^ 32) in *. congruence.
Qed.
Theorem C31_key_expiration_refuted : forall s a b e t, t2_version s = 4 -> get_times s = Ok (a, b, e) -> 0 < t ->
  let s' := with_unhashed s (t2_unhashed s ++ [(false, Sub9 t)]) in
  (forall d, input_00 d s' = input_00 d s) /\ get_times s' = Ok (a, b, (t + a) mod 2 ^ 32).
Proof.
  intros [v ty p h m l ti k hs us] a b e t V E T. cbn [t2_version] in V. subst v. cbv zeta.
  split; [reflexivity|]. unfold get_times, with_unhashed in *. cbn [t2_version t2_hashed t2_unhashed N.eqb Pos.eqb] in *.
  rewrite scan_hashed, scan_unhashed in *.
  assert (L : forall f l v, last_value f (l ++ [(false, Sub9 t)]) v =
     match f (Sub9 t) with Some x => x | None => last_value f l v end).
  { intros f l0. induction l0 as [|c l0 IH]; intros v; [reflexivity|]. cbn [app last_value]. apply IH. }
  rewrite !L. cbn [sig_expiry key_expiry]. destruct (_ =? 0); [discriminate|]. apply Ok_inj in E.
  replace (t =? 0) with false by lia. unfold u32 in *. change two32 with (2 ^ 32) in *. congruence.
Qed.
Example expiration : get_times signed_example = Ok (1234567890, 1234654290, 0) /\
  get_times (with_unhashed signed_example [(false, Sub3 (2 ^ 31))]) = Ok (1234567890, 3382051538, 0).
Proof. split; vm_compute; reflexivity. Qed.

(** ** C40 *)

(** Lines with any mix of LF and CR LF endings, with or without one after the last line. *)
Theorem C40_crlf : forall ls last, Forall (fun x => plain_line (fst x)) ls -> plain_line last ->
  text_to_canonical (text ls last) = crlf_text (map fst ls ++ match last with [] => [] | _ => [last] end).
Proof. exact canonical_text. Qed.
Theorem C40_idempotent : forall t, text_to_canonical (text_to_canonical t) = text_to_canonical t.
Proof. exact canonical_idempotent. Qed.
(** No line feed without a carriage return before it is left. *)
Theorem C40_no_bare_lf : forall t a b, text_to_canonical t = a ++ LF ++ b -> exists a', a = a' ++ [13].
Proof. intros t a b. apply canonical_no_bare. Qed.
(** The octets that are signed do not depend on the endings. *)
Theorem C40_signed : forall ls ls' last s, Forall (fun x => plain_line (fst x)) ls -> plain_line last ->
  map fst ls = map fst ls' -> input_01 (text ls last) s = input_01 (text ls' last) s.
Proof.
  intros ls ls' last s F P E. unfold input_01. rewrite !canonical_text, E; auto.
  clear - F E. revert ls' E. induction F as [|x ls H _ IH]; intros [|y ls'] E; try discriminate E; [constructor|].
  cbn [map] in E. assert (fst x = fst y) as X by congruence. constructor; [now rewrite <- X|]. apply IH. congruence.
Qed.
(** They are the lines joined by CR LF. *)
Theorem C40_signed_octets : forall ls last s, Forall (fun x => plain_line (fst x)) ls -> plain_line last -> last <> [] ->
  len (text_to_canonical (text ls last)) < 2 ^ 64 ->
  input_01 (text ls last) s = addtrailer (crlf_text (map fst ls) ++ last) s.
Proof.
  intros ls last s F P N0 B. unfold input_01. f_equal. apply canonical_body; [|exact B].
  rewrite canonical_text by auto. unfold crlf_text. rewrite map_app, concat_app, <- app_assoc.
  destruct last; [easy|]. f_equal. cbn [map concat]. apply app_nil_r.
Qed.
Example two_lines : let t1 := text [(str "From: a", false); ([], true)] (str "hi") in
  let t2 := text [(str "From: a", true); ([], true)] (str "hi") in
  t1 <> t2 /\ plain_line (str "From: a") /\ text_to_canonical t1 = str "From: a" ++ [13;10;13;10] ++ str "hi" ++ [13;10].
Proof.
  split; [discriminate|]. split; [|vm_compute; reflexivity]. split.
  - cbn. intuition discriminate.
  - intros l E. apply (f_equal (@rev N)) in E. rewrite rev_app_distr in E. discriminate.
Qed.

Print Assumptions C29_v4.
Print Assumptions C29_v4_only.
Print Assumptions C29_v3.
Print Assumptions C29_versions.
Print Assumptions C29_standalone.
Print Assumptions C29_text_partial.
Print Assumptions C29_text_refuted.
Print Assumptions C30_v4.
Print Assumptions C30_binding_v4.
Print Assumptions C30_direct_v4.
Print Assumptions C30_v3_refuted.
Print Assumptions C31_creation.
Print Assumptions C31_hashed_partial.
Print Assumptions C31_expiration_refuted.
Print Assumptions C31_key_expiration_refuted.
Print Assumptions C40_crlf.
Print Assumptions C40_idempotent.
Print Assumptions C40_no_bare_lf.
Print Assumptions C40_signed.
Print Assumptions C40_signed_octets.
