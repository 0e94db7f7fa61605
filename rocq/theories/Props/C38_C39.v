(** C38, C39: dash escaping and cleartext signatures. *)
From Verif Require Import Proofs.CleartextP Props.C10_C12 Props.C33_C35.

(** C38: after an escaped text's "-" at the start of a line comes a space. *)
Theorem C38_escaped : forall t before after, len t < 2 ^ 61 ->
  dash_escape t = before ++ 45 :: after -> (before = [] \/ exists b, before = b ++ [10]) -> exists r, after = 32 :: r.
Proof. exact escaped_dash. Qed.
Theorem C38_roundtrip : forall t, len t < 2 ^ 61 -> (forall b, t <> b ++ [10]) -> reverse_dash_escape (dash_escape t) = t.
Proof. exact escape_roundtrip. Qed.
Example C38_ex : let t := str "- a" ++ [10; 10] ++ str "--" ++ [10] ++ str "b-" in
  dash_escape t = str "- - a" ++ [10; 10] ++ str "- --" ++ [10] ++ str "b-" /\ forall b, t <> b ++ [10].
Proof.
  cbv zeta. split; [reflexivity|]. intros b E. apply (f_equal (@rev N)) in E. rewrite (rev_app_distr b) in E.
  apply (f_equal (hd 0)) in E. vm_compute in E. discriminate.
Qed.
(** A line feed at the end is lost, which is why the property leaves such texts out. *)
Theorem C38_final_newline : forall t, len t < 2 ^ 60 -> (forall b, t <> b ++ [10]) -> t <> [] ->
  reverse_dash_escape (dash_escape (t ++ [10])) = t.
Proof.
  intros t L H N0. rewrite <- (escape_roundtrip t) at 2 by (assumption || lia). f_equal. unfold dash_escape. do 3 f_equal.
  destruct (getlines_open t H) as [E X]. assert (F := getlines_lines t). rewrite E at 1. rewrite <- joined_unlines.
  - rewrite <- (app_nil_r (unlines _)). rewrite getlines_unlines by (now apply Forall_forall). apply app_nil_r.
  - intros G. rewrite G in E. contradiction.
Qed.

(** C39.  Writing and reading give the header keys and the signature back, and a text with
    the same signed octets under every signature packet.
    Missing: texts with a line whose white space at the end is not a carriage return
    followed by spaces and tabs or just spaces and tabs, texts that end in several blank
    lines (refuted below), and the keys, types and packets C14 leaves out. *)
Theorem C39_roundtrip_partial : forall c body text,
  len (cs_message c) < 2 ^ 61 -> (forall l, In l (getlines (cs_message c)) -> exists x, ends_tamely l x) -> ends_visibly (cs_message c) ->
  Forall armor_key_ok (cs_hash c) -> g_type (cs_sig c) = 6 -> g_armored (cs_sig c) = true ->
  Forall armor_key_ok (g_keys (cs_sig c)) -> (forall k, In k (g_keys (cs_sig c)) -> starts_with end_signature (fst k ++ str ": " ++ snd k) = false) ->
  sequence 0 (g_packets (cs_sig c)) -> write_packets (g_packets (cs_sig c)) = Ok body -> octets body -> body <> [] -> len body < 2 ^ 62 ->
  cs_write c = Ok text ->
  exists m, cs_read [] pgp_new text = Ok (mkCleartext (cs_hash c) m (cs_sig c)) /\
    forall s, input_01 (data_to_text m) s = input_01 (data_to_text (cs_message c)) s.
Proof.
  intros c body text L T V HK T6 AR GK GE S W O N LB H. exists (message_of (cs_message c)). split; [|now apply same_signed].
  rewrite (cs_read_back c body text) by assumption. rewrite (C10_sequence_roundtrip_partial _ _ S W). cbn [bind].
  destruct c as [ks m [a t gk ps]]. cbn in *. now subst.
Qed.

Definition C39_keys : list (bytes * bytes) := [(str "Hash", str "SHA256")].
Definition C39_sig : pgp := mkPgp true 6 [(str "Version", str "1")] [ex_sig 1].
Definition C39_ex_text : bytes := str "- a " ++ [9; 10; 10] ++ str "-----BEGIN PGP SIGNATURE-----" ++ [10] ++ str "b" ++ [13; 10].
Example C39_ex : let c := mkCleartext C39_keys C39_ex_text C39_sig in exists body text,
  (forall l, In l (getlines (cs_message c)) -> exists x, ends_tamely l x) /\ ends_visibly (cs_message c) /\
  Forall armor_key_ok (cs_hash c) /\ Forall armor_key_ok (g_keys (cs_sig c)) /\
  (forall k, In k (g_keys (cs_sig c)) -> starts_with end_signature (fst k ++ str ": " ++ snd k) = false) /\
  sequence 0 (g_packets (cs_sig c)) /\ write_packets (g_packets (cs_sig c)) = Ok body /\ octets body /\ body <> [] /\ len body < 2 ^ 62 /\
  cs_write c = Ok text.
Proof.
  assert (NB : forall l c, mem_char c whitespace = false -> forall y d, l ++ [c] = y ++ [d] -> ~ blank d).
  { intros l c M y d E B. apply app_inj_tail in E as [_ <-]. apply mem_char_blank in B. congruence. }
  cbv zeta. eexists _, _. split.
  { cbn [cs_message]. change (getlines C39_ex_text) with [str "- a" ++ [32; 9]; []; str "-----BEGIN PGP SIGNATURE-----"; str "b" ++ [13]].
    intros l [<-|[<-|[<-|[<-|[]]]]].
    - exists (str "- a"), [32; 9]. split; [apply Forall_cons; [now left|apply Forall_cons; [now right|apply Forall_nil]]|]. split; [auto|]. apply (NB (str "- ") 97). reflexivity.
    - exists [], []. split; [constructor|]. split; [auto|]. intros [|] ? [=].
    - exists (str "-----BEGIN PGP SIGNATURE-----"), []. split; [constructor|]. split; [auto|]. apply (NB (str "-----BEGIN PGP SIGNATURE----") 45). reflexivity.
    - exists (str "b"), []. split; [constructor|]. split; [auto|]. apply (NB [] 98). reflexivity. }
  split.
  { intros a b c E. left. change (getlines C39_ex_text) with [str "- a" ++ [32; 9]; []; str "-----BEGIN PGP SIGNATURE-----"; str "b" ++ [13]] in E.
    apply (f_equal (@rev bytes)) in E. rewrite rev_app_distr in E. cbn [rev app] in E. injection E as <- _ _.
    exists 98. split; [now left|]. unfold blank. cbn [In]. lia. }
  split.
  { repeat constructor; cbn [fst snd]; try (intros X; vm_compute in X; decompose [or] X; discriminate || contradiction).
    - exists 83, (str "HA256"). split; [reflexivity|]. intros X. vm_compute in X. decompose [or] X; discriminate || contradiction.
    - exists (str "SHA25"), 54. split; [reflexivity|]. intros X. vm_compute in X. decompose [or] X; discriminate || contradiction. }
  split.
  { repeat constructor; cbn [fst snd]; try (intros X; vm_compute in X; decompose [or] X; discriminate || contradiction).
    - exists 49, []. split; [reflexivity|]. intros X. vm_compute in X. decompose [or] X; discriminate || contradiction.
    - exists [], 49. split; [reflexivity|]. intros X. vm_compute in X. decompose [or] X; discriminate || contradiction. }
  split; [intros k [<-|[]]; reflexivity|].
  split.
  { exists [194; 29]. eexists. split; [vm_compute; reflexivity|]. split; [reflexivity|].
    split; [repeat split; vm_compute; intuition discriminate|]. split; [|split; [discriminate|exact I]].
    split; [reflexivity|]. cbn [sig_fits]. split; [reflexivity|]. split; [reflexivity|].
    split; [repeat (apply Forall_cons; [apply C10_fits; reflexivity|]); apply Forall_nil|]. left.
    cbn [allP snd sub_fits sub_kept]. unfold word32. repeat split; reflexivity. }
  split; [vm_compute; reflexivity|]. split; [apply octetsb_spec; vm_compute; reflexivity|].
  split; [discriminate|]. split; [vm_compute; reflexivity|]. vm_compute; reflexivity.
Qed.

(** The reader drops blank lines at the end of the message one by one, and white space other
    than spaces and tabs at the end of lines: the text is signed as other octets than it is
    verified as. *)
Definition changed (m : bytes) : Prop := exists text c' x y,
  let s := mkTag2 4 1 1 8 [5] [0; 0] 0 [] [(false, Sub2 1000)] [(false, Sub16 (repeat 1 8))] in
  cs_write (mkCleartext C39_keys m C39_sig) = Ok text /\ cs_read [] pgp_new text = Ok c' /\
  input_01 (data_to_text m) s = Ok x /\ input_01 (data_to_text (cs_message c')) s = Ok y /\ x <> y.
Theorem C39_blank_lines_refuted : changed (str "a" ++ [10; 10; 10]).
Proof. eexists _, _, _, _. cbv zeta. split; [vm_compute; reflexivity|]. split; [vm_compute; reflexivity|]. split; [vm_compute; reflexivity|]. split; [vm_compute; reflexivity|]. discriminate. Qed.
Theorem C39_form_feed_refuted : changed (str "a" ++ [12]).
Proof. eexists _, _, _, _. cbv zeta. split; [vm_compute; reflexivity|]. split; [vm_compute; reflexivity|]. split; [vm_compute; reflexivity|]. split; [vm_compute; reflexivity|]. discriminate. Qed.
Theorem C39_space_return_refuted : changed (str "a " ++ [13; 10] ++ str "b").
Proof. eexists _, _, _, _. cbv zeta. split; [vm_compute; reflexivity|]. split; [vm_compute; reflexivity|]. split; [vm_compute; reflexivity|]. split; [vm_compute; reflexivity|]. discriminate. Qed.

Print Assumptions C38_escaped.
Print Assumptions C38_roundtrip.
Print Assumptions C38_final_newline.
Print Assumptions C39_roundtrip_partial.
Print Assumptions C39_blank_lines_refuted.
Print Assumptions C39_form_feed_refuted.
Print Assumptions C39_space_return_refuted.
