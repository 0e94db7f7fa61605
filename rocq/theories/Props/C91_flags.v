(** C91: flags of several octets. *)
From Verif Require Import Proofs.Lib Proofs.TimesP Proofs.ShowP Props.C91 Spec.Text Spec.Calendar Spec.Listed.
Local Open Scope N_scope.

(** The numbers of the bits set, octet by octet. *)
Definition set_bits (l : bytes) : list N := flat_map (fun o => filter (N.testbit o) [0; 1; 2; 3; 4; 5; 6; 7]) l.
Lemma filter_lines {A B} (f : A -> bool) (g : A -> B) l : flat_map (fun b => if f b then [g b] else []) l = map g (filter f l).
Proof. induction l as [|x l IH]; [reflexivity|]. cbn [flat_map filter]. rewrite IH. destruct (f x); reflexivity. Qed.
Lemma bit_lines_set t text l : bit_lines t text l = map (fun b => Say (str "Flag - " ++ mapped t (2 ^ b) ++ text (2 ^ b))) (set_bits l).
Proof. unfold bit_lines, set_bits. erewrite flat_map_ext; [|intros o; apply filter_lines]. induction l as [|o l IH]; [reflexivity|]. cbn [flat_map]. rewrite map_app, IH. reflexivity. Qed.

Definition flags_sub (kind : N) (l : bytes) : sub tag2 := if kind =? 23 then Sub23 l else if kind =? 27 then Sub27 l else Sub30 l.
(** Key server preferences, key flags and features are printed bit by bit, without the octet a bit is in:
    other flags of the same size can be printed the same. *)
Theorem C91_flags_refuted v i n kind critical l m : In kind [23; 27; 30] -> set_bits l = set_bits m ->
  v_size v (critical, flags_sub kind l) = v_size v (critical, flags_sub kind m) ->
  show v i n [shown_sig [(critical, flags_sub kind l)]] = show v i n [shown_sig [(critical, flags_sub kind m)]].
Proof.
  intros K B S. unfold show, show_events. cbn [packets_show]. unfold packet_show, shown_sig. cbn [p_format p_partial p_tag p_body contents_show tag2_show subs_show snd].
  assert (T : forall emb c, sub_show v emb c (critical, flags_sub kind l) = sub_show v emb c (critical, flags_sub kind m)).
  { intros emb c. unfold sub_show, sub_title. rewrite S. cbn [fst snd].
    cbn in K; decompose [or] K; try contradiction; subst kind; cbn [flags_sub N.eqb Pos.eqb sub_type sub_lines]; rewrite !bit_lines_set, B; reflexivity. }
  rewrite T. cbn in K; decompose [or] K; try contradiction; subst kind; reflexivity.
Qed.

(** *** Example: a key that may certify and sign, and one whose second octet has the flag of the second
    bit; both signatures are read. *)
Definition flagged (l : bytes) : bytes := [194; 17; 4; 24; 1; 8; 0; 4; 3; 27] ++ l ++ [0; 0; 1; 2; 0; 1; 1].
Example C91_flags_ex : set_bits [3; 0] = set_bits [1; 2] /\ set_bits [3; 0] <> set_bits [1; 4] /\
  Forall (fun l => read_raw (flagged l) = Ok [mkPacket 2 NEW NOT_PARTIAL (PSig (mkTag2 4 24 1 8 [1] [1; 2] 0 [] [(false, Sub27 l)] []))]) [[3; 0]; [1; 2]] /\
  exists text, show reader 0 4 [shown_sig [(false, Sub27 [3; 0])]] = Ok text /\ show reader 0 4 [shown_sig [(false, Sub27 [1; 2])]] = Ok text.
Proof.
  split; [reflexivity|]. split; [discriminate|]. split; [repeat constructor; vm_compute; reflexivity|]. eexists. split; [vm_compute; reflexivity|].
  etransitivity; [symmetry; apply (C91_flags_refuted reader 0 4 27 false [3; 0] [1; 2]); [cbn; tauto|reflexivity|reflexivity]|vm_compute; reflexivity].
Qed.
Print Assumptions C91_flags_refuted. Print Assumptions C91_flags_ex.
