(** Lemmas about reading compressed messages. *)
From Verif Require Import Proofs.PgpP Model.MessageIO.
Local Open Scope N_scope.

Lemma partials_len : forall n d pos acc acc' q, read_partials n d pos acc = Ok (acc', q) ->
  len acc + 1 <= pos -> len acc + 1 <= len d -> len acc' + 1 <= q /\ len acc' + 1 <= len d.
Proof.
  induction n as [|n IH]; intros d pos acc acc' q H A B; cbn [read_partials] in H; inv_bind H; (destruct (_ && _); [|apply Ok_inj in H; injection H as <- <-; auto]).
  - discriminate.
  - cbv zeta in H. inv_bind H. pose proof (substr_len _ _ _ _ E0) as L. apply substr_inv in E0 as [E0 _].
    apply IH in H; [auto| |]; rewrite len_app; lia.
Qed.
Lemma plain_start f ctb d p b : read_plain f ctb d p = Ok (Some b) -> bl_part b = NOT_PARTIAL -> bl_len b = 0 \/ p <= bl_start b.
Proof.
  unfold read_plain, read_one_octet_lengths, read_two_octet_lengths, read_five_octet_lengths.
  intros H Q. destruct f; repeat (inv_bind H); cbv zeta in H;
  repeat (match type of H with context [if ?b then _ else _] => destruct b end);
  repeat (inv_bind H);
  repeat (match goal with a : _ * _ |- _ => destruct a end);
  repeat (match goal with E : bind _ _ = Ok _ |- _ => inv_bind E end);
  repeat match goal with E : Ok _ = Ok _ |- _ => apply Ok_inj in E; try discriminate E end;
  try discriminate; subst;
  repeat match goal with E : Some _ = Some _ |- _ => injection E as E; subst b end;
  repeat match goal with E : (_, _) = (_, _) |- _ => injection E as <- <- end;
  cbn [bl_start bl_len bl_part] in *; try discriminate; lia.
Qed.
Lemma frame_data_len d f tag b : d <> [] -> read_frame d 0 = Ok (f, tag, b) -> len (bl_data b) + 1 <= len d.
Proof.
  intros D H. assert (L1 : 1 <= len d) by (destruct d; [congruence|rewrite len_cons; lia]).
  unfold read_frame in H. inv_bind H. destruct a as [[[c f'] t] q]. inv_bind H. apply Ok_inj in H. injection H as -> -> ->.
  assert (Q : q = 1). { unfold read_packet_header in E. inv_bind E. cbv zeta in E. destruct (_ =? 0); [discriminate|]. destruct (negb _); apply Ok_inj in E; injection E as _ _ _ <-; lia. }
  subst q. clear E. unfold read_packet_unformatted in E0. inv_bind E0. destruct a as [b'|].
  - apply Ok_inj in E0. subst b'. unfold read_plain in E.
    destruct f; repeat (inv_bind E); cbv zeta in E;
    repeat (match type of E with context [if ?b then _ else _] => destruct b eqn:? end);
    repeat (inv_bind E); repeat (match goal with a : _ * _ |- _ => destruct a end);
    apply Ok_inj in E; try discriminate; injection E as <-; cbn [bl_data]; try (change (len []) with 0; lia).
    match goal with X : substr _ _ _ = Ok _ |- _ => pose proof (substr_len _ _ _ _ X) as Y; rewrite Y; lia end.
  - inv_bind E0. cbv zeta in E0. inv_bind E0. inv_bind E0. destruct a1 as [acc r]. inv_bind E0.
    pose proof (substr_len _ _ _ _ E2) as S1. apply substr_inv in E2 as [S2 _].
    apply partials_len in E3 as [P1 P2]; [|lia|lia].
    destruct a1 as [b'|]; [|discriminate]. destruct (bl_part b') eqn:BP.
    + inv_bind E0. apply Ok_inj in E0. subst b. cbn [bl_data]. apply plain_start in E4; [|exact BP].
      pose proof (substr_len _ _ _ _ E2) as S3. apply substr_inv in E2 as [S4 _]. rewrite len_app. lia.
    + apply Ok_inj in E0. subst b. exact P2.
Qed.
(** A compressed packet's data are shorter than what it was read from. *)
Lemma compressed_shorter d f part alg z rest : read_raw d = Ok (mkPacket 8 f part (PCompressed alg z) :: rest) -> len z < len d.
Proof.
  intros H. assert (D : d <> []) by (intros ->; discriminate).
  assert (L1 : 1 <= len d) by (destruct d; [congruence|rewrite len_cons; lia]).
  apply read_raw_first in H as (q & H & _). unfold read_packet in H. inv_bind H. destruct a as [[f' tag] b]. inv_bind H.
  apply Ok_inj in H. injection H as -> _. pose proof (frame_data_len _ _ _ _ D E) as L.
  assert (X : forall x n, tag_read 8 x (bl_start b) n = Ok (PCompressed alg z) -> z = [] \/ len z + 1 <= len x).
  { intros x n T. unfold tag_read in T. cbn [contents_new bind] in T. destruct (n =? 0).
    - apply Ok_inj in T. injection T as <-. now left.
    - cbn [actual_read] in T. unfold tag8_read in T. inv_bind T. destruct a as [c p']. inv_bind E1. inv_bind E1. apply Ok_inj in E1. injection E1 as <- <-.
      destruct (_ =? _) in T; [|discriminate]. apply Ok_inj in T. injection T as <- <-. right.
      pose proof (substr_len _ _ _ _ E3) as Y. apply substr_inv in E3 as [Y2 _]. lia. }
  unfold read_packet_raw in E0. destruct (bl_part b); (destruct (_ && _); [discriminate|]); inv_bind E0; apply Ok_inj in E0;
    injection E0 as -> _ _ ->; apply X in E1 as [->|E1]; try (change (len []) with 0); lia.
Qed.
(** Written and read back alone. *)
Definition readable_length (f : header_format) (n : N) : Prop :=
  match f with NEW => n < 2 ^ 32 /\ ~ (8128 <= n <= 8383) | OLD => n < 2 ^ 16 end.
Lemma compressed_read f alg z w : readable_length f (1 + len z) ->
  write (mkPacket 8 f NOT_PARTIAL (PCompressed alg z)) = Ok w -> read_raw w = Ok [mkPacket 8 f NOT_PARTIAL (PCompressed alg z)].
Proof.
  intros R W. assert (HK : header_ok (mkPacket 8 f NOT_PARTIAL (PCompressed alg z)) (len (alg :: z))).
  { split; [reflexivity|]. rewrite len_cons. destruct f; cbn [p_format p_tag] in *; unfold readable_length in R; intuition lia. }
  destruct (frame_written _ (alg :: z) [] [] HK eq_refl) as (h & Hw & _).
  apply sequence_roundtrip.
  - exists h, (alg :: z). split; [exact Hw|]. split; [reflexivity|]. split; [exact HK|]. split; [reflexivity|]. split; exact I.
  - cbn [write_packets]. rewrite W. cbn [bind]. now rewrite app_nil_r.
Qed.
Lemma codec_back zip unzip alg d z : (forall z, zip alg d = Some z -> z <> [] /\ unzip alg z = Some d) ->
  codec zip alg d = Ok z -> codec unzip alg z = Ok d.
Proof.
  intros H E. unfold codec in *. destruct (negb (alg =? 0)) eqn:A; cbn [andb] in *; [|congruence].
  destruct (0 <? len d) eqn:L.
  - destruct (mem [1; 2; 3] alg); [|discriminate]. destruct (zip alg d) as [z'|]; [|discriminate]. apply Ok_inj in E. subst z'.
    destruct (H z eq_refl) as [N1 ->]. destruct z; [congruence|]. rewrite len_cons. now replace (0 <? 1 + len z) with true by lia.
  - apply Ok_inj in E. subst z. now rewrite L.
Qed.
