(** C21, C22: PKCS #1 block encodings. *)
From Verif Require Import Model.Pkcs1 Proofs.CfbP.

(** Number of non-zero octets. *)
Definition nonzero (s : bytes) : nat := length (filter (fun c => negb (c =? 0)) s).

Lemma eme_pad_ok : forall rnd EM size EM' rnd', eme_pad rnd EM size = Ok (EM', rnd') -> len EM <= size ->
  exists ps, EM' = EM ++ ps /\ len EM' = size /\ Forall (fun c => c <> 0) ps /\ exists used, rnd = used ++ rnd' /\ filter (fun c => negb (c =? 0)) used = ps.
Proof.
  induction rnd as [|c rnd IH]; intros EM size EM' rnd' H L; cbn [eme_pad] in H; destruct (len EM <? size) eqn:B; try discriminate.
  1,3: apply Ok_inj in H; injection H as <- <-; exists []; rewrite app_nil_r; repeat split; [lia|constructor|exists []; easy].
  destruct (c =? 0) eqn:C.
  - destruct (IH _ _ _ _ H L) as (ps & -> & A & F & u & -> & E). exists ps. repeat split; auto. exists (c :: u). cbn [app filter]. rewrite C. auto.
  - destruct (IH _ _ _ _ H) as (ps & -> & A & F & u & -> & E); [rewrite len_app, len_cons, len_nil; lia|].
    exists (c :: ps). rewrite <- app_assoc in *. repeat split; auto; [constructor; [lia|auto]|].
    exists (c :: u). cbn [app filter]. rewrite C. cbn [negb]. now rewrite E.
Qed.
Lemma eme_pad_ends : forall rnd EM size, size <= len EM + N.of_nat (nonzero rnd) ->
  exists EM' rnd', eme_pad rnd EM size = Ok (EM', rnd').
Proof.
  induction rnd as [|c rnd IH]; intros EM size H; cbn [eme_pad]; destruct (len EM <? size) eqn:B; eauto.
  - cbn in H. lia.
  - unfold nonzero in *. cbn [filter] in H. destruct (c =? 0); cbn [negb] in H; apply IH; [lia|].
    cbn [length] in H. rewrite len_app, len_cons, len_nil. lia.
Qed.
Lemma eme_scan_ok : forall ps x t, Forall (fun c => c <> 0) ps -> eme_scan (ps ++ 0 :: t) x = x + len ps.
Proof.
  induction ps as [|c ps IH]; intros x t H; cbn [app eme_scan].
  - cbn. lia.
  - inversion H; subst. replace (c =? 0) with false by lia. rewrite IH by auto. rewrite len_cons. lia.
Qed.

(** ** C21 *)

(** Every message that fits, whatever the generator gives: the encoding, when it is
    reached, has k octets, is 0, 2, non-zero padding, 0, message; and decoding returns the
    message.  It is reached as soon as the generator has given enough non-zero octets. *)
Theorem C21_roundtrip : forall rnd m k, len m + 11 <= k -> k < two32 ->
  (forall em rest, eme_encode rnd m k = Ok (em, rest) ->
     eme_decode em = Ok m /\ len em = k /\
     exists ps, em = 0 :: 2 :: ps ++ 0 :: m /\ Forall (fun c => c <> 0) ps /\ 8 <= len ps) /\
  (k <= len m + 3 + N.of_nat (nonzero rnd) -> exists em rest, eme_encode rnd m k = Ok (em, rest)).
Proof.
  intros rnd m k H K. unfold eme_encode.
  assert (W : u32 (k + (two32 - 11)) = k - 11).
  { unfold u32. replace (k + (two32 - 11)) with (k - 11 + 1 * two32) by (unfold two32 in *; lia).
    rewrite N.mod_add by discriminate. apply N.mod_small. lia. }
  rewrite W. replace (k - 11 <? len m) with false by lia.
  assert (T : two32 < two64) by reflexivity.
  rewrite (sub64_small k) by lia. rewrite sub64_small by lia.
  split.
  - intros em rest E. apply bind_ok in E as ((EM & rnd') & E & E2). apply Ok_inj in E2. injection E2 as <- <-.
    destruct (eme_pad_ok _ _ _ _ _ E) as (ps & -> & L & F & _); [cbn; lia|].
    rewrite len_app in L. change (len [0; 2]) with 2 in L.
    assert (LE : len (([0; 2] ++ ps) ++ [0] ++ m) = k) by (rewrite !len_app; change (len [0; 2]) with 2; change (len [0]) with 1; lia).
    cbn [app] in *. split; [|split; [exact LE|exists ps; split; [reflexivity|split; [auto|lia]]]].
    unfold eme_decode. rewrite LE. destruct (11 <? k) eqn:K11; [|rewrite (len_0 m) by lia; reflexivity].
    rewrite (at_app [] 0 (2 :: ps ++ 0 :: m) 0 eq_refl : at_ (0 :: 2 :: ps ++ 0 :: m) 0 = Ok 0). cbn [bind N.eqb].
    rewrite (at_app [0] 2 (ps ++ 0 :: m) 1 eq_refl : at_ (0 :: 2 :: ps ++ 0 :: m) 1 = Ok 2). cbn [bind N.eqb Pos.eqb skipn].
    rewrite eme_scan_ok by auto. rewrite (sub64_small k) by lia. rewrite sub64_small by lia.
    replace (0 :: 2 :: ps ++ 0 :: m) with ((0 :: 2 :: ps ++ [0]) ++ m) by (cbn [app]; now rewrite <- app_assoc).
    apply substr_app_end; rewrite ?len_cons, ?len_app, ?len_cons, ?len_nil; lia.
  - intros N0. destruct (eme_pad_ends rnd [0; 2] (k - len m - 1)) as (EM & rnd' & ->); [change (len [0; 2]) with 2; lia|].
    cbn [bind]. eauto.
Qed.
(** A message that does not fit a key of at least 11 octets gives the empty string. *)
Theorem C21_too_long : forall rnd m k, 11 <= k -> k < two32 -> k < len m + 11 ->
  eme_encode rnd m k = Ok ([], rnd).
Proof.
  intros rnd m k H K L. unfold eme_encode.
  assert (W : u32 (k + (two32 - 11)) = k - 11).
  { unfold u32. replace (k + (two32 - 11)) with (k - 11 + 1 * two32) by (unfold two32 in *; lia).
    rewrite N.mod_add by discriminate. apply N.mod_small. lia. }
  rewrite W. replace (k - 11 <? len m) with true by lia. reflexivity.
Qed.
(** Decoding any string is safe: it gives the octets after the padding, nothing, or throws. *)
Theorem C21_decode_safe : forall s, safe (eme_decode s).
Proof.
  intros s. unfold eme_decode. destruct (11 <? len s) eqn:L; [|exact I].
  destruct (at_lt s 0 ltac:(lia)) as (c & -> & _). cbn [bind]. destruct (c =? 0); [|exact I].
  destruct (at_lt s 1 ltac:(lia)) as (d & -> & _). cbn [bind]. destruct (d =? 2); [|exact I]. apply safe_substr.
Qed.
Example C21_ex : eme_encode [5; 0; 6; 7; 8; 0; 0; 9; 1; 2; 3] [65; 0; 66] 14 = Ok ([0; 2; 5; 6; 7; 8; 9; 1; 2; 3; 0; 65; 0; 66], []).
Proof. reflexivity. Qed.

(** ** C22 *)

(** The shape of EMSA-PKCS1-v1_5 (RFC 8017 9.2) and its exact length, for every hash
    OpenPGP defines and a key long enough for three more octets. *)
Theorem C22_length : forall hash bits der digest keylength, map_at hash_length hash = Ok bits ->
  map_at asn1_der hash = Ok der -> len digest = bits / 8 -> keylength < 2 ^ 32 ->
  len der / 2 + 3 + bits / 8 <= keylength ->
  exists em n t, emsa_encode hash digest keylength = Ok em /\ len em = keylength /\
    unhexlify der = Ok t /\ em = 0 :: 1 :: repeat 255 n ++ 0 :: t ++ digest.
Proof.
  intros hash bits der digest k Hb Hd Ld Hk Hfit. unfold emsa_encode. rewrite Hd, Hb. cbn [bind].
  assert (D : exists t, unhexlify der = Ok t /\ len t = len der / 2 /\ len der < 50).
  { unfold asn1_der in Hd. cbn [map_at] in Hd.
    repeat match type of Hd with (if ?b then _ else _) = _ => destruct b; [apply Ok_inj in Hd; subst der; eexists; split; [vm_compute; reflexivity|split; vm_compute; reflexivity]|] end.
    discriminate. }
  destruct D as (t & Et & Lt & L50). rewrite !N.shiftr_div_pow2. change (2 ^ 1) with 2. change (2 ^ 3) with 8.
  change (2 ^ 32) with 4294967296 in Hk.
  rewrite (sub64_small k) by (unfold two64; lia). rewrite (sub64_small _ 3) by (unfold two64; lia). rewrite sub64_small by (unfold two64; lia).
  set (n := k - _ - _ - _). replace (n <? two64 / 2) with true.
  2:{ symmetry. apply N.ltb_lt. change (two64 / 2) with 9223372036854775808. unfold n. lia. }
  rewrite Et. cbn [bind]. eexists _, (N.to_nat n), t. split; [reflexivity|]. split; [|split; reflexivity].
  rewrite !len_app, len_repeat. change (len [0; 1]) with 2. change (len [0]) with 1. unfold n. lia.
Qed.

(** For a fixed hash and key length, different digests have different encodings; no
    hypothesis on the digests. *)
Theorem C22_injective : forall hash keylength d d' em, 
  emsa_encode hash d keylength = Ok em -> emsa_encode hash d' keylength = Ok em -> d = d'.
Proof.
  intros hash k d d' em H H'. unfold emsa_encode in *.
  destruct (map_at asn1_der hash) as [der| | |]; try discriminate. destruct (map_at hash_length hash) as [bits| | |]; try discriminate.
  cbn [bind] in *. destruct (_ <? _); try discriminate. destruct (unhexlify der) as [t| | |]; try discriminate. cbn [bind] in *.
  apply Ok_inj in H, H'. rewrite <- H' in H. now apply app_inv_head, app_inv_head, app_inv_head, app_inv_head in H.
Qed.
(** The digest can be told from the hash used as well: two hashes of the same key length
    never share an encoding (of digests of their own lengths). *)
Theorem C22_hash_distinct : forall h h' k d d' em b b',
  map_at hash_length h = Ok b -> map_at hash_length h' = Ok b' -> len d = b / 8 -> len d' = b' / 8 ->
  emsa_encode h d k = Ok em -> emsa_encode h' d' k = Ok em -> k < 2 ^ 32 -> h = h' /\ d = d'.
Proof.
  intros h h' k d d' em b b' Hb Hb' Ld Ld' H H' Hk. enough (h = h') by (subst h'; split; [easy|eapply C22_injective; eauto]).
  assert (P : forall h d b em, map_at hash_length h = Ok b -> len d = b / 8 -> emsa_encode h d k = Ok em ->
    exists n t, em = 0 :: 1 :: repeat 255 n ++ 0 :: t ++ d /\ bind (map_at asn1_der h) unhexlify = Ok t).
  { clear. intros h d b em Hb Ld H. unfold emsa_encode in H. rewrite Hb in H. destruct (map_at asn1_der h) as [der| | |]; try discriminate.
    cbn [bind] in *. destruct (_ <? _); try discriminate. destruct (unhexlify der) as [t| | |]; try discriminate. cbn [bind] in *.
    apply Ok_inj in H. subst em. eexists _, t. split; reflexivity. }
  destruct (P _ _ _ _ Hb Ld H) as (n & t & E & T). destruct (P _ _ _ _ Hb' Ld' H') as (n' & t' & E' & T').
  rewrite E in E'. injection E' as E'.
  assert (Q : t ++ d = t' ++ d').
  { clear -E'. revert n' E'. induction n as [|n IH]; intros [|n'] E'; cbn [repeat app] in E'; try (injection E'; auto; discriminate); try discriminate.
    injection E'. apply IH. }
  assert (S : In h [1; 2; 3; 8; 9; 10; 11] /\ In h' [1; 2; 3; 8; 9; 10; 11]).
  { clear -Hb Hb'. split; cbn [In]; [clear Hb'; rename Hb into X|clear Hb; rename Hb' into X]; unfold hash_length in X; cbn [map_at] in X;
    repeat match type of X with (if ?b then _ else _) = _ => destruct b eqn:?; [match goal with Q : (_ =? _) = true |- _ => apply N.eqb_eq in Q; rewrite <- Q end; tauto|] end; discriminate. }
  destruct S as [S S']. cbn [In] in S, S'.
  apply (f_equal (firstn 15)) in Q.
  decompose [or] S; clear S; try contradiction; decompose [or] S'; clear S'; try contradiction; subst h h'; try reflexivity; exfalso;
  vm_compute in T; vm_compute in T'; apply Ok_inj in T; apply Ok_inj in T'; subst t t'; cbn [app firstn] in Q; discriminate.
Qed.
Example C22_ex : map_at hash_length 8 = Ok 256 /\ len (repeat 7 32) = 256 / 8 /\
  bind (emsa_encode 8 (repeat 7 32) 64) (fun em => Ok (len em)) = Ok 64 /\ emsa_encode 8 (repeat 7 32) 53 = Throw ELogic.
Proof. repeat split; vm_compute; reflexivity. Qed.

Print Assumptions C21_roundtrip.
Print Assumptions C21_too_long.
Print Assumptions C21_decode_safe.
Print Assumptions C22_length.
Print Assumptions C22_injective.
Print Assumptions C22_hash_distinct.
