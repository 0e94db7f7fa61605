(** Key derivation. *)
From Verif Require Export Spec.S2k Proofs.HashP Proofs.Lib.

Lemma coded_count_ok c : c < 256 -> coded_count c = octet_count c.
Proof.
  intros H. unfold coded_count, octet_count, u32.
  change 15 with (N.ones 4). rewrite land_ones_mod. change (2 ^ 4) with 16.
  rewrite N.shiftr_div_pow2, N.shiftl_mul_pow2. change (2 ^ 4) with 16.
  apply N.mod_small.
  assert (A : 16 + c mod 16 < 32) by (pose proof (N.mod_lt c 16); lia).
  assert (B : 2 ^ (c / 16 + 6) <= 2 ^ 21).
  { apply N.pow_le_mono_r; [lia|]. assert (c / 16 <= 15); [|lia]. apply N.lt_succ_r, N.div_lt_upper_bound; lia. }
  change (2 ^ 21) with 2097152 in B. unfold two32. nia.
Qed.
Lemma octet_count_bound c : c < 256 -> 1024 <= octet_count c < 2 ^ 26.
Proof.
  intros H. unfold octet_count.
  assert (A : 16 <= 16 + c mod 16 < 32) by (pose proof (N.mod_lt c 16); lia).
  assert (B : 2 ^ (c / 16 + 6) <= 2 ^ 21).
  { apply N.pow_le_mono_r; [lia|]. assert (c / 16 <= 15); [|lia]. apply N.lt_succ_r, N.div_lt_upper_bound; lia. }
  assert (C : 2 ^ 6 <= 2 ^ (c / 16 + 6)) by (apply N.pow_le_mono_r; lia).
  change (2 ^ 21) with 2097152 in B. change (2 ^ 6) with 64 in C. change (2 ^ 26) with 67108864. nia.
Qed.

Lemma concat_repeat_length (s : bytes) n : length (concat (repeat s n)) = (n * length s)%nat.
Proof. induction n; cbn [repeat concat]; [easy|]. rewrite app_length. lia. Qed.
Lemma concat_repeat_app (s : bytes) m n : concat (repeat s (m + n)) = concat (repeat s m) ++ concat (repeat s n).
Proof. now rewrite repeat_app, concat_app. Qed.
Lemma firstn_concat_more (s : bytes) k m n : (k <= m * length s)%nat -> (m <= n)%nat ->
  firstn k (concat (repeat s n)) = firstn k (concat (repeat s m)).
Proof.
  intros H L. replace n with (m + (n - m))%nat by lia. rewrite concat_repeat_app, firstn_app, concat_repeat_length.
  replace (k - m * length s)%nat with 0%nat by lia. rewrite firstn_O. apply app_nil_r.
Qed.
(** [n] copies and the start of another make [n * L + r] octets of the repetition. *)
Lemma cycle_copies (s : bytes) n r : (r <= length s)%nat -> s <> [] ->
  cycle s (N.of_nat (n * length s + r)) = concat (repeat s n) ++ firstn r s.
Proof.
  intros Hr Hs. unfold cycle. rewrite Nat2N.id.
  assert (L : (0 < length s)%nat) by (destruct s; [easy|cbn; lia]).
  set (k := (n * length s + r)%nat).
  destruct (Nat.eq_dec k 0) as [Z|Z].
  - assert (n = 0%nat) by nia. assert (r = 0%nat) by lia. subst n r. reflexivity.
  - destruct (Nat.le_gt_cases (S n) k) as [Q|Q].
    + rewrite (firstn_concat_more s k (S n) k) by (unfold k in *; nia).
      replace (S n) with (n + 1)%nat by lia. rewrite concat_repeat_app, firstn_app, concat_repeat_length.
      replace (k - n * length s)%nat with r by (unfold k; lia).
      rewrite firstn_all2 by (rewrite concat_repeat_length; unfold k; lia).
      cbn [repeat concat]. now rewrite app_nil_r.
    + assert (length s = 1%nat /\ r = 0%nat) as [L1 R0] by (unfold k in *; nia).
      unfold k. rewrite R0, L1, Nat.mul_1_r, Nat.add_0_r, firstn_O, app_nil_r.
      apply firstn_all2. rewrite concat_repeat_length. lia.
Qed.

Section alg.
  Variables (A : md) (h : shape).
  Hypothesis HA : agrees A h.

  (** The feeding loop. *)
  Lemma feed_ok combined coded : octets combined -> combined <> [] -> len combined <= 2 ^ 32 - 128 ->
    forall n m st, octets m -> after A h m st ->
    forall k base, m = base ++ concat (repeat combined k) ->
    (k = 0%nat \/ N.of_nat k * len combined + len combined < coded) -> coded < N.of_nat n + N.of_nat k ->
    exists st' k', s2k_feed n A combined coded st (N.of_nat k * len combined) = Ok (st', N.of_nat k' * len combined) /\
      (k' <> 0)%nat /\ after A h (base ++ concat (repeat combined k')) st' /\ octets (base ++ concat (repeat combined k')) /\
      coded <= N.of_nat k' * len combined + len combined /\
      (k' = 1%nat \/ N.of_nat k' * len combined < coded).
  Proof.
    intros Oc Nc Lc. assert (Lp : 1 <= len combined) by (destruct combined; [easy|rewrite len_cons; lia]).
    induction n as [|n IH]; intros m st Om Ha k base Em Hk Hn.
    { exfalso. destruct Hk as [->|Hk]; [|nia]. lia. }
    cbn [s2k_feed].
    assert (Em' : m ++ combined = base ++ concat (repeat combined (S k))).
    { rewrite Em, <- app_assoc. f_equal. replace (S k) with (k + 1)%nat by lia. rewrite concat_repeat_app.
      cbn [repeat concat]. now rewrite app_nil_r. }
    assert (Om' : octets (m ++ combined)) by (apply octets_app; auto).
    pose proof (after_update A h HA m st combined Om Oc Lc Ha) as Ha'.
    replace (N.of_nat k * len combined + len combined) with (N.of_nat (S k) * len combined) by lia.
    destruct (_ <? coded) eqn:B.
    - apply N.ltb_lt in B.
      destruct (IH (m ++ combined) (md_update A st combined) Om' Ha' (S k) base Em'
                  (or_intror B) ltac:(lia)) as (st' & k' & R). exists st', k'. exact R.
    - apply N.ltb_ge in B. exists (md_update A st combined), (S k). split; [reflexivity|]. split; [lia|].
      rewrite <- Em'. split; [exact Ha'|]. split; [exact Om'|]. split; [lia|].
      destruct Hk as [->|Hk]; [now left|right; lia].
  Qed.

  Lemma context_ok alg combined coded i : hash_alg alg = Ok A -> octets combined -> combined <> [] ->
    len combined <= 2 ^ 32 - 128 -> 1 <= coded < 2 ^ 32 -> N.of_nat i <= 2 ^ 32 - 128 ->
    s2k_context alg combined coded i =
    Ok (digest_spec A h (repeat 0 i ++ cycle combined (N.max (len combined) coded))).
  Proof.
    intros EA Oc Nc Lc Hc Hi. unfold s2k_context. rewrite EA. cbn [bind].
    assert (Lp : 1 <= len combined) by (destruct combined; [easy|rewrite len_cons; lia]).
    assert (Oz : octets (repeat 0 i)) by (apply octets_repeat; lia).
    assert (A0 : after A h (repeat 0 i) (md_update A (md_new A) (repeat 0 i))).
    { apply (after_update A h HA [] (md_new A) (repeat 0 i)); auto; [constructor|rewrite len_repeat; lia|now apply after_new]. }
    destruct (feed_ok combined coded Oc Nc Lc (S (N.to_nat coded)) (repeat 0 i) _ Oz A0 0%nat (repeat 0 i))
      as (st & k & R & K0 & Ha & Om & K1 & K2).
    { cbn [repeat concat]. now rewrite app_nil_r. } { now left. } { lia. }
    cbn [N.of_nat N.mul] in R. rewrite R. cbn [bind]. clear R A0.
    assert (D : forall m, octets m -> len m < 2 ^ 61 -> forall s, after A h m s -> md_digest A s = digest_spec A h m)
      by (intros; now apply digest_after).
    assert (LK : N.of_nat k * len combined < 2 ^ 33).
    { change (2 ^ 33) with 8589934592. change (2 ^ 32 - 128) with 4294967168 in Lc. change (2 ^ 32) with 4294967296 in Hc.
      destruct K2 as [->|]; lia. }
    assert (Len : forall x, len x <= len combined -> len ((repeat 0 i ++ concat (repeat combined k)) ++ x) < 2 ^ 61).
    { intros x Hx. rewrite !len_app, len_repeat. unfold len at 1. rewrite concat_repeat_length.
      rewrite Nat2N.inj_mul. fold (len combined).
      change (2 ^ 61) with 2305843009213693952. change (2 ^ 33) with 8589934592 in LK.
      change (2 ^ 32 - 128) with 4294967168 in *. lia. }
    destruct (_ <? coded) eqn:B.
    - apply N.ltb_lt in B. rewrite prefix_substr. cbn [bind].
      set (r := Base.prefix combined _).
      assert (Er : r = firstn (N.to_nat (coded - N.of_nat k * len combined)) combined).
      { unfold r, Base.prefix. f_equal. lia. }
      assert (Or : octets r) by (rewrite Er; now apply octets_firstn).
      assert (Lr : len r <= len combined) by (rewrite Er, len_firstn; lia).
      f_equal. rewrite (D ((repeat 0 i ++ concat (repeat combined k)) ++ r)).
      + rewrite <- app_assoc. do 2 f_equal.
        replace (N.max (len combined) coded) with (N.of_nat (k * length combined + N.to_nat (coded - N.of_nat k * len combined)))
          by (unfold len in *; nia).
        rewrite cycle_copies by (unfold len in *; try easy; lia). now rewrite Er.
      + apply octets_app; auto.
      + auto.
      + apply after_update; auto. lia.
    - apply N.ltb_ge in B. cbn [bind]. f_equal. rewrite (D (repeat 0 i ++ concat (repeat combined k))); auto.
      + do 2 f_equal.
        replace (N.max (len combined) coded) with (N.of_nat (k * length combined + 0)) by (unfold len in *; nia).
        rewrite cycle_copies by (try easy; lia). now rewrite firstn_O, app_nil_r.
      + rewrite <- (app_nil_r (_ ++ _)). apply Len. rewrite len_nil. lia.
  Qed.
End alg.

Lemma contexts_ok alg combined coded (f : nat -> bytes) : forall l out,
  (forall i, In i l -> s2k_context alg combined coded i = Ok (f i)) ->
  s2k_contexts alg combined coded l out = Ok (out ++ concat (map f l)).
Proof.
  unfold s2k_contexts. induction l as [|i l IH]; intros out H; cbn [map concat].
  - now rewrite app_nil_r.
  - rewrite H by now left. cbn [bind]. rewrite IH by (intros; apply H; now right). now rewrite app_assoc.
Qed.

(** Enough digests make the key. *)
Lemma concat_len_ge {X} (f : X -> bytes) d l : (forall i, In i l -> length (f i) = d) -> length (concat (map f l)) = (length l * d)%nat.
Proof. induction l as [|i l IH]; intros H; cbn [map concat length]; [easy|]. rewrite app_length, H, IH; [lia|intros; apply H; now right|now left]. Qed.
Lemma key_enough (f : nat -> bytes) d n klen : (forall i, length (f i) = d) -> (n <= klen)%nat -> (klen <= n * d)%nat ->
  firstn klen (concat (map f (seq 0 n))) = firstn klen (concat (map f (seq 0 klen))).
Proof.
  intros Hd H1 H2. replace klen with (n + (klen - n))%nat at 3 by lia.
  rewrite seq_app, map_app, concat_app, firstn_app, (concat_len_ge f d) by auto.
  rewrite seq_length. replace (klen - n * d)%nat with 0%nat by lia. now rewrite firstn_O, app_nil_r.
Qed.
Lemma loop_ok alg data (f : nat -> bytes) d klen : (1 <= d)%nat -> (forall i, length (f i) = d) ->
  forall n c out, (forall i, (i < N.to_nat klen)%nat -> hash_use alg (repeat 0 i ++ data) = Ok (f i)) ->
  (N.to_nat klen < n + c)%nat -> out = concat (map f (seq 0 c)) ->
  ((c <= N.to_nat klen)%nat) ->
  s2k_loop n alg data c klen out = Ok (firstn (N.to_nat klen) (concat (map f (seq 0 (N.to_nat klen))))).
Proof.
  intros Hd Hf. induction n as [|n IH]; intros c out Hu Hn Ho Hc; [lia|]. cbn [s2k_loop].
  assert (Lo : length out = (c * d)%nat) by (rewrite Ho, (concat_len_ge f d) by auto; now rewrite seq_length).
  destruct (len out <? klen) eqn:B.
  - apply N.ltb_lt in B. unfold len in B. rewrite Hu by nia. cbn [bind]. apply IH; auto; try nia.
    replace (S c) with (c + 1)%nat by lia. rewrite seq_app, map_app, concat_app, <- Ho. cbn [seq map concat Nat.add]. now rewrite app_nil_r.
  - apply N.ltb_ge in B. unfold len in B.
    unfold substr. replace (len out <? 0) with false by lia. f_equal. rewrite N.sub_0_r, N.min_l by (unfold len; nia).
    cbn [N.to_nat skipn]. rewrite Ho. apply (key_enough f d); auto; lia.
Qed.

(** Termination and length, without any bound on the passphrase. *)
Lemma feed_ends A combined coded : combined <> [] -> forall n st hashed, coded <= N.of_nat n + hashed ->
  exists st' hashed', s2k_feed (S n) A combined coded st hashed = Ok (st', hashed').
Proof.
  intros Nc. assert (Lp : 1 <= len combined) by (destruct combined; [easy|rewrite len_cons; lia]).
  induction n as [|n IH]; intros st hashed H; (cbn [s2k_feed]; destruct (_ <? coded) eqn:B; [|eauto]).
  - apply N.ltb_lt in B. lia.
  - apply IH. lia.
Qed.
Lemma context_len alg A combined coded i : hash_alg alg = Ok A -> combined <> [] ->
  exists d bits, s2k_context alg combined coded i = Ok d /\ map_at hash_length alg = Ok bits /\ len d = bits / 8.
Proof.
  intros EA Nc. unfold s2k_context. rewrite EA. cbn [bind].
  destruct (feed_ends A combined coded Nc (N.to_nat coded) (md_update A (md_new A) (repeat 0 i)) 0 ltac:(lia)) as (st & k & ->).
  cbn [bind]. destruct (k <? coded).
  - rewrite prefix_substr. cbn [bind].
    destruct (digest_length alg A (md_update A st (Base.prefix combined (coded - k))) EA) as (b & h & Eb & _ & L & _). eauto.
  - cbn [bind]. destruct (digest_length alg A st EA) as (b & h & Eb & _ & L & _). eauto.
Qed.
Lemma hash_bits alg A : hash_alg alg = Ok A -> exists bits, map_at hash_length alg = Ok bits /\ bits mod 8 = 0 /\ 128 <= bits <= 512.
Proof.
  intros H. unfold hash_alg in H.
  repeat match type of H with context [match ?x with _ => _ end] => destruct x; try discriminate H end;
  (eexists; split; [reflexivity|]; split; [reflexivity|lia]).
Qed.
Lemma contexts_enough klen d : 0 < d -> klen <= (klen / d + (if klen mod d =? 0 then 0 else 1)) * d.
Proof. intros H. pose proof (N.div_mod klen d ltac:(lia)). pose proof (N.mod_lt klen d ltac:(lia)). destruct (N.eqb_spec (klen mod d) 0); nia. Qed.
Lemma contexts_few klen d : 0 < d -> klen / d + (if klen mod d =? 0 then 0 else 1) <= klen.
Proof. intros H. pose proof (N.div_mod klen d ltac:(lia)). pose proof (N.mod_lt klen d ltac:(lia)). destruct (N.eqb_spec (klen mod d) 0); nia. Qed.

(** Total function giving the digest; the hash identifier is known to be good. *)
Definition digest_of (alg : N) (m : bytes) : bytes :=
  match hash_use alg m with Ok d => d | _ => [] end.
Lemma digest_of_len alg A bits m : hash_alg alg = Ok A -> map_at hash_length alg = Ok bits -> length (digest_of alg m) = N.to_nat (bits / 8).
Proof.
  intros H E. unfold digest_of, hash_use. rewrite H. cbn [bind]. unfold md_hash.
  destruct (digest_length alg A (md_update A (md_new A) m) H) as (b & h & Eb & _ & L & _).
  rewrite Eb in E. apply Ok_inj in E. subst b. unfold len in L. lia.
Qed.
Lemma loop_run alg A data klen : hash_alg alg = Ok A ->
  s2k_loop (S (N.to_nat klen)) alg data 0 klen [] = Ok (s2k_key (digest_of alg) data klen).
Proof.
  intros H. destruct (hash_bits alg A H) as (bits & Eb & M & B).
  unfold s2k_key. apply (loop_ok alg data (fun i => digest_of alg (repeat 0 i ++ data)) (N.to_nat (bits / 8))); auto.
  - lia.
  - intros i. now apply (digest_of_len alg A).
  - intros i _. unfold digest_of, hash_use. rewrite H. reflexivity.
  - lia.
  - lia.
Qed.
Lemma key_len (H : bytes -> bytes) d input klen : (1 <= d)%nat -> (forall m, length (H m) = d) -> len (s2k_key H input klen) = klen.
Proof.
  intros Hd HH. unfold s2k_key. rewrite len_firstn. unfold len. rewrite (concat_len_ge _ d) by auto. rewrite seq_length. nia.
Qed.

Lemma contexts_shape alg A combined coded : hash_alg alg = Ok A -> combined <> [] ->
  exists bits, map_at hash_length alg = Ok bits /\ forall l out, exists x,
  s2k_contexts alg combined coded l out = Ok (out ++ x) /\ len x = N.of_nat (length l) * (bits / 8).
Proof.
  intros EA Nc. destruct (hash_bits alg A EA) as (bits & Eb & _). exists bits. split; [exact Eb|].
  unfold s2k_contexts. induction l as [|i l IH]; intros out.
  - exists []. rewrite app_nil_r. split; [reflexivity|]. cbn. lia.
  - destruct (context_len alg A combined coded i EA Nc) as (d & b & -> & Eb' & L). rewrite Eb in Eb'. apply Ok_inj in Eb'. subst b.
    cbn [bind]. destruct (IH (out ++ d)) as (x & -> & Lx). exists (d ++ x). rewrite app_assoc. split; [reflexivity|].
    rewrite len_app. cbn [length]. lia.
Qed.

(** Every key length. *)
Lemma run_len s pass klen A : hash_alg (s2k_hash s) = Ok A -> (s2k_kind s = S2K3 -> s2k_salt s ++ pass <> []) ->
  exists k, s2k_run s pass klen = Ok k /\ len k = klen.
Proof.
  intros HA Hn. destruct (hash_bits _ A HA) as (bits & Eb & M & B). unfold s2k_run.
  destruct (s2k_kind s).
  1,2: rewrite (loop_run _ A) by auto; eexists; split; [reflexivity|]; apply (key_len _ (N.to_nat (bits / 8))); [lia|];
    intros m; now apply (digest_of_len _ A).
  rewrite Eb. cbn [bind]. rewrite N.shiftr_div_pow2. change (2 ^ 3) with 8.
  assert (D : 0 < bits / 8) by lia.
  pose proof (contexts_enough klen (bits / 8) D) as C. set (n := klen / _ + _) in *.
  destruct (contexts_shape _ A (s2k_salt s ++ pass) (coded_count (s2k_count s)) HA (Hn eq_refl)) as (b & Eb' & S).
  rewrite Eb in Eb'. apply Ok_inj in Eb'. subst b.
  destruct (S (seq 0 (N.to_nat n)) []) as (x & -> & L). cbn [app bind]. rewrite seq_length, N2Nat.id in L.
  destruct (substr_ok x 0 klen ltac:(lia)) as (k & Ek). exists k. split; [exact Ek|].
  apply substr_len in Ek. lia.
Qed.

(** The key is the one the specification describes. *)
Lemma digest_of_spec alg A h m : hash_alg alg = Ok A -> agrees A h -> octets m -> len m <= 2 ^ 32 - 128 ->
  digest_of alg m = digest_spec A h m.
Proof.
  intros E G O L. unfold digest_of, hash_use. rewrite E. cbn [bind].
  apply digest_after; auto; [lia|]. apply (after_update A h G [] _ m); auto; [constructor|now apply after_new].
Qed.
Lemma cycle_len s n : s <> [] -> len (cycle s n) = n.
Proof.
  intros H. unfold cycle. rewrite len_firstn. unfold len. rewrite concat_repeat_length.
  assert (1 <= length s)%nat by (destruct s; [easy|cbn; lia]). nia.
Qed.
Lemma s2k_key_ext H H' input klen : (forall i, (i < N.to_nat klen)%nat -> H (repeat 0 i ++ input) = H' (repeat 0 i ++ input)) ->
  s2k_key H input klen = s2k_key H' input klen.
Proof. intros E. unfold s2k_key. do 2 f_equal. apply map_ext_in. intros i Hi. apply in_seq in Hi. apply E. lia. Qed.
Lemma run_spec s pass klen A h : hash_alg (s2k_hash s) = Ok A -> agrees A h ->
  octets (s2k_salt s) -> octets pass -> s2k_count s < 256 ->
  (s2k_kind s = S2K3 -> s2k_salt s ++ pass <> []) ->
  len (s2k_salt s) + len pass + klen <= 2 ^ 32 - 128 ->
  s2k_run s pass klen = Ok (s2k_key (digest_spec A h) (s2k_input s pass) klen).
Proof.
  intros HA G Os Op Hc Hn HL. destruct (hash_bits _ A HA) as (bits & Eb & M & B). unfold s2k_run, s2k_input.
  assert (OO : octets (s2k_salt s ++ pass)) by (apply octets_app; auto).
  destruct (s2k_kind s).
  1,2: rewrite (loop_run _ A) by auto; f_equal; apply s2k_key_ext; intros i Hi; apply digest_of_spec; auto;
    [apply octets_app; split; [apply octets_repeat; lia|auto] | rewrite ?len_app, len_repeat; lia].
  specialize (Hn eq_refl). rewrite Eb. cbn [bind]. rewrite N.shiftr_div_pow2. change (2 ^ 3) with 8.
  assert (D : 0 < bits / 8) by lia.
  pose proof (contexts_enough klen (bits / 8) D) as C. pose proof (contexts_few klen (bits / 8) D) as F. set (n := klen / _ + _) in *.
  rewrite coded_count_ok by auto. pose proof (octet_count_bound _ Hc) as CB.
  change (2 ^ 26) with 67108864 in CB. change (2 ^ 32 - 128) with 4294967168 in *.
  set (cc := octet_count (s2k_count s)) in *. set (comb := s2k_salt s ++ pass) in *.
  set (f := fun i => digest_spec A h (repeat 0 i ++ cycle comb (N.max (len comb) cc))).
  assert (LC : len comb = len (s2k_salt s) + len pass) by apply len_app.
  rewrite (contexts_ok _ _ _ f).
  2:{ intros i Hi. apply in_seq in Hi. apply context_ok; auto.
      - change (2 ^ 32 - 128) with 4294967168. lia.
      - change (2 ^ 32) with 4294967296. lia.
      - change (2 ^ 32 - 128) with 4294967168. lia. }
  cbn [bind app].
  assert (Lf : forall i, length (f i) = N.to_nat (bits / 8)).
  { intros i. unfold f, digest_spec. match goal with |- context [md_out A ?c] => destruct (out_length _ A c HA) as (b & h' & Eb' & _ & L & _) end.
    rewrite Eb in Eb'. apply Ok_inj in Eb'. subst b. rewrite <- len_nat, L. reflexivity. }
  set (x := concat _).
  assert (Lx : length x = (N.to_nat n * N.to_nat (bits / 8))%nat) by (unfold x; rewrite (concat_len_ge f (N.to_nat (bits / 8))), seq_length; auto).
  unfold substr. replace (len x <? 0) with false by lia. f_equal. rewrite N.sub_0_r, N.min_l by (unfold len; nia).
  cbn [N.to_nat skipn]. unfold s2k_key, x. fold (s2k_salt s ++ pass). apply (key_enough f (N.to_nat (bits / 8))); auto; lia.
Qed.
