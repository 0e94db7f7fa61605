(** Lemmas about the hash objects. *)
From Verif Require Export Spec.Hash Proofs.Lib.
From Verif Require Import Proofs.IncludesP.

(** A hash class and its standard agree. *)
Definition agrees (A : md) (h : shape) : Prop :=
  sh_block h = md_size A /\ sh_word h = md_word A /\ sh_little h = md_little A /\
  ((md_shift A = 6 /\ md_word A = 4%nat /\ sh_len h = 8%nat) \/
   (md_shift A = 7 /\ md_word A = 8%nat /\ sh_len h = 16%nat /\ md_little A = false)).
Lemma hash_agrees id A : hash_alg id = Ok A -> exists h, map_at shapes id = Ok h /\ agrees A h.
Proof.
  intros H. unfold hash_alg in H.
  repeat match type of H with context [match ?x with _ => _ end] => destruct x; try discriminate H end;
  injection H as <-; (eexists; split; [reflexivity|]); (split; [reflexivity|]); (split; [reflexivity|]); (split; [reflexivity|]);
  ((left; repeat split; reflexivity) || (right; repeat split; reflexivity)).
Qed.

(** Pieces. *)
Lemma pieces_fuel n : (0 < n)%nat -> forall f1 f2 s, (length s <= f1)%nat -> (length s <= f2)%nat -> pieces n f1 s = pieces n f2 s.
Proof.
  intros Hn. induction f1; intros f2 s H1 H2.
  - destruct s; [|cbn in H1; lia]. destruct f2; reflexivity.
  - destruct f2; [destruct s; [reflexivity|cbn in H2; lia]|]. cbn [pieces]. destruct s as [|y s]; auto. f_equal.
    apply IHf1; rewrite skipn_length; cbn [length] in *; lia.
Qed.
Lemma split_cons n a s : (0 < n)%nat -> length a = n -> split_in n (a ++ s) = a :: split_in n s.
Proof.
  intros Hn La. unfold split_in. destruct a as [|c a]; [cbn in La; lia|]. cbn [app length pieces].
  change (c :: a ++ s) with ((c :: a) ++ s). rewrite firstn_app, skipn_app, La, Nat.sub_diag, <- La, firstn_all, skipn_all. cbn [firstn skipn app].
  rewrite app_nil_r. f_equal. rewrite La. apply pieces_fuel; auto. rewrite app_length. lia.
Qed.
Lemma split_nil n : split_in n [] = [].
Proof. reflexivity. Qed.
Lemma cut_first (n : nat) (s : bytes) k : length s = (n * S k)%nat -> exists a r, s = a ++ r /\ length a = n /\ length r = (n * k)%nat.
Proof.
  intros H. exists (firstn n s), (skipn n s). rewrite firstn_skipn, firstn_length, skipn_length. repeat split; nia.
Qed.
Lemma split_app n k : forall a s, (0 < n)%nat -> length a = (n * k)%nat -> split_in n (a ++ s) = split_in n a ++ split_in n s.
Proof.
  induction k as [|k IH]; intros a s Hn La.
  - destruct a; [reflexivity|cbn in La; lia].
  - destruct (cut_first n a k La) as (b & r & -> & Lb & Lr). rewrite <- app_assoc, (split_cons n b (r ++ s)), (split_cons n b r) by auto. cbn [app]. f_equal. now apply IH.
Qed.

(** Slices. *)
Lemma slice_app_l (a b : bytes) n : N.of_nat (length a) = n -> slice (a ++ b) 0 n = a.
Proof. intros <-. unfold slice. rewrite Nat2N.id. cbn [N.to_nat skipn]. rewrite firstn_app, Nat.sub_diag, firstn_all. cbn. now rewrite app_nil_r. Qed.
Lemma slice_all (a : bytes) n : N.of_nat (length a) = n -> slice a 0 n = a.
Proof. intros H. rewrite <- (app_nil_r a) at 1. now apply slice_app_l. Qed.
Lemma slice_shift (a b : bytes) p n : N.of_nat (length a) <= p -> slice (a ++ b) p n = slice b (p - N.of_nat (length a)) n.
Proof.
  intros H. unfold slice. f_equal. rewrite skipn_app. rewrite skipn_all2 by lia. cbn [app]. f_equal. lia.
Qed.
Lemma slice_in (a b : bytes) p n : p + n <= N.of_nat (length a) -> slice (a ++ b) p n = slice a p n.
Proof.
  intros H. unfold slice. rewrite skipn_app, firstn_app, !skipn_length.
  replace (N.to_nat n - (length a - N.to_nat p))%nat with O by lia. cbn. now rewrite app_nil_r.
Qed.

Lemma le_be_rev s : be_val (rev s) = le_val s.
Proof.
  induction s as [|c s IH]; [reflexivity|]. cbn [rev le_val]. rewrite be_val_app. cbn [be_val]. rewrite IH.
  change (len [c]) with 1. cbn [length N.of_nat]. rewrite N.pow_0_r, N.pow_1_r. lia.
Qed.

(** Little-endian conversion of whole words. *)
Lemma seq_S n : seq 0 (S n) = 0%nat :: map S (seq 0 n).
Proof. cbn [seq]. now rewrite seq_shift. Qed.
Lemma flat_map_map {A B C} (f : B -> list C) (g : A -> B) l : flat_map f (map g l) = flat_map (fun x => f (g x)) l.
Proof. induction l; cbn; [auto|now rewrite IHl]. Qed.
Lemma flat_map_ext_in {A B} (f g : A -> list B) l : (forall x, In x l -> f x = g x) -> flat_map f l = flat_map g l.
Proof. induction l; intros H; [reflexivity|]. cbn. rewrite H by now left. rewrite IHl; [auto|]. intros; apply H; now right. Qed.
Lemma little_words k : forall data, length data = (4 * k)%nat -> len data <= 2 ^ 32 ->
  to_little_end data = flat_map (@rev N) (split_in 4 data).
Proof.
  induction k as [|k IH]; intros data H HL.
  - destruct data; [reflexivity|cbn in H; lia].
  - destruct (cut_first 4 data k H) as (a & r & -> & La & Lr). rewrite split_cons by (auto; lia). cbn [flat_map].
    unfold len in HL. rewrite app_length in HL.
    rewrite <- IH by (auto; unfold len; lia). unfold to_little_end.
    replace (length (a ++ r) / 4)%nat with (S (length r / 4)).
    2:{ rewrite app_length, La. replace (4 + length r)%nat with (length r + 1 * 4)%nat by lia. rewrite Nat.div_add by lia. lia. }
    rewrite seq_S. cbn [flat_map]. f_equal.
    + change (u32 (4 * N.of_nat 0)) with 0. now rewrite slice_app_l by lia.
    + rewrite flat_map_map. apply flat_map_ext_in. intros x Hx. apply in_seq in Hx.
      assert (x < k)%nat by (rewrite Lr, (Nat.mul_comm 4), Nat.div_mul in Hx by lia; lia).
      rewrite slice_shift; unfold u32, two32; [|rewrite N.mod_small by lia; lia].
      rewrite !N.mod_small by lia. f_equal. f_equal. lia.
Qed.
Lemma little_length k : forall data, length data = (4 * k)%nat -> length (flat_map (@rev N) (split_in 4 data)) = length data.
Proof.
  induction k as [|k IH]; intros data H.
  - destruct data; [reflexivity|cbn in H; lia].
  - destruct (cut_first 4 data k H) as (a & r & -> & La & Lr). rewrite split_cons by (auto; lia). cbn [flat_map].
    rewrite !app_length, rev_length, IH; auto.
Qed.
Lemma little_split k : forall data, length data = (4 * k)%nat -> split_in 4 (flat_map (@rev N) (split_in 4 data)) = map (@rev N) (split_in 4 data).
Proof.
  induction k as [|k IH]; intros data H.
  - destruct data; [reflexivity|cbn in H; lia].
  - destruct (cut_first 4 data k H) as (a & r & -> & La & Lr). rewrite split_cons by (auto; lia). cbn [flat_map map].
    rewrite split_cons by (rewrite ?rev_length; lia). f_equal. now apply IH.
Qed.
Lemma octets_app a b : octets (a ++ b) <-> octets a /\ octets b.
Proof. apply Forall_app. Qed.
Lemma octets_split n k : forall s, (0 < n)%nat -> length s = (n * k)%nat -> octets s -> forall p, In p (split_in n s) -> octets p /\ length p = n.
Proof.
  induction k as [|k IH]; intros s Hn H O p Hp.
  - destruct s; [destruct Hp|cbn in H; lia].
  - destruct (cut_first n s k H) as (a & r & -> & La & Lr). rewrite split_cons in Hp by (auto; lia).
    apply octets_app in O as [Oa Or]. destruct Hp as [<-|Hp]; eauto.
Qed.

Section md.
  Variables (A : md) (h : shape).
  Hypothesis HA : agrees A h.
  Let B := N.to_nat (sh_block h).

  Lemma B_cases : (B = 64%nat /\ md_shift A = 6 /\ md_size A = 64 /\ md_word A = 4%nat /\ sh_len h = 8%nat) \/
                  (B = 128%nat /\ md_shift A = 7 /\ md_size A = 128 /\ md_word A = 8%nat /\ sh_len h = 16%nat /\ md_little A = false).
  Proof.
    unfold B. destruct HA as (-> & W & L & C). unfold md_size. destruct C as [(-> & -> & ->)|(-> & -> & -> & ->)]; [left|right]; repeat split; reflexivity.
  Qed.
  Lemma sizeB : md_size A = N.of_nat B.
  Proof. destruct B_cases as [(-> & _ & -> & _)|(-> & _ & -> & _)]; reflexivity. Qed.
  Lemma shiftB n : N.shiftl n (md_shift A) = n * N.of_nat B.
  Proof. rewrite N.shiftl_mul_pow2. destruct B_cases as [(-> & -> & _)|(-> & -> & _)]; reflexivity. Qed.
  Lemma shiftrB n : N.shiftr n (md_shift A) = n / N.of_nat B.
  Proof. rewrite N.shiftr_div_pow2. destruct B_cases as [(-> & -> & _)|(-> & -> & _)]; reflexivity. Qed.
  Lemma B_pos : (0 < B)%nat.
  Proof. destruct B_cases as [(-> & _)|(-> & _)]; lia. Qed.
  Lemma B_pow : (2 ^ 32) mod N.of_nat B = 0.
  Proof. destruct B_cases as [(-> & _)|(-> & _)]; reflexivity. Qed.

  (** The words of one block, read big-endian. *)
  Definition be_words (b : bytes) : list N := map be_val (split_in (md_word A) b).
  Lemma words16 n s : octets s -> (1 <= n <= 8)%nat -> length s = (n * 16)%nat ->
    map (fun x => toint256 (slice s (N.of_nat (n * x)) (N.of_nat n))) (seq 0 16) = map be_val (split_in n s).
  Proof.
    intros O Hn. generalize 16%nat as k. intros k. revert s O. induction k as [|k IH]; intros s O H.
    - destruct s; [reflexivity|cbn in H; lia].
    - destruct (cut_first n s k H) as (a & r & -> & La & Lr). rewrite split_cons by (auto; lia).
      apply octets_app in O as [Oa Or]. rewrite seq_S. cbn [map]. f_equal.
      + rewrite Nat.mul_0_r. change (N.of_nat 0) with 0. rewrite slice_app_l by lia. apply toint256_be_val; auto. unfold len. lia.
      + rewrite map_map, <- IH by auto. apply map_ext_in. intros x Hx. rewrite slice_shift by lia. do 2 f_equal. lia.
  Qed.
  Lemma md_words_0 b r : octets b -> length b = B -> md_words A (b ++ r) 0 = be_words b.
  Proof.
    intros O L. unfold md_words. rewrite shiftB. change (u32 (N.of_nat 0 * N.of_nat B)) with 0.
    rewrite slice_app_l by (rewrite sizeB; lia). unfold be_words. apply words16; auto;
      destruct B_cases as [(E & _ & _ & -> & _)|(E & _ & _ & -> & _)]; lia.
  Qed.
  Lemma md_words_S b r n : length b = B -> N.of_nat (S n) * N.of_nat B < 2 ^ 32 -> md_words A (b ++ r) (S n) = md_words A r n.
  Proof.
    intros L H. unfold md_words. rewrite !shiftB. unfold u32, two32. rewrite !N.mod_small by lia.
    rewrite slice_shift by lia. replace (N.of_nat (S n) * N.of_nat B - N.of_nat (length b)) with (N.of_nat n * N.of_nat B) by nia. reflexivity.
  Qed.
  Lemma fold_map {X Y Z} (f : Z -> Y -> Z) (g : X -> Y) l z : fold_left f (map g l) z = fold_left (fun z x => f z (g x)) l z.
  Proof. revert z. induction l; intros z; cbn; auto. Qed.
  Lemma fold_ext_in {X Z} (f g : Z -> X -> Z) l : (forall x z, In x l -> f z x = g z x) -> forall z, fold_left f l z = fold_left g l z.
  Proof. induction l; intros H z; [reflexivity|]. cbn. rewrite H by now left. apply IHl. intros; apply H; now right. Qed.
  Lemma md_calc_spec k : forall data s, octets data -> length data = (B * k)%nat -> len data <= 2 ^ 32 ->
    md_calc A data s = fold_left (md_block A) (map be_words (split_in B data)) s.
  Proof.
    assert (HB := B_pos). assert (E : forall data, length data = (B * k)%nat -> N.to_nat (N.shiftr (len data) (md_shift A)) = k).
    { intros data H. rewrite shiftrB. unfold len. rewrite H, Nat2N.inj_mul, (N.mul_comm (N.of_nat B)), N.div_mul by lia. lia. }
    intros data s O H HL. unfold md_calc. rewrite (E data H). clear E. revert data s O H HL.
    induction k as [|k IH]; intros data s O H HL.
    - destruct data; [reflexivity|cbn in H; lia].
    - destruct (cut_first B data k H) as (a & r & -> & La & Lr). rewrite split_cons by auto. apply octets_app in O as [Oa Or].
      unfold len in HL. rewrite app_length in HL.
      rewrite seq_S. cbn [fold_left map]. rewrite md_words_0 by auto. rewrite fold_map.
      rewrite <- IH by (auto; unfold len; lia). apply fold_ext_in. intros x z Hx. apply in_seq in Hx.
      rewrite md_words_S; [reflexivity|auto|nia].
  Qed.

  (** Processing whole blocks as the standard says. *)
  Definition run (data : bytes) (s : md_ctx A) : md_ctx A :=
    fold_left (md_block A) (map (words h) (split_in B data)) s.
  Definition feed (data : bytes) : bytes := if md_little A then to_little_end data else data.
  Lemma word_sh : sh_word h = md_word A. Proof. now destruct HA as (_ & ? & _). Qed.
  Lemma little_sh : sh_little h = md_little A. Proof. now destruct HA as (_ & _ & ? & _). Qed.
  Lemma words_be b : md_little A = false -> words h b = be_words b.
  Proof. intros E. unfold words, be_words. now rewrite word_sh, little_sh, E. Qed.
  Lemma words_le k b : md_little A = true -> length b = (4 * k)%nat -> words h b = be_words (flat_map (@rev N) (split_in 4 b)).
  Proof.
    intros E L. unfold words, be_words. rewrite word_sh, little_sh, E.
    destruct B_cases as [(_ & _ & _ & -> & _)|(_ & _ & _ & _ & _ & X)]; [|congruence].
    rewrite (little_split k) by auto. rewrite map_map. apply map_ext. intros. symmetry. apply le_be_rev.
  Qed.
  Lemma flat_rev_octets k : forall s, length s = (4 * k)%nat -> octets s -> octets (flat_map (@rev N) (split_in 4 s)).
  Proof.
    intros s L O. unfold octets. rewrite Forall_forall. intros x Hx. apply in_flat_map in Hx as (p & Hp & Hx).
    destruct (octets_split 4 k s ltac:(lia) L O p Hp) as [Op _]. apply in_rev in Hx. unfold octets in Op. rewrite Forall_forall in Op. auto.
  Qed.
  Lemma feed_run k data s : octets data -> length data = (B * k)%nat -> len data <= 2 ^ 32 ->
    md_calc A (feed data) s = run data s.
  Proof.
    intros O L HL. unfold feed. destruct (md_little A) eqn:E.
    - destruct B_cases as [(EB & _ & _ & W & _)|(_ & _ & _ & _ & _ & X)]; [|congruence].
      assert (L4 : length data = (4 * (16 * k))%nat) by lia.
      rewrite (little_words (16 * k)) by auto. rewrite (md_calc_spec k).
      + unfold run. f_equal. clear HL s. revert data O L L4. induction k as [|k IH]; intros data O L L4.
        * destruct data; [reflexivity|cbn in L; lia].
        * destruct (cut_first B data k L) as (a & r & -> & La & Lr). apply octets_app in O as [Oa Or].
          rewrite (split_app 4 16 a r) by lia. rewrite flat_map_app. assert (HB := B_pos).
          rewrite (split_cons B (flat_map _ (split_in 4 a))) by (auto; rewrite (little_length 16); lia). rewrite (split_cons B a r) by auto. cbn [map]. f_equal.
          -- symmetry. apply (words_le 16); auto. lia.
          -- apply IH; auto. lia.
      + apply (flat_rev_octets (16 * k)); auto.
      + rewrite (little_length (16 * k)); auto.
      + unfold len. rewrite (little_length (16 * k)); auto.
    - rewrite (md_calc_spec k) by auto. unfold run. f_equal. apply map_ext. intros. symmetry. now apply words_be.
  Qed.
  Lemma run_app k a b s : length a = (B * k)%nat -> run (a ++ b) s = run b (run a s).
  Proof. intros L. unfold run. rewrite (split_app B k) by (auto using B_pos). rewrite map_app. apply fold_left_app. Qed.

  (** State after data [m]. *)
  Inductive after (m : bytes) (s : md_state A) : Prop :=
    After w r k : m = w ++ r -> length w = (B * k)%nat -> (length r < B)%nat -> st_ctx A s = run w (md_init A) ->
      st_stack A s = r -> st_clen A s = len w mod two64 -> after m s.
  Lemma after_new : after [] (md_new A).
  Proof. apply (After [] (md_new A) [] [] 0); auto using B_pos. Qed.
  Lemma after_update m s d : octets m -> octets d -> len d <= 2 ^ 32 - 128 -> after m s -> after (m ++ d) (md_update A s d).
  Proof.
    intros Om Od HL [w r k -> Lw Lr Hc Hs Hl]. assert (HB := B_pos). assert (HB2 : (B <= 128)%nat) by (destruct B_cases as [(-> & _)|(-> & _)]; lia).
    apply octets_app in Om as [Ow Or].
    set (data := r ++ d). assert (Od' : octets data) by (apply octets_app; auto).
    set (q := (length data / B)%nat). assert (Hq : (B * q <= length data < B * q + B)%nat).
    { unfold q. pose proof (Nat.div_mod (length data) B ltac:(lia)). pose proof (Nat.mod_upper_bound (length data) B ltac:(lia)). lia. }
    set (v := firstn (B * q) data). set (t := skipn (B * q) data).
    assert (Ev : data = v ++ t) by (symmetry; apply firstn_skipn).
    assert (Lv : length v = (B * q)%nat) by (unfold v; rewrite firstn_length; lia).
    assert (Lt : (length t < B)%nat) by (unfold t; rewrite skipn_length; lia).
    assert (Ld : len data <= 2 ^ 32) by (unfold data, len in *; rewrite app_length; lia).
    assert (Es : N.shiftl (N.shiftr (len data) (md_shift A)) (md_shift A) = len v).
    { rewrite shiftB, shiftrB. unfold len. rewrite <- Nat2N.inj_div, Lv. fold q. lia. }
    unfold md_update. rewrite Hs. fold data. rewrite Es.
    assert (X1 : slice data 0 (len v) = v) by (rewrite Ev; apply slice_app_l; reflexivity).
    assert (X2 : slice data (len v) (len data - len v) = t).
    { rewrite Ev at 1. rewrite slice_shift by (unfold len; lia). replace (len v - N.of_nat (length v)) with 0 by (unfold len; lia).
      apply slice_all. rewrite Ev. unfold len. rewrite app_length. lia. }
    rewrite X1, X2. fold (feed v).
    apply octets_app in Od' as Ov. rewrite Ev in Od'. apply octets_app in Od' as [Ov' Ot].
    apply (After _ _ (w ++ v) t (k + q)); cbn [st_ctx st_stack st_clen]; auto.
    - rewrite <- !app_assoc. f_equal. now rewrite <- Ev.
    - rewrite app_length. lia.
    - rewrite (feed_run q) by (auto; unfold len in *; rewrite Ev, app_length in Ld; lia). rewrite Hc. symmetry. now apply (run_app k).
    - rewrite Hl. unfold u64. rewrite N.add_mod_idemp_l by (unfold two64; lia). unfold len. rewrite app_length. f_equal. lia.
  Qed.

  Lemma pad_last w r k : length w = (B * k)%nat -> (length r < B)%nat -> len (w ++ r) < 2 ^ 61 ->
    exists z, pad h (w ++ r) = w ++ r ++ [128] ++ repeat 0 z ++ (if sh_little h then rev (be (sh_len h) (8 * len (w ++ r))) else be (sh_len h) (8 * len (w ++ r))) /\
      (length r + 1 + z + sh_len h = B \/ length r + 1 + z + sh_len h = 2 * B)%nat /\
      N.to_nat ((if (N.of_nat B - 1 - N.of_nat (sh_len h)) <? len r then (N.of_nat B - 1 - N.of_nat (sh_len h)) + N.of_nat B else (N.of_nat B - 1 - N.of_nat (sh_len h))) - len r) = z.
  Proof.
    intros Lw Lr HL. unfold pad. rewrite <- app_assoc. eexists. split; [reflexivity|].
    replace (sh_block h) with (N.of_nat B) by (unfold B; lia).
    unfold len in *. rewrite app_length in *. rewrite Lw.
    assert (X : (N.of_nat (B * k + length r) + 1 + N.of_nat (sh_len h)) mod N.of_nat B = (N.of_nat (length r) + 1 + N.of_nat (sh_len h)) mod N.of_nat B).
    { replace (N.of_nat (B * k + length r) + 1 + N.of_nat (sh_len h)) with (N.of_nat (length r) + 1 + N.of_nat (sh_len h) + N.of_nat k * N.of_nat B) by lia.
      apply N.mod_add. pose proof B_pos. lia. }
    rewrite X. clear X.
    destruct B_cases as [(-> & _ & _ & _ & ->)|(-> & _ & _ & _ & -> & _)]; change (N.of_nat 64) with 64; change (N.of_nat 128) with 128; change (N.of_nat 8) with 8; change (N.of_nat 16) with 16.
    - destruct (64 - 1 - 8 <? N.of_nat (length r)) eqn:E; lia.
    - destruct (128 - 1 - 16 <? N.of_nat (length r)) eqn:E; lia.
  Qed.

  Lemma digest_after m s : octets m -> len m < 2 ^ 61 -> after m s -> md_digest A s = digest_spec A h m.
  Proof.
    intros Om HL [w r k -> Lw Lr Hc Hs Hl]. assert (HB := B_pos). apply octets_app in Om as [Ow Or].
    unfold md_digest, digest_spec. f_equal. fold B.
    destruct (pad_last w r k Lw Lr HL) as (z & EP & Lz & Hz). rewrite EP. fold (run (w ++ r ++ [128] ++ repeat 0 z ++
       (if sh_little h then rev (be (sh_len h) (8 * len (w ++ r))) else be (sh_len h) (8 * len (w ++ r)))) (md_init A)).
    rewrite (run_app k) by auto. rewrite <- Hc.
    set (bits := be (sh_len h) (8 * len (w ++ r))) in *.
    assert (Lb : length bits = sh_len h) by apply be_length.
    assert (Ob : octets bits) by apply be_octets.
    assert (El : exists last, r ++ [128] ++ repeat 0 z ++ (if sh_little h then rev bits else bits) = last /\ octets last /\
        (exists j, (j <= 2)%nat /\ length last = (B * j)%nat) /\ md_last A s = feed last).
    { eexists. split; [reflexivity|]. split.
      { apply octets_app. split; auto. apply octets_app. split; [repeat constructor|]. apply octets_app. split.
        - clear. induction z; constructor; auto. lia.
        - destruct (sh_little h); auto. now apply Forall_rev. }
      split.
      { rewrite !app_length. cbn [length]. rewrite repeat_length. replace (length (if sh_little h then rev bits else bits)) with (sh_len h) by (destruct (sh_little h); rewrite ?rev_length; auto).
        destruct Lz; [exists 1%nat|exists 2%nat]; lia. }
      unfold md_last. rewrite Hs. replace (N.land (len r) (md_size A - 1)) with (len r).
      2:{ unfold len. destruct B_cases as [(EB & _ & -> & _)|(EB & _ & -> & _)]; rewrite EB in Lr.
          - change (64 - 1) with (N.ones 6). rewrite N.land_ones, N.mod_small; [reflexivity|]. change (2 ^ 6) with 64. lia.
          - change (128 - 1) with (N.ones 7). rewrite N.land_ones, N.mod_small; [reflexivity|]. change (2 ^ 7) with 128. lia. }
      replace (if md_shift A =? 6 then 8 else 16) with (N.of_nat (sh_len h)) by (destruct B_cases as [(_ & -> & _ & _ & ->)|(_ & -> & _ & _ & -> & _)]; reflexivity).
      rewrite sizeB, Hz. rewrite Hl.
      replace (u64 (N.shiftl (u64 (len w mod two64 + len r)) 3)) with (8 * len (w ++ r)).
      2:{ unfold u64. rewrite N.add_mod_idemp_l by (unfold two64; lia). rewrite N.shiftl_mul_pow2. rewrite len_app in *. unfold two64. rewrite !N.mod_small; lia. }
      rewrite Nat2N.id. fold bits. unfold feed. rewrite little_sh. destruct (md_little A) eqn:EL; [|now rewrite <- !app_assoc].
      destruct B_cases as [(EB & _ & _ & _ & E8)|(_ & _ & _ & _ & _ & X)]; [|congruence].
      assert (exists b0 b1, bits = b0 ++ b1 /\ length b0 = 4%nat /\ length b1 = 4%nat) as (b0 & b1 & Eb & L0 & L1).
      { exists (firstn 4 bits), (skipn 4 bits). rewrite firstn_skipn, firstn_length, skipn_length, Lb, E8. auto. }
      unfold bits in Eb. rewrite E8 in Eb. fold bits. unfold bits. rewrite E8, Eb.
      rewrite (slice_shift b0 b1) by lia. replace (4 - N.of_nat (length b0)) with 0 by lia. rewrite (slice_all b1) by lia.
      rewrite (slice_app_l b0 b1) by lia. rewrite rev_app_distr.
      replace (r ++ [128] ++ repeat 0 z ++ rev b1 ++ rev b0) with ((r ++ [128] ++ repeat 0 z) ++ rev b1 ++ rev b0) by (now rewrite <- !app_assoc).
      assert (exists j, length (r ++ [128] ++ repeat 0 z) = (4 * j)%nat /\ (j <= 30)%nat) as (j & Lj & Hj).
      { rewrite !app_length. cbn [length]. rewrite repeat_length. destruct Lz as [Lz|Lz]; [exists 14%nat|exists 30%nat]; lia. }
      rewrite (little_words j) by (auto; unfold len; lia).
      rewrite (little_words (j + 2)) by (unfold len; rewrite app_length, Lj, app_length, !rev_length; lia).
      rewrite (split_app 4 j (r ++ [128] ++ repeat 0 z)) by (auto; lia). rewrite flat_map_app. f_equal.
      rewrite (split_cons 4 (rev b1)) by (rewrite ?rev_length; lia). rewrite <- (app_nil_r (rev b0)), (split_cons 4 (rev b0)) by (rewrite ?rev_length; lia).
      cbn [flat_map split_in pieces length]. rewrite !rev_involutive, app_nil_r. reflexivity. }
    destruct El as (last & -> & Ol & (j & Hj & Lj) & ->). apply (feed_run j); auto.
    unfold len. destruct B_cases as [(EB & _)|(EB & _)]; nia.
  Qed.
End md.

Lemma fold_after A h : agrees A h -> forall cs m s, octets m -> Forall octets cs -> Forall (fun d => len d <= 2 ^ 32 - 128) cs ->
  after A h m s -> after A h (m ++ concat cs) (fold_left (md_update A) cs s).
Proof.
  intros HA. induction cs as [|d cs IH]; intros m s Om O F H; cbn [concat fold_left]; [now rewrite app_nil_r|].
  inversion O; inversion F; subst. rewrite app_assoc. apply IH; auto.
  - apply octets_app; auto.
  - now apply after_update.
Qed.
Lemma ops_digests A h : agrees A h -> forall ops m s, octets (m ++ fed ops) -> len (m ++ fed ops) < 2 ^ 61 ->
  (forall d, In (Update d) ops -> len d <= 2 ^ 32 - 128) -> after A h m s -> hash_ops A s ops = digests A h m ops.
Proof.
  intros HA. induction ops as [|[d|] ops IH]; intros m s O HL F H; [reflexivity| |]; cbn [hash_ops digests fed] in *.
  - rewrite app_assoc in O, HL. apply IH; auto.
    + intros; apply F. now right.
    + apply octets_app in O as [O _]. apply octets_app in O as [Om Od]. apply after_update; auto. apply F. now left.
  - f_equal; [|apply IH; auto; intros; apply F; now right].
    apply octets_app in O as [O _]. apply digest_after; auto. rewrite len_app in HL. lia.
Qed.

(** The digest length does not depend on the state. *)
Lemma out_length : forall id A c, hash_alg id = Ok A ->
  exists bits h, map_at hash_length id = Ok bits /\ map_at shapes id = Ok h /\
    len (md_out A c) = bits / 8 /\ length (md_out A c) = sh_out h /\ octets (md_out A c).
Proof.
  intros id A c H. unfold hash_alg in H.
  assert (L : forall n v, length (be n v) = n) by exact be_length.
  repeat match type of H with context [match ?x with _ => _ end] => destruct x; try discriminate H end;
  injection H as <-; (eexists _, _; split; [reflexivity|]; split; [reflexivity|]);
  revert c; intros c0;
  cbn [md_ctx MD5 SHA1 RIPEMD160 SHA256 SHA224 SHA512 SHA384] in c0; unfold md5_ctx, sha1_ctx, ripemd_ctx, sha2_ctx in c0;
  repeat match goal with c : _ * _ |- _ => destruct c end;
  cbn [md_out MD5 SHA1 RIPEMD160 SHA256 SHA224 SHA512 SHA384 sha2_out sh_out];
  unfold len; rewrite ?firstn_length, ?app_length, ?rev_length, ?be_length;
  (split; [reflexivity|]); (split; [reflexivity|]);
  try match goal with |- octets (firstn ?n ?l) => enough (octets l) as X; [unfold octets in *; rewrite Forall_forall in *; intros y Hy; apply X; rewrite <- (firstn_skipn n l); apply in_or_app; now left|] end;
  repeat match goal with |- octets (_ ++ _) => apply octets_app; split end; try match goal with |- octets (rev _) => apply Forall_rev end; apply be_octets.
Qed.
Lemma digest_length : forall id A s, hash_alg id = Ok A ->
  exists bits h, map_at hash_length id = Ok bits /\ map_at shapes id = Ok h /\
    len (md_digest A s) = bits / 8 /\ length (md_digest A s) = sh_out h /\ octets (md_digest A s).
Proof. intros id A s H. exact (out_length id A _ H). Qed.
