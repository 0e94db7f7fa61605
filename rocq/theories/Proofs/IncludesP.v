(** Lemmas about Model.Includes. *)
From Verif Require Import Proofs.Lib Model.Includes.

Lemma bytes256 (P : N -> bool) : forallb (fun i => P (N.of_nat i)) (seq 0 256) = true ->
  forall c, c < 256 -> P c = true.
Proof.
  intros H c Hc. rewrite forallb_forall in H.
  specialize (H (N.to_nat c)). rewrite N2Nat.id in H. apply H. apply in_seq. lia.
Qed.

Lemma hexdigit_unhex caps d : d < 16 -> unhexdigit (hexdigit caps d) = Ok d.
Proof.
  intros H. unfold unhexdigit, hexdigit.
  destruct (d <? 10) eqn:E; [|destruct caps].
  - replace ((48 <=? 48 + d) && (48 + d <=? 57)) with true by lia. f_equal; lia.
  - replace ((48 <=? 55 + d) && (55 + d <=? 57)) with false by lia.
    replace ((97 <=? 55 + d) && (55 + d <=? 102)) with false by lia.
    replace ((65 <=? 55 + d) && (55 + d <=? 70)) with true by lia. f_equal; lia.
  - replace ((48 <=? 87 + d) && (87 + d <=? 57)) with false by lia.
    replace ((97 <=? 87 + d) && (87 + d <=? 102)) with true by lia. f_equal; lia.
Qed.

Lemma pair_octet x y : x < 16 -> y < 16 -> u8 (N.lor (N.shiftl x 4) y) = 16 * x + y.
Proof.
  intros. rewrite lor_shiftl_add by (change (2^4) with 16; lia). change (2^4) with 16.
  unfold u8. lia.
Qed.

Lemma unhexdigit_lt c d : unhexdigit c = Ok d -> d < 16.
Proof.
  unfold unhexdigit. repeat match goal with |- context [if ?b then _ else _] => destruct b eqn:? end;
  intros [= <-]; lia.
Qed.

Lemma makehex_c_length caps v n : length (makehex_c caps v n) = n.
Proof. revert v; induction n; intros; cbn; auto. rewrite app_length, IHn. cbn. lia. Qed.

Lemma unhexlify_pairs_app a b : Nat.Even (length a) ->
  unhexlify_pairs (a ++ b) = (x <- unhexlify_pairs a ;; y <- unhexlify_pairs b ;; Ok (x ++ y)).
Proof.
  intros [n Hn]. revert a Hn. induction n; intros a Hn.
  - destruct a; [|cbn in Hn; lia]. cbn. destruct (unhexlify_pairs b); reflexivity.
  - destruct a as [|p [|q a]]; try (cbn in Hn; lia).
    cbn [app unhexlify_pairs].
    destruct (unhexdigit p); cbn [bind]; auto.
    destruct (unhexdigit q); cbn [bind]; auto.
    rewrite IHn by (cbn in Hn; lia).
    destruct (unhexlify_pairs a); cbn [bind]; auto.
    destruct (unhexlify_pairs b); reflexivity.
Qed.

Lemma odd_len s : N.odd (len s) = Nat.odd (length s).
Proof. unfold len. rewrite <- N.negb_even, <- Nat.negb_even. f_equal.
  destruct (Nat.Even_or_Odd (length s)) as [[k Hk]|[k Hk]]; rewrite Hk.
  - rewrite (proj2 (Nat.even_spec _)) by (exists k; lia).
    apply N.even_spec. exists (N.of_nat k). lia.
  - transitivity false.
    + rewrite <- N.negb_odd. apply negb_false_iff, N.odd_spec. exists (N.of_nat k). lia.
    + symmetry. rewrite <- Nat.negb_odd. apply negb_false_iff, Nat.odd_spec. exists k. lia.
Qed.

Lemma unhexlify_even s : Nat.Even (length s) -> unhexlify s = unhexlify_pairs s.
Proof.
  intros H. unfold unhexlify. rewrite odd_len, <- Nat.negb_even.
  apply Nat.even_spec in H. now rewrite H.
Qed.

Lemma makehex_pairs caps n v : unhexlify_pairs (makehex_c caps v (2 * n)) = Ok (be n v).
Proof.
  revert v; induction n; intros v; [reflexivity|].
  replace (2 * S n)%nat with (S (S (2 * n))) by lia.
  cbn [makehex_c]. rewrite <- app_assoc.
  rewrite unhexlify_pairs_app by (rewrite makehex_c_length; exists n; lia).
  rewrite IHn. cbn [bind app unhexlify_pairs].
  rewrite !hexdigit_unhex by lia. cbn [bind].
  rewrite pair_octet by lia. rewrite be_S_r. cbn [bind]. f_equal. f_equal.
  - f_equal. rewrite N.div_div by lia. reflexivity.
  - f_equal. lia.
Qed.

Lemma unhexlify_makehex n v : unhexlify (makehex v (2 * n)) = Ok (be n v).
Proof.
  unfold makehex. rewrite unhexlify_even by (rewrite makehex_c_length; exists n; lia).
  apply makehex_pairs.
Qed.

Lemma hexlify_char_eq caps c : c < 256 ->
  hexlify_char caps c = [hexdigit caps (c / 16); hexdigit caps (c mod 16)].
Proof.
  intros. unfold hexlify_char, u8. rewrite N.mod_small by auto. cbn [makehex_c app].
  replace (c / 16 mod 16) with (c / 16) by lia. reflexivity.
Qed.

Lemma hexlify_length caps s : length (hexlify_c caps s) = (2 * length s)%nat.
Proof.
  induction s as [|c s IH]; auto. cbn [hexlify_c flat_map]. rewrite app_length.
  unfold hexlify_c in IH. rewrite IH. unfold hexlify_char. rewrite makehex_c_length. cbn; lia.
Qed.

Lemma hex_roundtrip caps s : octets s -> unhexlify (hexlify_c caps s) = Ok s.
Proof.
  intros H. rewrite unhexlify_even by (rewrite hexlify_length; exists (length s); auto).
  induction s as [|c s IH]; auto.
  apply octets_cons in H as [Hc H]. cbn [hexlify_c flat_map].
  rewrite hexlify_char_eq by auto. cbn [app unhexlify_pairs].
  rewrite !hexdigit_unhex by lia. cbn [bind]. fold (hexlify_c caps s). rewrite (IH H).
  cbn [bind]. rewrite pair_octet by lia. do 2 f_equal. lia.
Qed.

Lemma unhexdigit_hex c : is_hex c <-> exists d, unhexdigit c = Ok d.
Proof.
  unfold is_hex, unhexdigit.
  repeat match goal with |- context [if ?b then _ else _] => destruct b eqn:? end;
  split; intros H; eauto; try lia; destruct H; discriminate.
Qed.

Lemma unhexdigit_throw c : ~ is_hex c -> unhexdigit c = Throw ERuntime.
Proof.
  unfold is_hex, unhexdigit. intros.
  repeat match goal with |- context [if ?b then _ else _] => destruct b eqn:? end; auto; lia.
Qed.

Lemma unhexlify_pairs_cases s : Nat.Even (length s) ->
  (Forall is_hex s /\ (exists t, unhexlify_pairs s = Ok t)) \/
  (~ Forall is_hex s /\ unhexlify_pairs s = Throw ERuntime).
Proof.
  intros [n Hn]. revert s Hn; induction n; intros s Hn.
  - destruct s; [|cbn in Hn; lia]. left; split; [constructor | eexists; reflexivity].
  - destruct s as [|p [|q s]]; try (cbn in Hn; lia). cbn [unhexlify_pairs].
    assert (D : forall c, is_hex c \/ ~ is_hex c) by (intros; unfold is_hex; lia).
    destruct (D p) as [Hp|Hp].
    2:{ right. split; [intros F; inversion F; auto |].
        now rewrite unhexdigit_throw. }
    destruct (D q) as [Hq|Hq].
    2:{ right. split; [intros F; inversion F as [|? ? ? F']; inversion F'; auto |].
        apply unhexdigit_hex in Hp as [d ->]. cbn. now rewrite unhexdigit_throw. }
    pose proof Hp as Hp'. pose proof Hq as Hq'.
    apply unhexdigit_hex in Hp as [d1 ->]. apply unhexdigit_hex in Hq as [d2 ->]. cbn [bind].
    destruct (IHn s) as [[F [t ->]] | [F ->]]; [cbn in Hn; lia | left | right].
    + split; [constructor; auto | eexists; reflexivity].
    + split; [| reflexivity]. intros G; inversion G as [|? ? ? G']; inversion G'; auto.
Qed.

Lemma unhexlify_ok_iff s :
  (exists t, unhexlify s = Ok t) <-> Nat.Even (length s) /\ Forall is_hex s.
Proof.
  destruct (Nat.Even_or_Odd (length s)) as [H|H].
  - rewrite unhexlify_even by auto. destruct (unhexlify_pairs_cases s H) as [[F E]|[F E]];
    split; auto; intros [t Ht].
    + rewrite E in Ht; discriminate.
    + contradiction.
  - unfold unhexlify. rewrite odd_len. rewrite (proj2 (Nat.odd_spec _)) by auto.
    split; [intros [? ?]; discriminate | intros [G _]].
    exfalso. eapply Nat.Even_Odd_False; eauto.
Qed.

Lemma unhexlify_else_throws s :
  ~ (Nat.Even (length s) /\ Forall is_hex s) -> unhexlify s = Throw ERuntime.
Proof.
  intros H. destruct (Nat.Even_or_Odd (length s)) as [G|G].
  - rewrite unhexlify_even by auto. destruct (unhexlify_pairs_cases s G) as [[F E]|[F E]]; tauto.
  - unfold unhexlify. rewrite odd_len. now rewrite (proj2 (Nat.odd_spec _)) by auto.
Qed.

(** Lower case. *)
Definition lower (c : N) : N := if (65 <=? c) && (c <=? 70) then c + 32 else c.

Lemma hexdigit_lower c d : unhexdigit c = Ok d -> hexdigit false d = lower c.
Proof.
  unfold unhexdigit, hexdigit, lower.
  repeat match goal with |- context [if ?b then _ else _] => destruct b eqn:? end;
  intros [= <-]; lia.
Qed.

Lemma unhexlify_inverse s t : unhexlify s = Ok t ->
  octets t /\ hexlify t = map lower s.
Proof.
  intros H. assert (E : Nat.Even (length s)).
  { apply unhexlify_ok_iff; eauto. }
  rewrite unhexlify_even in H by auto. destruct E as [n Hn].
  revert s t H Hn; induction n; intros s t H Hn.
  - destruct s; [|cbn in Hn; lia]. cbn in H. injection H as <-. split; [constructor | reflexivity].
  - destruct s as [|p [|q s]]; try (cbn in Hn; lia). cbn [unhexlify_pairs] in H.
    inv_bind H. inv_bind H. inv_bind H. injection H as <-.
    apply IHn in E1 as [O1 E1]; [|cbn in Hn; lia].
    pose proof (unhexdigit_lt _ _ E). pose proof (unhexdigit_lt _ _ E0).
    rewrite pair_octet by auto.
    split; [constructor; auto; lia |].
    change (hexlify (16 * a + a0 :: a1)) with (hexlify_char false (16 * a + a0) ++ hexlify a1).
    rewrite hexlify_char_eq by lia. rewrite E1. cbn [map app].
    replace ((16 * a + a0) / 16) with a by lia. replace ((16 * a + a0) mod 16) with a0 by lia.
    now rewrite (hexdigit_lower _ _ E), (hexdigit_lower _ _ E0).
Qed.

(** toint(., 256) *)
Lemma toint256_snoc s c : toint256 (s ++ [c]) = N.lor (u64 (N.shiftl (toint256 s) 8)) (u8 c).
Proof. unfold toint256. now rewrite fold_left_app. Qed.

Lemma toint256_be_val s : octets s -> len s <= 8 -> toint256 s = be_val s.
Proof.
  induction s as [|c s IH] using rev_ind; intros H L; [reflexivity|].
  apply octets_app in H as [H Hc]. apply octets_cons in Hc as [Hc _].
  rewrite len_app, len_cons, len_nil in L.
  rewrite toint256_snoc, IH by (auto; lia). rewrite be_val_app.
  pose proof (be_val_bound s H) as B.
  assert (be_val s < 256 ^ 7).
  { eapply N.lt_le_trans; [apply B|]. apply N.pow_le_mono_r; lia. }
  rewrite N.shiftl_mul_pow2. unfold u64, u8. change (2 ^ 8) with 256.
  change (256 ^ 7) with 72057594037927936 in *. unfold two64.
  rewrite N.mod_small by lia. rewrite (N.mod_small c) by auto.
  change 256 with (2 ^ 8) at 1. rewrite <- N.shiftl_mul_pow2, lor_shiftl_add by (change (2^8) with 256; lia).
  cbn [be_val length]. change (len [c]) with 1. change (2 ^ 8) with 256.
  rewrite N.pow_1_r. cbn [N.of_nat]. rewrite N.pow_0_r. lia.
Qed.

Lemma toint256_be n v : (n <= 8)%nat -> toint256 (be n v) = v mod 256 ^ N.of_nat n.
Proof.
  intros. rewrite toint256_be_val; [apply be_val_be | apply be_octets | rewrite len_be; lia].
Qed.

Lemma toint256_be_small n v : (n <= 8)%nat -> v < 256 ^ N.of_nat n -> toint256 (be n v) = v.
Proof. intros. rewrite toint256_be by auto. now apply N.mod_small. Qed.

(** Binary digits. *)
Lemma makebin_length v n : length (makebin v n) = n.
Proof. revert v; induction n; intros; cbn; auto. rewrite app_length, IHn. cbn. lia. Qed.

(** find_first_not_of / find_last_not_of *)
Lemma find_first_none ws s : find_first_not_of ws s = None <-> Forall (fun c => mem_char c ws = true) s.
Proof.
  induction s as [|c s IH]; cbn; [split; auto|].
  destruct (mem_char c ws) eqn:E.
  - destruct (find_first_not_of ws s); cbn.
    + split; [discriminate|]. intros H; inversion H; subst. apply IH in H3. discriminate.
    + split; auto. intros _. constructor; auto. now apply IH.
  - split; [discriminate|]. intros H; inversion H; congruence.
Qed.

Lemma find_first_some ws s i : find_first_not_of ws s = Some i ->
  exists a x b, s = a ++ x :: b /\ len a = i /\ Forall (fun c => mem_char c ws = true) a /\ mem_char x ws = false.
Proof.
  revert i; induction s as [|c s IH]; cbn; intros i H; [discriminate|].
  destruct (mem_char c ws) eqn:E.
  - destruct (find_first_not_of ws s) as [j|]; cbn in H; [|discriminate].
    injection H as <-. destruct (IH j eq_refl) as (a & x & b & -> & L & F & M).
    exists (c :: a), x, b. repeat split; auto. rewrite len_cons. lia.
  - injection H as <-. exists [], c, s. repeat split; auto.
Qed.

Lemma find_last_none ws s : find_last_not_of ws s = None <-> Forall (fun c => mem_char c ws = true) s.
Proof.
  induction s as [|c s IH]; cbn; [split; auto|].
  destruct (find_last_not_of ws s).
  - split; [discriminate|]. intros H; inversion H; subst. apply IH in H3. discriminate.
  - destruct (mem_char c ws) eqn:E.
    + split; auto. intros _. constructor; auto. now apply IH.
    + split; [discriminate|]. intros H; inversion H; congruence.
Qed.

Lemma find_last_some ws s i : find_last_not_of ws s = Some i ->
  exists a x b, s = a ++ x :: b /\ len a = i /\ Forall (fun c => mem_char c ws = true) b /\ mem_char x ws = false.
Proof.
  revert i; induction s as [|c s IH]; cbn; intros i H; [discriminate|].
  destruct (find_last_not_of ws s) as [j|] eqn:E.
  - injection H as <-. destruct (IH j eq_refl) as (a & x & b & -> & L & F & M).
    exists (c :: a), x, b. repeat split; auto. rewrite len_cons. lia.
  - destruct (mem_char c ws) eqn:M; [discriminate|]. injection H as <-.
    exists [], c, s. repeat split; auto. now apply find_last_none.
Qed.

(** Behaviour of trim_whitespace: exactly the maximal runs at the requested ends. *)
Definition head_ok (ws t : bytes) : Prop :=
  match t with [] => True | c :: _ => mem_char c ws = false end.

Lemma trim_ws_ne ws src fr bk : src <> [] -> trim_whitespace_ws src fr bk ws =
    let go (front : N) :=
      let back := if bk
                  then match find_last_not_of ws src with
                       | Some i => i | None => two64 - 1 end
                  else len src in
      substr src front (u64 (sub64 back front + 1)) in
    if fr
    then match find_first_not_of ws src with
         | None => Ok []
         | Some f => go f
         end
    else go 0.
Proof. destruct src; [congruence | reflexivity]. Qed.

Lemma trim_spec ws s fr bk : len s < two64 - 1 ->
  exists a t b, trim_whitespace_ws s fr bk ws = Ok t /\ s = a ++ t ++ b /\
    Forall (fun c => mem_char c ws = true) (a ++ b) /\
    (if fr then head_ok ws t else a = []) /\
    (if bk then head_ok ws (rev t) else b = []).
Proof.
  intros HL. destruct (list_eq_dec N.eq_dec s []) as [->|Hne].
  { exists [], [], []. repeat split; try constructor; destruct fr, bk; cbn; auto. }
  rewrite trim_ws_ne by auto. unfold two64 in HL.
  (* front part *)
  assert (Hgo : forall pre rest, s = pre ++ rest -> Forall (fun c => mem_char c ws = true) pre ->
     (fr = true -> head_ok ws rest) -> rest <> [] -> (fr = false -> pre = []) ->
     exists a t b,
       substr s (len pre) (u64 (sub64 (if bk then match find_last_not_of ws s with
            Some i => i | None => two64 - 1 end else len s) (len pre) + 1)) = Ok t /\
       s = a ++ t ++ b /\ Forall (fun c => mem_char c ws = true) (a ++ b) /\
       (if fr then head_ok ws t else a = []) /\ (if bk then head_ok ws (rev t) else b = [])).
  { intros pre rest E F Hh Hr Hf.
    destruct bk.
    - destruct (find_last_not_of ws s) as [i|] eqn:EL.
      + apply find_last_some in EL as (a & x & b & E2 & Li & Fb & Mx).
        (* x lies in rest *)
        assert (Hpa : exists mid, a = pre ++ mid /\ rest = mid ++ x :: b).
        { clear - E E2 F Mx Hr. rewrite E in E2. clear E. revert a E2; induction pre as [|p pre IH]; intros a E2.
          - exists a; auto.
          - destruct a as [|a0 a].
            + cbn in E2. injection E2 as -> _. inversion F; congruence.
            + cbn in E2. injection E2 as -> E2. inversion F as [|? ? _ F']; subst.
              destruct (IH F' a E2) as (mid & -> & ->). exists mid; auto. }
        destruct Hpa as (mid & -> & ->). rewrite len_app in Li.
        exists pre, (mid ++ [x]), b.
        rewrite E. rewrite E in HL. autorewrite with len in HL.
        replace (mid ++ x :: b) with ((mid ++ [x]) ++ b) by (now rewrite <- app_assoc).
        split; [apply substr_app; auto|].
        { autorewrite with len. unfold u64, sub64, two64. lia. }
        repeat split; auto.
        * apply Forall_app; split; auto.
        * destruct fr; auto. specialize (Hh eq_refl). destruct mid; cbn in *; auto.
        * rewrite rev_app_distr. cbn. auto.
      + apply find_last_none in EL. rewrite E in EL. apply Forall_app in EL as [_ F2].
        destruct rest as [|r rest]; [congruence|]. inversion F2 as [|? ? Hr1 Hr2]; subst.
        destruct fr.
        { specialize (Hh eq_refl). cbn in Hh. congruence. }
        rewrite (Hf eq_refl) in *. clear Hf. cbn [app] in *.
        exists [], [], (r :: rest). repeat split; cbn; auto.
    - exists pre, rest, []. rewrite E. rewrite E in HL. autorewrite with len in HL.
      split; [|repeat split; try rewrite app_nil_r; auto].
      + apply substr_app_end; auto. autorewrite with len. unfold u64, sub64, two64. lia.
      + destruct fr; auto.
  }
  destruct fr.
  - destruct (find_first_not_of ws s) as [f|] eqn:EF.
    + apply find_first_some in EF as (a & x & b & E & Lf & Fa & Mx). rewrite <- Lf.
      apply (Hgo a (x :: b)); auto; try discriminate.
    + apply find_first_none in EF. exists s, [], [].
      rewrite !app_nil_r. repeat split; auto. destruct bk; cbn; auto.
  - apply (Hgo [] s); auto; discriminate.
Qed.


Lemma trim_id ws s fr bk : len s < two64 - 1 ->
  (fr = true -> head_ok ws s) -> (bk = true -> head_ok ws (rev s)) ->
  trim_whitespace_ws s fr bk ws = Ok s.
Proof.
  intros HL Hf Hb. destruct (trim_spec ws s fr bk HL) as (a & t & b & -> & E & F & A & B).
  f_equal. apply Forall_app in F as [Fa Fb].
  assert (a = []).
  { destruct fr; auto. destruct a as [|x a]; auto. inversion Fa.
    specialize (Hf eq_refl). rewrite E in Hf. cbn in Hf. congruence. }
  assert (b = []).
  { destruct bk; auto. destruct b as [|y b'] eqn:Eb'; auto. rewrite <- Eb' in *.
    destruct (exists_last (l:=b)) as (b0 & x0 & Eb); [subst; discriminate|].
    specialize (Hb eq_refl). rewrite E, Eb in Hb. rewrite !rev_app_distr in Hb. cbn in Hb.
    rewrite Eb in Fb.
    apply Forall_app in Fb as [_ Fb]. inversion Fb; congruence. }
  subst. rewrite app_nil_r. reflexivity.
Qed.

Lemma trim_idempotent ws s fr bk t : len s < two64 - 1 ->
  trim_whitespace_ws s fr bk ws = Ok t -> trim_whitespace_ws t fr bk ws = Ok t.
Proof.
  intros HL H. destruct (trim_spec ws s fr bk HL) as (a & t' & b & E1 & E & F & A & B).
  assert (t' = t) by congruence. subst t'.
  apply trim_id.
  - rewrite E in HL. autorewrite with len in HL. lia.
  - intros ->; auto.
  - intros ->; auto.
Qed.

(** pkcs5 *)
Lemma pkcs5_mod_small b n : 0 < b -> b < two64 -> n < two64 ->
  (n <= b \/ two64 mod b = 0) ->
  ((sub64 b n mod b) mod b + n) mod b = 0.
Proof.
  intros Hb Hb' Hn H. rewrite N.mod_mod by lia.
  rewrite N.add_mod_idemp_l by lia.
  unfold sub64. rewrite (N.mod_small n) by auto.
  destruct (N.le_gt_cases n b) as [G|G].
  - assert ((b + (two64 - n)) mod two64 = b - n) as ->.
    { unfold two64 in *.
      destruct (N.eq_dec n 0) as [->|].
      - rewrite N.sub_0_r. rewrite N.add_mod, N.mod_same by lia. rewrite N.add_0_r.
        rewrite N.mod_mod by lia. rewrite N.mod_small; lia.
      - replace (b + (18446744073709551616 - n)) with ((b - n) + 1 * 18446744073709551616) by lia.
        rewrite N.mod_add by lia. apply N.mod_small. lia. }
    replace (b - n + n) with b by lia. now apply N.mod_same; lia.
  - destruct H as [H|H]; [lia|].
    rewrite (N.mod_small (b + (two64 - n)) two64) by (unfold two64 in *; lia).
    replace (b + (two64 - n) + n) with (two64 + 1 * b) by (unfold two64 in *; lia).
    rewrite N.mod_add by lia. auto.
Qed.

Lemma pkcs5_roundtrip s b : octets s -> 0 < b < 256 -> len s < two64 ->
  (len s < b \/ two64 mod b = 0) ->
  len s mod b <> 0 ->
  exists e, pkcs5 s b = Ok e /\ len e mod b = 0 /\ len s < len e /\ remove_pkcs5 e = Ok s.
Proof.
  intros Ho Hb Hs Hw Hm. unfold pkcs5. replace (b =? 0) with false by lia.
  pose proof (pkcs5_mod_small b (len s)) as M.
  set (pad := (sub64 b (len s) mod b) mod b) in *.
  assert (Hpad : pad < b) by (unfold pad; apply N.mod_lt; lia).
  assert (M' : (pad + len s) mod b = 0) by (apply M; unfold two64 in *; lia). clear M.
  assert (pad <> 0) by (intros E; rewrite E, N.add_0_l in M'; auto).
  assert (Hu : u8 pad = pad) by (unfold u8; apply N.mod_small; lia).
  rewrite Hu. clearbody pad.
  eexists; split; [reflexivity|]. autorewrite with len. rewrite N2Nat.id.
  split; [now rewrite N.add_comm|]. split; [lia|].
  unfold remove_pkcs5. autorewrite with len. rewrite N2Nat.id.
  replace (len s + pad =? 0) with false by lia.
  replace (repeat pad (N.to_nat pad)) with (repeat pad (N.to_nat (pad - 1)) ++ [pad]) at 1.
  2:{ replace (N.to_nat pad) with (N.to_nat (pad - 1) + 1)%nat by lia.
      rewrite repeat_app. reflexivity. }
  rewrite app_assoc. rewrite at_app by (autorewrite with len; lia). cbn [bind].
  assert (len s <> 0). { intros E. rewrite E in Hm. now rewrite N.mod_0_l in Hm by lia. }
  replace (pad <? len s + pad) with true by lia.
  rewrite substr_app_end by (autorewrite with len; lia). cbn [bind].
  rewrite beq_refl. f_equal. apply prefix_app. lia.
Qed.
