(** Transferable keys: composition, public extraction, revocation check. *)
From Verif Require Import Proofs.KeyGrammarP Proofs.KeyP.

(** C33: Key::meaningful answers true exactly for the sequences of the grammar. *)
Theorem C33_exact : forall type ps, Forall typed ps -> (key_meaningful type ps = Ok true <-> transferable type ps).
Proof. exact transferable_iff. Qed.
(** The packets the reader returns are of the classes their tags stand for. *)
Theorem C33_reader : forall d ps, read_raw d = Ok ps -> Forall typed ps.
Proof. exact read_raw_typed. Qed.
(** For other sequences the answer is false, and only packets are read, with one exception. *)
Theorem C33_answers_partial : forall type ps, Forall typed ps -> ~ bare type ps -> exists b, key_meaningful type ps = Ok b.
Proof. intros type ps T B. destruct (meaningful_answers type ps T); [assumption|contradiction]. Qed.
(** The exception: a primary key followed by nothing but key revocations (what a revocation
    certificate for the key looks like behind its key) makes the code read past the end of
    the packet list. *)
Theorem C33_range_refuted : forall type ps, Forall typed ps -> bare type ps -> key_meaningful type ps = UB.
Proof. exact bare_ub. Qed.

(** Example material: a version 4 key with two users and a subkey. *)
Definition ex_sig (type : N) : packet :=
  mkPacket 2 NEW NOT_PARTIAL (PSig (mkTag2 4 type 1 8 [5] [0; 0] 0 [] [(false, Sub2 1000)] [(false, Sub16 (repeat 1 8))])).
Definition ex_key : key := mkKey 4 1000 1 [35; 5] 0.
Definition ex_sec (tag : N) : packet := mkPacket tag NEW NOT_PARTIAL (PSecret ex_key (mkSecret 0 0 None [] [0; 3; 5; 0; 8])).
Definition ex_pub (tag : N) : packet := mkPacket tag NEW NOT_PARTIAL (PKey ex_key).
Definition ex_user (name : string) : packet := mkPacket 13 NEW NOT_PARTIAL (PRaw (str name)).
Definition ex_photo : packet := mkPacket 17 NEW NOT_PARTIAL (PAttributes [mkImage 1 1 [1; 2; 3]]).
Definition ex_block (prim sub : packet) (revs : list packet) : list packet :=
  prim :: revs ++ [ex_photo; ex_sig 16; ex_user "a"; ex_sig 19; ex_sig 48; sub; ex_sig 24; ex_sig 40; sub; ex_sig 31; ex_sig 24].
Ltac typed_all := repeat (apply Forall_cons; [cbn; eauto|]); apply Forall_nil.
Example C33_ex : Forall typed (ex_block (ex_sec 5) (ex_sec 7) [ex_sig 32]) /\
  transferable 3 (ex_block (ex_sec 5) (ex_sec 7) [ex_sig 32]) /\ transferable 2 (ex_block (ex_pub 6) (ex_pub 14) []).
Proof.
  assert (A : Forall typed (ex_block (ex_sec 5) (ex_sec 7) [ex_sig 32])) by (cbn [ex_block app]; typed_all).
  assert (B : Forall typed (ex_block (ex_pub 6) (ex_pub 14) [])) by (cbn [ex_block app]; typed_all).
  split; [exact A|]. split; apply C33_exact; auto.
Qed.
Example C33_rejects :
  (* no user ID; certification revocation on an attribute; subkey without binding; version 3
     key with a subkey; wrong block type; direct key signature on the primary key *)
  key_meaningful 2 [ex_pub 6; ex_photo; ex_sig 16] = Ok false /\
  key_meaningful 2 [ex_pub 6; ex_user "a"; ex_photo; ex_sig 48] = Ok false /\
  key_meaningful 2 [ex_pub 6; ex_user "a"; ex_pub 14; ex_sig 40] = Ok false /\
  key_meaningful 2 [mkPacket 6 NEW NOT_PARTIAL (PKey (mkKey 3 0 1 [35; 5] 0)); ex_user "a"; ex_pub 14; ex_sig 24] = Ok false /\
  key_meaningful 3 [ex_pub 6; ex_user "a"] = Ok false /\ key_meaningful 2 [ex_pub 6; ex_sig 31; ex_user "a"] = Ok false.
Proof. repeat split. Qed.
Example C33_bare : bare 2 [ex_pub 6; ex_sig 32] /\ Forall typed [ex_pub 6; ex_sig 32].
Proof.
  split; [|typed_all]. exists (ex_pub 6), [ex_sig 32]. split; [reflexivity|]. split; [discriminate|]. split; [|auto].
  repeat constructor. exists (mkTag2 4 32 1 8 [5] [0; 0] 0 [] [(false, Sub2 1000)] [(false, Sub16 (repeat 1 8))]). auto.
Qed.

(** C34.  What becomes of a packet: secret key and subkey packets become public ones with
    the same fields; others stay. *)
Definition public_of (p q : packet) : Prop :=
  match p_tag p with
  | 5 | 7 => p_tag q = (if p_tag p =? 5 then 6 else 14) /\
      exists k s k', p_body p = PSecret k s /\ p_body q = PKey k' /\ same_public k' k
  | _ => q = p
  end.
(** A secret key packet whose public fields fit the format and which can be written. *)
Definition writable (p : packet) : Prop :=
  match p_body p with PSecret k s => key_fits days_16 k /\ exists w, secret_raw k s = Ok w | _ => True end.

Lemma to_public_of p : typed p -> writable p -> exists q, to_public p = Ok q /\ public_of p q /\ p_tag q <> 5 /\ p_tag q <> 7.
Proof.
  intros T W. unfold to_public, public_of, public_packet.
  assert (C : p_tag p = 5 \/ p_tag p = 7 \/ (p_tag p <> 5 /\ p_tag p <> 7)) by lia.
  assert (P : forall t, p_tag p = 5 \/ p_tag p = 7 -> exists k s k', p_body p = PSecret k s /\ same_public k' k /\
     (' (k, s) <- as_secret p ;; k' <- get_public k s ;; Ok (mkPacket t NEW NOT_PARTIAL (PKey k'))) = Ok (mkPacket t NEW NOT_PARTIAL (PKey k'))).
  { intros t E. assert (exists k s, p_body p = PSecret k s) as (k & s & B).
    { unfold typed in T. destruct E as [E|E]; rewrite E in T; exact T. }
    unfold writable in W. rewrite B in W. destruct W as [F (w & R)]. exists k, s, (reread k). split; [exact B|]. split.
    - unfold reread, same_public. destruct (k_version k <? 4); cbn [k_version k_time k_pka k_mpi]; auto.
    - unfold as_secret. rewrite B. cbn [bind]. now rewrite (public_reread k s w F R). }
  destruct C as [E|[E|[E1 E2]]].
  - destruct (P 6 ltac:(auto)) as (k & s & k' & B & S & R). rewrite E. cbn [N.eqb Pos.eqb]. eexists. split; [exact R|].
    cbn [p_tag p_body]. split; [|split; discriminate]. split; [reflexivity|]. eauto 8.
  - destruct (P 14 ltac:(auto)) as (k & s & k' & B & S & R). rewrite E. cbn [N.eqb Pos.eqb]. eexists. split; [exact R|].
    cbn [p_tag p_body]. split; [|split; discriminate]. split; [reflexivity|]. eauto 8.
  - replace (p_tag p =? 5) with false by lia. replace (p_tag p =? 7) with false by lia. exists p. split; [reflexivity|].
    split; [|auto]. destruct (p_tag p) as [|t]; [reflexivity|]. do 3 (try destruct t as [t|t|]); try reflexivity; congruence.
Qed.
Lemma all_public : forall ps, Forall typed ps -> Forall writable ps ->
  exists qs, mapM to_public ps = Ok qs /\ Forall2 public_of ps qs /\ Forall (fun q => p_tag q <> 5 /\ p_tag q <> 7) qs.
Proof.
  induction ps as [|p ps IH]; intros T W; [exists []; repeat split; constructor|].
  apply Forall_cons_iff in T as [T0 T]. apply Forall_cons_iff in W as [W0 W].
  destruct (IH T W) as (qs & E & F & N). destruct (to_public_of p T0 W0) as (q & E0 & F0 & N0).
  exists (q :: qs). cbn [mapM]. rewrite E0, E. cbn [bind]. repeat split; constructor; auto.
Qed.
Lemma public_typed p q : typed p -> public_of p q -> typed q.
Proof.
  intros T P. unfold public_of in P.
  assert (C : p_tag p = 5 \/ p_tag p = 7 \/ q = p).
  { destruct (p_tag p) as [|t]; [auto|]. do 3 (try destruct t as [t|t|]); auto. }
  destruct C as [E|[E| ->]]; [| |exact T]; rewrite E in P; destruct P as [Tq (k & s & k' & B & B' & _)];
    unfold typed; rewrite Tq; cbn; eauto.
Qed.
Lemma public_sig P p q : signature_of P p -> public_of p q -> q = p.
Proof. intros [T _] H. unfold public_of in H. now rewrite T in H. Qed.
Lemma public_sigs P : forall ps qs, Forall (signature_of P) ps -> Forall2 public_of ps qs -> qs = ps.
Proof.
  induction ps as [|p ps IH]; intros qs F H; inversion H; subst; [reflexivity|]. apply Forall_cons_iff in F as [F0 F].
  f_equal; [now apply (public_sig P)|auto].
Qed.
Lemma public_user u q : (p_tag u = 13 \/ p_tag u = 17) -> public_of u q -> q = u.
Proof. intros T H. unfold public_of in H. destruct T as [T|T]; now rewrite T in H. Qed.
Lemma public_users : forall us qs, Forall user_part us -> Forall2 public_of (concat us) qs -> qs = concat us.
Proof.
  induction us as [|l us IH]; intros qs F H; [inversion H; reflexivity|].
  apply Forall_cons_iff in F as [(u & sigs & -> & T & G) F]. cbn [concat app] in *.
  inversion H as [|? q ? qs' H0 H']; subst. apply Forall2_app_inv_l in H' as (a & b & Ha & Hb & ->).
  apply (public_user _ _ T) in H0 as ->. apply (public_sigs _ _ _ G) in Ha as ->. apply IH in Hb as ->; auto.
Qed.
Lemma public_subs : forall subs qs, Forall (subkey_part 7) subs -> Forall2 public_of (concat subs) qs ->
  exists subs', qs = concat subs' /\ Forall (subkey_part 14) subs' /\ (subs = [] -> subs' = []).
Proof.
  induction subs as [|l subs IH]; intros qs F H; [inversion H; exists []; repeat split; constructor|].
  apply Forall_cons_iff in F as [(k & sigs & -> & T & G & X) F]. cbn [concat app] in *.
  inversion H as [|? q ? qs' H0 H']; subst. apply Forall2_app_inv_l in H' as (a & b & Ha & Hb & ->).
  apply (public_sigs _ _ _ G) in Ha as ->. destruct (IH _ F Hb) as (subs' & -> & F' & _).
  exists ((q :: sigs) :: subs'). split; [reflexivity|]. split; [|discriminate]. constructor; [|exact F'].
  exists q, sigs. repeat split; auto. unfold public_of in H0. rewrite T in H0. apply H0.
Qed.

(** SecretKey::get_public of a meaningful secret key: a meaningful public key with the same
    armor data, each packet replaced by its public form, in order, and no secret packet. *)
Theorem C34_public : forall g, Forall typed (g_packets g) -> Forall writable (g_packets g) ->
  secret_meaningful g = Ok true ->
  exists g', get_public_key g = Ok g' /\ public_meaningful g' = Ok true /\
    g_keys g' = g_keys g /\ g_armored g' = g_armored g /\
    Forall2 public_of (g_packets g) (g_packets g') /\
    Forall (fun q => p_tag q <> 5 /\ p_tag q <> 7) (g_packets g').
Proof.
  intros [a ty ks ps] T W M. cbn [g_packets g_keys g_armored] in *. unfold secret_meaningful, meaningful in M. cbn [g_type g_packets] in M.
  destruct (ty =? 3) eqn:E3; [|discriminate]. assert (ty = 3) as -> by lia. clear E3.
  apply C33_exact in M as [[? _]|[_ B]]; [discriminate| |exact T].
  destruct (all_public ps T W) as (qs & E & F & N). unfold get_public_key. cbn [g_packets g_keys g_armored]. rewrite E. cbn [bind].
  eexists. split; [reflexivity|]. unfold public_meaningful, meaningful. cbn [g_type g_packets g_keys g_armored N.eqb Pos.eqb].
  split; [|auto]. apply C33_exact.
  { clear - F T. induction F; [constructor|]. apply Forall_cons_iff in T as [T0 T]. constructor; [now apply (public_typed _ _ T0)|auto]. }
  left. split; [reflexivity|]. clear E N W.
  destruct B as (k & revs & us & subs & -> & Tk & FR & FU & X & FK & V).
  inversion F as [|? q ? qs' H0 H']; subst. apply Forall2_app_inv_l in H' as (a1 & b & Ha & Hb & ->).
  apply Forall2_app_inv_l in Hb as (b1 & c & Hb & Hc & ->).
  apply (public_sigs _ _ _ FR) in Ha as ->. apply (public_users _ _ FU) in Hb as ->.
  destruct (public_subs _ _ FK Hc) as (subs' & -> & F' & Z).
  exists q, revs, us, subs'. split; [reflexivity|]. unfold public_of in H0. rewrite Tk in H0. cbn [N.eqb Pos.eqb] in H0.
  destruct H0 as [Tq (k0 & s & k' & B & B' & S)]. split; [exact Tq|]. repeat split; auto.
  intros (kq & Bq & Vq). apply Z, V. exists k0. split; [eauto|]. destruct S as [S _].
  assert (kq = k') as -> by (destruct Bq as [Bq|(s' & Bq)]; congruence). congruence.
Qed.
Example C34_ex : let g := mkPgp true 3 [(str "Version", str "x")] (ex_block (ex_sec 5) (ex_sec 7) [ex_sig 32]) in
  Forall typed (g_packets g) /\ Forall writable (g_packets g) /\ secret_meaningful g = Ok true /\
  get_public_key g = Ok (mkPgp true 2 [(str "Version", str "x")] (ex_block (ex_pub 6) (ex_pub 14) [ex_sig 32])).
Proof.
  cbv zeta. cbn [g_packets]. split; [cbn [ex_block app]; typed_all|]. split; [|split; vm_compute; reflexivity].
  assert (K : key_fits days_16 ex_key).
  { split; [cbn; lia|]. split; [reflexivity|]. split; [|split; reflexivity].
    repeat (apply Forall_cons; [unfold mpi_fits; apply N.log2_lt_pow2; reflexivity|]). constructor. }
  cbn [ex_block app]. repeat (apply Forall_cons; [first [exact I|split; [exact K|eexists; reflexivity]]|]).
  constructor.
Qed.

(** C35: a meaningful key is reported revoked exactly when a key revocation follows the
    primary key, or a subkey or certification revocation occurs. *)
Definition revoked (ps : list packet) : Prop :=
  (exists k s r, ps = k :: s :: r /\ signature_of (eq 32) s) \/
  Exists (signature_of (fun t => t = 40 \/ t = 48)) ps.
Lemma any_revocation_iff : forall ps, Forall typed ps -> exists z, any_revocation ps = Ok z /\ (z = 1 \/ z = 0)%Z /\
  (z = 1%Z <-> Exists (signature_of (fun t => t = 40 \/ t = 48)) ps).
Proof.
  induction ps as [|p ps IH]; intros F; cbn [any_revocation].
  - exists 0%Z. repeat split; auto; [discriminate|]. intros H. inversion H.
  - apply Forall_cons_iff in F as [T F]. destruct (IH F) as (z & E & B & I). destruct (p_tag p =? 2) eqn:E2.
    + destruct (as_sig_typed p T ltac:(lia)) as (s & -> & Bs). cbn [bind].
      destruct ((t2_type s =? 40) || (t2_type s =? 48)) eqn:Y.
      * exists 1%Z. repeat split; auto. intros _. apply Exists_cons_hd. split; [lia|]. exists s. split; [exact Bs|].
        apply orb_true_iff in Y. lia.
      * exists z. repeat split; auto.
        -- intros H. apply Exists_cons_tl, I, H.
        -- intros H. inversion H as [? ? (_ & s' & B' & Q)|]; subst; [|now apply I]. exfalso.
           assert (s' = s) as -> by congruence. apply orb_false_iff in Y. lia.
    + exists z. repeat split; auto.
      * intros H. apply Exists_cons_tl, I, H.
      * intros H. inversion H as [? ? (T2 & _)|]; subst; [lia|now apply I].
Qed.
Theorem C35_check : forall g, Forall typed (g_packets g) -> meaningful g = Ok true ->
  exists z, revoke_check g = Ok z /\ (z = 1 \/ z = 0)%Z /\ (z = 1%Z <-> revoked (g_packets g)).
Proof.
  intros [a ty ks ps] T M. unfold revoke_check. rewrite M. cbn [bind]. unfold meaningful in M. cbn [g_packets g_type] in *.
  apply C33_exact in M; [|exact T].
  assert (exists p0 p r, ps = p0 :: p :: r /\ (p_tag p = 2 -> signature_of (eq 32) p)) as (p0 & p & r & -> & R1).
  { assert (B : exists a b, key_block a b ps) by (destruct M as [[_ M]|[_ M]]; eauto). clear M.
    destruct B as (x & y & k & revs & us & subs & -> & _ & FR & FU & X & _). destruct revs as [|q revs].
    - destruct us as [|l us]; [inversion X|]. apply Forall_cons_iff in FU as [(u & sg & -> & U & _) _]. cbn.
      do 3 eexists. split; [reflexivity|]. intros. lia.
    - apply Forall_cons_iff in FR as [FR _]. cbn. do 3 eexists. split; [reflexivity|auto]. }
  change (vec_at (p0 :: p :: r) 1) with (Ok p). cbn [bind]. destruct (p_tag p =? 2) eqn:E.
  - specialize (R1 ltac:(lia)). destruct (as_sig_of _ _ R1) as (s & -> & Q & _). cbn [bind].
    replace (t2_type s =? 32) with true by lia. exists 1%Z. repeat split; auto. intros _. left. eauto 6.
  - destruct (any_revocation_iff _ T) as (z & Z1 & B & I). exists z. repeat split; auto.
    + intros H. right. now apply I.
    + intros [(k & s & r' & H & T2 & _)|H]; [|now apply I]. assert (p = s) as -> by congruence. lia.
Qed.
(** Any other key: -1. *)
Theorem C35_bad_key : forall g, meaningful g = Ok false -> revoke_check g = Ok (-1)%Z.
Proof. intros g M. unfold revoke_check. now rewrite M. Qed.
(** Only tags, signature types, the version of the primary key and the block type matter: the
    check never looks at what a revocation signs or who issued it, so anybody can revoke. *)
Definition same_shape (p q : packet) : Prop :=
  p_tag p = p_tag q /\
  match p_body p, p_body q with
  | PSig s, PSig t => t2_type s = t2_type t
  | PKey k, PKey l => k_version k = k_version l
  | PSecret k _, PSecret l _ => k_version k = k_version l
  | PSig _, _ | _, PSig _ | PKey _, _ | _, PKey _ | PSecret _ _, _ | _, PSecret _ _ => False
  | _, _ => True
  end.
Lemma shape_sig p q : same_shape p q -> p_tag p = p_tag q /\
  ((exists s t, as_sig p = Ok s /\ as_sig q = Ok t /\ t2_type s = t2_type t) \/ (as_sig p = UB /\ as_sig q = UB)).
Proof.
  intros [T B]. split; [exact T|]. unfold as_sig. destruct (p_body p), (p_body q); try contradiction; try (right; now split).
  left. eauto.
Qed.
Lemma shape_key p q : same_shape p q -> p_tag p = p_tag q /\
  ((exists s t, as_key p = Ok s /\ as_key q = Ok t /\ k_version s = k_version t) \/ (as_key p = UB /\ as_key q = UB)).
Proof.
  intros [T B]. split; [exact T|]. unfold as_key. destruct (p_body p), (p_body q); try contradiction; try (right; now split).
  - left. eauto.
  - left. eauto.
Qed.
Definition rel_opt {A B} (R : A -> B -> Prop) (x : result (option A)) (y : result (option B)) : Prop :=
  match x, y with Ok (Some a), Ok (Some b) => R a b | Ok None, Ok None => True | UB, UB => True | _, _ => False end.
Ltac shape P := let s := fresh "s" in let t := fresh "t" in let E := fresh "E" in
  destruct (shape_sig _ _ P) as [-> [(s & t & -> & -> & E)|[-> ->]]].
Lemma shape_revocations : forall ps qs, Forall2 same_shape ps qs -> rel_opt (Forall2 same_shape) (revocations ps) (revocations qs).
Proof.
  induction 1 as [|p q ps qs P F IH]; [constructor|]. cbn [revocations]. pose proof P as P0. shape P.
  - destruct (p_tag q =? 2); [|cbn; now constructor]. cbn [bind]. rewrite E. destruct (t2_type t =? 32); [exact IH|exact I].
  - destruct (p_tag q =? 2); [exact I|cbn; now constructor].
Qed.
Lemma shape_users : forall ps qs, Forall2 same_shape ps qs -> forall uid seen,
  rel_opt (fun a b => fst a = fst b /\ Forall2 same_shape (snd a) (snd b)) (users uid seen ps) (users uid seen qs).
Proof.
  induction 1 as [|p q ps qs P F IH]; intros uid seen; [cbn; auto|]. cbn [users]. pose proof P as P0. shape P.
  - destruct (p_tag q =? 2).
    + cbn [bind]. rewrite E. destruct (_ || _); [apply IH|exact I].
    + destruct (is_user (p_tag q)); [apply IH|]. cbn. split; [reflexivity|now constructor].
  - destruct (p_tag q =? 2); [exact I|]. destruct (is_user (p_tag q)); [apply IH|]. cbn. split; [reflexivity|now constructor].
Qed.
Lemma shape_subkeys sub v3 : forall ps qs, Forall2 same_shape ps qs -> forall cur, subkeys sub v3 cur ps = subkeys sub v3 cur qs.
Proof.
  induction 1 as [|p q ps qs P F IH]; intros cur; [reflexivity|]. cbn [subkeys]. shape P.
  - destruct cur as [b|]; [destruct (p_tag q =? 2); [cbn [bind]; now rewrite E|]|]; destruct (negb _); try reflexivity;
      destruct v3; rewrite ?IH; reflexivity.
  - destruct cur as [b|]; [destruct (p_tag q =? 2); [reflexivity|]|]; destruct (negb _); try reflexivity;
      destruct v3; rewrite ?IH; reflexivity.
Qed.
Lemma shape_meaningful type ps qs : Forall2 same_shape ps qs -> key_meaningful type ps = key_meaningful type qs.
Proof.
  intros F. unfold key_meaningful.
  assert (G : forall a b, match ps with
    | p0 :: ((_ :: _) as rest) =>
      if negb (p_tag p0 =? a) then Ok false
      else
        k <- as_key p0 ;;
        o <- revocations rest ;;
        match o with
        | None => Ok false
        | Some [] => UB
        | Some (p :: r) =>
          if negb (is_user (p_tag p)) then Ok false
          else
            o <- users (p_tag p =? 13) (p_tag p =? 13) r ;;
            match o with
            | None => Ok false
            | Some (seen, r) => if negb seen then Ok false else subkeys b (k_version k =? 3) None r
            end
        end
    | _ => Ok false
    end = match qs with
    | p0 :: ((_ :: _) as rest) =>
      if negb (p_tag p0 =? a) then Ok false
      else
        k <- as_key p0 ;;
        o <- revocations rest ;;
        match o with
        | None => Ok false
        | Some [] => UB
        | Some (p :: r) =>
          if negb (is_user (p_tag p)) then Ok false
          else
            o <- users (p_tag p =? 13) (p_tag p =? 13) r ;;
            match o with
            | None => Ok false
            | Some (seen, r) => if negb seen then Ok false else subkeys b (k_version k =? 3) None r
            end
        end
    | _ => Ok false
    end).
  { intros a b. destruct F as [|p0 q0 ps qs P F]; [reflexivity|]. destruct F as [|p1 q1 ps qs P1 F]; [reflexivity|].
    destruct (shape_key _ _ P) as [-> K]. destruct (negb (p_tag q0 =? a)); [reflexivity|].
    destruct K as [(k & l & -> & -> & V)|[-> ->]]; [|reflexivity]. cbn [bind].
    pose proof (shape_revocations (p1 :: ps) (q1 :: qs) ltac:(now constructor)) as R. unfold rel_opt in R.
    destruct (revocations (p1 :: ps)) as [[r|]| | |], (revocations (q1 :: qs)) as [[r'|]| | |]; try contradiction; try reflexivity.
    cbn [bind]. destruct R as [|u v r r' U R]; [reflexivity|]. destruct (shape_sig _ _ U) as [-> _].
    destruct (negb (is_user (p_tag v))); [reflexivity|].
    pose proof (shape_users r r' R (p_tag v =? 13) (p_tag v =? 13)) as S. unfold rel_opt in S.
    destruct (users _ _ r) as [[[s x]|]| | |], (users _ _ r') as [[[s' x']|]| | |]; try contradiction; try reflexivity.
    cbn [bind fst snd] in *. destruct S as [-> S]. destruct (negb s'); [reflexivity|]. rewrite V. now apply shape_subkeys. }
  destruct type as [|[t|t|]]; try reflexivity; destruct t; try reflexivity; apply G.
Qed.
Lemma shape_any : forall ps qs, Forall2 same_shape ps qs -> any_revocation ps = any_revocation qs.
Proof.
  induction 1 as [|p q ps qs P F IH]; [reflexivity|]. cbn [any_revocation]. shape P; destruct (p_tag q =? 2); auto.
  cbn [bind]. rewrite E. now destruct (_ || _).
Qed.
Theorem C35_unverified : forall a b ka kb ty ps qs, Forall2 same_shape ps qs ->
  revoke_check (mkPgp a ty ka ps) = revoke_check (mkPgp b ty kb qs).
Proof.
  intros a b ka kb ty ps qs F. unfold revoke_check, meaningful. cbn [g_type g_packets]. rewrite (shape_meaningful ty ps qs F).
  destruct (key_meaningful ty qs) as [[|]| | |]; try reflexivity. cbn [bind].
  rewrite (shape_any _ _ F). destruct F as [|p0 q0 ps qs P F]; [reflexivity|]. destruct F as [|p1 q1 ps qs P1 F]; [reflexivity|].
  change (vec_at (p0 :: p1 :: ps) 1) with (Ok p1). change (vec_at (q0 :: q1 :: qs) 1) with (Ok q1). cbn [bind]. shape P1.
  - destruct (p_tag q1 =? 2); [|reflexivity]. cbn [bind]. now rewrite E.
  - reflexivity.
Qed.
Example C35_ex : revoke_check (mkPgp true 2 [] (ex_block (ex_pub 6) (ex_pub 14) [])) = Ok 1%Z /\
  revoke_check (mkPgp true 2 [] [ex_pub 6; ex_sig 32; ex_user "a"]) = Ok 1%Z /\
  revoke_check (mkPgp true 2 [] [ex_pub 6; ex_user "a"; ex_sig 19; ex_pub 14; ex_sig 24]) = Ok 0%Z.
Proof. repeat split. Qed.

Print Assumptions C33_exact.
Print Assumptions C33_reader.
Print Assumptions C33_answers_partial.
Print Assumptions C33_range_refuted.
Print Assumptions C34_public.
Print Assumptions C35_check.
Print Assumptions C35_bad_key.
Print Assumptions C35_unverified.
