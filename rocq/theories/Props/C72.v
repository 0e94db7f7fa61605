(** Property C72: certifying a user ID. *)
From Verif Require Import Proofs.CertifyP Proofs.ProthP Props.C21_C22 Props.C23_C26 Props.C32 Props.C33_C35 Props.C41_C43_C60 Props.C44_C46.
Local Open Scope N_scope.

(** Whatever the keys: a result that is not the empty key is the signee's key, when a
    certification that verifies is already there, or the signee's key with one more signature,
    of the wanted type and hash, naming the signer, at the end of those of the first user ID
    with the given text. *)
Theorem C72_adds : forall a now signee user cert draws r rest,
  sign_primary_key a now signee user cert draws = Ok (r, rest) -> g_packets r <> [] ->
  certifies cert /\
  exists p k sec, find_signing_key (a_pri a) = Ok (Some p) /\ p_body p = PSecret k sec /\
  exists q bs u sigs tail k', as_key q = Ok k' /\
   ((exists p' s, r = signee /\ g_packets signee = q :: bs ++ u :: sigs ++ p' :: tail /\ Forall is_signature (sigs ++ [p']) /\
       p_body p' = PSig s /\ verify_certification k k' (Some u) s = Ok 1%Z) \/
    (exists s, adds_at q bs u sigs tail user (new_packet 2 (PSig s)) signee r /\
       t2_type s = cert /\ t2_hash s = a_hash a /\ t2_version s = a_version a /\ t2_pka s = k_pka k /\
       (a_version a = 4 -> sig_keyid s = get_keyid k))).
Proof.
  intros a now signee user cert draws r rest E NE.
  destruct (sign_primary_inv _ _ _ _ _ _ _ _ E NE) as (V & _ & _ & _ & _ & C & p & k & sec & q & k' & bs & u & after & FS & A & GP & K & FU & H).
  split; [exact C|]. exists p, k, sec. split; [exact FS|]. split; [now apply as_secret_inv|].
  destruct H as [(x & y & AL & -> & _)|(z & sigs & tail & id & digest & s & AL & Z1 & Z2 & KI & _ & DG & FI & ->)].
  - apply already_one in AL as (bf & p' & af & s & -> & F & P & S & VC). exists q, bs, u, bf, af, k'. split; [exact K|]. left. exists p', s.
    split; [reflexivity|]. split; [exact GP|]. split; [apply Forall_app; auto|]. split; [now apply as_sig_inv|exact VC].
  - exists q, bs, u, sigs, tail, k'. split; [exact K|]. right. exists s.
    pose proof (already_zero_only _ _ _ _ _ _ _ AL Z1 Z2) as ->. destruct (already_zero _ _ _ _ _ _ AL) as (-> & FSig & NS & _).
    destruct (find_user_ok _ _ _ _ _ FU) as (_ & TU & TX & NO).
    apply finish_ok in FI as (pri & vals & _ & _ & _ & ->). rewrite KI.
    split; [|split; [reflexivity|]; split; [reflexivity|]; split; [reflexivity|]; split; [reflexivity|intros ->; reflexivity]].
    split; [exact GP|]. split; [reflexivity|]. auto.
Qed.

(** With a matching key pair, the user ID then has a certification which verifies under the
    signer's key. *)
Theorem C72_verifies : forall a k sec pri g now signee user cert draws r rest,
  matching a k sec pri g -> sign_primary_key a now signee user cert draws = Ok (r, rest) -> g_packets r <> [] ->
  exists q bs u sigs p s tail k' text, g_packets r = q :: bs ++ u :: sigs ++ p :: tail /\ as_key q = Ok k' /\
    p_tag u = 13 /\ p_body u = PRaw text /\ contains user text /\ Forall is_signature (sigs ++ [p]) /\ p_body p = PSig s /\
    forall k2, same_public k2 k -> verify_certification k2 k' (Some u) s = Ok 1%Z.
Proof.
  intros a k sec pri g now signee user cert draws r rest MA E NE.
  destruct (sign_primary_inv _ _ _ _ _ _ _ _ E NE) as (V & _ & _ & _ & _ & C & p & k0 & sec0 & q & k' & bs & u & after & FS & A & GP & K & FU & H).
  pose proof MA as (V4 & SW & D & KP & F & _). destruct (signs_found _ _ _ (args_meaningful a V) SW) as (p0 & FS' & A').
  rewrite FS in FS'. assert (p0 = p) as -> by congruence. rewrite A in A'. assert (k0 = k) as -> by congruence. assert (sec0 = sec) as -> by congruence.
  destruct (find_user_ok _ _ _ _ _ FU) as (_ & TU & (text & BU & CU) & _).
  destruct H as [(x & y & AL & -> & _)|(z & sigs & tail & id & digest & s & AL & Z1 & Z2 & KI & _ & DG & FI & ->)].
  - apply already_one in AL as (bf & p' & af & s & -> & F' & P & S & VC). exists q, bs, u, bf, p', s, af, k', text.
    repeat (split; [first [assumption|apply Forall_app; auto|now apply as_sig_inv]|]).
    intros k2 SP. unfold verify_certification, verify_key in *. rewrite (same_keyid _ _ SP). destruct SP as (_ & _ & _ & ->). exact VC.
  - exists q, bs, u, sigs, (new_packet 2 (PSig s)), s, tail, k', text.
    pose proof (already_zero_only _ _ _ _ _ _ _ AL Z1 Z2) as ->. destruct (already_zero _ _ _ _ _ _ AL) as (-> & FSig & NS & _).
    split; [reflexivity|]. split; [exact K|]. split; [exact TU|]. split; [exact BU|]. split; [exact CU|].
    split; [apply Forall_app; split; [exact FSig|]; constructor; [reflexivity|constructor]|]. split; [reflexivity|].
    destruct SW as (sp & sr & _ & _ & CS).
    exact (proj2 (proj2 (proj2 (proj2 (certification_accepted a k sec pri cert now id digest k' u draws s rest V4 D KP F CS KI DG FI))))).
Qed.

(** The key returned is again a transferable public key, and not revoked. *)
Theorem C72_meaningful : forall a now signee user cert draws r rest,
  sign_primary_key a now signee user cert draws = Ok (r, rest) -> g_packets r <> [] -> Forall typed (g_packets signee) ->
  g_type r = 2 /\ Forall typed (g_packets r) /\ transferable 2 (g_packets r) /\ meaningful r = Ok true /\ revoke_check r = Ok 0%Z.
Proof.
  intros a now signee user cert draws r rest E NE T.
  destruct (sign_primary_inv _ _ _ _ _ _ _ _ E NE) as (V & _ & GT & M & RC & C & p & k0 & sec0 & q & k' & bs & u & after & FS & A & GP & K & FU & H).
  pose proof M as M'. unfold meaningful in M'. rewrite GT in M'. apply (transferable_iff 2 _ T) in M'.
  destruct H as [(x & y & AL & -> & _)|(z & sigs & tail & id & digest & s & AL & Z1 & Z2 & KI & _ & DG & FI & ->)]; [auto|].
  pose proof (already_zero_only _ _ _ _ _ _ _ AL Z1 Z2) as ->. destruct (already_zero _ _ _ _ _ _ AL) as (-> & FSig & NS & _).
  destruct (find_user_ok _ _ _ _ _ FU) as (_ & TU & _).
  assert (TY : t2_type s = cert) by (apply finish_ok in FI as (pri & vals & _ & _ & _ & ->); reflexivity).
  assert (HN : signature_of certifies (new_packet 2 (PSig s))) by (split; [reflexivity|]; exists s; split; [reflexivity|]; now rewrite TY).
  destruct M' as [[_ B]|[? _]]; [|discriminate].
  destruct (insert_block 6 14 _ _ q bs u sigs tail ltac:(lia) ltac:(lia) B HN GP TU FSig NS) as [B' _].
  cbn [g_type g_packets].
  assert (T' : Forall typed (q :: bs ++ u :: sigs ++ new_packet 2 (PSig s) :: tail)).
  { rewrite GP in T. apply Forall_cons_iff in T as [Tq T]. apply Forall_app in T as [Tb T]. apply Forall_cons_iff in T as [Tu T]. apply Forall_app in T as [Ts T].
    constructor; [exact Tq|]. apply Forall_app. split; [exact Tb|]. constructor; [exact Tu|]. apply Forall_app. split; [exact Ts|].
    constructor; [|exact T]. exists s. reflexivity. }
  assert (TR : transferable 2 (q :: bs ++ u :: sigs ++ new_packet 2 (PSig s) :: tail)) by (left; auto).
  split; [exact GT|]. split; [exact T'|]. split; [exact TR|].
  assert (MR : meaningful (mkPgp (g_armored signee) (g_type signee) (g_keys signee) (q :: bs ++ u :: sigs ++ new_packet 2 (PSig s) :: tail)) = Ok true).
  { unfold meaningful. cbn [g_type g_packets]. rewrite GT. now apply (transferable_iff 2 _ T'). }
  split; [exact MR|]. unfold revoke_check in *. rewrite M in RC. rewrite MR. cbn [bind] in *. cbn [g_packets]. rewrite GP in RC.
  assert (I : forall L, vec_at (q :: bs ++ u :: L) 1 = vec_at (q :: bs ++ u :: sigs ++ tail) 1) by (intros; destruct bs; reflexivity).
  rewrite I. apply bind_ok in RC as (p1 & P1 & RC). rewrite P1. cbn [bind]. destruct (p_tag p1 =? 2); [exact RC|].
  change (q :: bs ++ u :: sigs ++ new_packet 2 (PSig s) :: tail) with ((q :: bs) ++ (u :: sigs) ++ new_packet 2 (PSig s) :: tail).
  rewrite app_assoc. rewrite (any_revocation_insert (new_packet 2 (PSig s)) _ _ s eq_refl eq_refl ltac:(now rewrite TY)). rewrite <- app_assoc. exact RC.
Qed.

(** When no signature of the signer is in the signee's key before, the whole key verifies
    after: Verify::primary_key finds the new certification. *)
Theorem C72_key_verifies : forall a k sec pri g now signee user cert draws r rest,
  matching a k sec pri g -> sign_primary_key a now signee user cert draws = Ok (r, rest) -> g_packets r <> [] ->
  Forall typed (g_packets signee) -> Forall (by_another k) (g_packets signee) ->
  verify_primary_key g r = Ok 1%Z.
Proof.
  intros a k sec pri g now signee user cert draws r rest MA E NE T BA.
  destruct (C72_meaningful _ _ _ _ _ _ _ _ E NE T) as (_ & _ & _ & MR & _).
  destruct (sign_primary_inv _ _ _ _ _ _ _ _ E NE) as (V & _ & GT & M & RC & C & p & k0 & sec0 & q & k' & bs & u & after & FS & A & GP & K & FU & H).
  pose proof MA as (V4 & SW & D & KP & F & MG & HP). destruct (signs_found _ _ _ (args_meaningful a V) SW) as (p0 & FS' & A').
  rewrite FS in FS'. assert (p0 = p) as -> by congruence. rewrite A in A'. assert (k0 = k) as -> by congruence. assert (sec0 = sec) as -> by congruence.
  assert (CS : In (k_pka k) [1; 3; 17]) by (destruct SW as (sp & sr & _ & _ & CS); exact CS).
  destruct (primary_found g k MG HP CS) as (pg & kg & FG & AG & SP & KG).
  pose proof M as M'. unfold meaningful in M'. rewrite GT in M'. apply (transferable_iff 2 _ T) in M'.
  rewrite GP in T, BA. apply Forall_cons_iff in T as [Tq T]. apply Forall_app in T as [Tb T]. apply Forall_cons_iff in T as [Tu T].
  apply Forall_cons_iff in BA as [_ BA]. apply Forall_app in BA as [BB BA]. apply Forall_cons_iff in BA as [_ BA].
  destruct H as [(x & y & AL & -> & _)|(z & sigs & tail & id & digest & s & AL & Z1 & Z2 & KI & PQ & DG & FI & ->)].
  - exfalso. apply already_one in AL as (bf & p' & af & s & -> & F' & P & S & VC). apply Forall_app in BA as [_ BA]. apply Forall_cons_iff in BA as [BA _].
    unfold verify_certification in VC. apply bind_ok in VC as (i & KI & VC). destruct (BA s (as_sig_inv _ _ S)) as (b & SI & NB).
    rewrite SI in VC. cbn [bind] in VC. replace (beq i b) with false in VC by (symmetry; apply beq_neq; congruence). discriminate.
  - pose proof (already_zero_only _ _ _ _ _ _ _ AL Z1 Z2) as ->. destruct (already_zero _ _ _ _ _ _ AL) as (-> & FSig & NS & _).
    destruct (find_user_ok _ _ _ _ _ FU) as (_ & TU & _).
    destruct (certification_accepted a k sec pri cert now id digest k' u draws s rest V4 D KP F CS KI DG FI) as (SI & TY & _ & _ & VC).
    assert (HN : signature_of certifies (new_packet 2 (PSig s))) by (split; [reflexivity|]; exists s; split; [reflexivity|]; now rewrite TY).
    destruct M' as [[_ B]|[? _]]; [|discriminate].
    destruct (insert_block 6 14 _ _ q bs u sigs tail ltac:(lia) ltac:(lia) B HN GP TU FSig NS) as [_ TG].
    apply Forall_app in TG as [TB TG]. apply Forall_cons_iff in TG as [_ TG]. apply Forall_app in TG as [TS _].
    apply Forall_app in T as [Ts _]. apply Forall_app in BA as [BS _].
    unfold verify_primary_key. rewrite MG, MR. cbn [bind negb]. rewrite KG, KI. cbn [bind].
    replace (len id =? 0) with false by (pose proof (keyid_len k id F KI); lia). rewrite FG. cbn [bind]. rewrite AG. cbn [bind g_packets certification_loop].
    rewrite PQ, K. cbn [bind].
    assert (KI' : get_keyid kg = Ok id) by (rewrite (same_keyid _ _ SP); exact KI).
    assert (CH : forall l, Forall (by_another k) l -> Forall (by_another kg) l).
    { intros l. apply Forall_impl. intros x Hx s' B'. rewrite (same_keyid _ _ SP). auto. }
    destruct (loop_skip kg k' id (u :: sigs ++ new_packet 2 (PSig s) :: tail) KI' bs None Tb TB (CH _ BB)) as (i1 & -> & _).
    cbn [certification_loop]. rewrite TU. cbn [is_primary_key is_user mem existsb N.eqb Pos.eqb orb].
    destruct (loop_skip kg k' id (new_packet 2 (PSig s) :: tail) KI' sigs (Some u) Ts TS (CH _ BS)) as (i2 & -> & I2).
    rewrite (I2 FSig). cbn [certification_loop new_packet p_tag is_primary_key is_user mem existsb N.eqb Pos.eqb orb].
    change (as_sig _) with (Ok s). cbn [bind]. rewrite (VC kg SP). reflexivity.
Qed.

(** Certifying again changes nothing, whatever certification is asked for. *)
Theorem C72_again : forall a k sec pri g now now' signee user cert cert' draws draws' r rest,
  matching a k sec pri g -> sign_primary_key a now signee user cert draws = Ok (r, rest) -> g_packets r <> [] ->
  Forall typed (g_packets signee) -> certifies cert' ->
  sign_primary_key a now' r user cert' draws' = Ok (r, draws').
Proof.
  intros a k sec pri g now now' signee user cert cert' draws draws' r rest MA E NE T C'.
  destruct (C72_meaningful _ _ _ _ _ _ _ _ E NE T) as (GR & _ & _ & MR & RR).
  destruct (sign_primary_inv _ _ _ _ _ _ _ _ E NE) as (V & RC & GT & M & _ & C & p & k0 & sec0 & q & k' & bs & u & after & FS & A & GP & K & FU & H).
  pose proof MA as (V4 & SW & D & KP & F & _). destruct (signs_found _ _ _ (args_meaningful a V) SW) as (p0 & FS' & A').
  rewrite FS in FS'. assert (p0 = p) as -> by congruence. rewrite A in A'. assert (k0 = k) as -> by congruence. assert (sec0 = sec) as -> by congruence.
  assert (G : exists after' x y, g_packets r = q :: bs ++ u :: after' /\ already k k' u after' = Ok (1%Z, x, y)).
  { destruct H as [(x & y & AL & -> & _)|(z & sigs & tail & id & digest & s & AL & Z1 & Z2 & KI & PQ & DG & FI & ->)]; [eauto|].
    pose proof (already_zero_only _ _ _ _ _ _ _ AL Z1 Z2) as ->. destruct (already_zero _ _ _ _ _ _ AL) as (-> & FSig & NS & Z0).
    destruct SW as (sp & sr & _ & _ & CS).
    destruct (certification_accepted a k sec pri cert now id digest k' u draws s rest V4 D KP F CS KI DG FI) as (_ & _ & _ & _ & VC).
    destruct (already_back k k' u sigs tail s FSig Z0 (VC k ltac:(repeat split))) as (x & y & AB). cbn [g_packets]. eauto. }
  destruct G as (after' & x & y & GPR & AR).
  unfold sign_primary_key. rewrite V. cbn [bind negb]. rewrite RC. cbn [bind]. change (negb (0 =? 0)%Z) with false. cbv iota.
  unfold public_meaningful. rewrite GR. change (2 =? 2) with true. cbv iota. rewrite MR. cbn [bind negb]. rewrite RR. cbn [bind].
  change (negb (0 =? 0)%Z) with false. cbv iota. rewrite (proj2 (is_cert_iff cert') C'). cbn [negb]. rewrite FS. cbn [bind]. rewrite A. cbn [bind].
  rewrite GPR. cbn [vec_at nth_error bind skipn]. rewrite K. cbn [bind]. rewrite (find_user_after _ _ _ _ after' FU). cbn [bind]. rewrite AR. cbn [bind].
  reflexivity.
Qed.

(** Nothing is certified when the signer's or the signee's key is revoked, for a type which is
    not a certification, when no user ID has the text, or when the signee's key is not a public key. *)
Theorem C72_refuses : forall a now signee user cert draws, args_valid a = Ok true -> Forall typed (g_packets (a_pri a)) ->
  Forall typed (g_packets signee) -> ~ bare (g_type signee) (g_packets signee) ->
  (exists z, revoke_check (a_pri a) = Ok z /\ z <> 0%Z) \/
  (revoke_check (a_pri a) = Ok 0%Z /\
    (g_type signee <> 2 \/ ~ transferable 2 (g_packets signee) \/ (exists z, revoke_check signee = Ok z /\ z <> 0%Z) \/
     (exists z, revoke_check signee = Ok z /\ (~ certifies cert \/
        forall p text, In p (g_packets signee) -> p_tag p = 13 -> p_body p = PRaw text -> ~ contains user text)))) ->
  sign_primary_key a now signee user cert draws = Ok (public_new, draws).
Proof.
  intros a now signee user cert draws V TP TS NB H. unfold sign_primary_key. rewrite V. cbn [bind negb].
  destruct H as [(z & RC & NZ)|(RC & H)]; rewrite RC; cbn [bind].
  { replace (z =? 0)%Z with false by lia. reflexivity. }
  change (negb (0 =? 0)%Z) with false. cbv iota. unfold public_meaningful.
  destruct (N.eqb_spec (g_type signee) 2) as [G|G]; [|reflexivity].
  assert (MA : exists b, meaningful signee = Ok b) by (destruct (meaningful_answers (g_type signee) (g_packets signee) TS) as [X|X]; [exact X|contradiction]).
  destruct MA as (b & M). rewrite M. cbn [bind]. destruct b; [|reflexivity]. cbn [negb].
  unfold meaningful in M. rewrite G in M. apply (transferable_iff 2 _ TS) in M.
  destruct H as [?|[?|[(z & RS & NZ)|(z & RS & H)]]]; [contradiction|contradiction| |].
  { rewrite RS. cbn [bind]. replace (z =? 0)%Z with false by lia. reflexivity. }
  rewrite RS. cbn [bind]. destruct (z =? 0)%Z; [|reflexivity]. cbn [negb].
  destruct (is_certification cert) eqn:C; [|reflexivity]. cbn [negb]. apply is_cert_iff in C. destruct H as [H|H]; [contradiction|].
  destruct (secret_signing a V TP) as [-> |(p & k & sec & -> & A)]; [reflexivity|]. cbn [bind]. rewrite A. cbn [bind].
  destruct M as [[_ B]|[? _]]; [|discriminate]. destruct B as (q & revs & us & subs & E & TQ & _). rewrite E in *. cbn [vec_at nth_error bind skipn].
  apply Forall_cons_iff in TS as [Tq TS]. unfold typed in Tq. rewrite TQ in Tq. destruct Tq as (k' & BQ).
  assert (AK : as_key q = Ok k') by (unfold as_key; now rewrite BQ). rewrite AK. cbn [bind].
  rewrite find_user_none; [reflexivity|exact TS|]. intros p0 text I. apply H. now right.
Qed.

(** An RSA key long enough for the hash certifies every user ID it has not certified yet. *)
Theorem C72_rsa : forall a k sec n e d more more' g now signee user cert draws bits der p text,
  args_valid a = Ok true -> revoke_check (a_pri a) = Ok 0%Z -> matching a k sec (d :: more') g ->
  k_version k = 4 -> k_pka k = 1 -> k_mpi k = n :: e :: more ->
  map_at hash_length (a_hash a) = Ok bits -> map_at asn1_der (a_hash a) = Ok der ->
  len der / 2 + 3 + bits / 8 <= bitsize n / 8 ->
  g_type signee = 2 -> Forall typed (g_packets signee) -> transferable 2 (g_packets signee) -> revoke_check signee = Ok 0%Z ->
  Forall (by_another k) (g_packets signee) -> certifies cert ->
  In p (g_packets signee) -> p_tag p = 13 -> p_body p = PRaw text -> contains user text ->
  exists r, sign_primary_key a now signee user cert draws = Ok (r, draws) /\ verify_primary_key g r = Ok 1%Z.
Proof.
  intros a k sec n e d more more' g now signee user cert draws bits der p text AV RC MA V PK K HL AD L GT T TR RS BA C IP TP BP CP.
  pose proof MA as (V4 & SW & D & KP & F & _).
  enough (exists r, sign_primary_key a now signee user cert draws = Ok (r, draws) /\ g_packets r <> []) as (r & S & NE).
  { exists r. split; [exact S|]. eapply C72_key_verifies; eauto. }
  unfold sign_primary_key. rewrite AV. cbn [bind negb]. rewrite RC. cbn [bind]. change (negb (0 =? 0)%Z) with false. cbv iota.
  unfold public_meaningful. rewrite GT. change (2 =? 2) with true. cbv iota.
  assert (M : meaningful signee = Ok true) by (unfold meaningful; rewrite GT; now apply (transferable_iff 2 _ T)).
  rewrite M. cbn [bind negb]. rewrite RS. cbn [bind]. change (negb (0 =? 0)%Z) with false. cbv iota.
  rewrite (proj2 (is_cert_iff cert) C). cbn [negb].
  destruct (signs_found _ _ _ (args_meaningful a AV) SW) as (p0 & FS & A). rewrite FS. cbn [bind]. rewrite A. cbn [bind].
  destruct TR as [[_ B]|[? _]]; [|discriminate]. destruct B as (q & revs & us & subs & E & TQ & _). rewrite E in *. cbn [vec_at nth_error bind skipn].
  apply Forall_cons_iff in T as [Tq T]. apply Forall_cons_iff in BA as [_ BA]. unfold typed in Tq. rewrite TQ in Tq. destruct Tq as (k' & BQ).
  assert (AK : as_key q = Ok k') by (unfold as_key; now rewrite BQ). rewrite AK. cbn [bind].
  destruct IP as [<-|IP]; [rewrite TQ in TP; discriminate|].
  destruct (find_user_some user _ p text T IP TP BP CP) as (bs & u & after & FU). rewrite FU. cbn [bind].
  destruct (find_user_ok _ _ _ _ _ FU) as (EL & TU & (tu & BU & _) & _). rewrite EL in T, BA.
  apply Forall_app in T as [_ T]. apply Forall_cons_iff in T as [_ T]. apply Forall_app in BA as [_ BA]. apply Forall_cons_iff in BA as [_ BA].
  destruct (keyid_v4 k V) as (fp & id & _ & KI & _).
  destruct (already_ok k k' u id KI after T BA) as (sigs & tail & AL). rewrite AL. cbn [bind]. change ((0 =? -1)%Z) with false. change ((0 =? 1)%Z) with false. cbv iota.
  rewrite KI. cbn [bind]. unfold sign_certification. rewrite TQ. change (is_primary_key 6) with true. cbn [negb].
  change (t2_type (create_sig (a_version a) cert (k_pka k) (a_hash a) id now)) with cert.
  change (t2_hash (create_sig (a_version a) cert (k_pka k) (a_hash a) id now)) with (a_hash a).
  rewrite (proj2 (is_cert_iff cert) C). cbn [negb]. rewrite AK. cbn [bind]. rewrite TU, BU, V4.
  assert (HI : In (a_hash a) hashes).
  { unfold map_at, asn1_der in AD. cbn [hashes In].
    repeat match type of AD with (if ?b then _ else _) = _ => destruct b eqn:?; [apply N.eqb_eq in Heqb; rewrite <- Heqb; cbn; tauto|clear Heqb] end. discriminate. }
  destruct (cert_input_ok cert k' tu (k_pka k) (a_hash a) id now C HI) as (digest & DG). rewrite DG. cbn [bind].
  destruct (to_sign_cert_use _ _ _ _ _ _ DG) as (dd & H). change (t2_hash _) with (a_hash a) in H.
  unfold finish. rewrite D. cbn [bind]. unfold sign_with_pka. rewrite PK, K. cbn [N.eqb Pos.eqb orb vec_at nth_error bind].
  assert (B : bitsize n <= 65528) by (apply bitsize_le; [lia|]; rewrite K in F; now apply Forall_cons_iff in F as [F _]).
  assert (BL : bitsize n / 8 < 2 ^ 32) by (apply N.div_lt_upper_bound; lia).
  destruct (C22_length (a_hash a) bits der digest (bitsize n / 8) HL AD (hash_use_len _ _ _ _ H HL) BL L) as (em & ? & ? & EM & _).
  rewrite N.shiftr_div_pow2. change (2 ^ 3) with 8. rewrite EM. cbn [bind].
  unfold key_pair in KP. rewrite PK, K in KP. cbn [N.eqb Pos.eqb] in KP.
  destruct KP as (n' & e' & d' & m1 & m2 & E1 & E2 & RK). injection E1 as <- <- <-. injection E2 as <- <-.
  rewrite K in F. apply Forall_cons_iff in F as [Fn _].
  pose proof EM as EM'. replace (bitsize n / 8) with (N.shiftr (bitsize n) 3) in EM' by (now rewrite N.shiftr_div_pow2).
  destruct (emsa_below _ _ _ _ _ H Fn EM') as [R BB].
  destruct (C41_verify_octets n e d more more' em (be_val em) [] RK R BB) as (s & SG & _). rewrite SG. cbn [bind].
  eexists. split; [reflexivity|]. discriminate.
Qed.

(** Examples: a key with two user IDs and a subkey; the DSA key certifies the second. *)
Definition friend : pgp := mkPgp true 2 []
  [new_packet 6 (PKey big_key); ex_user "Al <al@x>"; ex_sig 16; ex_user "Bo <bo@x>"; ex_sig 19; ex_pub 14; ex_sig 24].
Example C72_ex : Forall typed (g_packets friend) /\ Forall (by_another toy_key) (g_packets friend) /\ ~ bare 2 (g_packets friend) /\
  exists s r, sign_primary_key toy_args 1234567890 friend (str "bo@") 18 [3; 5] = Ok (r, [5]) /\
    r = mkPgp true 2 [] [new_packet 6 (PKey big_key); ex_user "Al <al@x>"; ex_sig 16; ex_user "Bo <bo@x>"; ex_sig 19;
                         new_packet 2 (PSig s); ex_pub 14; ex_sig 24] /\
    verify_primary_key toy_pub r = Ok 1%Z /\ verify_primary_key toy_pub friend = Ok 0%Z /\
    sign_primary_key toy_args 7 r (str "bo@") 16 [3] = Ok (r, [3]).
Proof.
  split; [typed_all|]. split.
  { repeat constructor; intros s [= <-]; eexists; (split; [reflexivity|]); vm_compute; discriminate. }
  split.
  { intros (k & revs & E & _ & F & _). injection E as _ <-. apply Forall_cons_iff in F as [(T & _) _]. discriminate. }
  do 2 eexists. split; [vm_compute; reflexivity|]. split; [reflexivity|]. split; [|split]; vm_compute; reflexivity.
Qed.
Example C72_refuses_ex :
  sign_primary_key toy_args 7 friend (str "cy@") 18 [3] = Ok (public_new, [3]) /\
  sign_primary_key toy_args 7 friend (str "bo@") 48 [3] = Ok (public_new, [3]) /\
  sign_primary_key toy_args 7 toy_pri (str "a") 18 [3] = Ok (public_new, [3]).
Proof. repeat apply conj; vm_compute; reflexivity. Qed.
Example C72_rsa_ex : Forall (by_another big_key) (g_packets toy_pub) /\ exists r,
  sign_primary_key big_args 7 toy_pub (str "a") 16 [] = Ok (r, []) /\ verify_primary_key big_pub r = Ok 1%Z.
Proof.
  assert (B : Forall (by_another big_key) (g_packets toy_pub)).
  { repeat constructor; intros s [= <-]; eexists; (split; [reflexivity|]); vm_compute; discriminate. }
  split; [exact B|]. destruct big_ex as (V & RC & MA & bits & der & HL & AD & L).
  eapply (C72_rsa big_args big_key big_sec (big_p * big_q) 3 big_d [] [] big_pub 7 toy_pub (str "a") 16 [] bits der (ex_user "a") (str "a"));
    try assumption; try reflexivity.
  - typed_all.
  - apply (transferable_iff 2); [typed_all|reflexivity].
  - cbn. auto.
  - cbn. auto.
  - exists [], []. reflexivity.
Qed.

Print Assumptions C72_adds.
Print Assumptions C72_verifies.
Print Assumptions C72_meaningful.
Print Assumptions C72_key_verifies.
Print Assumptions C72_again.
Print Assumptions C72_refuses.
Print Assumptions C72_rsa.
