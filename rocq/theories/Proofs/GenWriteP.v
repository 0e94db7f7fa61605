(** A generated key in its written form. *)
From Verif Require Export Spec.KeyGen Spec.KeyUse Spec.Fields Spec.Sequence.
From Verif Require Import Proofs.Lib Proofs.MpiP Proofs.KeyP Proofs.KeyGenP Proofs.MadeP Proofs.CryptP Proofs.CipherStdP Proofs.SignP Proofs.MessageIOP Props.C44_C46.
Local Open Scope N_scope.

(** ** Every packet of a generated key is in new format *)
Definition as_new (p : packet) : Prop := p = new_packet (p_tag p) (p_body p).
Definition plain_new (p : packet) : Prop := as_new p /\ match p_body p with PSecret k _ => k_expire k = 0 | _ => True end.
Lemma uids_new pass k sec id time : forall l draws ps rest, generate_uids pass k sec id time l draws = Ok (Some ps, rest) -> Forall plain_new ps.
Proof.
  induction l as [|u l IH]; intros draws ps rest E; cbn [generate_uids] in E.
  - apply Ok_inj in E. assert (ps = []) as -> by congruence. constructor.
  - cbv zeta in E. apply bind_ok in E as ([o d] & S & E). destruct o as [s|]; [|apply Ok_inj in E; congruence].
    apply bind_ok in E as ([o' d'] & R & E). destruct o' as [ps'|]; [|apply Ok_inj in E; congruence].
    apply IH in R. apply Ok_inj in E. 
    assert (new_packet 13 (PRaw (user_text (u_user u) (u_comment u) (u_email u))) :: new_packet 2 (PSig s) :: ps' = ps) as <- by congruence.
    constructor; [split; reflexivity || exact I|]. constructor; [split; reflexivity || exact I|exact R].
Qed.
Lemma subs_new fuel np test pass k sec id time : forall l rnd draws ps rnd' rest,
  generate_subkeys fuel np test pass k sec id time l rnd draws = Ok (Some ps, rnd', rest) -> Forall plain_new ps.
Proof.
  induction l as [|b l IH]; intros rnd draws ps rnd' rest E; cbn [generate_subkeys] in E.
  - apply Ok_inj in E. assert (ps = []) as -> by congruence. constructor.
  - apply bind_ok in E as ([o d] & KP & E). destruct o as [[pri pub]|]; [|apply Ok_inj in E; congruence].
    apply bind_ok in E as ([x r1] & SK & E). cbv zeta in E. apply bind_ok in E as ([o d1] & SB & E).
    destruct o as [s|]; [|apply Ok_inj in E; congruence]. apply bind_ok in E as ([[o r2] d2] & R & E).
    destruct o as [ps'|]; [|apply Ok_inj in E; congruence]. apply IH in R. apply Ok_inj in E.
    assert (new_packet 7 (PSecret (mkKey 4 time (b_pka b) pub 0) x) :: new_packet 2 (PSig s) :: ps' = ps) as <- by congruence.
    constructor; [split; reflexivity || exact I|]. constructor; [split; reflexivity || exact I|exact R].
Qed.
Lemma generated_new fuel np test c time rnd draws g rnd' rest : generate_key fuel np test c time rnd draws = Ok (g, rnd', rest) -> Forall plain_new (g_packets g).
Proof.
  intros E. unfold generate_key in E.
  assert (NO : forall a b, @Ok (pgp * bytes * list N) (secret_key_new, a, b) = Ok (g, rnd', rest) -> Forall plain_new (g_packets g)).
  { intros a b H. apply Ok_inj in H. assert (g = secret_key_new) by congruence. subst g. constructor. }
  apply bind_ok in E as (v & V & E). destruct v; [|now apply NO in E]. cbn [negb] in E.
  apply bind_ok in E as ([o d] & KP & E). destruct o as [[pri pub]|]; [|now apply NO in E].
  apply bind_ok in E as ([sec r1] & SK & E). cbv zeta in E. set (k := mkKey 4 time (c_pka c) pub 0) in *.
  apply bind_ok in E as (id & KI & E). apply bind_ok in E as ([o d1] & U & E). destruct o as [us|]; [|now apply NO in E].
  apply bind_ok in E as ([[o r2] d2] & S & E). destruct o as [subs|]; [|now apply NO in E]. apply Ok_inj in E.
  apply uids_new in U. apply subs_new in S.
  assert (g = mkPgp true 3 version_cc (new_packet 5 (PSecret k sec) :: us ++ subs)) as -> by congruence. cbn [g_packets].
  constructor; [split; reflexivity || exact I|]. apply Forall_app. auto.
Qed.

(** ** The numbers *)
Definition small (x : N) : Prop := x < 2 ^ 8192.
Lemma small_moderate x : small x -> moderate x.
Proof. unfold small, moderate. intros H. eapply N.lt_le_trans; [exact H|]. apply N.pow_le_mono_r; lia. Qed.
Lemma small_le a b : a <= b -> small b -> small a.
Proof. unfold small. apply N.le_lt_trans. Qed.
Lemma small_len x : small x -> len (write_MPI x) <= 1026.
Proof.
  intros H. rewrite write_MPI_len. assert (B : bitsize x <= 8192) by (apply bitsize_le; [lia|exact H]). clear H.
  assert (X : (bitsize x + 7) / 8 <= (8192 + 7) / 8) by (apply N.div_le_mono; lia). change ((8192 + 7) / 8) with 1024 in X. lia.
Qed.
Lemma smalls_len l : Forall small l -> len (concat (map write_MPI l)) <= 1026 * N.of_nat (length l).
Proof.
  induction 1 as [|x l X F IH]; [cbn; lia|]. cbn [map concat length]. rewrite len_app. apply small_len in X. lia.
Qed.
Lemma mpis_octets l : octets (concat (map write_MPI l)).
Proof. induction l as [|x l IH]; [constructor|]. cbn [map concat]. apply octets_app. split; [apply write_MPI_octets|exact IH]. Qed.

Definition key_shape (pka : N) (pub pri : list N) : Prop :=
  key_mpis 4 pka = Some (length pub) /\ (length pub + length pri <= 6)%nat /\ Forall (fun x => x <= hd 0 pub) pri.
Lemma pair_shape fuel np test pka bits draws pri pub rest : (forall n, is_prime (np n)) -> (forall n, test n = true -> is_prime n) ->
  keygen_pair fuel np test pka bits draws = Ok (Some (pri, pub), rest) -> key_shape pka pub pri.
Proof.
  intros NP T E. unfold keygen_pair in E. apply bind_ok in E as ([[[a pri'] pub'] d] & G & E). apply Ok_inj in E.
  destruct (a =? 0) eqn:A0; [congruence|]. assert (pri' = pri) as -> by congruence. assert (pub' = pub) as -> by congruence. clear E.
  unfold generate_keypair in G. destruct (generate_params pka (N.shiftr bits 1)) as [|b ps] eqn:GP; [apply Ok_inj in G; exfalso; assert (a = 0) by congruence; lia|].
  unfold key_shape. destruct (is_RSA pka) eqn:R.
  - apply bind_ok in G as ([v d'] & K & G). destruct (rsa_keygen_ok _ _ _ _ _ NP K) as (e & dd & p & q & u & -> & P & Q & L & ED & U).
    apply rsa_keygen_small in K as [SD SU].
    apply Ok_inj in G. cbn [skipn firstn] in G. assert (pri = [dd; p; q; u]) as -> by congruence. assert (pub = [p * q; e]) as -> by congruence.
    destruct P as [P1 P2]. destruct Q as [Q1 Q2]. destruct (rsa_bounds _ _ _ _ P1 Q1 SD SU) as (B1 & B2 & B3 & B4).
    split; [|split; [cbn; lia|repeat apply Forall_cons; [| | | |constructor]; cbn [hd]; assumption]].
    assert (I : pka = 1 \/ pka = 2 \/ pka = 3) by (unfold is_RSA, mem in R; cbn in R; lia). destruct I as [ -> | [ -> | -> ] ]; reflexivity.
  - destruct (pka =? 16) eqn:E16.
    + apply N.eqb_eq in E16. subst pka. apply bind_ok in G as ([v d'] & K & G). apply elgamal_keygen_ok in K as (p & g & y & x & -> & _ & X); [|exact NP|exact T].
      apply Ok_inj in G. cbn [skipn firstn] in G. assert (pri = [x]) as -> by congruence. assert (pub = [p; g; y]) as -> by congruence.
      split; [reflexivity|]. split; [cbn; lia|]. constructor; [cbn [hd]; lia|constructor].
    + destruct (pka =? 17) eqn:E17; [|apply Ok_inj in G; exfalso; assert (a = 0) by congruence; lia]. apply N.eqb_eq in E17. subst pka.
      apply bind_ok in G as (n & _ & G). apply bind_ok in G as ([v d1] & K & G). apply bind_ok in G as ([[pri0 pub0] d2] & K2 & G).
      apply Ok_inj in G. assert (pri0 = pri) as -> by congruence. assert (pub0 = pub) as -> by congruence.
      destruct (dsa_generated _ _ _ _ _ _ _ _ _ _ _ NP T K K2) as (p & q & g & y & x & -> & -> & P & DV & DK & X).
      split; [reflexivity|]. split; [cbn; lia|]. constructor; [cbn [hd]; destruct P as [P1 _]; apply N.divide_pos_le in DV; lia|constructor].
Qed.

(** ** The secret part *)
Lemma hash_octet h : In h hashes -> h < 256.
Proof. cbn. intros I. repeat (destruct I as [<-|I]; [lia|]). destruct I. Qed.
Lemma sym_octet h : In h offered -> h < 256.
Proof. cbn. intros I. repeat (destruct I as [<-|I]; [lia|]). destruct I. Qed.
Lemma cfb_octets alg key iv data y : In alg offered -> octets key -> length key = key_octets alg -> octets iv -> length iv = block_octets alg -> octets data ->
  use_ncfb_encrypt alg data key iv = Ok y -> octets y /\ len y = len data.
Proof.
  intros I OK LK OI LI OD E. assert (exists f, standard_cipher alg = Some f) as (f & S).
  { apply standard_offered in I. destruct (standard_cipher alg) as [f|]; [eauto|congruence]. }
  pose proof E as E'. rewrite (ncfb_std alg f key data iv) in E by assumption. apply Ok_inj in E. subst y.
  destruct (CipherP.setup_enciphers alg key I OK LK) as (c & E & C & EN & _). destruct (setup_std alg f key S OK LK) as (c' & C' & _ & H).
  rewrite C in C'. apply Ok_inj in C'. subst c'. pose proof EN as (A & B & D).
  assert (P : (2 <= block_octets alg)%nat) by (unfold block_octets; destruct (alg <? 7); lia). split.
  - refine (proj2 (cfb_mode_same E (f key) (block_octets alg) _ _ iv data OI LI OD)); auto; [lia|].
    intros b Ob Lb. destruct (H b Ob Lb) as (H1 & H2 & H3 & _). rewrite D in H1 by exact Lb. apply Ok_inj in H1. auto.
  - destruct (KeyP.ncfb_inverts _ _ _ _ data iv (KeyP.offered_nz _ I) C EN LI) as (y & Y1 & Y2 & _). rewrite Y1 in E'. apply Ok_inj in E'. congruence.
Qed.
Lemma octets_sum16 d : octets (sum16 d).
Proof. unfold sum16. apply be_octets. Qed.
(** What follows the public values in a generated secret key packet. *)
Lemma secret_written twice pass sym hash pri r x r' k tag : keygen_secret twice pass sym hash pri r = Ok (x, r') ->
  octets (salt_and_iv (new_packet tag (PSecret k x))) -> Forall small pri ->
  secret_fits x /\ exists tail, secret_raw k x = Ok (key_raw k ++ tail) /\ octets tail /\ len tail <= 1026 * N.of_nat (length pri) + 80.
Proof.
  intros E OS FS. pose proof (mpis_octets pri) as OM. pose proof (smalls_len pri FS) as LM. clear FS.
  apply keygen_secret_inv in E as (sym' & hash' & salt & iv & G & I & Ih & Ls & Li & _).
  unfold generated_secret in G. cbv zeta in G. set (data := concat (map write_MPI pri)) in *. destruct pass as [|c pass].
  - apply Ok_inj in G. subst x. split; [cbn; auto|]. eexists. split; [reflexivity|]. cbn [sk_con sk_iv sk_secret N.eqb app].
    split; [apply Forall_cons; [lia|]; apply octets_app; split; [exact OM|apply octets_sum16]|]. rewrite len_cons, len_app, KeyP.sum16_len. lia.
  - apply bind_ok in G as (b' & KL & G). apply bind_ok in G as (key & SR & G). rewrite (KeyP.offered_length _ I) in KL. apply Ok_inj in KL. subst b'. rewrite KeyP.shift3 in SR.
    apply bind_ok in G as (h & H1 & G). apply bind_ok in G as (dd & H2 & G). apply bind_ok in G as (b2 & BL & G). apply bind_ok in G as (enc & EN & G).
    apply Ok_inj in G. subst x. set (y := mkS2k S2K3 3 hash' salt 96) in *.
    unfold salt_and_iv in OS. cbn [new_packet p_body sk_s2k sk_iv] in OS. change (s2k_salt y) with salt in OS. apply octets_app in OS as [OS OI].
    assert (Fy : s2k_fits y). { cbn. split; [reflexivity|]. split; [unfold len; now rewrite Ls|lia]. }
    destruct (KeyP.s2k_run_ok y (c :: pass) (N.of_nat (key_octets sym')) Fy Ih) as (key' & R & LK & OK). rewrite R in SR. apply Ok_inj in SR. subst key'.
    assert (D : octets dd /\ len dd <= len data + 40).
    { pose proof (hash_use_octets _ _ _ H1) as O1. pose proof (hash_use_len 2 _ _ 160 H1 eq_refl) as L1. change (160 / 8) with 20 in L1. destruct twice.
      - apply bind_ok in H2 as (h2 & H2 & E2). apply Ok_inj in E2. subst dd. pose proof (hash_use_octets _ _ _ H2) as O2. pose proof (hash_use_len 2 _ _ 160 H2 eq_refl) as L2.
        change (160 / 8) with 20 in L2. rewrite !octets_app, !len_app. split; [auto|lia].
      - apply Ok_inj in H2. subst dd. rewrite !octets_app, !len_app. split; [auto|lia]. }
    destruct D as [OD LD]. apply cfb_octets in EN as [OE LE]; auto; [|unfold len in LK; lia].
    split.
    + unfold secret_fits. cbn [sk_con sk_sym sk_s2k sk_iv]. change (254 =? 0) with false. change ((254 =? 254) || (254 =? 255)) with true. cbv iota.
      split; [|eauto]. unfold iv_octets. rewrite BL. f_equal. unfold len. rewrite Li. clear - I BL. cbn in I.
      repeat (destruct I as [<-|I]; [cbn in BL; apply Ok_inj in BL; subst b2; reflexivity|]). destruct I.
    + eexists. split; [reflexivity|]. cbn [sk_con sk_sym sk_s2k sk_iv sk_secret]. change (254 =? 0) with false. cbv iota.
      assert (LI : len iv <= 16) by (unfold len; rewrite Li; unfold block_octets; destruct (sym' <? 7); lia).
      assert (LS : len salt = 8) by (unfold len; now rewrite Ls). apply hash_octet in Ih. apply sym_octet in I. split.
      * apply Forall_cons; [lia|]. apply Forall_cons; [exact I|]. unfold s2k_raw. cbn [y s2k_kind s2k_type s2k_hash s2k_salt s2k_count]. cbn [app].
        apply Forall_cons; [lia|]. apply Forall_cons; [exact Ih|]. repeat (apply octets_app; split); auto. apply be_octets.
      * rewrite len_cons. unfold s2k_raw. cbn [y s2k_kind s2k_type s2k_hash s2k_salt s2k_count]. cbn [app]. rewrite !len_cons, !len_app, len_be, LS. lia.
Qed.

(** ** Packets that are written in new format and read back anywhere *)
Definition portable (p : packet) : Prop :=
  exists body, as_new p /\ p_tag p < 64 /\ raw (p_body p) = Ok body /\ readable_length NEW (len body) /\ fits days_kept (p_tag p) (p_body p) /\
    (forall off, placed off (p_body p)) /\ octets body.
Lemma portable_sequence ps : Forall portable ps -> forall off, sequence off ps.
Proof.
  induction 1 as [|p ps (body & N & T & R & L & F & P & O) G IH]; intros off; [exact I|]. rewrite N. eapply sequence_new; eauto.
Qed.
Lemma portable_written ps : Forall portable ps -> exists w, write_packets ps = Ok w /\ octets w /\ len w <= 2 ^ 33 * N.of_nat (length ps) /\ (ps <> [] -> w <> []).
Proof.
  induction 1 as [|p ps (body & N & T & R & L & F & P & O) G (w & W & OW & LW & _)]; [exists []; cbn; repeat split; [constructor|lia|congruence]|].
  rewrite N. destruct (new_written (p_tag p) (p_body p) body R) as (v & V & LV). pose proof (new_write_octets _ _ _ _ R O V) as OV.
  exists (v ++ w). cbn [write_packets]. rewrite V. cbn [bind]. rewrite W. cbn [bind]. split; [reflexivity|]. split; [now apply octets_app|].
  rewrite len_app. cbn [length]. unfold readable_length in L. change (2 ^ 33) with 8589934592 in *. change (2 ^ 32) with 4294967296 in *. split; [lia|].
  intros _ Z. apply app_eq_nil in Z as [-> _]. cbn in LV. lia.
Qed.
Lemma key_written time pka pub pri : time < 2 ^ 32 -> key_shape pka pub pri -> Forall small pub ->
  let k := mkKey 4 time pka pub 0 in key_fits days_kept k /\ octets (key_raw k) /\ len (key_raw k) <= 6 + 1026 * N.of_nat (length pub).
Proof.
  intros T (S & _ & _) F k. assert (P : pka < 256).
  { cbn [key_mpis] in S. change (4 <? 4) with false in S. cbv iota in S. destruct pka as [|p]; [discriminate|]. repeat (destruct p as [p|p|]; try discriminate S; try reflexivity). }
  split; [|split].
  - unfold key_fits, k. cbn [k_version k_time k_mpi k_pka k_expire]. split; [lia|]. split; [exact T|].
    split; [eapply Forall_impl; [|exact F]; intros x X; now apply moderate_fits, small_moderate|]. split; [exact S|reflexivity].
  - unfold key_raw, k. cbn [k_version k_time k_mpi k_pka k_expire]. change (4 <? 4) with false. cbv iota. cbn [app].
    apply Forall_cons; [lia|]. apply octets_app. split; [apply be_octets|]. apply Forall_cons; [exact P|apply mpis_octets].
  - unfold key_raw, k. cbn [k_version k_time k_mpi k_pka k_expire]. change (4 <? 4) with false. cbv iota. cbn [app].
    rewrite len_cons, len_app, len_be, len_cons. pose proof (smalls_len pub F). lia.
Qed.
Lemma shape_small pka pub pri : key_shape pka pub pri -> Forall small pub -> Forall small pri.
Proof.
  intros (S & _ & B) F. assert (H : small (hd 0 pub)) by (destruct F; [unfold small; cbn [hd]; now apply N.neq_0_lt_0, N.pow_nonzero|assumption]).
  eapply Forall_impl; [|exact B]. intros x X. exact (small_le _ _ X H).
Qed.
Lemma secret_portable twice pass sym hash pri r x r' time pka pub tag p : tag = 5 \/ tag = 7 -> p = new_packet tag (PSecret (mkKey 4 time pka pub 0) x) ->
  keygen_secret twice pass sym hash pri r = Ok (x, r') -> octets (salt_and_iv p) ->
  time < 2 ^ 32 -> key_shape pka pub pri -> Forall small pub -> portable p.
Proof.
  intros TG -> SK OS T S F. pose proof (shape_small _ _ _ S F) as FP.
  destruct (key_written time pka pub pri T S F) as (KF & OK & LK). destruct (secret_written _ _ _ _ _ _ _ _ _ _ SK OS FP) as (SF & tail & SR & OT & LT).
  destruct S as (_ & LL & _). eexists. split; [reflexivity|]. cbn [new_packet p_tag p_body]. split; [lia|]. cbn [raw]. split; [exact SR|].
  split; [unfold readable_length; rewrite len_app; lia|]. split; [cbn [fits]; auto|]. split; [intros off; exact I|]. now apply octets_app.
Qed.
Lemma sig_portable pass k sec id time h pri type digest draws s rest x p : p = new_packet 2 (PSig s) -> type < 256 ->
  finish (create_sig 4 type (k_pka k) h id time) digest k sec pass h draws = Ok (Some s, rest) -> hash_use h x = Ok digest ->
  decrypt_secret_keys sec pass = Ok pri -> In (k_pka k) [1; 3; 17] -> key_pair (k_pka k) pri (k_mpi k) -> Forall moderate (k_mpi k) ->
  get_keyid k = Ok id -> time < 2 ^ 32 -> portable p.
Proof.
  intros -> TY FI HU D C KP MO KI T. apply finish_ok in FI as (pri' & vals & D' & S & NEV & ->). rewrite D in D'. apply Ok_inj in D'. subst pri'.
  assert (C2 : k_pka k = 1 \/ k_pka k = 17).
  { destruct C as [C|[C|[C|[]]]]; auto. rewrite <- C in S. apply Ok_inj in S. congruence. }
  assert (F : Forall mpi_fits (k_mpi k)) by (eapply Forall_impl; [|exact MO]; apply moderate_fits).
  destruct (made_fits x digest k pri draws vals rest type h id time HU C2 KP MO S (keyid_len k id F KI) T) as (SF & LS & O).
  specialize (O (keyid_octets k id KI) TY). eexists. split; [reflexivity|]. cbn [new_packet p_tag p_body]. split; [lia|]. split; [reflexivity|].
  split; [unfold readable_length; lia|]. split; [cbn [fits]; auto|]. split; [intros off; cbn [placed]; discriminate|exact O].
Qed.

Lemma name_octets n c e : octets n -> octets c -> octets e -> octets (full_name n c e).
Proof.
  intros A B C. unfold full_name.
  assert (S : forall l, Forall octets l -> octets (spaced l)).
  { induction 1 as [|x l X F IH]; [constructor|]. destruct F; [exact X|]. change (octets (x ++ [32] ++ spaced (x0 :: l))). apply octets_app. split; [exact X|].
    apply octets_app. split; [repeat constructor|exact IH]. }
  assert (Q : forall x a b, a < 256 -> b < 256 -> octets x -> octets ([a] ++ x ++ [b])).
  { intros x a b HA HB X. apply Forall_cons; [exact HA|]. apply octets_app. split; [exact X|]. now apply Forall_cons. }
  apply S. apply Forall_app. split; [destruct n; [constructor|constructor; [exact A|constructor]]|].
  apply Forall_app. split; [destruct c; [constructor|constructor; [apply Q; [lia|lia|exact B]|constructor]]|destruct e; [constructor|constructor; [apply Q; [lia|lia|exact C]|constructor]]].
Qed.
Lemma reread_new time pka pub : reread (mkKey 4 time pka pub 0) = mkKey 4 time pka pub 0.
Proof. reflexivity. Qed.
(** A key packet: written, and turned into its public form. *)
Definition sound_packet (p : packet) : Prop := portable p /\ portable (public_form p) /\ to_public p = Ok (public_form p).
Lemma secret_sound twice pass sym hash pri r x r' time pka pub tag p : tag = 5 \/ tag = 7 -> p = new_packet tag (PSecret (mkKey 4 time pka pub 0) x) ->
  keygen_secret twice pass sym hash pri r = Ok (x, r') -> octets (salt_and_iv p) ->
  time < 2 ^ 32 -> key_shape pka pub pri -> Forall small pub -> sound_packet p.
Proof.
  intros TG EP SK OS T S F. assert (P : portable p) by (eapply secret_portable; eauto).
  destruct (key_written time pka pub pri T S F) as (KF & OK & LK). destruct P as (body & P). pose proof P as (_ & _ & R & _). split; [exists body; exact P|]. clear P.
  subst p. cbn [new_packet p_body raw] in R. set (k := mkKey 4 time pka pub 0) in *. split.
  - exists (key_raw k). unfold public_form, new_packet. cbn [p_body p_tag raw]. split; [reflexivity|]. split; [destruct (tag =? 5); reflexivity|].
    split; [reflexivity|]. destruct S as (_ & LL & _). split; [unfold readable_length; lia|]. split; [cbn [fits]; split; [destruct (tag =? 5); auto|exact KF]|].
    split; [intros off; exact I|exact OK].
  - unfold to_public, public_packet, public_form, new_packet. cbn [p_tag p_body as_secret bind].
    assert (K16 : key_fits days_16 k) by exact KF. rewrite (public_reread k x body K16 R). cbn [bind]. change (reread k) with k.
    destruct TG as [ -> | -> ]; reflexivity.
Qed.
Lemma other_sound p : portable p -> public_form p = p -> p_tag p <> 5 -> p_tag p <> 7 -> sound_packet p.
Proof.
  intros P E N5 N7. unfold sound_packet. rewrite E. split; [exact P|]. split; [exact P|]. unfold to_public.
  apply N.eqb_neq in N5, N7. now rewrite N5, N7.
Qed.
Lemma hashed_use_of s d digest : hashed_with s d = Ok digest -> exists x, hash_use (t2_hash s) x = Ok digest.
Proof. apply hashed_with_use. Qed.
Lemma fresh_octets (ps : list packet) rnd rnd' p : rnd = concat (map salt_and_iv ps) ++ rnd' -> octets rnd -> In p ps -> octets (salt_and_iv p).
Proof.
  intros -> O I. apply octets_app in O as [O _]. induction ps as [|q ps IH]; [destruct I|]. cbn [map concat] in O. apply octets_app in O as [O1 O2].
  destruct I as [ -> | I]; auto.
Qed.
