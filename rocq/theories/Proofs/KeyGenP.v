(** Key generation. *)
From Verif Require Export Spec.KeyGen.
From Verif Require Import Proofs.Lib Proofs.MpiP Proofs.FermatP Proofs.PkaP Proofs.KeyP Proofs.KeyGrammarP Proofs.SignP Proofs.CertifyP Props.C21_C22 Props.C41_C43_C60 Props.C44_C46.

Lemma user_text_name n c e : user_text n c e = full_name n c e.
Proof.
  unfold user_text, full_name, put_space. destruct n as [|a n], c as [|b c], e as [|d e]; cbn [app spaced str list_byte_of_string map];
    rewrite ?app_nil_r; cbn [app]; try reflexivity.
  all: repeat (rewrite <- ?app_assoc; cbn [app]); reflexivity.
Qed.

(** What the generators did, in terms of the signing functions. *)
Definition cert_done (pass : bytes) (k : key) (sec : secret) (id : bytes) (time h : N) (p : packet) (s : tag2) : Prop :=
  exists digest draws rest, to_sign_cert 19 k (p_tag p) (p_body p) (create_sig 4 19 (k_pka k) h id time) = Ok digest /\
    finish (create_sig 4 19 (k_pka k) h id time) digest k sec pass h draws = Ok (Some s, rest).
Definition bind_done (pass : bytes) (k : key) (sec : secret) (id : bytes) (time h : N) (kk : key) (s : tag2) : Prop :=
  exists digest draws rest, to_sign_18 k kk (create_sig 4 24 (k_pka k) h id time) = Ok digest /\
    finish (create_sig 4 24 (k_pka k) h id time) digest k sec pass h draws = Ok (Some s, rest).
Lemma made_finish k ty h id time digest sec pass draws s rest : get_keyid k = Ok id ->
  finish (create_sig 4 ty (k_pka k) h id time) digest k sec pass h draws = Ok (Some s, rest) -> made_by k ty h time s.
Proof.
  intros KI F. apply finish_ok in F as (pri & vals & _ & _ & _ & ->). unfold made_by. rewrite KI. repeat split.
Qed.
Lemma uids_inv pass k sec id time : get_keyid k = Ok id -> forall l draws ps rest,
  generate_uids pass k sec id time l draws = Ok (Some ps, rest) ->
  exists us, ps = concat us /\
    Forall2 (fun u l => uid_made (cert_done pass k sec id time (u_sig u)) k time u l) l us.
Proof.
  intros KI. induction l as [|u l IH]; intros draws ps rest E; cbn [generate_uids] in E.
  - apply Ok_inj in E. exists []. split; [cbn; congruence|constructor].
  - cbv zeta in E. apply bind_ok in E as ([o d] & S & E). destruct o as [s|]; [|apply Ok_inj in E; congruence].
    apply bind_ok in E as ([o' d'] & R & E). destruct o' as [ps'|]; [|apply Ok_inj in E; congruence].
    apply IH in R as (us & -> & F). apply Ok_inj in E.
    set (uid := new_packet 13 (PRaw (user_text (u_user u) (u_comment u) (u_email u)))) in *.
    exists ([uid; new_packet 2 (PSig s)] :: us). split; [cbn [concat app]; congruence|]. constructor; [|exact F].
    unfold sign_certification in S. cbn [new_packet p_tag is_primary_key mem existsb N.eqb Pos.eqb orb negb] in S.
    change (t2_type (create_sig 4 19 (k_pka k) (u_sig u) id time)) with 19 in S. cbn [is_certification mem existsb N.eqb Pos.eqb orb negb] in S.
    change (as_key (new_packet 5 (PSecret k sec))) with (Ok k) in S. cbn [bind] in S.
    apply bind_ok in S as (digest & DG & S).
    change (t2_hash (create_sig 4 19 (k_pka k) (u_sig u) id time)) with (u_sig u) in S.
    exists uid, (new_packet 2 (PSig s)), s. split; [reflexivity|]. split; [reflexivity|].
    split; [unfold uid; cbn [new_packet p_body]; now rewrite user_text_name|]. split; [reflexivity|]. split; [reflexivity|].
    split; [eapply made_finish; eauto|]. exists digest, draws, d. auto.
Qed.
Lemma subs_inv fuel np test pass k sec id time : get_keyid k = Ok id -> forall l rnd draws ps rnd' rest,
  generate_subkeys fuel np test pass k sec id time l rnd draws = Ok (Some ps, rnd', rest) ->
  exists subs, ps = concat subs /\
    Forall2 (fun b l => sub_made (fun kk x s => bind_done pass k sec id time (b_sig b) kk s /\
       exists pri r r', keygen_secret true pass (b_sym b) (b_hash b) pri r = Ok (x, r') /\
       exists d d', keygen_pair fuel np test (b_pka b) (b_bits b) d = Ok (Some (pri, k_mpi kk), d')) k time b l) l subs.
Proof.
  intros KI. induction l as [|b l IH]; intros rnd draws ps rnd' rest E; cbn [generate_subkeys] in E.
  - apply Ok_inj in E. exists []. split; [cbn; congruence|constructor].
  - apply bind_ok in E as ([o d] & KP & E). destruct o as [[pri pub]|]; [|apply Ok_inj in E; congruence].
    apply bind_ok in E as ([x r1] & SK & E). cbv zeta in E. apply bind_ok in E as ([o d1] & SB & E).
    destruct o as [s|]; [|apply Ok_inj in E; congruence]. apply bind_ok in E as ([[o r2] d2] & R & E).
    destruct o as [ps'|]; [|apply Ok_inj in E; congruence]. apply IH in R as (subs & -> & F). apply Ok_inj in E.
    set (kk := mkKey 4 time (b_pka b) pub 0) in *.
    exists ([new_packet 7 (PSecret kk x); new_packet 2 (PSig s)] :: subs). split; [cbn [concat app]; congruence|]. constructor; [|exact F].
    unfold sign_subkey_binding in SB. apply bind_ok in SB as (digest & DG & S).
    change (t2_hash (create_sig 4 24 (k_pka k) (b_sig b) id time)) with (b_sig b) in S.
    exists (new_packet 7 (PSecret kk x)), (new_packet 2 (PSig s)), kk, x, s.
    do 8 (split; [reflexivity|]). split; [eapply made_finish; eauto|].
    split; [exists digest, d, d1; auto|]. exists pri, rnd, r1. split; [exact SK|]. exists draws, d. exact KP.
Qed.
Lemma generate_inv fuel np test c time rnd draws g rnd' rest :
  generate_key fuel np test c time rnd draws = Ok (g, rnd', rest) -> g_packets g <> [] ->
  exists k sec pri id us subs, config_valid c = Ok true /\ k = mkKey 4 time (c_pka c) (k_mpi k) 0 /\ get_keyid k = Ok id /\
    (exists d', keygen_pair fuel np test (c_pka c) (c_bits c) draws = Ok (Some (pri, k_mpi k), d')) /\
    (exists r', keygen_secret false (c_pass c) (c_sym c) (c_hash c) pri rnd = Ok (sec, r')) /\
    g = mkPgp true 3 version_cc (new_packet 5 (PSecret k sec) :: concat us ++ concat subs) /\
    Forall2 (fun u l => uid_made (cert_done (c_pass c) k sec id time (u_sig u)) k time u l) (c_uids c) us /\
    Forall2 (fun b l => sub_made (fun kk x s => bind_done (c_pass c) k sec id time (b_sig b) kk s /\
       exists pri r r', keygen_secret true (c_pass c) (b_sym b) (b_hash b) pri r = Ok (x, r') /\
       exists d d', keygen_pair fuel np test (b_pka b) (b_bits b) d = Ok (Some (pri, k_mpi kk), d')) k time b l) (c_subkeys c) subs.
Proof.
  intros E NE. unfold generate_key in E.
  assert (NO : forall a b, @Ok (pgp * bytes * list N) (secret_key_new, a, b) = Ok (g, rnd', rest) -> False).
  { intros a b H. apply Ok_inj in H. assert (g = secret_key_new) by congruence. subst g. now apply NE. }
  apply bind_ok in E as (v & V & E). destruct v; [|now apply NO in E]. cbn [negb] in E.
  apply bind_ok in E as ([o d] & KP & E). destruct o as [[pri pub]|]; [|now apply NO in E].
  apply bind_ok in E as ([sec r1] & SK & E). cbv zeta in E. set (k := mkKey 4 time (c_pka c) pub 0) in *.
  apply bind_ok in E as (id & KI & E). apply bind_ok in E as ([o d1] & U & E). destruct o as [us|]; [|now apply NO in E].
  apply bind_ok in E as ([[o r2] d2] & S & E). destruct o as [subs|]; [|now apply NO in E]. apply Ok_inj in E.
  apply uids_inv in U as (us' & -> & FU); [|exact KI]. apply subs_inv in S as (subs' & -> & FS); [|exact KI].
  exists k, sec, pri, id, us', subs'. split; [exact V|]. split; [reflexivity|]. split; [exact KI|].
  split; [exists d; exact KP|]. split; [exists r1; exact SK|]. split; [congruence|]. auto.
Qed.

(** ** The composition *)
Lemma made_typed ok k time u l : uid_made ok k time u l -> Forall typed l /\ user_part l /\ has_user_id l.
Proof.
  intros (p & q & s & -> & TP & BP & TQ & BQ & (_ & TY & _) & _). repeat apply conj.
  - constructor; [unfold typed; rewrite TP; eauto|]. constructor; [unfold typed; rewrite TQ; eauto|constructor].
  - exists p, [q]. split; [reflexivity|]. split; [auto|]. constructor; [|constructor]. split; [exact TQ|].
    exists s. split; [exact BQ|]. left. rewrite TY. cbn. auto.
  - exists p, [q]. auto.
Qed.
Lemma sub_typed ok k time b l : sub_made ok k time b l -> Forall typed l /\ subkey_part 7 l.
Proof.
  intros (p & q & kk & x & s & -> & TP & BP & _ & _ & _ & TQ & BQ & (_ & TY & _) & _). split.
  - constructor; [unfold typed; rewrite TP; eauto|]. constructor; [unfold typed; rewrite TQ; eauto|constructor].
  - exists p, [q]. split; [reflexivity|]. split; [exact TP|]. split.
    + constructor; [|constructor]. split; [exact TQ|]. eauto.
    + constructor. split; [exact TQ|]. exists s. auto.
Qed.
Lemma Forall2_Forall_r {A B} (P : A -> B -> Prop) (Q : B -> Prop) l m : (forall a b, P a b -> Q b) -> Forall2 P l m -> Forall Q m.
Proof. intros H F. induction F; constructor; eauto. Qed.
Lemma generated_block ok ok' k sec time uids subs us ss : uids <> [] -> k_version k = 4 ->
  Forall2 (uid_made ok k time) uids us -> Forall2 (sub_made ok' k time) subs ss ->
  let ps := new_packet 5 (PSecret k sec) :: concat us ++ concat ss in
  Forall typed ps /\ transferable 3 ps.
Proof.
  intros NE V FU FS ps.
  assert (TU : Forall (fun l => Forall typed l /\ user_part l /\ has_user_id l) us).
  { eapply Forall2_Forall_r; [|exact FU]. intros a b. apply made_typed. }
  assert (TS : Forall (fun l => Forall typed l /\ subkey_part 7 l) ss).
  { eapply Forall2_Forall_r; [|exact FS]. intros a b. apply sub_typed. }
  split.
  - constructor; [cbn; eauto|]. apply Forall_app. split; apply Forall_concat; (eapply Forall_impl; [|eassumption]); cbn; tauto.
  - right. split; [reflexivity|]. exists (new_packet 5 (PSecret k sec)), [], us, ss. split; [reflexivity|]. split; [reflexivity|]. split; [constructor|].
    split; [eapply Forall_impl; [|exact TU]; cbn; tauto|]. split.
    + destruct FU; [congruence|]. apply Forall_cons_iff in TU as [(_ & _ & H1) _]. now constructor.
    + split; [eapply Forall_impl; [|exact TS]; cbn; tauto|]. intros (k0 & [B|[s B]] & V0); cbn in B; [discriminate|].
      injection B as -> ->. congruence.
Qed.

(** ** The secret values *)
Lemma fits_le a b : a <= b -> mpi_fits b -> mpi_fits a.
Proof. unfold mpi_fits. apply N.le_lt_trans. Qed.
Lemma inverse_below a m i : invert a m = Ok i -> i < m.
Proof.
  unfold invert. destruct (m =? 0) eqn:M; [discriminate|]. apply N.eqb_neq in M. intros E. apply Ok_inj in E. subst i.
  unfold mod_inverse. destruct (euclid _ _ _ _ _) as [g t]. destruct (g =? 1)%Z; [|lia].
  pose proof (Z.mod_pos_bound t (Z.of_N m) ltac:(lia)). lia.
Qed.
Lemma rsa_keygen_small np bits draws n e d p q u r : rsa_keygen np bits draws = Ok ([n; e; d; p; q; u], r) ->
  d < (p - 1) * (q - 1) /\ u < q.
Proof.
  intros E. unfold rsa_keygen in E. apply bind_ok in E as ([[p0 q0] d1] & _ & E). cbv zeta in E.
  destruct (if q0 <? p0 then (q0, p0) else (p0, q0)) as [p1 q1].
  apply bind_ok in E as ([e0 d2] & _ & E). apply bind_ok in E as (e1 & _ & E).
  apply bind_ok in E as (dd & DD & E). apply bind_ok in E as (uu & UU & E). apply Ok_inj in E.
  apply inverse_below in DD, UU. assert (dd = d) as -> by congruence. assert (uu = u) as -> by congruence.
  assert (p1 = p) as -> by congruence. assert (q1 = q) as -> by congruence. auto.
Qed.
Lemma rsa_bounds p q d u : 1 < p -> 1 < q -> d < (p - 1) * (q - 1) -> u < q -> d <= p * q /\ p <= p * q /\ q <= p * q /\ u <= p * q.
Proof.
  intros P Q D U. assert ((p - 1) * (q - 1) <= p * q) by (apply N.mul_le_mono; lia).
  assert (p * 1 <= p * q) by (apply N.mul_le_mono_l; lia). assert (1 * q <= p * q) by (apply N.mul_le_mono_r; lia). lia.
Qed.
Lemma keypair_ok fuel np test pka bits draws pri pub rest : (forall n, is_prime (np n)) -> (forall n, test n = true -> is_prime n) ->
  keygen_pair fuel np test pka bits draws = Ok (Some (pri, pub), rest) -> mpi_fits (hd 0 pub) ->
  Forall mpi_fits pri /\ (length pri <= 4)%nat /\
  (pka = 17 \/ (is_RSA pka = true /\ exists n e, pub = [n; e] /\ N.odd n = true) -> key_pair pka pri pub).
Proof.
  intros NP T E F. unfold keygen_pair in E. apply bind_ok in E as ([[[a pri'] pub'] d] & G & E). apply Ok_inj in E.
  destruct (a =? 0) eqn:A0; [congruence|]. assert (pri' = pri) as -> by congruence. assert (pub' = pub) as -> by congruence. clear E.
  unfold generate_keypair in G. destruct (generate_params pka (N.shiftr bits 1)) as [|b ps] eqn:GP; [apply Ok_inj in G; lia || (exfalso; assert (a = 0) by congruence; lia)|].
  destruct (is_RSA pka) eqn:R.
  - apply bind_ok in G as ([v d'] & K & G). destruct (rsa_keygen_ok _ _ _ _ _ NP K) as (e & dd & p & q & u & -> & P & Q & L & ED & U).
    apply rsa_keygen_small in K as [SD SU].
    apply Ok_inj in G. cbn [skipn firstn] in G. assert (pri = [dd; p; q; u]) as -> by congruence. assert (pub = [p * q; e]) as -> by congruence.
    cbn [hd] in F. rename F into FN. destruct P as [P1 P2]. destruct Q as [Q1 Q2].
    destruct (rsa_bounds _ _ _ _ P1 Q1 SD SU) as (B1 & B2 & B3 & B4).
    split; [|split; [cbn; lia|]].
    + repeat apply Forall_cons; [| | | |constructor]; (eapply fits_le; [|exact FN]); assumption.
    + intros [->|[_ (n & e' & E' & O)]]; [discriminate R|]. unfold key_pair.
      destruct (pka =? 17) eqn:E17; [apply N.eqb_eq in E17; subst pka; discriminate R|].
      assert (n = p * q) as -> by congruence. rewrite N.odd_mul in O. apply andb_prop in O as [OP OQ].
      exists (p * q), e, dd, [], [p; q; u]. split; [reflexivity|]. split; [reflexivity|].
      exists p, q. repeat (split; [assumption || lia || (split; assumption)|]). exact ED.
  - destruct (pka =? 16) eqn:E16.
    + apply bind_ok in G as ([v d'] & K & G). apply elgamal_keygen_ok in K as (p & g & y & x & -> & _ & X); [|exact NP|exact T].
      apply Ok_inj in G. cbn [skipn firstn] in G. assert (pri = [x]) as -> by congruence. assert (pub = [p; g; y]) as -> by congruence.
      cbn [hd] in F. split; [constructor; [apply (fits_le x p); [clear F; lia|exact F]|constructor]|]. split; [cbn; lia|].
      intros [->|[? _]]; discriminate.
    + destruct (pka =? 17) eqn:E17; [|apply Ok_inj in G; exfalso; assert (a = 0) by congruence; lia].
      apply bind_ok in G as (n & _ & G). apply bind_ok in G as ([v d1] & K & G). apply bind_ok in G as ([[pri0 pub0] d2] & K2 & G).
      apply Ok_inj in G. assert (pri0 = pri) as -> by congruence. assert (pub0 = pub) as -> by congruence.
      destruct (dsa_generated _ _ _ _ _ _ _ _ _ _ _ NP T K K2) as (p & q & g & y & x & -> & -> & P & DV & DK & X).
      cbn [hd] in F. assert (QP : x <= p) by (clear F; destruct P as [P1 _]; apply N.divide_pos_le in DV; lia).
      split; [constructor; [apply (fits_le x p); assumption|constructor]|]. split; [cbn; lia|].
      intros _. unfold key_pair. rewrite E17. exists p, q, g, y, x, [], []. auto.
Qed.

Lemma map_at_in (l : list (N * N)) x v : map_at l x = Ok v -> In x (map fst l).
Proof.
  induction l as [|[a b] l IH]; cbn; [discriminate|]. destruct (a =? x) eqn:E; [apply N.eqb_eq in E; auto|].
  intros H. right. apply IH. exact H.
Qed.
Lemma rand_bytes_length n rnd a r : rand_bytes n rnd = Ok (a, r) -> length a = N.to_nat n.
Proof.
  unfold rand_bytes. destruct (len rnd <? n) eqn:L; [discriminate|]. intros E. apply Ok_inj in E.
  assert (a = firstn (N.to_nat n) rnd) as -> by congruence. apply firstn_length_le. unfold len in L. lia.
Qed.
Lemma fits_octets m : mpi_fits m -> 2 + (bitsize m + 7) / 8 <= 8194.
Proof.
  intros F. apply mpi_fits_bitsize in F as B. clear F.
  assert ((bitsize m + 7) / 8 <= 8191) by (apply N.lt_succ_r, N.div_lt_upper_bound; lia). lia.
Qed.
Lemma mpis_short pri : Forall mpi_fits pri -> (length pri <= 4)%nat -> len (concat (map write_MPI pri)) + 64 < two64.
Proof.
  intros F L. assert (B : len (concat (map write_MPI pri)) <= 8194 * N.of_nat (length pri)).
  { clear L. induction F as [|m pri M F IH]; [reflexivity|]. cbn [map concat length]. rewrite len_app.
    assert (len (write_MPI m) <= 8194) by (rewrite write_MPI_len; apply fits_octets; exact M). lia. }
  unfold two64. lia.
Qed.
Lemma keygen_secret_inv twice pass sym hash pri rnd s r : keygen_secret twice pass sym hash pri rnd = Ok (s, r) ->
  exists sym' hash' salt iv, generated_secret twice pass sym' hash' salt iv pri = Ok s /\ In sym' offered /\ In hash' hashes /\
    length salt = 8%nat /\ length iv = block_octets sym' /\
    (pass <> [] -> sym' = sym /\ hash' = hash /\ sk_con s = 254 /\ sk_sym s = sym /\ exists x, sk_s2k s = Some x /\ s2k_hash x = hash /\ s2k_salt x = salt).
Proof.
  unfold keygen_secret. destruct pass as [|c pass]; intros E.
  - apply bind_ok in E as (s' & G & E). apply Ok_inj in E. assert (s' = s) as -> by congruence.
    exists 9, 8, (repeat 0 8), (repeat 0 16). split; [exact G|]. split; [cbn; auto 12|]. split; [cbn; auto 12|]. split; [reflexivity|]. split; [reflexivity|].
    intros H. now elim H.
  - apply bind_ok in E as ([salt r1] & R1 & E). apply bind_ok in E as (kl & KL & E). apply bind_ok in E as (bits & BL & E).
    apply bind_ok in E as ([iv r2] & R2 & E). apply bind_ok in E as (s' & G & E). apply Ok_inj in E. assert (s' = s) as -> by congruence.
    apply rand_bytes_length in R1, R2. exists sym, hash, salt, iv. split; [exact G|].
    assert (IO : In sym offered) by (apply map_at_in in KL; exact KL). split; [exact IO|].
    unfold generated_secret in G. cbv zeta in G. apply bind_ok in G as (b' & _ & G). apply bind_ok in G as (key & SR & G).
    apply bind_ok in G as (h & _ & G). apply bind_ok in G as (dd & _ & G). apply bind_ok in G as (b2 & _ & G). apply bind_ok in G as (enc & _ & G).
    apply Ok_inj in G. subst s.
    assert (IH : In hash hashes).
    { unfold s2k_run in SR. cbn [s2k_kind s2k_hash] in SR. apply bind_ok in SR as (hb & HB & _). apply map_at_in in HB. exact HB. }
    split; [exact IH|]. split; [exact R1|]. split.
    + rewrite R2. clear - IO BL. cbn in IO.
      repeat (destruct IO as [<-|IO]; [cbn in BL; apply Ok_inj in BL; subst bits; reflexivity|]). destruct IO.
    + intros _. cbn. repeat split. eauto.
Qed.
Lemma keygen_back twice pass sym hash pri rnd s r : keygen_secret twice pass sym hash pri rnd = Ok (s, r) ->
  Forall mpi_fits pri -> (length pri <= 4)%nat -> twice = false \/ pass = [] -> decrypt_secret_keys s pass = Ok pri.
Proof.
  intros E F L T. apply keygen_secret_inv in E as (sym' & hash' & salt & iv & G & I & Ih & Ls & Li & _).
  destruct (generated_back pass sym' hash' salt iv pri twice I Ih Ls Li F (mpis_short pri F L) T) as (s' & G' & D).
  rewrite G in G'. apply Ok_inj in G'. now subst s'.
Qed.

(** ** The signatures *)
Lemma same_public_refl k : same_public k k.
Proof. unfold same_public. auto 10. Qed.
Lemma cert_verifies pass k sec id time h pri p s : get_keyid k = Ok id -> In (k_pka k) [1; 3; 17] ->
  decrypt_secret_keys sec pass = Ok pri -> key_pair (k_pka k) pri (k_mpi k) -> Forall mpi_fits (k_mpi k) ->
  cert_done pass k sec id time h p s -> verify_certification k k (Some p) s = Ok 1%Z.
Proof.
  intros KI C D KP F (digest & draws & rest & DG & FI).
  destruct (certification_accepted (mkArgs secret_key_new pass 4 h) k sec pri 19 time id digest k p draws s rest) as (_ & _ & _ & _ & H); auto.
  apply H, same_public_refl.
Qed.
Lemma to_sign_18_values p k s l m : to_sign_18 p k (with_values s l m) = to_sign_18 p k s.
Proof. unfold to_sign_18, hashed_with, input_18. rewrite trailer_values. now destruct s. Qed.
Lemma bind_verifies pass k sec id time h pri kk s : In (k_pka k) [1; 3; 17] ->
  decrypt_secret_keys sec pass = Ok pri -> key_pair (k_pka k) pri (k_mpi k) -> Forall mpi_fits (k_mpi k) ->
  bind_done pass k sec id time h kk s -> binds k kk s.
Proof.
  intros C D KP F (digest & draws & rest & DG & FI). apply finish_ok in FI as (pri' & vals & D' & S & NE & ->).
  rewrite D in D'. apply Ok_inj in D'. subst pri'. exists digest. rewrite to_sign_18_values. split; [exact DG|]. split; [reflexivity|].
  unfold to_sign_18 in DG. apply hashed_with_use in DG as (d & HU). change (t2_hash (create_sig 4 24 (k_pka k) h id time)) with h in HU.
  unfold verify_key. change (t2_hash (with_values (create_sig 4 24 (k_pka k) h id time) (prefix digest 2) vals)) with h.
  change (t2_pka (with_values (create_sig 4 24 (k_pka k) h id time) (prefix digest 2) vals)) with (k_pka k).
  change (t2_mpi (with_values (create_sig 4 24 (k_pka k) h id time) (prefix digest 2) vals)) with vals.
  eapply with_pka_verifies; eauto. cbn in C. destruct C as [C|[C|[C|[]]]]; auto.
  rewrite <- C in S. cbn in S. apply Ok_inj in S. exfalso. apply NE. congruence.
Qed.

(** ** RSA keys are made *)
Lemma rsa_made fuel np test pka bits a b e draws : (forall n, is_prime (np n)) -> is_RSA pka = true -> rsa_draws np bits (a, b, e) ->
  exists pri e', keygen_pair fuel np test pka bits (a :: b :: e :: draws) = Ok (Some (pri, [np a * np b; e']), draws).
Proof.
  intros NP R (B & A1 & A2 & NE & _ & _). unfold keygen_pair, generate_keypair, generate_params. rewrite R. cbn [orb].
  set (w := bits / 2) in *. assert (SW : N.shiftr bits 1 = w) by (now rewrite N.shiftr_div_pow2). rewrite SW.
  assert (W : 0 < w < 2 ^ 32).
  { unfold w. split; [apply N.div_str_pos; lia|]. apply N.div_lt_upper_bound; lia. }
  replace (u32 w) with w by (unfold u32, two32; symmetry; apply N.mod_small; lia).
  remember (2 ^ w) as h eqn:HE.
  assert (K : exists e1 d u p q, rsa_keygen np w (a :: b :: e :: draws) = Ok ([np a * np b; e1; d; p; q; u], draws)).
  { unfold rsa_keygen. cbn [length rsa_primes]. unfold random. replace (w =? 0) with false by lia. cbn [bind].
    rewrite <- HE.
    rewrite !N.mod_small by assumption. replace (np a =? np b) with false by lia. cbn [bind].
    pose proof (NP a) as PA. pose proof (NP b) as PB.
    assert (S : exists p q, (if np b <? np a then (np b, np a) else (np a, np b)) = (p, q) /\ is_prime p /\ is_prime q /\ p < q).
    { destruct (np b <? np a) eqn:L; [exists (np b), (np a)|exists (np a), (np b)]; repeat split; try apply PA; try apply PB; lia. }
    destruct S as (p & q & -> & P & Q & L). pose proof P as [P1 _]. pose proof Q as [Q1 _].
    set (tot := (p - 1) * (q - 1)) in *.
    assert (T2 : 1 < tot) by (unfold tot; assert (1 * 2 <= (p - 1) * (q - 1)) by (apply N.mul_le_mono; lia); lia).
    assert (OQ : N.odd q = true) by (destruct (prime_2 q Q); [auto|lia]).
    assert (TE : N.even tot = true).
    { unfold tot. rewrite N.even_mul. apply orb_true_iff. right. rewrite N.even_sub by lia. now rewrite <- N.negb_odd, OQ. }
    set (e1 := if N.even (e mod h) then e mod h + 1 else e mod h) in *.
    assert (O1 : N.odd e1 = true).
    { unfold e1. destruct (N.even (e mod h)) eqn:E0; [|now rewrite <- N.negb_even, E0]. rewrite N.add_1_r, N.odd_succ. exact E0. }
    destruct (coprime_from_ok _ tot e1 (coprime_exists tot e1 TE ltac:(lia) O1)) as (e' & C & G). rewrite C. cbn [bind].
    unfold invert. replace (tot =? 0) with false by lia. replace (q =? 0) with false by lia. cbn [bind]. do 5 eexists. reflexivity. }
  destruct K as (e1 & d & u & p & q & ->). cbn [bind skipn firstn].
  assert (Z : (pka =? 0) = false) by (destruct (N.eqb_spec pka 0) as [->|]; [discriminate R|reflexivity]). rewrite Z. do 2 eexists. reflexivity.
Qed.
Lemma finish_rsa s digest k sec pass hash draws pri n e more x : k_pka k = 1 -> k_mpi k = n :: e :: more ->
  decrypt_secret_keys sec pass = Ok pri -> key_pair 1 pri (k_mpi k) -> mpi_fits n -> hash_fits n hash -> hash_use hash x = Ok digest ->
  exists s', finish s digest k sec pass hash draws = Ok (Some s', draws).
Proof.
  intros PK K D KP Fn (bits & der & HL & AD & L) H.
  unfold finish. rewrite D. cbn [bind]. unfold sign_with_pka. rewrite PK, K. cbn [N.eqb Pos.eqb orb vec_at nth_error bind].
  assert (B : bitsize n <= 65528) by (now apply mpi_fits_bitsize).
  assert (BL : bitsize n / 8 < 2 ^ 32) by (clear Fn; apply N.div_lt_upper_bound; lia).
  destruct (C22_length hash bits der digest (bitsize n / 8) HL AD (hash_use_len _ _ _ _ H HL) BL L) as (em & ? & ? & EM & _).
  rewrite N.shiftr_div_pow2. change (2 ^ 3) with 8. rewrite EM. cbn [bind].
  unfold key_pair in KP. rewrite K in KP. cbn [N.eqb Pos.eqb] in KP.
  destruct KP as (n' & e' & d' & m1 & m2 & E1 & -> & RK). injection E1 as <- <- <-.
  pose proof EM as EM'. replace (bitsize n / 8) with (N.shiftr (bitsize n) 3) in EM' by (now rewrite N.shiftr_div_pow2).
  destruct (emsa_below _ _ _ _ _ H Fn EM') as [R BB].
  destruct (C41_verify_octets n e d' more m2 em (be_val em) [] RK R BB) as (sg & SG & _). rewrite SG. cbn [bind].
  eexists. reflexivity.
Qed.
Lemma hash_fits_in n h : hash_fits n h -> In h hashes.
Proof. intros (bits & _ & HL & _). apply map_at_in in HL. exact HL. Qed.
Definition random_octets (pass : bytes) (sym : N) : N := match pass with [] => 0 | _ => 8 + N.of_nat (block_octets sym) end.
Lemma skipn_twice {A} : forall n m (l : list A), skipn n (skipn m l) = skipn (m + n) l.
Proof. intros n m. induction m as [|m IH]; intros l; [reflexivity|]. destruct l; [now rewrite !skipn_nil|]. cbn. apply IH. Qed.
Lemma secret_made twice pass sym hash pri rnd : (pass <> [] -> can_protect sym hash) -> random_octets pass sym <= len rnd ->
  exists x, keygen_secret twice pass sym hash pri rnd = Ok (x, skipn (N.to_nat (random_octets pass sym)) rnd).
Proof.
  intros C L. unfold keygen_secret, random_octets in *. destruct pass as [|c pass]; [eexists; reflexivity|].
  destruct (C ltac:(discriminate)) as [I Ih]. unfold rand_bytes at 1. replace (len rnd <? 8) with false by lia. cbn [bind].
  rewrite (offered_length _ I). cbn [bind].
  assert (BL : map_at block_length sym = Ok (8 * N.of_nat (block_octets sym))).
  { clear - I. cbn in I. repeat (destruct I as [<-|I]; [reflexivity|]). destruct I. }
  rewrite BL. cbn [bind]. rewrite shift3. unfold rand_bytes.
  assert (LS : len (skipn (N.to_nat 8) rnd) = len rnd - 8) by (unfold len; rewrite skipn_length; lia).
  rewrite LS. replace (len rnd - 8 <? N.of_nat (block_octets sym)) with false by lia. cbn [bind].
  destruct (generated_ok twice (c :: pass) sym hash (firstn (N.to_nat 8) rnd) (firstn (N.to_nat (N.of_nat (block_octets sym))) (skipn (N.to_nat 8) rnd)) pri I Ih) as (s & -> & _).
  - apply firstn_length_le. unfold len in L. lia.
  - rewrite firstn_length_le; [lia|]. unfold len in LS, L. lia.
  - cbn [bind]. eexists. f_equal. f_equal. rewrite skipn_twice. f_equal. lia.
Qed.

Lemma uids_made pass k sec id time pri n e more : get_keyid k = Ok id -> k_pka k = 1 -> k_mpi k = n :: e :: more ->
  decrypt_secret_keys sec pass = Ok pri -> key_pair 1 pri (k_mpi k) -> mpi_fits n -> forall l draws, Forall (fun u => hash_fits n (u_sig u)) l ->
  exists ps, generate_uids pass k sec id time l draws = Ok (Some ps, draws).
Proof.
  intros KI PK K D KP Fn l. induction l as [|u l IH]; intros draws F; [eexists; reflexivity|].
  apply Forall_cons_iff in F as [HF F]. cbn [generate_uids]. cbv zeta.
  unfold sign_certification. cbn [new_packet p_tag is_primary_key mem existsb N.eqb Pos.eqb orb negb].
  change (t2_type (create_sig 4 19 (k_pka k) (u_sig u) id time)) with 19. cbn [is_certification mem existsb N.eqb Pos.eqb orb negb].
  change (as_key (new_packet 5 (PSecret k sec))) with (Ok k). cbn [bind p_body].
  destruct (cert_input_ok 19 k (user_text (u_user u) (u_comment u) (u_email u)) (k_pka k) (u_sig u) id time) as (digest & DG); [cbn; auto|now apply hash_fits_in in HF|].
  cbn [new_packet p_body]. rewrite DG. cbn [bind]. change (t2_hash (create_sig 4 19 (k_pka k) (u_sig u) id time)) with (u_sig u).
  destruct (to_sign_cert_use _ _ _ _ _ _ DG) as (x & HU). change (t2_hash (create_sig 4 19 (k_pka k) (u_sig u) id time)) with (u_sig u) in HU.
  destruct (finish_rsa (create_sig 4 19 (k_pka k) (u_sig u) id time) digest k sec pass (u_sig u) draws pri n e more x) as (s & ->); auto.
  cbn [bind]. destruct (IH draws F) as (ps & ->). cbn [bind]. eexists. reflexivity.
Qed.
Lemma subs_made fuel np test pass k sec id time pri n e more : (forall n, is_prime (np n)) -> get_keyid k = Ok id -> k_pka k = 1 -> k_mpi k = n :: e :: more ->
  decrypt_secret_keys sec pass = Ok pri -> key_pair 1 pri (k_mpi k) -> mpi_fits n -> forall l ts rnd rest,
  Forall2 (fun b t => In (b_pka b) [1; 2; 3] /\ rsa_draws np (b_bits b) t /\ hash_fits n (b_sig b) /\ (pass <> [] -> can_protect (b_sym b) (b_hash b))) l ts ->
  fold_right N.add 0 (map (fun b => random_octets pass (b_sym b)) l) <= len rnd ->
  exists ps rnd', generate_subkeys fuel np test pass k sec id time l rnd (concat (map flat ts) ++ rest) = Ok (Some ps, rnd', rest).
Proof.
  intros NP KI PK K D KP Fn l ts rnd rest F. revert rnd. induction F as [|b t l ts (R & T & HF & CP) F IH]; intros rnd L; [do 2 eexists; reflexivity|].
  destruct t as [[a1 b1] e1]. cbn [map concat flat app fold_right] in *. cbn [generate_subkeys].
  destruct (rsa_made fuel np test (b_pka b) (b_bits b) a1 b1 e1 (concat (map flat ts) ++ rest) NP) as (pri' & e' & ->); [|exact T|].
  { cbn in R. destruct R as [<-|[<-|[<-|[]]]]; reflexivity. }
  cbn [bind]. destruct (secret_made true pass (b_sym b) (b_hash b) pri' rnd CP) as (x & ->); [lia|]. cbn [bind]. cbv zeta.
  set (kk := mkKey 4 time (b_pka b) [np a1 * np b1; e'] 0). unfold sign_subkey_binding.
  assert (X : exists i, input_18 k kk (create_sig 4 24 (k_pka k) (b_sig b) id time) = Ok i) by (eexists; reflexivity). destruct X as (i & X).
  destruct (hash_use_ok (b_sig b) i (hash_fits_in _ _ HF)) as (digest & HU).
  unfold to_sign_18, hashed_with. rewrite X. cbn [bind]. change (t2_hash (create_sig 4 24 (k_pka k) (b_sig b) id time)) with (b_sig b). rewrite HU. cbn [bind].
  destruct (finish_rsa (create_sig 4 24 (k_pka k) (b_sig b) id time) digest k sec pass (b_sig b) (concat (map flat ts) ++ rest) pri n e more i) as (s & ->); auto.
  cbn [bind]. destruct (IH (skipn (N.to_nat (random_octets pass (b_sym b))) rnd)) as (ps & r' & ->).
  { unfold len in *. rewrite skipn_length. lia. }
  cbn [bind]. do 2 eexists. reflexivity.
Qed.

(** ** Random octets *)
Definition octets_of (x : secret) : bytes := match sk_s2k x with Some y => s2k_salt y ++ sk_iv x | None => [] end.
Lemma secret_octets twice pass sym hash pri rnd s r : keygen_secret twice pass sym hash pri rnd = Ok (s, r) -> rnd = octets_of s ++ r.
Proof.
  unfold keygen_secret. destruct pass as [|c pass]; intros E.
  - apply bind_ok in E as (s' & G & E). apply Ok_inj in E. cbn in G. apply Ok_inj in G. assert (s' = s) as -> by congruence. subst s. cbn. congruence.
  - apply bind_ok in E as ([salt r1] & R1 & E). apply bind_ok in E as (kl & KL & E). apply bind_ok in E as (bits & BL & E).
    apply bind_ok in E as ([iv r2] & R2 & E). apply bind_ok in E as (s' & G & E). apply Ok_inj in E. assert (s' = s) as -> by congruence. assert (r2 = r) as -> by congruence.
    unfold generated_secret in G. cbv zeta in G. apply bind_ok in G as (b' & _ & G). apply bind_ok in G as (key & SR & G).
    apply bind_ok in G as (h & _ & G). apply bind_ok in G as (dd & _ & G). apply bind_ok in G as (b2 & _ & G). apply bind_ok in G as (enc & _ & G).
    apply Ok_inj in G. subst s. unfold octets_of. cbn [sk_s2k s2k_salt sk_iv].
    unfold rand_bytes in R1, R2. destruct (len rnd <? 8); [discriminate|]. destruct (len r1 <? _); [discriminate|]. apply Ok_inj in R1, R2.
    apply pair_equal_spec in R1 as [<- <-]. apply pair_equal_spec in R2 as [<- <-]. now rewrite <- app_assoc, !firstn_skipn.
Qed.
