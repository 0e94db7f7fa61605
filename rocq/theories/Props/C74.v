(** C74: generated keys. *)
From Verif Require Import Proofs.KeyGenP Proofs.Lib Proofs.MpiP Proofs.FermatP Proofs.PkaP Proofs.KeyP Proofs.KeyGrammarP Proofs.SignP Proofs.CertifyP Proofs.ProthP Props.C21_C22 Props.C23_C26 Props.C33_C35 Props.C41_C43_C60 Props.C44_C46 Props.C73.

Lemma made_weaken (P Q : packet -> tag2 -> Prop) k time u l : (forall p s, P p s -> Q p s) -> uid_made P k time u l -> uid_made Q k time u l.
Proof. intros H (p & q & s & X). exists p, q, s. intuition. Qed.
Lemma sub_weaken (P Q : key -> secret -> tag2 -> Prop) k time b l : (forall kk x s, k_pka kk = b_pka b -> P kk x s -> Q kk x s) -> sub_made P k time b l -> sub_made Q k time b l.
Proof. intros H (p & q & kk & x & s & X). exists p, q, kk, x, s. intuition. Qed.
Lemma Forall2_weaken {A B} (P Q : A -> B -> Prop) l m : (forall a b, P a b -> Q a b) -> Forall2 P l m -> Forall2 Q l m.
Proof. intros H F. induction F; constructor; auto. Qed.
Lemma valid_uids c : config_valid c = Ok true -> c_uids c <> [] /\ In (c_pka c) [1; 3; 17].
Proof.
  unfold config_valid. destruct (pka_valid (c_pka c)); [|discriminate]. destruct (can_sign (c_pka c)) eqn:C; [|discriminate]. cbn [negb].
  destruct (sym_valid (c_sym c)); [|discriminate]. destruct (hash_valid (c_hash c)); [|discriminate]. cbn [negb].
  intros E. split; [destruct (c_uids c); [discriminate|congruence]|now apply can_sign_iff].
Qed.

(** The key returned is empty or a meaningful transferable secret key with the primary key, the
    user IDs and the subkeys asked for, in order, each with its signature. *)
Theorem C74_contents : forall fuel nextprime prime_test c time rnd draws g rnd' rest,
  generate_key fuel nextprime prime_test c time rnd draws = Ok (g, rnd', rest) -> g_packets g <> [] ->
  exists p k sec us subs, g_packets g = p :: concat us ++ concat subs /\ p_tag p = 5 /\ p_body p = PSecret k sec /\
    k_version k = 4 /\ k_time k = time /\ k_pka k = c_pka c /\
    Forall2 (uid_made (fun _ _ => True) k time) (c_uids c) us /\
    Forall2 (sub_made (fun _ _ _ => True) k time) (c_subkeys c) subs /\
    Forall typed (g_packets g) /\ secret_meaningful g = Ok true.
Proof.
  intros f np test c time rnd draws g r d E NE. apply generate_inv in E as (k & sec & pri & id & us & ss & V & KE & KI & _ & _ & -> & FU & FS); [|exact NE].
  apply valid_uids in V as [NU _].
  assert (FU' : Forall2 (uid_made (fun _ _ => True) k time) (c_uids c) us).
  { eapply Forall2_weaken; [|exact FU]. intros u l. now apply made_weaken. }
  assert (FS' : Forall2 (sub_made (fun _ _ _ => True) k time) (c_subkeys c) ss).
  { eapply Forall2_weaken; [|exact FS]. intros u l. now apply sub_weaken. }
  assert (V4 : k_version k = 4) by (rewrite KE; reflexivity).
  destruct (generated_block _ _ k sec time _ _ us ss NU V4 FU' FS') as [T B].
  exists (new_packet 5 (PSecret k sec)), k, sec, us, ss. split; [reflexivity|]. split; [reflexivity|]. split; [reflexivity|].
  split; [exact V4|]. split; [rewrite KE; reflexivity|]. split; [rewrite KE; reflexivity|]. split; [exact FU'|]. split; [exact FS'|]. split; [exact T|].
  unfold secret_meaningful, meaningful. cbn [g_type N.eqb Pos.eqb]. apply C33_exact; [exact T|exact B].
Qed.

Lemma loop_first signer p k q s r : p_tag p = 5 -> as_key p = Ok k -> p_tag q = 13 -> p_tag s = 2 -> (exists x, as_sig s = Ok x /\ verify_certification signer k (Some q) x = Ok 1%Z) ->
  certification_loop signer (p :: q :: s :: r) None None = Ok 1%Z.
Proof.
  intros P A Q S (x & AS & V). cbn [certification_loop]. rewrite P, Q, S.
  cbn [is_primary_key is_subkey is_key_packet is_user mem existsb N.eqb Pos.eqb orb]. rewrite A. cbn [bind]. rewrite AS. cbn [bind]. rewrite V. reflexivity.
Qed.
(** Its secret values come back under the passphrase and belong to the public ones, so that
    everything proved of signing with a matching key holds of it; its certifications and
    bindings are accepted, and the key as a whole. *)
Theorem C74_usable : forall fuel nextprime prime_test c time rnd draws g rnd' rest p more k sec,
  sound_primes nextprime prime_test -> generate_key fuel nextprime prime_test c time rnd draws = Ok (g, rnd', rest) ->
  g_packets g = p :: more -> p_body p = PSecret k sec -> sane_values k ->
  exists pri us subs, more = concat us ++ concat subs /\
    (forall hash, matching (mkArgs g (c_pass c) 4 hash) k sec pri g) /\
    Forall2 (uid_made (fun p s => verify_certification k k (Some p) s = Ok 1%Z) k time) (c_uids c) us /\
    Forall2 (sub_made (fun kk _ s => binds k kk s) k time) (c_subkeys c) subs /\
    verify_primary_key g g = Ok 1%Z.
Proof.
  intros f np test c time rnd draws g r d p more k sec [NP T] E GP PB [F O].
  assert (NE : g_packets g <> []) by (rewrite GP; discriminate).
  destruct (C74_contents _ _ _ _ _ _ _ _ _ _ E NE) as (_ & _ & _ & _ & _ & _ & _ & _ & _ & _ & _ & _ & _ & TY & ME).
  apply generate_inv in E as (k0 & sec0 & pri & id & us & ss & V & KE & KI & (d2 & KP) & (r2 & SK) & GE & FU & FS); [|exact NE].
  assert (p = new_packet 5 (PSecret k0 sec0) /\ more = concat us ++ concat ss) as [-> ->] by (rewrite GE in GP; cbn in GP; split; congruence).
  assert (k0 = k /\ sec0 = sec) as [-> ->] by (cbn in PB; split; congruence).
  apply valid_uids in V as [NU CS]. assert (PK : k_pka k = c_pka c) by (rewrite KE; reflexivity). rewrite <- PK in CS, KP.
  apply (keypair_ok f np test) in KP as (FP & LP & PA); auto; [|destruct F as [|m l Fm _]; [cbn; reflexivity|exact Fm]].
  assert (KPR : key_pair (k_pka k) pri (k_mpi k)).
  { apply PA. cbn in CS. destruct CS as [C|[C|[C|[]]]]; [right|right|left; auto]; (split; [rewrite <- C; reflexivity|]); apply O; rewrite <- C; cbn; auto. }
  pose proof (keygen_back _ _ _ _ _ _ _ _ SK FP LP (or_introl eq_refl)) as DS.
  exists pri, us, ss. split; [reflexivity|].
  assert (FU' : Forall2 (uid_made (fun p s => verify_certification k k (Some p) s = Ok 1%Z) k time) (c_uids c) us).
  { eapply Forall2_weaken; [|exact FU]. intros u l. apply made_weaken. intros p s. now apply cert_verifies with (pri := pri). }
  assert (M : meaningful g = Ok true) by (unfold secret_meaningful in ME; destruct (g_type g =? 3); [exact ME|discriminate]).
  assert (HP : has_primary g k).
  { do 2 eexists. split; [exact GP|]. exists k. split; [right; eexists; reflexivity|apply same_public_refl]. }
  split.
  { intros hash. split; [reflexivity|]. split; [do 2 eexists; split; [exact GP|]; split; [reflexivity|exact CS]|]. split; [exact DS|]. auto. }
  split; [exact FU'|]. split.
  { eapply Forall2_weaken; [|exact FS]. intros b l. apply sub_weaken. intros kk x s _ [B _]. now apply bind_verifies with (2 := DS) in B. }
  destruct FU' as [|u l ul us' (q & z & s & -> & TQ & BQ & TZ & BZ & _ & VC) _]; [congruence|].
  unfold verify_primary_key. rewrite M. cbn [bind negb].
  destruct (primary_found g k M HP CS) as (p' & k' & FK & AK & SP & KG).
  assert (k' = k) as ->.
  { unfold find_signing_key in FK. rewrite M in FK. cbn [bind] in FK. rewrite GP in FK. cbn [find_signing] in FK.
    change (is_key_packet (p_tag (new_packet 5 (PSecret k sec)))) with true in FK. change (as_key (new_packet 5 (PSecret k sec))) with (Ok k) in FK. cbn [bind] in FK.
    apply can_sign_iff in CS. rewrite CS in FK. apply Ok_inj in FK. assert (p' = new_packet 5 (PSecret k sec)) as -> by congruence. cbn in AK. congruence. }
  rewrite KG, KI. cbn [bind]. rewrite (keyid_len k id F KI). change (8 =? 0) with false. cbv iota. rewrite FK. cbn [bind]. rewrite AK. cbn [bind].
  rewrite GP. cbn [concat app]. eapply loop_first; try eassumption; try reflexivity.
  exists s. split; [unfold as_sig; now rewrite BZ|exact VC].
Qed.

(** A key pair of RSA is always made: with numbers that lead to different odd primes, a modulus
    large enough for the hashes, and enough random octets, the key is not empty. *)
Theorem C74_made : forall fuel nextprime prime_test c time rnd t ts rest, (forall n, is_prime (nextprime n)) ->
  config_valid c = Ok true -> c_pka c = 1 -> rsa_draws nextprime (c_bits c) t ->
  Forall (fun u => hash_fits (modulus nextprime t) (u_sig u)) (c_uids c) ->
  Forall2 (fun b t' => In (b_pka b) [1; 2; 3] /\ rsa_draws nextprime (b_bits b) t' /\ hash_fits (modulus nextprime t) (b_sig b) /\
                       (c_pass c <> [] -> can_protect (b_sym b) (b_hash b))) (c_subkeys c) ts ->
  (c_pass c <> [] -> can_protect (c_sym c) (c_hash c)) ->
  24 * (1 + N.of_nat (length (c_subkeys c))) <= len rnd ->
  exists g rnd', generate_key fuel nextprime prime_test c time rnd (concat (map flat (t :: ts)) ++ rest) = Ok (g, rnd', rest) /\ g_packets g <> [].
Proof.
  intros fuel np test c time rnd [[a b] e] ts rest NP V PK TD FU FS CP L. unfold generate_key. rewrite V. cbn [bind negb]. rewrite PK.
  cbn [map concat flat app modulus] in *. set (n := np a * np b) in *.
  destruct (rsa_made fuel np test 1 (c_bits c) a b e (concat (map flat ts) ++ rest) NP eq_refl TD) as (pri & e' & KG). rewrite KG. cbn [bind]. fold n in KG |- *.
  assert (RO : forall sym, (c_pass c <> [] -> In sym offered) -> random_octets (c_pass c) sym <= 24).
  { intros sym I. unfold random_octets. destruct (c_pass c); [lia|]. specialize (I ltac:(discriminate)). clear - I. cbn in I.
    repeat (destruct I as [<-|I]; [cbn; lia|]). destruct I. }
  destruct (secret_made false (c_pass c) (c_sym c) (c_hash c) pri rnd CP) as (sec & SK).
  { pose proof (RO (c_sym c) ltac:(intros; now apply CP)). lia. }
  rewrite SK. cbn [bind]. cbv zeta. set (k := mkKey 4 time 1 [n; e'] 0).
  destruct (keyid_v4 k eq_refl) as (fp & id & _ & KI & _). rewrite KI. cbn [bind].
  destruct TD as (_ & _ & _ & _ & OD & FN). fold n in OD, FN.
  assert (KG' : keygen_pair fuel np (fun _ => false) 1 (c_bits c) (a :: b :: e :: concat (map flat ts) ++ rest) = Ok (Some (pri, [n; e']), concat (map flat ts) ++ rest)) by exact KG.
  apply keypair_ok in KG' as (FP & LP & KP); auto; try discriminate.
  assert (KPR : key_pair 1 pri (k_mpi k)) by (apply KP; right; split; [reflexivity|]; exists n, e'; auto).
  pose proof (keygen_back _ _ _ _ _ _ _ _ SK FP LP (or_introl eq_refl)) as DS.
  destruct (uids_made (c_pass c) k sec id time pri n e' [] KI eq_refl eq_refl DS KPR FN (c_uids c) (concat (map flat ts) ++ rest) FU) as (us & ->). cbn [bind].
  destruct (subs_made fuel np test (c_pass c) k sec id time pri n e' [] NP KI eq_refl eq_refl DS KPR FN (c_subkeys c) ts
              (skipn (N.to_nat (random_octets (c_pass c) (c_sym c))) rnd) rest FS) as (subs & r' & ->).
  { assert (S1 : fold_right N.add 0 (map (fun b => random_octets (c_pass c) (b_sym b)) (c_subkeys c)) <= 24 * N.of_nat (length (c_subkeys c))).
    { clear - FS RO. induction FS as [|b' t' l ts' (_ & _ & _ & C) _ IH]; [cbn; lia|]. cbn [map fold_right length].
      pose proof (RO (b_sym b') ltac:(intros H; now apply C in H as [? _])). lia. }
    pose proof (RO (c_sym c) ltac:(intros H; now apply CP in H as [? _])). unfold len in *. rewrite skipn_length. lia. }
  cbn [bind]. do 2 eexists. split; [reflexivity|discriminate].
Qed.

Lemma dsa_rounds_public : forall f x p q g draws pri pub d, dsa_keygen_rounds f x [p; q; g] draws = Ok (pri, pub, d) -> exists y, pub = [p; q; g; y].
Proof.
  induction f as [|f IH]; intros x p q g draws pri pub d E; cbn [dsa_keygen_rounds] in E; [discriminate|].
  cbn [vec_at nth_error bind] in E. apply bind_ok in E as (y & _ & E). cbv zeta in E. apply bind_ok in E as ([rs d1] & _ & E).
  apply bind_ok in E as (ok & _ & E). destruct ok; [|eauto]. apply Ok_inj in E. exists y. cbn in E. congruence.
Qed.
Lemma dsa_keygen_public f p q g draws pri pub d : dsa_keygen f [p; q; g] draws = Ok (pri, pub, d) -> exists y, pub = [p; q; g; y].
Proof.
  unfold dsa_keygen. cbn [vec_at nth_error bind]. cbv zeta. intros E. apply bind_ok in E as ([x d1] & _ & E). now apply dsa_rounds_public in E.
Qed.

(** ** Protection *)
(** With a passphrase the secret values are stored encrypted with the cipher asked for, under a
    key derived with the hash asked for, and a SHA-1 of the values. *)
Theorem C74_protected : forall fuel nextprime prime_test c time rnd draws g rnd' rest p more k sec,
  generate_key fuel nextprime prime_test c time rnd draws = Ok (g, rnd', rest) ->
  g_packets g = p :: more -> p_body p = PSecret k sec -> c_pass c <> [] ->
  sk_con sec = 254 /\ sk_sym sec = c_sym c /\ In (c_sym c) offered /\ length (sk_iv sec) = block_octets (c_sym c) /\
  exists x, sk_s2k sec = Some x /\ s2k_kind x = S2K3 /\ s2k_hash x = c_hash c /\ length (s2k_salt x) = 8%nat.
Proof.
  intros f np test c time rnd draws g r d p more k sec E GP PB PS.
  apply generate_inv in E as (k0 & sec0 & pri & id & us & ss & V & KE & KI & _ & (r2 & SK) & GE & FU & FS); [|rewrite GP; discriminate].
  rewrite GE in GP. cbn in GP. assert (p = new_packet 5 (PSecret k0 sec0)) as -> by congruence. cbn in PB. assert (sec0 = sec) as -> by congruence.
  apply keygen_secret_inv in SK as (sym' & hash' & salt & iv & G & I & Ih & Ls & Li & A).
  destruct (A PS) as (-> & -> & C1 & C2 & x & C3 & C4 & C5).
  split; [exact C1|]. split; [exact C2|]. split; [exact I|].
  destruct (generated_ok false (c_pass c) (c_sym c) (c_hash c) salt iv pri I Ih Ls Li) as (s' & G' & IV & _). rewrite G in G'. apply Ok_inj in G'. subst s'.
  split; [destruct (IV PS) as [_ ->]; exact Li|]. exists x. split; [exact C3|]. split.
  - clear - G C3 PS. unfold generated_secret in G. destruct (c_pass c); [congruence|]. cbv zeta in G. repeat (apply bind_ok in G as (? & _ & G)). apply Ok_inj in G. subst sec. cbn [sk_s2k] in C3. injection C3 as <-. reflexivity.
  - split; [exact C4|]. now rewrite C5.
Qed.
(** No random octet is used twice: the salts and initial vectors of the packets, in order, are
    the octets taken from the generator. *)
Theorem C74_fresh : forall fuel nextprime prime_test c time rnd draws g rnd' rest,
  generate_key fuel nextprime prime_test c time rnd draws = Ok (g, rnd', rest) -> g_packets g <> [] ->
  rnd = concat (map salt_and_iv (g_packets g)) ++ rnd'.
Proof.
  intros f np test c time rnd draws g rnd' rest E NE. unfold generate_key in E.
  assert (NO : forall a b, @Ok (pgp * bytes * list N) (secret_key_new, a, b) = Ok (g, rnd', rest) -> False).
  { intros a b H. apply Ok_inj in H. assert (g = secret_key_new) by congruence. subst g. now apply NE. }
  apply bind_ok in E as (v & V & E). destruct v; [|now apply NO in E]. cbn [negb] in E.
  apply bind_ok in E as ([o d] & KP & E). destruct o as [[pri pub]|]; [|now apply NO in E].
  apply bind_ok in E as ([sec r1] & SK & E). cbv zeta in E. set (k := mkKey 4 time (c_pka c) pub 0) in *.
  apply bind_ok in E as (id & KI & E). apply bind_ok in E as ([o d1] & U & E). destruct o as [us|]; [|now apply NO in E].
  apply bind_ok in E as ([[o r2] d2] & S & E). destruct o as [subs|]; [|now apply NO in E]. apply Ok_inj in E.
  assert (g = mkPgp true 3 version_cc (new_packet 5 (PSecret k sec) :: us ++ subs)) as -> by congruence. assert (r2 = rnd') as -> by congruence. clear E NE NO.
  apply secret_octets in SK. cbn [g_packets map concat]. change (salt_and_iv (new_packet 5 (PSecret k sec))) with (KeyGenP.octets_of sec).
  apply uids_inv in U as (us' & -> & FU); [|exact KI]. rewrite map_app, concat_app.
  assert (Z : concat (map salt_and_iv (concat us')) = []).
  { clear - FU. induction FU as [|u l ul us (p & q & s & -> & _ & BP & _ & BQ & _) F IH]; [reflexivity|].
    cbn [concat app map]. unfold salt_and_iv at 1 2. rewrite BP, BQ. exact IH. }
  rewrite Z. cbn [app]. rewrite SK, <- app_assoc. f_equal. clear - S. revert r1 d1 subs rnd' d2 S.
  induction (c_subkeys c) as [|b l IH]; intros r1 d1 subs rnd' d2 E; cbn [generate_subkeys] in E.
  - apply Ok_inj in E. assert (subs = []) as -> by congruence. cbn. congruence.
  - apply bind_ok in E as ([o d] & KP & E). destruct o as [[pri' pub']|]; [|apply Ok_inj in E; congruence].
    apply bind_ok in E as ([x r] & SK & E). cbv zeta in E. apply bind_ok in E as ([o d3] & SB & E).
    destruct o as [s|]; [|apply Ok_inj in E; congruence]. apply bind_ok in E as ([[o r2] d4] & R & E).
    destruct o as [ps'|]; [|apply Ok_inj in E; congruence]. apply Ok_inj in E. apply IH in R. apply secret_octets in SK.
    set (kk := mkKey 4 time (b_pka b) pub' 0) in *.
    assert (subs = new_packet 7 (PSecret kk x) :: new_packet 2 (PSig s) :: ps') as -> by congruence. assert (r2 = rnd') as -> by congruence.
    cbn [map concat]. change (salt_and_iv (new_packet 7 (PSecret kk x))) with (KeyGenP.octets_of x). change (salt_and_iv (new_packet 2 (PSig s))) with (@nil N).
    cbn [app]. rewrite SK, <- app_assoc. f_equal. exact R.
Qed.
(** The secret values of the subkeys come back if there is no passphrase.  Partial: with a
    passphrase they do not. *)
Theorem C74_subkey_secret_partial : forall fuel nextprime prime_test c time rnd draws g rnd' rest p kk x,
  sound_primes nextprime prime_test -> generate_key fuel nextprime prime_test c time rnd draws = Ok (g, rnd', rest) ->
  c_pass c = [] -> In p (g_packets g) -> p_tag p = 7 -> p_body p = PSecret kk x -> sane_values kk ->
  exists pri, decrypt_secret_keys x [] = Ok pri /\ (In (k_pka kk) [1; 2; 3; 17] -> key_pair (k_pka kk) pri (k_mpi kk)).
Proof.
  intros f np test c time rnd draws g r d p kk x [NP T] E PS I TP PB [F O].
  apply generate_inv in E as (k0 & sec0 & pri & id & us & ss & V & KE & KI & _ & _ & GE & FU & FS); [|intros Z; rewrite Z in I; destruct I].
  rewrite GE in I. cbn [g_packets] in I. destruct I as [<-|I]; [discriminate|]. apply in_app_or in I as [I|I].
  - exfalso. clear - FU I TP. induction FU as [|u l ul us (p' & q & s & -> & T1 & _ & T2 & _) F IH]; [destruct I|].
    cbn in I. destruct I as [<-|[<-|I]]; try congruence; auto.
  - assert (X : exists b pri r r' dd dd', keygen_secret true (c_pass c) (b_sym b) (b_hash b) pri r = Ok (x, r') /\ k_pka kk = b_pka b /\
        keygen_pair f np test (b_pka b) (b_bits b) dd = Ok (Some (pri, k_mpi kk), dd')).
    { clear - FS I TP PB. induction FS as [|b l bl ss (p' & q & kk' & x' & s & -> & T1 & B1 & _ & _ & PK & T2 & B2 & _ & _ & (pri & r & r' & SK & dd & dd' & KG)) F IH]; [destruct I|].
      cbn in I. destruct I as [<-|[<-|I]]; [|congruence|auto]. assert (kk' = kk /\ x' = x) as [-> ->] by (rewrite PB in B1; split; congruence).
      exists b, pri, r, r', dd, dd'. auto. }
    destruct X as (b & pri' & r1 & r2 & dd & dd' & SK & PK & KG).
    apply keypair_ok in KG as (FP & LP & KP); auto; [|destruct F as [|m l Fm _]; [cbn; reflexivity|exact Fm]].
    exists pri'. rewrite PS in SK. split; [eapply keygen_back; eauto|]. intros C. rewrite PK. apply KP. rewrite <- PK.
    cbn in C. destruct C as [C|[C|[C|[C|[]]]]]; [right|right|right|left; auto]; (split; [rewrite <- C; reflexivity|]); apply O; rewrite <- C; cbn; auto.
Qed.
(** No subkey generated with a passphrase gives back its values: it gives more of them, or
    nothing. *)
Theorem C74_subkey_secret_refuted : forall fuel nextprime prime_test c time rnd draws g rnd' rest p kk x,
  sound_primes nextprime prime_test -> generate_key fuel nextprime prime_test c time rnd draws = Ok (g, rnd', rest) ->
  c_pass c <> [] -> In p (g_packets g) -> p_tag p = 7 -> p_body p = PSecret kk x -> sane_values kk ->
  exists pri dd dd' bits, keygen_pair fuel nextprime prime_test (k_pka kk) bits dd = Ok (Some (pri, k_mpi kk), dd') /\
    forall r, decrypt_secret_keys x (c_pass c) = Ok r -> exists more, r = pri ++ more /\ more <> [].
Proof.
  intros f np test c time rnd draws g r d p kk x [NP T] E PS I TP PB [F O].
  apply generate_inv in E as (k0 & sec0 & pri & id & us & ss & V & KE & KI & _ & _ & GE & FU & FS); [|intros Z; rewrite Z in I; destruct I].
  rewrite GE in I. cbn [g_packets] in I. destruct I as [<-|I]; [discriminate|]. apply in_app_or in I as [I|I].
  - exfalso. clear - FU I TP. induction FU as [|u l ul us (p' & q & s & -> & T1 & _ & T2 & _) F IH]; [destruct I|].
    cbn in I. destruct I as [<-|[<-|I]]; try congruence; auto.
  - assert (X : exists b pri r r' dd dd', keygen_secret true (c_pass c) (b_sym b) (b_hash b) pri r = Ok (x, r') /\ k_pka kk = b_pka b /\
        keygen_pair f np test (b_pka b) (b_bits b) dd = Ok (Some (pri, k_mpi kk), dd')).
    { clear - FS I TP PB. induction FS as [|b l bl ss (p' & q & kk' & x' & s & -> & T1 & B1 & _ & _ & PK & T2 & B2 & _ & _ & (pri & r & r' & SK & dd & dd' & KG)) F IH]; [destruct I|].
      cbn in I. destruct I as [<-|[<-|I]]; [|congruence|auto]. assert (kk' = kk /\ x' = x) as [-> ->] by (rewrite PB in B1; split; congruence).
      exists b, pri, r, r', dd, dd'. auto. }
    destruct X as (b & pri' & r1 & r2 & dd & dd' & SK & PK & KG). exists pri', dd, dd', (b_bits b). rewrite PK. split; [exact KG|].
    apply keypair_ok in KG as (FP & LP & KP); auto; [|destruct F as [|m l Fm _]; [cbn; reflexivity|exact Fm]].
    apply keygen_secret_inv in SK as (sym' & hash' & salt & iv & G & II & Ih & Ls & Li & _).
    destruct (c_pass c) as [|ch pass]; [congruence|].
    destruct (generated_twice ch pass sym' hash' salt iv pri' II Ih Ls Li FP (mpis_short pri' FP LP)) as (s' & G' & D).
    rewrite G in G'. apply Ok_inj in G'. now subst s'.
Qed.

(** ** Requests *)
(** Only reasonable requests give a key: a signing algorithm, at least one user ID, hashes of at
    least 256 bits with DSA, and, with a passphrase, a cipher and a hash that exist. *)
Theorem C74_accepted : forall fuel nextprime prime_test c time rnd draws g rnd' rest,
  generate_key fuel nextprime prime_test c time rnd draws = Ok (g, rnd', rest) -> g_packets g <> [] ->
  In (c_pka c) [1; 17] /\ c_uids c <> [] /\ (c_pka c = 17 -> Forall (fun u => In (u_sig u) [8; 9; 10]) (c_uids c)) /\
  Forall (fun b => In (b_pka b) [1; 2; 3; 16; 17] /\ (b_pka b = 17 -> In (b_sig b) [8; 9; 10])) (c_subkeys c) /\
  (c_pass c <> [] -> can_protect (c_sym c) (c_hash c)).
Proof.
  intros f np test c time rnd draws g r d E NE.
  apply generate_inv in E as (k0 & sec0 & pri & id & us & ss & V & KE & KI & _ & (r2 & SK) & GE & FU & FS); [|exact NE].
  pose proof (valid_uids c V) as [NU CS].
  assert (LONG : forall h, dsa_hash_short 17 h = Ok false -> In h [8; 9; 10]).
  { intros h H. unfold dsa_hash_short in H. cbn [N.eqb Pos.eqb] in H. apply bind_ok in H as (n & HL & H). apply Ok_inj in H.
    pose proof (map_at_in _ _ _ HL) as I. cbn in I. repeat (destruct I as [<-|I]; [cbn in HL; apply Ok_inj in HL; subst n; cbn in H; first [discriminate|cbn; auto]|]). destruct I. }
  assert (V' : uids_valid (c_pka c) (c_uids c) = Ok true /\ subs_valid (c_subkeys c) = Ok true).
  { clear - V. unfold config_valid in V. destruct (negb (pka_valid (c_pka c))); [discriminate|]. destruct (negb (can_sign (c_pka c))); [discriminate|].
    destruct (negb (sym_valid (c_sym c))); [discriminate|]. destruct (negb (hash_valid (c_hash c))); [discriminate|]. destruct (c_uids c); [discriminate|].
    apply bind_ok in V as (ok & U & V). destruct ok; [auto|discriminate]. }
  destruct V' as [VU VS]. split; [|split; [exact NU|split; [|split]]].
  - destruct CS as [C|[C|[C|[]]]]; [left; auto| |right; left; auto]. exfalso.
    destruct FU as [|u l ul us' (p & q & s & _ & _ & _ & _ & _ & _ & (digest & d1 & d2 & _ & FI)) _]; [congruence|].
    apply finish_ok in FI as (pri' & vals & _ & S & X & _). rewrite KE in S. cbn [k_pka] in S. rewrite <- C in S. cbn in S. apply Ok_inj in S. apply X. congruence.
  - intros C. rewrite C in VU. clear - VU LONG. induction (c_uids c) as [|u l IH]; constructor; cbn [uids_valid] in VU;
      (destruct (negb (hash_valid (u_sig u))); [discriminate|]; apply bind_ok in VU as (b & B & VU); destruct b; [discriminate|]); auto.
  - clear - VS LONG FS. induction FS as [|b l bl ss (p' & q & kk' & x' & s & _ & _ & _ & _ & _ & PK & _ & _ & _ & _ & (pri & r & r' & _ & dd & dd' & KG)) F IH]; [constructor|].
    cbn [subs_valid] in VS. destruct (negb (pka_valid (b_pka b))); [discriminate|]. destruct (negb (sym_valid (b_sym b))); [discriminate|].
    destruct (negb (hash_valid (b_hash b))); [discriminate|]. destruct (negb (hash_valid (b_sig b))); [discriminate|].
    apply bind_ok in VS as (sh & B & VS). destruct sh; [discriminate|]. constructor; [|auto]. split; [|intros C; rewrite C in B; auto].
    unfold keygen_pair, generate_keypair, generate_params in KG. destruct (is_RSA (b_pka b)) eqn:R.
    + unfold is_RSA, mem in R. cbn in R. cbn. lia.
    + destruct (b_pka b =? 16) eqn:E16; [apply N.eqb_eq in E16; rewrite E16; cbn; auto|]. destruct (b_pka b =? 17) eqn:E17; [apply N.eqb_eq in E17; rewrite E17; cbn; auto 6|].
      cbn in KG. apply Ok_inj in KG. congruence.
  - intros PS. apply keygen_secret_inv in SK as (sym' & hash' & salt & iv & G & I & Ih & Ls & Li & A). destruct (A PS) as (-> & -> & _). split; auto.
Qed.
(** The check of a request is not that strict: it accepts sign-only RSA, for which the key is
    always empty, ... *)
Theorem C74_sign_only_refuted : (exists c, config_valid c = Ok true /\ c_pka c = 3) /\
  forall fuel nextprime prime_test c time rnd draws g rnd' rest, c_pka c = 3 ->
  generate_key fuel nextprime prime_test c time rnd draws = Ok (g, rnd', rest) -> g_packets g = [].
Proof.
  split; [exists (mkConfig [] 3 2048 9 8 [mkUid (str "a") [] [] 8 0] []); split; reflexivity|].
  intros f np test c time rnd draws g r d C E. destruct (g_packets g) eqn:G; [reflexivity|].
  apply C74_accepted in E as ([X|[X|[]]] & _); [| |rewrite G; discriminate]; rewrite C in X; discriminate.
Qed.
(** ... DSA with 1024 or 3072 bits, for which it is always empty as well, because half of the size is
    passed on, and DSA with 2048 bits, which gives the group of a 1024 bit key, ... *)
Theorem C74_dsa_size_refuted : (exists c, config_valid c = Ok true /\ c_pka c = 17 /\ c_bits c = 3072) /\
  forall fuel nextprime prime_test c time rnd draws g rnd' rest, c_pka c = 17 -> (forall a, a < nextprime a) ->
  generate_key fuel nextprime prime_test c time rnd draws = Ok (g, rnd', rest) ->
  (c_bits c = 1024 \/ c_bits c = 3072 -> g_packets g = []) /\
  (c_bits c = 2048 -> forall p k sec more, g_packets g = p :: more -> p_body p = PSecret k sec ->
     exists m q gen y, k_mpi k = [m; q; gen; y] /\ 2 ^ 159 <= q < 2 ^ 160).
Proof.
  split; [exists (mkConfig [] 17 3072 9 8 [mkUid (str "a") [] [] 8 0] []); repeat split; reflexivity|].
  intros f np test c time rnd draws g r d C NP E. split.
  - intros B. destruct (g_packets g) eqn:G; [reflexivity|]. exfalso.
    apply generate_inv in E as (k0 & sec0 & pri & id & us & ss & V & KE & KI & (d2 & KP) & _); [|rewrite G; discriminate].
    rewrite C in KP. unfold keygen_pair in KP. destruct B as [B|B]; rewrite B in KP; cbn in KP; apply Ok_inj in KP; congruence.
  - intros B p k sec more GP PB.
    apply generate_inv in E as (k0 & sec0 & pri & id & us & ss & V & KE & KI & (d2 & KP) & _ & GE & _); [|rewrite GP; discriminate].
    rewrite GE in GP. cbn in GP. assert (p = new_packet 5 (PSecret k0 sec0)) as -> by congruence. cbn in PB. assert (k0 = k) as -> by congruence.
    rewrite C, B in KP. unfold keygen_pair in KP. change (generate_params 17 (N.shiftr 2048 1)) with [1024; 160] in KP.
    apply bind_ok in KP as ([[[a pr] pu] d3] & KP & X). apply Ok_inj in X. unfold generate_keypair in KP.
    change (is_RSA 17) with false in KP. cbn [N.eqb Pos.eqb vec_at nth_error bind] in KP.
    apply bind_ok in KP as ([v d4] & DP & KP). apply bind_ok in KP as ([[pr' pu'] d5] & DK & KP). apply Ok_inj in KP.
    assert (a = 17) as -> by congruence. cbn [N.eqb Pos.eqb] in X. assert (pu = k_mpi k) as -> by congruence. assert (pu' = k_mpi k) as -> by congruence.
    change (u32 160) with 160 in DP. apply C73_dsa_q in DP as (m & q & gen & -> & Q); [|exact NP|split; reflexivity].
    apply dsa_keygen_public in DK as (y & Y). exists m, q, gen, y. split; [exact Y|exact Q].
Qed.
(** ... and ciphers that do not exist, for which an exception is thrown after the key pair has
    been made. *)
Theorem C74_cipher_refuted : (exists c, config_valid c = Ok true /\ c_pass c <> [] /\ c_sym c = 5) /\
  forall fuel nextprime prime_test c time rnd draws pri pub d, config_valid c = Ok true -> c_pass c <> [] -> ~ In (c_sym c) offered -> 8 <= len rnd ->
  keygen_pair fuel nextprime prime_test (c_pka c) (c_bits c) draws = Ok (Some (pri, pub), d) ->
  generate_key fuel nextprime prime_test c time rnd draws = Throw EOutOfRange.
Proof.
  split; [exists (mkConfig (str "x") 1 2048 5 8 [mkUid (str "a") [] [] 8 0] []); repeat split; discriminate|].
  intros f np test c time rnd draws pri pub d V PS NI L KP. unfold generate_key. rewrite V. cbn [bind negb]. rewrite KP. cbn [bind].
  unfold keygen_secret. destruct (c_pass c); [congruence|]. unfold rand_bytes at 1. replace (len rnd <? 8) with false by lia. cbn [bind].
  assert (X : map_at key_length (c_sym c) = Throw EOutOfRange).
  { cbn [map_at key_length]. cbn in NI. repeat match goal with |- (if ?b then _ else _) = _ => destruct b eqn:?; [exfalso; apply NI; lia|] end. reflexivity. }
  rewrite X. reflexivity.
Qed.
(** The expiration times of a request are not used: the key is the same without them. *)
Theorem C74_expire_refuted : forall fuel nextprime prime_test c c' time rnd draws, same_request c c' ->
  generate_key fuel nextprime prime_test c time rnd draws = generate_key fuel nextprime prime_test c' time rnd draws.
Proof.
  intros f np test [ps pk bi sy ha us ss] [ps' pk' bi' sy' ha' us' ss'] time rnd draws (A & B & C & D & E & FU & FS). cbn in A, B, C, D, E, FU, FS. subst ps' pk' bi' sy' ha'.
  assert (U1 : uids_valid pk us = uids_valid pk us').
  { clear - FU. induction FU as [|u u' l l' (_ & _ & _ & S) F IH]; [reflexivity|]. cbn [uids_valid]. now rewrite S, IH. }
  assert (S1 : subs_valid ss = subs_valid ss').
  { clear - FS. induction FS as [|b b' l l' (P & _ & Y & H & S) F IH]; [reflexivity|]. cbn [subs_valid]. now rewrite P, Y, H, S, IH. }
  assert (U2 : forall k sec id d, generate_uids ps k sec id time us d = generate_uids ps k sec id time us' d).
  { clear - FU. intros k sec id. induction FU as [|u u' l l' (X & Y & Z & S) F IH]; intros d; [reflexivity|]. cbn [generate_uids]. cbv zeta. rewrite X, Y, Z, S.
    destruct (sign_certification _ _ _ _ _ _ _) as [[o d']| | |]; [|reflexivity..]. cbn [bind]. destruct o; [|reflexivity]. now rewrite IH. }
  assert (S2 : forall k sec id r d, generate_subkeys f np test ps k sec id time ss r d = generate_subkeys f np test ps k sec id time ss' r d).
  { clear - FS. intros k sec id. induction FS as [|b b' l l' (P & Q & Y & H & S) F IH]; intros r d; [reflexivity|]. cbn [generate_subkeys]. cbv zeta. rewrite P, Q, Y, H, S.
    destruct (keygen_pair _ _ _ _ _ _) as [[o d']| | |]; [|reflexivity..]. cbn [bind]. destruct o as [[pri pub]|]; [|reflexivity].
    destruct (keygen_secret _ _ _ _ _ _) as [[x r']| | |]; [|reflexivity..]. cbn [bind].
    destruct (sign_subkey_binding _ _ _ _ _ _) as [[o d2]| | |]; [|reflexivity..]. cbn [bind]. destruct o; [|reflexivity]. now rewrite IH. }
  unfold generate_key. assert (V : config_valid (mkConfig ps pk bi sy ha us ss) = config_valid (mkConfig ps pk bi sy ha us' ss')).
  { unfold config_valid. cbn [c_pass c_pka c_bits c_sym c_hash c_uids c_subkeys]. rewrite U1, S1. destruct FU; reflexivity. }
  rewrite V. clear V. cbn [c_pass c_pka c_bits c_sym c_hash c_uids c_subkeys].
  destruct (config_valid _) as [v| | |]; [|reflexivity..]. cbn [bind]. destruct v; [|reflexivity]. cbn [negb].
  destruct (keygen_pair _ _ _ _ _ _) as [[o d']| | |]; [|reflexivity..]. cbn [bind]. destruct o as [[pri pub]|]; [|reflexivity].
  destruct (keygen_secret _ _ _ _ _ _) as [[x r']| | |]; [|reflexivity..]. cbn [bind]. cbv zeta.
  destruct (get_keyid _) as [id| | |]; [|reflexivity..]. cbn [bind]. rewrite U2.
  destruct (generate_uids _ _ _ _ _ _ _) as [[o d2]| | |]; [|reflexivity..]. cbn [bind]. destruct o; [|reflexivity]. now rewrite S2.
Qed.

(** Example: an RSA key of 299 bits with a subkey, signed with MD5, protected with AES and
    SHA-1. *)
Definition gen_next (n : N) : N := if n =? 1 then big_q else big_p.
Definition gen_conf : config := mkConfig (str "pass") 1 300 7 2 [mkUid (str "A") (str "work") (str "a@b") 1 5; mkUid (str "B") [] [] 1 0] [mkSub 1 300 7 2 1 0].
Lemma gen_primes : forall n, is_prime (gen_next n).
Proof.
  intros n. unfold gen_next. destruct (n =? 1).
  - apply (proth _ 9444732965739290427661 76 3); [reflexivity|reflexivity|split; [reflexivity|vm_compute; discriminate]|vm_compute; reflexivity].
  - apply (proth _ 9444732965739290427553 76 3); [reflexivity|reflexivity|split; [reflexivity|vm_compute; discriminate]|vm_compute; reflexivity].
Qed.
Lemma gen_draws e : rsa_draws gen_next 300 (0, 1, e).
Proof.
  split; [split; reflexivity|]. split; [reflexivity|]. split; [reflexivity|]. split; [vm_compute; discriminate|]. split; [vm_compute; reflexivity|].
  unfold mpi_fits. apply N.log2_lt_pow2; reflexivity.
Qed.
Example C74_ex : exists g rnd', generate_key 1 gen_next (fun _ => false) gen_conf 1234567890 (repeat 7 48) [0; 1; 3; 0; 1; 5] = Ok (g, rnd', []) /\
  g_packets g <> [].
Proof.
  assert (HF : hash_fits (modulus gen_next (0, 1, 3)) 1).
  { do 2 eexists. split; [reflexivity|]. split; [reflexivity|]. vm_compute. discriminate. }
  apply (C74_made 1 gen_next (fun _ => false) gen_conf 1234567890 (repeat 7 48) (0, 1, 3) [(0, 1, 5)] [] gen_primes eq_refl eq_refl (gen_draws 3)).
  - repeat (apply Forall_cons; [exact HF|]). constructor.
  - apply Forall2_cons; [|constructor]. split; [cbn; auto|]. split; [apply gen_draws|]. split; [exact HF|]. intros _. split; cbn; auto 12.
  - intros _. split; cbn; auto 12.
  - vm_compute. discriminate.
Qed.
Lemma gen_pair rest : exists pri, keygen_pair 1 gen_next (fun _ => false) 1 300 ([0; 1; 3] ++ rest) = Ok (Some (pri, [big_p * big_q; 3]), rest).
Proof. eexists. lazy. reflexivity. Qed.
(** It meets the hypotheses of [C74_usable] and [C74_protected]. *)
Example C74_ex_sane : exists g rnd' p more k sec,
  generate_key 1 gen_next (fun _ => false) gen_conf 1234567890 (repeat 7 48) [0; 1; 3; 0; 1; 5] = Ok (g, rnd', []) /\
  g_packets g = p :: more /\ p_body p = PSecret k sec /\ sane_values k /\ c_pass gen_conf <> [].
Proof.
  destruct C74_ex as (g & rnd' & E & NE). exists g, rnd'.
  pose proof E as E'. apply generate_inv in E' as (k & sec & pri & id & us & ss & _ & KE & _ & (d' & KP) & _ & GE & _); [|exact NE].
  exists (new_packet 5 (PSecret k sec)), (concat us ++ concat ss), k, sec. split; [exact E|]. split; [rewrite GE; reflexivity|]. split; [reflexivity|].
  split; [|discriminate]. destruct (gen_pair [0; 1; 5]) as (pri' & KP'). cbn [app] in KP'.
  assert (KM : k_mpi k = [big_p * big_q; 3]).
  { change (c_pka gen_conf) with 1 in KP. change (c_bits gen_conf) with 300 in KP. rewrite KP' in KP. apply Ok_inj in KP. congruence. }
  split.
  - rewrite KM. repeat (apply Forall_cons; [unfold mpi_fits; apply N.log2_lt_pow2; reflexivity|]). constructor.
  - intros _. exists (big_p * big_q), 3. split; [exact KM|vm_compute; reflexivity].
Qed.
Example C74_names : full_name (str "A") (str "work") (str "a@b") = str "A (work) <a@b>" /\ full_name (str "B") [] [] = str "B" /\
  full_name [] [] (str "a@b") = str "<a@b>".
Proof. repeat split; reflexivity. Qed.
Example C74_prime_ex : sound_primes gen_next (fun _ => false).
Proof. split; [exact gen_primes|discriminate]. Qed.

(** ** The check of a request *)
Lemma mem_known l x : mem (l ++ private_ids) x = true <-> known l x.
Proof.
  unfold mem, known. rewrite existsb_app, orb_true_iff. split.
  - intros [H|H]; [left|right].
    + apply existsb_exists in H as (y & I & E). apply N.eqb_eq in E. now subst y.
    + unfold private_ids in H. cbn in H. lia.
  - intros [H|H]; [left; apply existsb_exists; exists x; split; [exact H|apply N.eqb_refl]|right; unfold private_ids; cbn; lia].
Qed.
Lemma negb_if {A} (b : bool) (x y : A) : (if negb b then x else y) = if b then y else x.
Proof. now destruct b. Qed.
Lemma long_hash h : dsa_hash_short 17 h = Ok false <-> In h [8; 9; 10].
Proof.
  unfold dsa_hash_short. cbn [N.eqb Pos.eqb]. split.
  - intros H. apply bind_ok in H as (n & HL & H). apply Ok_inj in H.
    pose proof (map_at_in _ _ _ HL) as I. cbn in I. repeat (destruct I as [<-|I]; [cbn in HL; apply Ok_inj in HL; subst n; cbn in H; first [discriminate|cbn; auto]|]). destruct I.
  - cbn. intros [<-|[<-|[<-|[]]]]; reflexivity.
Qed.
Lemma dsa_hash_iff pka h : dsa_hash_short pka h = Ok false <-> (pka = 17 -> In h [8; 9; 10]).
Proof.
  destruct (N.eq_dec pka 17) as [->|D].
  - rewrite long_hash. tauto.
  - unfold dsa_hash_short. apply N.eqb_neq in D as D'. rewrite D'. split; [intros _ H; congruence|reflexivity].
Qed.
Lemma uids_valid_iff pka l : uids_valid pka l = Ok true <-> Forall (fun u => known_hash (u_sig u) /\ (pka = 17 -> In (u_sig u) [8; 9; 10])) l.
Proof.
  induction l as [|u l IH]; cbn [uids_valid]; [split; [constructor|reflexivity]|]. rewrite negb_if, Forall_cons_iff, <- IH, <- dsa_hash_iff.
  unfold known_hash. rewrite <- mem_known. change (mem ([1; 2; 3; 4; 5; 6; 7; 8; 9; 10; 11] ++ private_ids) (u_sig u)) with (hash_valid (u_sig u)).
  destruct (hash_valid (u_sig u)); [|split; [discriminate|intros [[? _] _]; discriminate]].
  destruct (dsa_hash_short pka (u_sig u)) as [[]| | |]; cbn [bind]; intuition congruence.
Qed.
Lemma subs_valid_iff l : subs_valid l = Ok true <->
  Forall (fun b => known_pka (b_pka b) /\ known_sym (b_sym b) /\ known_hash (b_hash b) /\ known_hash (b_sig b) /\ (b_pka b = 17 -> In (b_sig b) [8; 9; 10])) l.
Proof.
  induction l as [|b l IH]; cbn [subs_valid]; [split; [constructor|reflexivity]|]. rewrite !negb_if, Forall_cons_iff, <- IH, <- dsa_hash_iff.
  unfold known_hash, known_pka, known_sym. rewrite <- !mem_known.
  change (mem ([1; 2; 3; 4; 5; 6; 7; 8; 9; 10; 11] ++ private_ids)) with hash_valid.
  change (mem ([1; 2; 3; 16; 17; 18; 19; 20; 21] ++ private_ids)) with pka_valid.
  change (mem ([0; 1; 2; 3; 4; 5; 6; 7; 8; 9; 10; 11; 12; 13] ++ private_ids)) with sym_valid.
  destruct (pka_valid (b_pka b)); [|intuition congruence]. destruct (sym_valid (b_sym b)); [|intuition congruence].
  destruct (hash_valid (b_hash b)); [|intuition congruence]. destruct (hash_valid (b_sig b)); [|intuition congruence].
  destruct (dsa_hash_short (b_pka b) (b_sig b)) as [[]| | |]; cbn [bind]; intuition congruence.
Qed.
(** Exactly those requests pass. *)
Theorem C74_checked : forall c, config_valid c = Ok true <-> acceptable c.
Proof.
  intros c. unfold config_valid, acceptable. rewrite !negb_if, <- uids_valid_iff, <- subs_valid_iff, <- can_sign_iff.
  unfold known_hash, known_sym. rewrite <- !mem_known.
  change (mem ([1; 2; 3; 4; 5; 6; 7; 8; 9; 10; 11] ++ private_ids)) with hash_valid.
  change (mem ([0; 1; 2; 3; 4; 5; 6; 7; 8; 9; 10; 11; 12; 13] ++ private_ids)) with sym_valid.
  assert (P : can_sign (c_pka c) = true -> pka_valid (c_pka c) = true) by (rewrite can_sign_iff; cbn; intros [<-|[<-|[<-|[]]]]; reflexivity).
  destruct (can_sign (c_pka c)); [rewrite (P eq_refl)|destruct (pka_valid (c_pka c)); intuition congruence].
  destruct (sym_valid (c_sym c)); [|intuition congruence]. destruct (hash_valid (c_hash c)); [|intuition congruence].
  destruct (c_uids c) as [|u l]; [intuition congruence|]. destruct (uids_valid (c_pka c) (u :: l)) as [[]| | |]; cbn [bind]; intuition congruence.
Qed.
(** A key comes out only for those. *)
Theorem C74_only_acceptable : forall fuel nextprime prime_test c time rnd draws g rnd' rest,
  generate_key fuel nextprime prime_test c time rnd draws = Ok (g, rnd', rest) -> g_packets g <> [] -> acceptable c.
Proof. intros f np test c time rnd draws g r d E NE. apply generate_inv in E as (k & sec & pri & id & us & ss & V & _); [|exact NE]. now apply C74_checked. Qed.

(** ** Sizes and the protection of subkeys *)
Lemma pair_sized fuel np test pka bits draws pri pub rest : (forall a, a < np a) -> bits < 2 ^ 32 ->
  keygen_pair fuel np test pka bits draws = Ok (Some (pri, pub), rest) -> size_kept np pka bits pub.
Proof.
  intros NP B E. unfold keygen_pair in E. apply bind_ok in E as ([[[a pri'] pub'] d] & G & E). apply Ok_inj in E.
  destruct (a =? 0) eqn:A0; [congruence|]. assert (pub' = pub) as -> by congruence. clear E. unfold generate_keypair, generate_params in G.
  assert (SH : N.shiftr bits 1 = bits / 2) by (rewrite N.shiftr_div_pow2; reflexivity). rewrite SH in G.
  assert (H2 : bits / 2 <= bits) by (apply N.div_le_upper_bound; lia).
  assert (U : u32 (bits / 2) = bits / 2) by (unfold u32, two32; apply N.mod_small; change (2 ^ 32) with 4294967296 in B; lia).
  unfold size_kept. destruct (is_RSA pka) eqn:R; cbn [orb] in G.
  - assert (I : In pka [1; 2; 3]) by (unfold is_RSA, mem in R; cbn in R; cbn; lia).
    rewrite U in G. apply bind_ok in G as ([v d'] & K & G). apply C73_rsa_partial in K as (x & y & e & dd & p & q & u & -> & X & Y & D).
    apply Ok_inj in G. cbn [skipn firstn] in G. split; [|split; intros ->; cbn in I; lia]. intros _. exists x, y, e. split; [congruence|]. auto.
  - split; [intros I; exfalso; unfold is_RSA, mem in R; cbn in R, I; lia|].
    destruct (pka =? 16) eqn:E16; cbn [orb] in G.
    + apply N.eqb_eq in E16. split; [intros _|intros ->; discriminate]. rewrite U in G. apply bind_ok in G as ([v d'] & K & G).
      destruct (N.lt_ge_cases (bits / 2) 5) as [L|L].
      { destruct fuel as [|f]; [|rewrite C73_elgamal_small in K by exact L; discriminate]. unfold elgamal_keygen in K. cbv zeta in K. cbn in K. discriminate. }
      apply C73_elgamal_partial in K as (p & gg & y & x & -> & S & _); [|lia]. apply Ok_inj in G. cbn [skipn firstn] in G. cbv zeta.
      exists p, gg, y. split; [congruence|]. replace (5 * (bits / 2 / 5) / 5) with (bits / 2 / 5) by (rewrite N.mul_comm, N.div_mul; [reflexivity|lia]). exact S.
    + split; [intros ->; discriminate|]. intros ->. cbn [N.eqb Pos.eqb] in G. cbv zeta.
      destruct (negb (N.land (bits / 2) 1023 =? 0)); [apply Ok_inj in G; exfalso; assert (a = 0) by congruence; subst a; discriminate|].
      cbn [vec_at nth_error bind] in G. rewrite U in G. set (n := if bits / 2 =? 1024 then 160 else 256) in *.
      assert (UN : u32 n = n /\ 0 < n < 2 ^ 32) by (unfold n; destruct (bits / 2 =? 1024); repeat split; reflexivity). destruct UN as [UN NB]. rewrite UN in G.
      apply bind_ok in G as ([v d1] & K & G). pose proof (C73_dsa_q _ _ _ _ _ _ _ _ NP NB K) as (p & q & gg & -> & Q).
      apply bind_ok in G as ([[pr pb] d2] & DK & G). apply Ok_inj in G. assert (pb = pub) as -> by congruence. clear G.
      assert (PB : exists y, pub = [p; q; gg; y]).
      { clear - DK. unfold dsa_keygen in DK. cbn [vec_at nth_error bind] in DK. cbv zeta in DK. apply bind_ok in DK as ([x d3] & _ & DK).
        revert x d3 DK. induction fuel as [|f IH]; intros x d3 DK; cbn [dsa_keygen_rounds] in DK; [discriminate|].
        cbn [vec_at nth_error bind] in DK. apply bind_ok in DK as (y & _ & DK). apply bind_ok in DK as ([rs d4] & _ & DK). apply bind_ok in DK as (ok & _ & DK).
        destruct ok; [|eauto]. apply Ok_inj in DK. cbn [app] in DK. exists y. congruence. }
      destruct PB as (y & ->). exists p, q, gg, y. split; [reflexivity|]. split; [|exact Q].
      destruct (N.eq_dec (bits / 2) 0) as [Z|Z].
      * rewrite Z. change (2 ^ (0 - 1)) with 1. assert (1 < 2 ^ (n - 1)) by (unfold n; destruct (bits / 2 =? 1024); reflexivity). lia.
      * apply C73_dsa_p_partial in K as (p' & q' & g' & E' & S); [|lia]. assert (p' = p /\ q' = q) as [-> ->] by (split; congruence). exact S.
Qed.
(** The sizes asked for, as far as they are kept, for the primary key and every subkey. *)
Theorem C74_sizes : forall fuel nextprime prime_test c time rnd draws g rnd' rest p more k sec, (forall a, a < nextprime a) ->
  generate_key fuel nextprime prime_test c time rnd draws = Ok (g, rnd', rest) -> g_packets g = p :: more -> p_body p = PSecret k sec ->
  (c_bits c < 2 ^ 32 -> size_kept nextprime (c_pka c) (c_bits c) (k_mpi k)) /\
  exists us subs, more = concat us ++ concat subs /\
    Forall2 (fun b => sub_made (fun kk _ _ => b_bits b < 2 ^ 32 -> size_kept nextprime (b_pka b) (b_bits b) (k_mpi kk)) k time b) (c_subkeys c) subs.
Proof.
  intros f np test c time rnd draws g r d p more k sec NP E GP PB.
  apply generate_inv in E as (k0 & sec0 & pri & id & us & ss & V & KE & KI & (d2 & KP) & _ & GE & FU & FS); [|rewrite GP; discriminate].
  assert (p = new_packet 5 (PSecret k0 sec0) /\ more = concat us ++ concat ss) as [-> ->] by (rewrite GE in GP; cbn in GP; split; congruence).
  cbn in PB. assert (k0 = k) as -> by congruence. split; [intros B; eapply pair_sized; eauto|]. exists us, ss. split; [reflexivity|].
  eapply Forall2_weaken; [|exact FS]. intros b l. apply sub_weaken. intros kk x s _ [_ (pri' & r1 & r2 & _ & d1 & d3 & KG)] B. eapply pair_sized; eauto.
Qed.
(** With a passphrase every subkey is protected by the cipher and hash asked for. *)
Theorem C74_subkey_protected : forall fuel nextprime prime_test c time rnd draws g rnd' rest p more k sec,
  generate_key fuel nextprime prime_test c time rnd draws = Ok (g, rnd', rest) -> g_packets g = p :: more -> p_body p = PSecret k sec -> c_pass c <> [] ->
  exists us subs, more = concat us ++ concat subs /\
    Forall2 (fun b => sub_made (fun _ x _ => sk_con x = 254 /\ sk_sym x = b_sym b /\ In (b_sym b) offered /\ length (sk_iv x) = block_octets (b_sym b) /\
       exists y, sk_s2k x = Some y /\ s2k_kind y = S2K3 /\ s2k_hash y = b_hash b /\ length (s2k_salt y) = 8%nat) k time b) (c_subkeys c) subs.
Proof.
  intros f np test c time rnd draws g r d p more k sec E GP PB PS.
  apply generate_inv in E as (k0 & sec0 & pri & id & us & ss & V & KE & KI & _ & _ & GE & FU & FS); [|rewrite GP; discriminate].
  assert (p = new_packet 5 (PSecret k0 sec0) /\ more = concat us ++ concat ss) as [-> ->] by (rewrite GE in GP; cbn in GP; split; congruence).
  cbn in PB. assert (k0 = k) as -> by congruence. exists us, ss. split; [reflexivity|].
  eapply Forall2_weaken; [|exact FS]. intros b l. apply sub_weaken. intros kk x s _ [_ (pri' & r1 & r2 & SK & _)].
  apply keygen_secret_inv in SK as (sym' & hash' & salt & iv & G & I & Ih & Ls & Li & A).
  destruct (A PS) as (-> & -> & C1 & C2 & y & C3 & C4 & C5).
  split; [exact C1|]. split; [exact C2|]. split; [exact I|].
  destruct (generated_ok true (c_pass c) (b_sym b) (b_hash b) salt iv pri' I Ih Ls Li) as (s' & G' & IV & _). rewrite G in G'. apply Ok_inj in G'. subst s'.
  split; [destruct (IV PS) as [_ ->]; exact Li|]. exists y. split; [exact C3|]. split.
  - clear - G C3 PS. unfold generated_secret in G. destruct (c_pass c); [congruence|]. cbv zeta in G. repeat (apply bind_ok in G as (? & _ & G)). apply Ok_inj in G. subst x. cbn [sk_s2k] in C3. injection C3 as <-. reflexivity.
  - split; [exact C4|]. now rewrite C5.
Qed.
Example C74_checked_ex : acceptable gen_conf /\ config_valid (mkConfig [] 17 2048 9 8 [mkUid (str "a") [] [] 2 0] []) = Ok false /\ c_subkeys gen_conf <> [].
Proof. split; [apply C74_checked; reflexivity|]. split; [reflexivity|discriminate]. Qed.

Print Assumptions C74_contents.
Print Assumptions C74_usable.
Print Assumptions C74_made.
Print Assumptions C74_protected.
Print Assumptions C74_fresh.
Print Assumptions C74_subkey_secret_partial.
Print Assumptions C74_subkey_secret_refuted.
Print Assumptions C74_accepted.
Print Assumptions C74_sign_only_refuted.
Print Assumptions C74_dsa_size_refuted.
Print Assumptions C74_cipher_refuted.
Print Assumptions C74_expire_refuted.
Print Assumptions C74_checked.
Print Assumptions C74_only_acceptable.
Print Assumptions C74_sizes.
Print Assumptions C74_subkey_protected.
