(** Key packets and the protection of secret values. *)
From Verif Require Export Spec.Keys Proofs.PacketRT Proofs.S2kP Proofs.CipherP.

Lemma in_hashes h : In h hashes -> exists A, hash_alg h = Ok A.
Proof. cbn [hashes In]. intros [<-|[<-|[<-|[<-|[<-|[<-|[<-|[]]]]]]]]; eexists; reflexivity. Qed.

Lemma hash_use_octets alg d x : hash_use alg d = Ok x -> octets x.
Proof.
  unfold hash_use. destruct (hash_alg alg) as [A| | |] eqn:E; try discriminate. cbn [bind]. intros H. apply Ok_inj in H. subst x.
  destruct (digest_length alg A (md_update A (md_new A) d) E) as (b & h & _ & _ & _ & _ & O). exact O.
Qed.
Lemma hash_use_len alg d x bits : hash_use alg d = Ok x -> map_at hash_length alg = Ok bits -> len x = bits / 8.
Proof.
  unfold hash_use. destruct (hash_alg alg) as [A| | |] eqn:E; try discriminate. cbn [bind]. intros H F. apply Ok_inj in H. subst x.
  destruct (digest_length alg A (md_update A (md_new A) d) E) as (b & h & G & _ & L & _). rewrite F in G. apply Ok_inj in G. subst b. exact L.
Qed.
Lemma hash_use_ok alg d : In alg hashes -> exists x, hash_use alg d = Ok x.
Proof. intros H. destruct (in_hashes _ H) as [A E]. unfold hash_use. rewrite E. eexists; reflexivity. Qed.

(** Derived keys are strings of octets. *)
Lemma loop_octets alg data klen : forall n c out k, octets out -> s2k_loop n alg data c klen out = Ok k -> octets k.
Proof.
  induction n as [|n IH]; intros c out k O; cbn [s2k_loop]; [discriminate|].
  destruct (len out <? klen).
  - destruct (hash_use _ _) as [d| | |] eqn:E; try discriminate. cbn [bind]. apply IH. apply octets_app. split; auto.
    eapply hash_use_octets; eassumption.
  - intros H. apply substr_inv in H. destruct H as [_ ->]. now apply octets_firstn, octets_skipn.
Qed.
Lemma context_octets alg combined coded i d : s2k_context alg combined coded i = Ok d -> octets d.
Proof.
  unfold s2k_context. destruct (hash_alg alg) as [A| | |] eqn:E; try discriminate. cbn [bind].
  destruct (s2k_feed _ _ _ _ _ _) as [[h n]| | |]; try discriminate. cbn [bind]. destruct (n <? coded).
  - destruct (substr _ _ _) as [r| | |]; try discriminate. cbn [bind]. intros H. apply Ok_inj in H. subst d.
    destruct (digest_length alg A (md_update A h r) E) as (b & g & _ & _ & _ & _ & O). exact O.
  - cbn [bind]. intros H. apply Ok_inj in H. subst d.
    destruct (digest_length alg A h E) as (b & g & _ & _ & _ & _ & O). exact O.
Qed.
Lemma contexts_octets alg combined coded : forall l out k, octets out -> s2k_contexts alg combined coded l out = Ok k -> octets k.
Proof.
  unfold s2k_contexts. induction l as [|i l IH]; intros out k O.
  - intros H. apply Ok_inj in H. now subst.
  - destruct (s2k_context alg combined coded i) as [d| | |] eqn:E; try discriminate. cbn [bind]. apply IH.
    apply octets_app. split; auto. eapply context_octets; eassumption.
Qed.
Lemma s2k_octets s pass klen k : s2k_run s pass klen = Ok k -> octets k.
Proof.
  unfold s2k_run. destruct (s2k_kind s).
  - apply loop_octets. constructor.
  - apply loop_octets. constructor.
  - destruct (map_at _ _) as [b| | |]; try discriminate. cbn [bind].
    destruct (s2k_contexts _ _ _ _ _) as [o| | |] eqn:E; try discriminate. cbn [bind]. intros H.
    apply substr_inv in H. destruct H as [_ ->]. apply octets_firstn, octets_skipn.
    revert E. apply contexts_octets. constructor.
Qed.
Lemma s2k_run_ok x pass klen : s2k_fits x -> In (s2k_hash x) hashes ->
  exists k, s2k_run x pass klen = Ok k /\ len k = klen /\ octets k.
Proof.
  intros F I. destruct (in_hashes _ I) as [A E].
  destruct (run_len x pass klen A E) as (k & R & L).
  { intros K. unfold s2k_fits in F. rewrite K in F.
    destruct (s2k_type x) as [|[[t|t|]|t|]]; try tauto; destruct F as (X & Y & Z); try discriminate.
    destruct (s2k_salt x); [discriminate|easy]. }
  exists k. split; [exact R|]. split; [exact L|]. eapply s2k_octets; eassumption.
Qed.

(** Ciphers with the 16-octet key of the old protection. *)
Lemma setup16 alg key : In alg offered -> alg <> 2 -> octets key -> length key = 16%nat ->
  exists c E, sym_setup alg key = Ok c /\ enciphers c (block_octets alg) E /\
    refuses_others c (block_octets alg).
Proof.
  intros I N2 O L.
  assert (G : forall a, sym_setup alg key = sym_setup a key -> block_octets alg = block_octets a -> In a offered ->
              key_octets a = 16%nat -> exists c E, sym_setup alg key = Ok c /\ enciphers c (block_octets alg) E /\
    refuses_others c (block_octets alg)).
  { intros a -> -> Ia Ka. apply setup_enciphers; auto. congruence. }
  cbn [offered In] in I.
  destruct I as [<-|[<-|[<-|[<-|[<-|[<-|[<-|[<-|[<-|[<-|[<-|[]]]]]]]]]]]]; try congruence.
  - apply (G 1); cbn; auto.
  - apply (G 3); cbn; auto.
  - apply (G 4); cbn; auto.
  - apply (G 7); cbn; auto 10.
  - apply (G 7); cbn; auto 10.
  - apply (G 7); cbn; auto 10.
  - assert (Q : len key = 16 \/ len key = 24 \/ len key = 32) by (unfold len; rewrite L; auto).
    destruct (twofish_ok key Q) as [c [A [B [Iv W]]]]. pose proof (twofish_total key c A) as C.
    exists c. exists (fun b => match c_encrypt c b with Ok e => e | _ => [] end).
    split; [exact A|]. split; [split; [exact B|split]|].
    + intros b Lb. destruct (C b Lb) as [e [-> Le]]. exact Le.
    + intros b Lb. destruct (C b Lb) as [e [-> Le]]. reflexivity.
    + intros b Lb. now apply W.
  - apply (G 11); cbn; auto 20.
  - apply (G 11); cbn; auto 20.
  - apply (G 11); cbn; auto 20.
Qed.

Lemma ncfb_inverts alg key c E data iv : alg <> 0 -> sym_setup alg key = Ok c ->
  enciphers c (block_octets alg) E -> length iv = block_octets alg ->
  exists y, use_ncfb_encrypt alg data key iv = Ok y /\ len y = len data /\ use_ncfb_decrypt alg y key iv = Ok data.
Proof.
  intros Z C [A [B D]] V.
  assert (P : (2 <= block_octets alg)%nat) by (unfold block_octets; destruct (alg <? 7); lia).
  assert (F : N.of_nat (block_octets alg) < two64) by (unfold block_octets; destruct (alg <? 7); reflexivity).
  unfold use_ncfb_encrypt, use_ncfb_decrypt.
  apply N.eqb_neq in Z. rewrite Z, C. cbn [bind]. exists (cfb_mode E (block_octets alg) iv data).
  assert (HE : enciphers c (block_octets alg) E) by (repeat split; auto).
  split; [|split].
  - apply ncfb_encrypt_ok; auto.
  - unfold len. now rewrite cfb_length.
  - rewrite (ncfb_decrypt_ok E (block_octets alg)) by easy. now rewrite uncfb_cfb.
Qed.

Lemma offered_length alg : In alg offered -> map_at key_length alg = Ok (8 * N.of_nat (key_octets alg)).
Proof. cbn [offered In]. intros [<-|[<-|[<-|[<-|[<-|[<-|[<-|[<-|[<-|[<-|[<-|[]]]]]]]]]]]]; reflexivity. Qed.
Lemma offered_block alg : In alg offered -> exists b, map_at block_length alg = Ok b.
Proof. cbn [offered In]. intros [<-|[<-|[<-|[<-|[<-|[<-|[<-|[<-|[<-|[<-|[<-|[]]]]]]]]]]]]; eexists; reflexivity. Qed.
Lemma offered_nz alg : In alg offered -> alg <> 0.
Proof. intros I ->. cbn in I. intuition discriminate. Qed.
Lemma shift3 n : N.shiftr (8 * n) 3 = n.
Proof. rewrite N.shiftr_div_pow2. change (2 ^ 3) with 8. rewrite N.mul_comm. now apply N.div_mul. Qed.

(** Every allowed protection: a key is derived, and what is enciphered with it is deciphered. *)
Lemma protects H s pass data : protection H s -> sk_con s <> 0 ->
  exists key y, calculate_key s pass = Ok key /\
    use_ncfb_encrypt (sk_sym s) data key (sk_iv s) = Ok y /\ len y = len data /\
    use_ncfb_decrypt (sk_sym s) y key (sk_iv s) = Ok data.
Proof.
  intros P C0. destruct (P C0) as (I & V & K). unfold calculate_key.
  pose proof C0 as C1. apply N.eqb_neq in C1. rewrite C1. pose proof (offered_nz _ I) as Z.
  destruct ((sk_con s =? 254) || (sk_con s =? 255)).
  - destruct K as (x & Ex & Fx & Ix & _). rewrite Ex, (offered_length _ I). cbn [bind]. rewrite shift3.
    destruct (s2k_run_ok x pass (N.of_nat (key_octets (sk_sym s))) Fx Ix) as (k & R & L & O).
    exists k. destruct (setup_enciphers (sk_sym s) k I O) as (c & E & Sc & En & _); [unfold len in L; lia|].
    destruct (ncfb_inverts _ _ _ _ data _ Z Sc En V) as (y & Y1 & Y2 & Y3). exists y. auto.
  - destruct (hash_use_ok 1 pass ltac:(cbn; auto)) as (k & R). exists k.
    destruct (setup16 (sk_sym s) k I K (hash_use_octets _ _ _ R)) as (c & E & Sc & En & _).
    { pose proof (hash_use_len 1 pass k 128 R eq_refl) as L. unfold len in L. change (128 / 8) with 16 in L. lia. }
    destruct (ncfb_inverts _ _ _ _ data _ Z Sc En V) as (y & Y1 & Y2 & Y3). exists y. auto.
Qed.

Lemma mpis_all ms : Forall mpi_fits ms ->
  read_mpis_until (S (length (mpis_raw ms))) (mpis_raw ms) 0 (len (mpis_raw ms)) = Ok (ms, len (mpis_raw ms)).
Proof.
  intros F. pose proof (until_all ms (S (length (mpis_raw ms))) [] [] (len (mpis_raw ms)) F) as U.
  cbn [app] in U. rewrite app_nil_r in U. apply U.
  - pose proof (mpis_raw_length ms). lia.
  - intros ->. cbn. lia.
  - intros Hn. pose proof (mpis_raw_last ms Hn). rewrite len_nil. lia.
  - rewrite len_nil. lia.
Qed.
Lemma mpis_more : forall ms n pre post stop l q, Forall mpi_fits ms ->
  len pre + len (mpis_raw ms) < stop ->
  read_mpis_until n (pre ++ mpis_raw ms ++ post) (len pre) stop = Ok (l, q) ->
  exists l', l = ms ++ l' /\ l' <> [].
Proof.
  induction ms as [|m ms IH]; intros n pre post stop l q F S R.
  - exists l. split; [reflexivity|]. destruct n as [|n]; cbn [read_mpis_until] in R; [discriminate|].
    change (len (mpis_raw [])) with 0 in S. replace (len pre <? stop) with true in R by lia.
    destruct (read_MPI _ _) as [[a b]| | |]; try discriminate. cbn [bind] in R.
    destruct (read_mpis_until _ _ _ _) as [[a' b']| | |]; try discriminate. cbn [bind] in R. apply Ok_inj in R. injection R as <- _. discriminate.
  - inversion F as [|? ? Hm F']; subst. rewrite mpis_raw_cons, len_app in *.
    destruct n as [|n]; cbn [read_mpis_until] in R; [discriminate|].
    replace (len pre <? stop) with true in R by lia. rewrite <- app_assoc in R.
    rewrite read_write_MPI in R by auto using mpi_fits_bitsize. cbn [bind] in R.
    rewrite (app_assoc pre) in R. replace (len pre + len (write_MPI m)) with (len (pre ++ write_MPI m)) in R by rd_side.
    destruct (read_mpis_until n _ _ stop) as [[a' b']| | |] eqn:E; try discriminate. cbn [bind] in R. apply Ok_inj in R. injection R as <- _.
    apply IH in E; auto.
    + destruct E as (l' & -> & Hl). exists l'. auto.
    + rewrite len_app. lia.
Qed.

Lemma split_check (data chk : bytes) h : len chk = h -> len (data ++ chk) < two64 ->
  substr (data ++ chk) (sub64 (len (data ++ chk)) h) h = Ok chk /\
  prefix (data ++ chk) (sub64 (len (data ++ chk)) h) = data.
Proof.
  intros L B. rewrite len_app in *. rewrite sub64_small by lia. replace (len data + len chk - h) with (len data) by lia. split.
  - pose proof (substr_app data chk [] (len data) h eq_refl) as S. rewrite app_nil_r in S. apply S. lia.
  - rewrite prefix_firstn. unfold len. rewrite Nnat.Nat2N.id. apply firstn_len_app. reflexivity.
Qed.
Lemma sum16_len d : len (sum16 d) = 2.
Proof. unfold sum16. now rewrite len_be. Qed.

Lemma secret_back s pass ms chk y :
  Forall mpi_fits ms -> len (mpis_raw ms ++ chk) < two64 ->
  (if sk_con s =? 254 then hash_use 2 (mpis_raw ms) = Ok chk else chk = sum16 (mpis_raw ms)) ->
  (if sk_con s =? 0 then Ok y else key <- calculate_key s pass ;; use_ncfb_decrypt (sk_sym s) y key (sk_iv s))
    = Ok (mpis_raw ms ++ chk) ->
  decrypt_secret_keys (with_secret s y) pass = Ok ms.
Proof.
  intros F B C D. unfold decrypt_secret_keys. cbn [with_secret sk_con sk_sym sk_iv sk_secret sk_s2k].
  change (calculate_key (with_secret s y)) with (calculate_key s). rewrite D. cbn [bind].
  assert (L : len chk = if sk_con s =? 254 then 20 else 2).
  { destruct (sk_con s =? 254); [exact (hash_use_len 2 _ _ 160 C eq_refl)|]. subst chk. apply sum16_len. }
  destruct (split_check (mpis_raw ms) chk _ L B) as [E1 E2]. rewrite E1, E2. cbn [bind].
  assert (K : (if sk_con s =? 254 then hash_use 2 (mpis_raw ms) else Ok (sum16 (mpis_raw ms))) = Ok chk).
  { destruct (sk_con s =? 254); [exact C|now subst]. }
  rewrite K. cbn [bind]. rewrite beq_refl, mpis_all by auto. reflexivity.
Qed.

Lemma protect_roundtrip s pass ms : protection (eq 2) s -> Forall mpi_fits ms -> len (mpis_raw ms) + 64 < two64 ->
  exists y, encrypt_secret_keys s pass ms = Ok y /\ decrypt_secret_keys (with_secret s y) pass = Ok ms.
Proof.
  intros P F B. unfold encrypt_secret_keys. fold (mpis_raw ms).
  assert (K : exists chk, (if sk_con s =? 254 then match sk_s2k s with Some x => hash_use (s2k_hash x) (mpis_raw ms) | None => UB end
            else Ok (sum16 (mpis_raw ms))) = Ok chk /\ len chk <= 20 /\
            (if sk_con s =? 254 then hash_use 2 (mpis_raw ms) = Ok chk else chk = sum16 (mpis_raw ms))).
  { destruct (sk_con s =? 254) eqn:E.
    - apply N.eqb_eq in E. destruct P as (_ & _ & K); [lia|]. rewrite E in K. destruct K as (x & -> & _ & _ & K).
      rewrite <- (K eq_refl). destruct (hash_use_ok 2 (mpis_raw ms) ltac:(cbn; auto)) as (c & Ec). exists c.
      split; [exact Ec|]. split; [|exact Ec]. rewrite (hash_use_len 2 _ _ 160 Ec eq_refl). now vm_compute.
    - eexists. split; [reflexivity|]. split; [|reflexivity]. rewrite sum16_len. lia. }
  destruct K as (chk & -> & L & C). cbn [bind].
  assert (B' : len (mpis_raw ms ++ chk) < two64) by (rewrite len_app; lia).
  destruct (sk_con s =? 0) eqn:Z.
  - eexists. split; [reflexivity|]. apply (secret_back s pass ms chk); auto. now rewrite Z.
  - apply N.eqb_neq in Z. destruct (protects _ s pass (mpis_raw ms ++ chk) P Z) as (key & y & K1 & K2 & _ & K3).
    rewrite K1. cbn [bind]. exists y. split; [exact K2|]. apply (secret_back s pass ms chk); auto.
    apply N.eqb_neq in Z. rewrite Z, K1. cbn [bind]. exact K3.
Qed.

(** Generated keys. *)
Lemma generated_ok twice pass sym hash salt iv pri : In sym offered -> In hash hashes -> length salt = 8%nat ->
  length iv = block_octets sym ->
  exists s, generated_secret twice pass sym hash salt iv pri = Ok s /\ (pass <> [] -> sk_con s = 254 /\ sk_iv s = iv) /\ protection (fun _ => True) s /\
    (if sk_con s =? 0 then Ok (sk_secret s) else key <- calculate_key s pass ;; use_ncfb_decrypt (sk_sym s) (sk_secret s) key (sk_iv s))
    = Ok (match pass with
          | [] => mpis_raw pri ++ sum16 (mpis_raw pri)
          | _ => let d := mpis_raw pri ++ digest_of 2 (mpis_raw pri) in
                 if twice then d ++ digest_of 2 d else d
          end).
Proof.
  intros I Ih Ls Li. unfold generated_secret. fold (mpis_raw pri). destruct pass as [|c pass].
  - eexists. split; [reflexivity|]. split; [easy|]. split; [|reflexivity]. intros Z. now cbn in Z.
  - rewrite (offered_length _ I). cbn [bind]. rewrite shift3.
    set (x := mkS2k S2K3 3 hash salt 96).
    assert (Fx : s2k_fits x).
    { cbn. split; [reflexivity|]. split; [unfold len; now rewrite Ls|lia]. }
    destruct (s2k_run_ok x (c :: pass) (N.of_nat (key_octets sym)) Fx Ih) as (k & R & L & O). rewrite R. cbn [bind].
    assert (D : forall d, hash_use 2 d = Ok (digest_of 2 d)).
    { intros d. unfold digest_of. destruct (hash_use_ok 2 d ltac:(cbn; auto)) as (h & ->). reflexivity. }
    rewrite D. cbn [bind]. set (d := mpis_raw pri ++ digest_of 2 (mpis_raw pri)).
    assert (W : (if twice then h2 <- hash_use 2 d ;; Ok (d ++ h2) else Ok d) = Ok (if twice then d ++ digest_of 2 d else d)).
    { destruct twice; [|reflexivity]. rewrite D. reflexivity. }
    rewrite W. cbn [bind]. set (dd := if twice then _ else _).
    destruct (offered_block _ I) as (b & ->). cbn [bind].
    destruct (setup_enciphers sym k I O) as (ci & E & Sc & En & _); [unfold len in L; lia|].
    destruct (ncfb_inverts _ _ _ _ dd _ (offered_nz _ I) Sc En Li) as (y & Y1 & Y2 & Y3).
    rewrite Y1. cbn [bind]. eexists. split; [reflexivity|]. split; [now intros|]. split.
    + intros _. cbn [sk_con sk_sym sk_iv sk_s2k]. split; [exact I|]. split; [exact Li|]. change (254 =? 254) with true. cbn [orb].
      exists x. split; [reflexivity|]. split; [exact Fx|]. split; [exact Ih|easy].
    + cbn [sk_con sk_sym sk_iv sk_s2k sk_secret]. change (254 =? 0) with false. cbn iota.
      unfold calculate_key. cbn [sk_con sk_sym sk_iv sk_s2k sk_secret]. change (254 =? 0) with false.
      change ((254 =? 254) || (254 =? 255)) with true. cbn iota.
      rewrite (offered_length _ I). cbn [bind]. rewrite shift3. rewrite R. cbn [bind]. exact Y3.
Qed.
Lemma digest_of_20 d : len (digest_of 2 d) = 20 /\ hash_use 2 d = Ok (digest_of 2 d).
Proof.
  unfold digest_of. destruct (hash_use_ok 2 d ltac:(cbn; auto)) as (h & E). rewrite E. split; [|reflexivity].
  exact (hash_use_len 2 _ _ 160 E eq_refl).
Qed.
Lemma con_pass twice pass sym hash salt iv pri s : generated_secret twice pass sym hash salt iv pri = Ok s ->
  sk_con s = match pass with [] => 0 | _ => 254 end.
Proof.
  unfold generated_secret. destruct pass as [|c pass]; intros H.
  - apply Ok_inj in H. now subst.
  - repeat match type of H with bind ?m _ = _ => destruct m; try discriminate; cbn [bind] in H end.
    apply Ok_inj in H. now subst.
Qed.
Lemma generated_back pass sym hash salt iv pri twice : In sym offered -> In hash hashes -> length salt = 8%nat ->
  length iv = block_octets sym -> Forall mpi_fits pri -> len (mpis_raw pri) + 64 < two64 ->
  twice = false \/ pass = [] ->
  exists s, generated_secret twice pass sym hash salt iv pri = Ok s /\ decrypt_secret_keys s pass = Ok pri.
Proof.
  intros I Ih Ls Li F B T. destruct (generated_ok twice pass sym hash salt iv pri I Ih Ls Li) as (s & G & _ & P & D).
  exists s. split; [exact G|]. apply con_pass in G.
  replace s with (with_secret s (sk_secret s)) by (now destruct s).
  destruct pass as [|c pass].
  - apply (secret_back s [] pri (sum16 (mpis_raw pri))); auto.
    + rewrite len_app, sum16_len. lia.
    + now rewrite G.
  - destruct T as [->|]; [|discriminate]. destruct (digest_of_20 (mpis_raw pri)) as [L U].
    apply (secret_back s _ pri (digest_of 2 (mpis_raw pri))); auto.
    + rewrite len_app, L. lia.
    + now rewrite G.
Qed.
Lemma generated_twice c pass sym hash salt iv pri : In sym offered -> In hash hashes -> length salt = 8%nat ->
  length iv = block_octets sym -> Forall mpi_fits pri -> len (mpis_raw pri) + 64 < two64 ->
  exists s, generated_secret true (c :: pass) sym hash salt iv pri = Ok s /\
    forall r, decrypt_secret_keys s (c :: pass) = Ok r -> exists r', r = pri ++ r' /\ r' <> [].
Proof.
  intros I Ih Ls Li F B. destruct (generated_ok true (c :: pass) sym hash salt iv pri I Ih Ls Li) as (s & G & _ & P & D).
  exists s. split; [exact G|]. apply con_pass in G. intros r. unfold decrypt_secret_keys. rewrite D. cbn [bind]. rewrite G.
  cbn iota zeta. set (d := mpis_raw pri ++ digest_of 2 (mpis_raw pri)).
  destruct (digest_of_20 (mpis_raw pri)) as [L U]. destruct (digest_of_20 d) as [L' U'].
  change (254 =? 254) with true. cbn iota.
  destruct (split_check d (digest_of 2 d) 20 L') as [E1 E2].
  { unfold d. rewrite !len_app, L. fold d. rewrite L'. lia. }
  rewrite E1, E2. cbn [bind]. rewrite U'. cbn [bind]. rewrite beq_refl.
  destruct (read_mpis_until _ _ _ _) as [[l q]| | |] eqn:E; try discriminate. cbn [bind]. intros H. apply Ok_inj in H. subst r.
  apply (mpis_more pri _ [] _ _ _ _ F) in E; auto. unfold d. rewrite len_app, len_nil, L. lia.
Qed.

(** Any string is deciphered, to one as long. *)
Lemma unprotects H s pass y : protection H s -> sk_con s <> 0 ->
  exists key data, calculate_key s pass = Ok key /\
    use_ncfb_decrypt (sk_sym s) y key (sk_iv s) = Ok data /\ len data = len y.
Proof.
  intros P C0. destruct (P C0) as (I & V & K). pose proof (offered_nz _ I) as Z. apply N.eqb_neq in Z.
  assert (P2 : (2 <= block_octets (sk_sym s))%nat) by (unfold block_octets; destruct (_ <? 7); lia).
  assert (G : forall k c E, calculate_key s pass = Ok k -> sym_setup (sk_sym s) k = Ok c -> enciphers c (block_octets (sk_sym s)) E ->
    exists key data, calculate_key s pass = Ok key /\
    use_ncfb_decrypt (sk_sym s) y key (sk_iv s) = Ok data /\ len data = len y).
  { intros k c E Ck Sc En. exists k, (uncfb E (block_octets (sk_sym s)) (sk_iv s) y). split; [exact Ck|].
    unfold use_ncfb_decrypt. rewrite Z, Sc. cbn [bind]. destruct En as (A & B & D). split.
    - assert (F64 : N.of_nat (block_octets (sk_sym s)) < two64) by (unfold block_octets; destruct (_ <? 7); reflexivity).
      apply ncfb_decrypt_ok; auto.
    - unfold len. rewrite uncfb_length; auto. }
  unfold calculate_key in *.
  pose proof C0 as C1. apply N.eqb_neq in C1. rewrite C1 in *.
  destruct ((sk_con s =? 254) || (sk_con s =? 255)).
  - destruct K as (x & Ex & Fx & Ix & _). rewrite Ex, (offered_length _ I) in *. cbn [bind] in *. rewrite shift3 in *.
    destruct (s2k_run_ok x pass (N.of_nat (key_octets (sk_sym s))) Fx Ix) as (k & R & L & O).
    destruct (setup_enciphers (sk_sym s) k I O) as (c & E & Sc & En & _); [unfold len in L; lia|].
    apply (G k c E); auto.
  - destruct (hash_use_ok 1 pass ltac:(cbn; auto)) as (k & R).
    destruct (setup16 (sk_sym s) k I K (hash_use_octets _ _ _ R)) as (c & E & Sc & En & _).
    { pose proof (hash_use_len 1 pass k 128 R eq_refl) as L. unfold len in L. change (128 / 8) with 16 in L. lia. }
    apply (G k c E); auto.
Qed.

(** What a non-empty answer says. *)
Lemma decrypt_checked H s pass r : protection H s -> len (sk_secret s) < two64 -> decrypt_secret_keys s pass = Ok r -> r <> [] ->
  exists data chk,
    (if sk_con s =? 0 then Ok (sk_secret s) else key <- calculate_key s pass ;; use_ncfb_decrypt (sk_sym s) (sk_secret s) key (sk_iv s))
      = Ok (data ++ chk) /\
    (if sk_con s =? 254 then hash_use 2 data = Ok chk else chk = sum16 data).
Proof.
  intros P B R N0. unfold decrypt_secret_keys in R.
  assert (K : exists keys, (if sk_con s =? 0 then Ok (sk_secret s) else key <- calculate_key s pass ;; use_ncfb_decrypt (sk_sym s) (sk_secret s) key (sk_iv s)) = Ok keys
    /\ len keys = len (sk_secret s)).
  { destruct (sk_con s =? 0) eqn:Z; [eauto|]. apply N.eqb_neq in Z.
    destruct (unprotects _ s pass (sk_secret s) P Z) as (k & d & -> & D & L). cbn [bind]. eauto. }
  destruct K as (keys & K & L). rewrite K in *. cbn [bind] in R. rewrite <- L in B. clear L K.
  assert (Hh : (if sk_con s =? 254 then 20 else 2) <= 20) by (destruct (_ =? _); lia).
  set (h := if sk_con s =? 254 then 20 else 2) in *.
  destruct (N.lt_ge_cases (len keys) h) as [Sh|Sh].
  { exfalso. unfold substr in R. replace (len keys <? sub64 (len keys) h) with true in R; [discriminate|].
    symmetry. apply N.ltb_lt. unfold sub64. rewrite (N.mod_small h) by (unfold two64; lia).
    rewrite N.mod_small; unfold two64 in *; lia. }
  rewrite sub64_small in R by lia.
  destruct (split_at keys (len keys - h) ltac:(lia)) as (d & c & -> & Ld). rewrite len_app in *.
  replace (len d + len c - h) with (len d) in R by lia.
  rewrite (substr_app_end d c (len d) h) in R by lia. cbn [bind] in R.
  rewrite prefix_app in R by reflexivity. exists d, c. split; [reflexivity|].
  destruct (sk_con s =? 254).
  - destruct (hash_use 2 d) as [x| | |]; try discriminate. cbn [bind] in R. destruct (beq x c) eqn:Q; [|congruence].
    apply beq_eq in Q. now subst.
  - cbn [bind] in R. destruct (beq (sum16 d) c) eqn:Q; [|congruence]. apply beq_eq in Q. now subst.
Qed.
Lemma sum16_sum d : sum16 d = be 2 (fold_right N.add 0 d).
Proof.
  unfold sum16. assert (G : forall a, (fold_left (fun a c : N => u16 (a + c)) d (a mod 65536)) = (a + fold_right N.add 0 d) mod 65536).
  { induction d as [|c d IH]; intros a; cbn [fold_left fold_right]; [now rewrite N.add_0_r|].
    unfold u16. rewrite N.add_mod_idemp_l by lia. rewrite IH. f_equal. lia. }
  change (fold_left (fun a c : N => u16 (a + c)) d 0) with (fold_left (fun a c : N => u16 (a + c)) d (0 mod 65536)).
  rewrite G, N.add_0_l, !be2. set (x := fold_right N.add 0 d). f_equal; [|f_equal]; lia.
Qed.

(** Public view. *)
Lemma public_read k s w : secret_raw k s = Ok w -> exists post, w = key_raw k ++ post.
Proof.
  unfold secret_raw. cbv zeta. intros H. match type of H with bind ?x _ = _ => destruct x; try discriminate end. cbn [bind] in H. apply Ok_inj in H. subst w.
  eexists. reflexivity.
Qed.
Lemma public_eq k s w : secret_raw k s = Ok w -> exists post, get_public k s = ' (k', _) <- key_read (key_raw k ++ post) 0 ;; Ok k'.
Proof.
  intros H. unfold get_public. rewrite H. cbn [bind]. destruct (public_read k s w H) as (post & ->). exists post.
  pose proof (key_raw_ne k). replace (len _ =? 0) with false; [reflexivity|]. symmetry. apply N.eqb_neq. rewrite len_app. lia.
Qed.
Definition reread (k : key) : key :=
  if k_version k <? 4
  then mkKey (k_version k) (k_time k) (k_pka k) (k_mpi k) (expire_of (k_expire k / 256) (k_expire k mod 256))
  else k.
Lemma public_reread k s w : key_fits days_16 k -> secret_raw k s = Ok w -> get_public k s = Ok (reread k).
Proof.
  intros F H. destruct (public_eq k s w H) as (post & ->). unfold reread.
  destruct (k_version k <? 4) eqn:V.
  - apply N.ltb_lt in V. rewrite key_v3_read by auto. reflexivity.
  - rewrite key_roundtrip; [reflexivity|]. unfold key_fits in *. now rewrite V in *.
Qed.
Lemma reread_fingerprint k : get_fingerprint (reread k) = get_fingerprint k /\ get_keyid (reread k) = get_keyid k.
Proof.
  unfold reread. destruct (k_version k <? 4) eqn:V; [|auto].
  unfold get_keyid, get_fingerprint. cbn [k_version k_mpi]. rewrite V. auto.
Qed.

(** Key IDs. *)
Lemma be_split m n v : be (m + n) v = be m (v / 256 ^ N.of_nat n) ++ be n v.
Proof.
  induction m as [|m IH]; [reflexivity|]. cbn [Nat.add be app]. f_equal; [|exact IH].
  rewrite N.div_div by (apply N.pow_nonzero; lia). rewrite <- N.pow_add_r. do 3 f_equal. lia.
Qed.
Lemma be_mod n v : be n (v mod 256 ^ N.of_nat n) = be n v.
Proof.
  assert (G : forall m k, (m <= k)%nat -> be m (v mod 256 ^ N.of_nat k) = be m v).
  { induction m as [|m IH]; intros k Hk; [reflexivity|]. cbn [be]. f_equal; [|apply IH; lia].
    replace (N.of_nat k) with (N.of_nat m + N.of_nat (k - m)) by lia. rewrite N.pow_add_r.
    rewrite N.mod_mul_r by (apply N.pow_nonzero; lia).
    rewrite (N.mul_comm (256 ^ N.of_nat m)), N.div_add by (apply N.pow_nonzero; lia).
    rewrite N.div_small by (apply N.mod_lt, N.pow_nonzero; lia). rewrite N.add_0_l.
    replace (N.of_nat (k - m)) with (1 + N.of_nat (k - m - 1)) by lia. rewrite N.pow_add_r, N.pow_1_r.
    rewrite N.mod_mul_r by (try apply N.pow_nonzero; lia).
    rewrite N.mul_comm, N.mod_add by lia. apply N.mod_mod. lia. }
  now apply G.
Qed.
Lemma bitsize_ge n k : 2 ^ k <= n -> k < bitsize n.
Proof.
  intros H. unfold bitsize. assert (n < 2 ^ N.size n) by apply N.size_gt.
  assert (L : 2 ^ k < 2 ^ N.size n) by lia. apply N.pow_lt_mono_r_iff in L; lia.
Qed.
Lemma keyid_v3 k n l : k_version k < 4 -> k_mpi k = n :: l -> 2 ^ 56 <= n -> mpi_fits n ->
  get_keyid k = Ok (be 8 (n mod 2 ^ 64)).
Proof.
  intros V M H U. unfold get_keyid. apply N.ltb_lt in V. rewrite V, M. cbn [vec_at nth_error bind].
  apply mpi_fits_bitsize in U. apply bitsize_ge in H.
  assert (L := write_MPI_len n). rewrite sub64_small by (unfold two64; lia).
  unfold write_MPI in *. unfold mpitoraw in *. set (m := N.to_nat ((bitsize n + 7) / 8)) in *.
  replace m with ((m - 8) + 8)%nat in * by lia.
  rewrite be_split in *. change (2 ^ 64) with (256 ^ N.of_nat 8). rewrite be_mod.
  rewrite app_assoc in *. rewrite len_app, (len_be 8) in L.
  apply substr_app_end; [|rewrite len_be; lia].
  rewrite len_app, (len_be 8). lia.
Qed.
Lemma keyid_v4 k : k_version k = 4 -> exists fp id, get_fingerprint k = Ok fp /\ get_keyid k = Ok id /\
  len fp = 20 /\ len id = 8 /\ fp = firstn 12 fp ++ id.
Proof.
  intros V. unfold get_keyid, get_fingerprint. rewrite V. change (4 <? 4) with false. change (4 =? 4) with true. cbn iota.
  destruct (hash_use_ok 2 (153 :: be 2 (len (key_raw k)) ++ key_raw k) ltac:(cbn; auto)) as (fp & E). rewrite E. cbn [bind].
  pose proof (hash_use_len 2 _ _ 160 E eq_refl) as L. change (160 / 8) with 20 in L.
  destruct (substr_ok fp 12 8 ltac:(lia)) as (id & Ei). rewrite Ei. exists fp, id.
  split; [reflexivity|]. split; [reflexivity|]. split; [exact L|].
  pose proof (substr_len _ _ _ _ Ei) as Li. split; [lia|].
  apply substr_inv in Ei. destruct Ei as [_ ->]. rewrite L. change (N.to_nat (N.min 8 (20 - 12))) with 8%nat.
  change (N.to_nat 12) with 12%nat. rewrite (firstn_all2 (skipn 12 fp)).
  - now rewrite firstn_skipn.
  - rewrite skipn_length. unfold len in L. lia.
Qed.
Lemma body_v4 k : k_version k = 4 -> key_raw k = v4_body k.
Proof. intros V. unfold key_raw, v4_body. now rewrite V. Qed.
Lemma keyid_v3_short k n l : k_version k < 4 -> k_mpi k = n :: l -> n < 2 ^ 56 -> get_keyid k <> Ok (be 8 n).
Proof.
  intros V M H. unfold get_keyid. apply N.ltb_lt in V. rewrite V, M. cbn [vec_at nth_error bind].
  assert (U : bitsize n <= 56) by (apply bitsize_le; [lia|exact H]).
  assert (B1 : 1 <= bitsize n) by (unfold bitsize; lia).
  assert (L := write_MPI_len n). set (m := (bitsize n + 7) / 8) in *. assert (Hm : 1 <= m <= 7) by lia.
  assert (C : m <= 5 \/ m = 6 \/ m = 7) by lia. destruct C as [C|[C|C]].
  - unfold substr. replace (len (write_MPI n) <? _) with true; [discriminate|]. symmetry. apply N.ltb_lt.
    unfold sub64. rewrite L. change (8 mod two64) with 8. rewrite N.mod_small; unfold two64; lia.
  - assert (N48 : n < 2 ^ 48).
    { eapply N.lt_le_trans; [apply N.size_gt|]. apply N.pow_le_mono_r; [lia|]. unfold bitsize in *. lia. }
    rewrite sub64_small by (rewrite L; unfold two64; lia). rewrite L, C. change (2 + 6 - 8) with 0.
    unfold write_MPI, mpitoraw. fold m. rewrite C. change (N.to_nat 6) with 6%nat. rewrite be2.
    match goal with |- substr ?X 0 8 <> _ => replace (substr X 0 8) with (Ok X)
      by (symmetry; apply (substr_app_end [] X); [reflexivity|rewrite len_app, len_be; apply N.le_refl]) end.
    change (be 8 n) with (be (2 + 6) n). rewrite (be_split 2 6 n), be2.
    change (256 ^ N.of_nat 6) with (2 ^ 48). rewrite (N.div_small n) by exact N48. intros E. apply Ok_inj in E.
    cbn [app] in E. injection E as _ E. change (0 mod 256) with 0 in E. lia.
  - assert (N56 : n / 2 ^ 56 = 0) by now apply N.div_small.
    rewrite sub64_small by (rewrite L; unfold two64; lia). rewrite L, C. change (2 + 7 - 8) with 1.
    unfold write_MPI, mpitoraw. fold m. rewrite C. change (N.to_nat 7) with 7%nat. rewrite be2.
    change ([(bitsize n / 256) mod 256; bitsize n mod 256] ++ be 7 n) with ([(bitsize n / 256) mod 256] ++ [bitsize n mod 256] ++ be 7 n).
    rewrite (substr_app_end [_] (_ ++ be 7 n) 1 8) by (try reflexivity; rewrite len_app, len_be; apply N.le_refl).
    change (be 8 n) with (be (1 + 7) n). rewrite (be_split 1 7 n).
    change (256 ^ N.of_nat 7) with (2 ^ 56). rewrite N56. intros E. apply Ok_inj in E.
    change (be 1 0) with [0] in E. cbn [app] in E. injection E as E. lia.
Qed.
