(** Property C77: encryption, for every public key and every request, stays within defined
    behaviour and is always to an encrypting key. *)
From Verif Require Import Proofs.SignP Proofs.CryptP Proofs.CipherP Proofs.KeyP Model.Encrypt Spec.Crypt Spec.KeyGrammar
  Props.C21_C22 Props.C33_C35 Props.C44_C46 Props.C47_C49_C62.
Local Open Scope N_scope.

(** The call comes back, throws, or still waits for random octets; it does not read out of
    range, divide by zero or reduce modulo an even number. *)
Definition defined {A} (r : result A) : Prop := r <> UB.
Lemma defined_bind {A B} (m : result A) (f : A -> result B) : defined m -> (forall a, m = Ok a -> defined (f a)) -> defined (bind m f).
Proof. unfold defined. destruct m; cbn; auto; congruence. Qed.
Lemma defined_safe {A} (r : result A) : safe r -> defined r.
Proof. unfold defined. now destruct r. Qed.
Lemma rand_defined n rnd : defined (rand_bytes n rnd).
Proof. unfold rand_bytes, defined. destruct (_ <? _); discriminate. Qed.
Lemma write_defined tag c : defined (raw c) -> defined (write (new_packet tag c)).
Proof.
  intros R. destruct (raw c) as [body|e| |] eqn:E.
  - destruct (new_written tag c body E) as (w & -> & _). discriminate.
  - unfold write, new_packet. cbn [p_body]. rewrite E. discriminate.
  - now destruct R.
  - unfold write, new_packet. cbn [p_body]. rewrite E. discriminate.
Qed.
Lemma codec_defined f alg d : defined (codec f alg d).
Proof. unfold codec, defined. destruct (_ && _); [|discriminate]. destruct (mem _ _); [|discriminate]. now destruct (f alg d). Qed.
Lemma plain_defined zip unzip fuel a now now' draws : e_signer a = None -> defined (to_encrypt zip unzip fuel a now now' draws).
Proof.
  intros S. unfold to_encrypt. rewrite S. apply defined_bind; [apply write_defined, defined_safe, raw_safe|]. intros w _.
  destruct (_ =? 0); [discriminate|]. apply defined_bind; [|discriminate]. unfold compressed_packet.
  apply defined_bind; [apply codec_defined|]. intros z _. apply (write_defined 8 (PCompressed _ z)), defined_safe, raw_safe.
Qed.

(** Feedback mode with a key of the right size. *)
Lemma loop_defined c bs E data : enciphers c bs E -> refuses_others c bs -> forall n C x, defined (ocfb_loop c n data C x).
Proof.
  intros En R. induction n as [|n IH]; intros C x; cbn [ocfb_loop]; [discriminate|]. destruct (_ <? _); [|discriminate].
  apply defined_bind; [apply defined_safe, safe_substr|]. intros fr _. apply defined_bind; [eapply defined_safe, cipher_safe; eauto|]. intros fre _.
  apply defined_bind; [apply defined_safe, safe_substr|]. intros d _. apply IH.
Qed.
Lemma ocfb_defined c bs E tag data pre : enciphers c bs E -> refuses_others c bs -> defined (ocfb_encrypt c tag data pre).
Proof.
  intros En R. unfold ocfb_encrypt. destruct (_ <? _); [discriminate|]. cbv zeta.
  apply defined_bind; [eapply defined_safe, cipher_safe; eauto|]. intros f1 _. apply defined_bind; [eapply defined_safe, cipher_safe; eauto|]. intros f2 _.
  apply defined_bind; [apply defined_safe, safe_substr|]. intros rep _. destruct (tag =? 9).
  - apply defined_bind; [apply defined_safe, safe_substr|]. intros fr _. apply defined_bind; [eapply defined_safe, cipher_safe; eauto|]. intros f3 _.
    eapply loop_defined; eauto.
  - destruct (tag =? 18); [eapply loop_defined; eauto|discriminate].
Qed.
Lemma data_defined zip unzip fuel a key now now' rnd draws : e_signer a = None -> In (e_sym a) offered -> octets key -> length key = key_octets (e_sym a) ->
  defined (encrypt_data zip unzip fuel a key now now' rnd draws).
Proof.
  intros S I O L. unfold encrypt_data. destruct (enc_valid a); [|discriminate]. cbn [negb].
  apply defined_bind; [now apply plain_defined|]. intros [[w|] ?] _; [|discriminate].
  apply defined_bind; [apply defined_safe, map_at_safe|]. intros bits _. apply defined_bind; [apply rand_defined|]. intros [pre r] _.
  apply defined_bind; [apply defined_safe, safe_substr|]. intros rep _. cbv zeta.
  destruct (setup_enciphers _ key I O L) as (c & E & SE & En & R).
  assert (U : forall tag d p, defined (use_ocfb_encrypt (e_sym a) tag d key p)).
  { intros tag d p. unfold use_ocfb_encrypt. destruct (_ =? 0); [discriminate|]. rewrite SE. cbn [bind]. eapply ocfb_defined; eauto. }
  destruct (e_mdc a); cbn [negb].
  - apply defined_bind; [apply defined_safe, hash_use_safe|]. intros h _. apply defined_bind; [apply write_defined; discriminate|]. intros m _.
    apply defined_bind; [apply U|]. discriminate.
  - apply defined_bind; [apply U|]. discriminate.
Qed.
Lemma key_length_offered alg bits : map_at key_length alg = Ok bits -> In alg offered.
Proof.
  unfold key_length. cbn [map_at]. intros H.
  repeat match type of H with (if ?x =? ?y then _ else _) = _ => destruct (N.eqb_spec x y) as [<-|_]; [cbn; tauto|] end. discriminate.
Qed.
Lemma hash_length_hashes h bits : map_at hash_length h = Ok bits -> In h hashes.
Proof.
  unfold hash_length. cbn [map_at]. intros H.
  repeat match type of H with (if ?x =? ?y then _ else _) = _ => destruct (N.eqb_spec x y) as [<-|_]; [cbn; tauto|] end. discriminate.
Qed.
Lemma rand_inv n rnd x r : rand_bytes n rnd = Ok (x, r) -> rnd = x ++ r /\ len x = n.
Proof.
  unfold rand_bytes. destruct (len rnd <? n) eqn:L; [discriminate|]. intros E. apply Ok_inj in E. injection E as <- <-.
  split; [now rewrite firstn_skipn|]. rewrite len_firstn. lia.
Qed.

(** With a passphrase: for every request, passphrase and hash. *)
Theorem C77_symmetric : forall zip unzip fuel a pass key_hash now now' rnd draws, e_signer a = None -> octets rnd ->
  defined (encrypt_sym zip unzip fuel a pass key_hash now now' rnd draws).
Proof.
  intros zip unzip fuel a pass kh now now' rnd draws S OR. unfold encrypt_sym. destruct (enc_valid a); [|discriminate]. cbn [negb].
  apply defined_bind; [apply rand_defined|]. intros [salt r] RB. cbv zeta. apply rand_inv in RB as [-> LS].
  unfold get_session_key. destruct (map_at key_length (e_sym a)) as [kb|e| |] eqn:KB; [|discriminate| |].
  2,3: (pose proof (map_at_safe key_length (e_sym a)) as X; rewrite KB in X; now destruct X).
  cbn [bind]. pose proof (key_length_offered _ _ KB) as I. destruct (offered_tables _ I) as (_ & TK & _). rewrite TK in KB. apply Ok_inj in KB. subst kb. rewrite shiftr_8.
  destruct (map_at hash_length kh) as [hb|e| |] eqn:HB.
  2:{ unfold s2k_run. cbn [s2k_kind s2k_hash]. rewrite HB. discriminate. }
  2,3: (pose proof (map_at_safe hash_length kh) as X; rewrite HB in X; now destruct X).
  assert (SF : s2k_fits (mkS2k S2K3 3 kh salt 96)) by (split; [reflexivity|]; split; [exact LS|reflexivity]).
  destruct (s2k_run_ok _ pass (N.of_nat (key_octets (e_sym a))) SF (hash_length_hashes _ _ HB)) as (k & -> & LK & OK). cbn [bind].
  assert (KS : len k < 2 ^ 32).
  { rewrite LK. destruct (offered_tables _ I) as (_ & _ & _ & _ & _ & KS). lia. }
  replace (substr (e_sym a :: k) 1 (sub64 (len (e_sym a :: k)) 1)) with (@Ok bytes k).
  2:{ symmetry. rewrite len_cons, sub64_small by (unfold two64; lia). apply (substr_app_end [e_sym a] k); [reflexivity|lia]. }
  cbn [bind]. apply defined_bind; [|intros [p|] _; discriminate]. apply data_defined; auto. unfold len in LK. lia.
Qed.
Example C77_symmetric_ex : exists m, encrypt_sym (fun _ _ => None) (fun _ _ => None) 0 (toy_enc 9 None) (str "pass") 8 1 2 (repeat 7 24) [] = Ok m.
Proof.
  destruct (C48_literal_partial (fun _ _ => None) (fun _ _ => None) (fun _ _ => None) 0 0 (toy_enc 9 None) (str "pass") 8 1 2 (repeat 7 24) []) as (m & E & _).
  all: try (exists m; exact E). all: try reflexivity. all: try (cbn; tauto). all: try apply toy_fits. all: try (vm_compute; discriminate).
Qed.

(** * Public keys *)

(** A meaningful key does not end with a key packet. *)
Definition ends (l : list packet) : Prop := exists a p, l = a ++ [p] /\ is_key_packet (p_tag p) = false.
Lemma ends_app a b : ends b -> ends (a ++ b).
Proof. intros (x & p & -> & K). exists (a ++ x), p. now rewrite app_assoc. Qed.
Lemma ends_concat ls : ls <> [] -> Forall ends ls -> ends (concat ls).
Proof.
  intros N F. induction F as [|l ls E F IH]; [congruence|]. cbn [concat]. destruct ls as [|l' ls]; [now rewrite app_nil_r|]. apply ends_app, IH. discriminate.
Qed.
Lemma sigs_end P x sigs : Forall (signature_of P) sigs -> is_key_packet (p_tag x) = false \/ sigs <> [] -> ends (x :: sigs).
Proof.
  intros F H. destruct sigs as [|s0 sigs _] using rev_ind.
  - destruct H as [H|H]; [|congruence]. now exists [], x.
  - exists (x :: sigs), s0. split; [reflexivity|]. apply Forall_app in F as [_ F]. apply Forall_cons_iff in F as [(T & _) _]. now rewrite T.
Qed.
Lemma transferable_ends type ps : transferable type ps -> ends ps.
Proof.
  assert (G : forall a b, key_block a b ps -> ends ps).
  { intros a b (k & revs & us & subs & -> & _ & _ & U & UE & S & _). change (k :: revs ++ concat us ++ concat subs) with ((k :: revs) ++ (concat us ++ concat subs)).
    apply ends_app. destruct subs as [|s subs].
    - cbn [concat]. rewrite app_nil_r. apply ends_concat; [intros ->; inversion UE|]. eapply Forall_impl; [|exact U].
      intros l (u & sigs & -> & T & F). eapply sigs_end; [exact F|]. left. destruct T as [T|T]; rewrite T; reflexivity.
    - apply ends_app, ends_concat; [discriminate|]. eapply Forall_impl; [|exact S]. intros l (x & sigs & -> & _ & F & X). eapply sigs_end; [exact F|]. right. intros ->. inversion X. }
  intros [[_ H]|[_ H]]; eauto.
Qed.
Lemma found_encrypts ps : forall last o, find_encrypting ps last = Ok o -> ends ps ->
  o = None \/ exists k before p after, o = Some k /\ ps = before ++ p :: after /\ In (p_tag p) [5; 6; 7; 14] /\ as_key p = Ok k /\ encrypting (k_pka k) /\
    Forall (fun q => In (p_tag q) [5; 6; 7; 14] -> exists k', as_key q = Ok k' /\ ~ encrypting (k_pka k')) before.
Proof.
  induction ps as [|p ps IH]; intros last o E (a & z & Q & K); [destruct a; discriminate|].
  assert (EN : ps = [] \/ ends ps).
  { destruct a as [|a0 a]; injection Q as -> ->; [now left|]. right. now exists a, z. }
  cbn [find_encrypting] in E. destruct (is_key_packet (p_tag p)) eqn:KP.
  - apply bind_ok in E as (k & A & E). destruct (can_encrypt (k_pka k)) eqn:C.
    + apply Ok_inj in E. subst o. right. exists k, [], p, ps. split; [reflexivity|]. split; [reflexivity|]. split; [now apply key_packet_tag|]. split; [exact A|]. split; [now apply encrypting_mem|constructor].
    + destruct EN as [-> |EN]. { destruct a as [|a0 a]; [injection Q as ->; congruence|]. injection Q as _ Q. destruct a; discriminate. }
      destruct (IH _ _ E EN) as [H|(k' & b & q & r & -> & -> & T & AQ & EC & F)]; [now left|]. right. exists k', (p :: b), q, r.
      split; [reflexivity|]. split; [reflexivity|]. split; [exact T|]. split; [exact AQ|]. split; [exact EC|]. constructor; [|exact F].
      intros _. exists k. split; [exact A|]. rewrite encrypting_mem. congruence.
  - destruct EN as [-> |EN]; [cbn in E; apply Ok_inj in E; now left|].
    destruct (IH _ _ E EN) as [H|(k' & b & q & r & -> & -> & T & AQ & EC & F)]; [now left|]. right. exists k', (p :: b), q, r.
    split; [reflexivity|]. split; [reflexivity|]. split; [exact T|]. split; [exact AQ|]. split; [exact EC|]. constructor; [|exact F].
    intros T'. apply key_packet_tag in T'. congruence.
Qed.
Lemma as_key_of p k : as_key p = Ok k -> key_of p k.
Proof.
  unfold as_key, key_of. destruct (p_body p) eqn:B; try discriminate.
  all: intros E; apply Ok_inj in E; subst; eauto.
Qed.
Lemma meaningful_encrypts pub o : Forall typed (g_packets pub) -> meaningful pub = Ok true -> find_encrypting (g_packets pub) None = Ok o ->
  o = None \/ exists k, o = Some k /\ encrypts_with pub k.
Proof.
  intros T M E. apply C33_exact in M; [|exact T]. apply transferable_ends in M.
  destruct (found_encrypts _ _ _ E M) as [H|(k & b & p & r & -> & Q & TP & A & EC & F)]; [now left|]. right. exists k. split; [reflexivity|].
  exists b, p, r. split; [exact Q|]. split; [exact TP|]. split; [now apply as_key_of|]. split; [exact EC|].
  eapply Forall_impl; [|exact F]. intros q H X. destruct (H X) as (k' & A' & NE). exists k'. split; [now apply as_key_of|exact NE].
Qed.
Lemma find_defined ps : Forall typed ps -> forall last, defined (find_encrypting ps last).
Proof.
  induction 1 as [|p ps T F IH]; intros last; cbn [find_encrypting]; [discriminate|]. destruct (is_key_packet (p_tag p)) eqn:K; [|apply IH].
  destruct (typed_key p T) as (k & ->); [now apply key_packet_tag|]. cbn [bind]. destruct (can_encrypt _); [discriminate|apply IH].
Qed.

(** The session key packet of every message made names the first encrypting key, with the
    integers its algorithm asks for; whatever is signed inside. *)
Theorem C77_recipient : forall zip unzip fuel a pub now now' rnd draws m, Forall typed (g_packets pub) ->
  encrypt_pka zip unzip fuel a pub now now' rnd draws = Ok m -> m = message_new \/
  exists k id v p, encrypts_with pub k /\ get_keyid k = Ok id /\ len v = (if k_pka k =? 16 then 2 else 1) /\
    g_packets (m_pgp m) = [mkPacket 1 NEW NOT_PARTIAL (PSession 3 id (k_pka k) v); p].
Proof.
  intros zip unzip fuel a pub now now' rnd draws m T E. unfold encrypt_pka in E. destruct (enc_valid a); [|apply Ok_inj in E; auto]. cbn [negb] in E.
  apply bind_ok in E as (b & M & E). destruct b; [|apply Ok_inj in E; auto]. cbn [negb] in E.
  apply bind_ok in E as (rc & _ & E). destruct (negb (rc =? 0)%Z); [apply Ok_inj in E; auto|].
  apply bind_ok in E as (o & FE & E). destruct (meaningful_encrypts pub o T M FE) as [-> |(k & -> & EW)]; [apply Ok_inj in E; auto|].
  apply bind_ok in E as (id & KI & E). apply bind_ok in E as (bits & _ & E). apply bind_ok in E as ([session r1] & _ & E).
  apply bind_ok in E as (n & _ & E). apply bind_ok in E as ([em r2] & _ & E). apply bind_ok in E as (x & _ & E).
  apply bind_ok in E as ([mpi d'] & MP & E). apply bind_ok in E as (e & _ & E). destruct e as [p|]; [|apply Ok_inj in E; auto].
  apply Ok_inj in E. subst m. right. exists k, id, mpi, p. split; [exact EW|]. split; [exact KI|]. split; [|reflexivity].
  assert (EC : encrypting (k_pka k)) by (destruct EW as (? & ? & ? & _ & _ & _ & EC & _); exact EC).
  destruct (k_pka k =? 16) eqn:P16.
  - apply N.eqb_eq in P16. rewrite P16 in MP. cbn [N.eqb Pos.eqb orb] in MP. unfold elgamal_encrypt in MP.
    apply bind_ok in MP as (? & _ & MP). apply bind_ok in MP as ([? ?] & _ & MP). do 6 (apply bind_ok in MP as (? & _ & MP)). apply Ok_inj in MP. now injection MP as <- _.
  - assert (P12 : (k_pka k =? 1) || (k_pka k =? 2) = true) by (unfold encrypting in EC; cbn [In] in EC; lia). rewrite P12 in MP.
    apply bind_ok in MP as (? & _ & MP). apply Ok_inj in MP. now injection MP as <- _.
Qed.

(** Keys whose encrypting packets have all their values and odd moduli. *)
Definition usable (k : key) : Prop :=
  (In (k_pka k) [1; 2] -> exists n e more, k_mpi k = n :: e :: more /\ N.odd n = true) /\
  (k_pka k = 16 -> exists p g y more, k_mpi k = p :: g :: y :: more /\ N.odd p = true).
Theorem C77_public_partial : forall zip unzip fuel a pub now now' rnd draws, e_signer a = None -> octets rnd -> sound_key pub ->
  (forall k, encrypts_with pub k -> usable k) ->
  defined (encrypt_pka zip unzip fuel a pub now now' rnd draws).
Proof.
  intros zip unzip fuel a pub now now' rnd draws S OR SK US. unfold encrypt_pka. destruct (enc_valid a); [|discriminate]. cbn [negb].
  destruct (sound_answers pub SK) as (b & M). rewrite M. cbn [bind]. destruct b; [|discriminate]. cbn [negb]. destruct SK as [TY _].
  destruct (C35_check pub TY M) as (z & -> & _). cbn [bind]. destruct (negb (z =? 0)%Z); [discriminate|].
  apply defined_bind; [now apply find_defined|]. intros o FE. destruct (meaningful_encrypts pub o TY M FE) as [-> |(k & -> & EW)]; [discriminate|].
  destruct (US k EW) as [U1 U2].
  assert (EC : encrypting (k_pka k)) by (destruct EW as (? & ? & ? & _ & _ & _ & EC & _); exact EC).
  assert (NE : exists n more, k_mpi k = n :: more /\ N.odd n = true).
  { unfold encrypting in EC. cbn [In] in EC. assert (C : In (k_pka k) [1; 2] \/ k_pka k = 16) by (cbn [In]; lia).
    destruct C as [C|C]; [destruct (U1 C) as (n & e & more & -> & O)|destruct (U2 C) as (n & g & y & more & -> & O)]; eauto. }
  destruct NE as (n & more & KM & O).
  apply defined_bind; [apply defined_safe, keyid_safe; rewrite KM; discriminate|]. intros id _.
  destruct (map_at key_length (e_sym a)) as [kb|e| |] eqn:KB; [|discriminate| |].
  2,3: (pose proof (map_at_safe key_length (e_sym a)) as X; rewrite KB in X; now destruct X).
  cbn [bind]. pose proof (key_length_offered _ _ KB) as I. destruct (offered_tables _ I) as (_ & TK & _). rewrite TK in KB. apply Ok_inj in KB. subst kb. rewrite shiftr_8.
  apply defined_bind; [apply rand_defined|]. intros [session r1] RB. apply rand_inv in RB as [-> LS]. apply octets_app in OR as [OS O1].
  rewrite KM. cbn [vec_at nth_error bind]. apply defined_bind.
  { unfold eme_encode. destruct (_ <? _); [discriminate|]. apply defined_bind; [|intros [? ?] _; discriminate].
    generalize (sub64 (sub64 (len (mpitoraw n)) (len (e_sym a :: session ++ sum16 session))) 1) as size. generalize [0; 2].
    clear. induction r1 as [|c r1 IH]; intros EM size; cbn [eme_pad]; destruct (_ <? _); try discriminate. apply IH. }
  intros [em r2] _. apply defined_bind; [unfold rawtompi; destruct em; discriminate|]. intros x _.
  apply defined_bind.
  - destruct (k_pka k =? 16) eqn:P16.
    + apply N.eqb_eq in P16. rewrite P16. cbn [N.eqb Pos.eqb orb]. destruct (U2 P16) as (p & g & y & more' & K2 & _). rewrite KM in K2. injection K2 as -> ->.
      unfold elgamal_encrypt. cbn [vec_at nth_error bind].
      apply defined_bind. { unfold random. destruct (_ =? 0); [discriminate|]. destruct draws; discriminate. } intros [kk d'] _.
      assert (P0 : p <> 0) by (intros ->; discriminate). unfold mpz_mod. replace (p =? 0) with false by lia. cbn [bind]. rewrite !mpz_powm_ok by auto. discriminate.
    + assert (P12 : (k_pka k =? 1) || (k_pka k =? 2) = true) by (unfold encrypting in EC; cbn [In] in EC; lia). rewrite P12.
      destruct U1 as (n' & e & more' & K2 & _); [cbn [In]; lia|]. rewrite KM in K2. injection K2 as -> ->. unfold rsa_encrypt. cbn [vec_at nth_error bind]. rewrite mpz_powm_ok by auto. discriminate.
  - intros [mpi d'] _. apply defined_bind; [|intros [p|] _; discriminate]. apply data_defined; auto. unfold len in LS. lia.
Qed.

(** An even modulus, zero included, stops the program (mpz_powm_sec), in every RSA and
    ElGamal key with room for the session key. *)
Theorem C77_even_refuted : forall zip unzip fuel a pub k n v1 v2 more now now' rnd draws id,
  enc_valid a = true -> In (e_sym a) offered -> meaningful pub = Ok true -> revoke_check pub = Ok 0%Z -> encrypts_with pub k -> get_keyid k = Ok id ->
  k_mpi k = n :: v1 :: v2 :: more \/ (k_pka k <> 16 /\ k_mpi k = [n; v1]) -> N.even n = true ->
  N.of_nat (key_octets (e_sym a)) + 14 <= len (mpitoraw n) < two32 ->
  len (mpitoraw n) <= N.of_nat (nonzero (skipn (key_octets (e_sym a)) rnd)) -> draws <> [] ->
  encrypt_pka zip unzip fuel a pub now now' rnd draws = UB.
Proof.
  intros zip unzip fuel a pub k n v1 v2 more now now' rnd draws id V I M RC EW KI KM EV BG RN ND.
  destruct (offered_tables _ I) as (TB & TK & _ & N0 & BS & KS).
  unfold encrypt_pka. rewrite V, M. cbn [negb bind]. rewrite RC. cbn [bind]. change (negb (0 =? 0)%Z) with false. cbv iota.
  rewrite (encrypts_found _ _ None EW). cbn [bind]. rewrite KI. cbn [bind]. rewrite TK. cbn [bind]. rewrite shiftr_8.
  assert (LR : N.of_nat (key_octets (e_sym a)) <= len rnd).
  { destruct (N.le_gt_cases (N.of_nat (key_octets (e_sym a))) (len rnd)) as [X|X]; [exact X|]. rewrite skipn_all2 in RN by (unfold len in X; lia). cbn in RN. lia. }
  destruct (rand_bytes_ok _ rnd LR) as (session & r1 & RS & ER & LS). rewrite RS. cbn [bind].
  replace (vec_at (k_mpi k) 0) with (@Ok N n) by (destruct KM as [-> |[_ ->]]; reflexivity). cbn [bind].
  assert (R1 : r1 = skipn (key_octets (e_sym a)) rnd).
  { rewrite ER, skipn_app. replace (key_octets (e_sym a) - length session)%nat with 0%nat by (unfold len in LS; lia). rewrite skipn_all2 by (unfold len in LS; lia). reflexivity. }
  rewrite <- R1 in RN. set (msg := e_sym a :: session ++ sum16 session) in *.
  assert (LM : len msg = 3 + N.of_nat (key_octets (e_sym a))) by (unfold msg; rewrite len_cons, len_app, sum16_len; lia).
  destruct (C21_roundtrip r1 msg (len (mpitoraw n)) ltac:(lia) ltac:(lia)) as [RT EX]. destruct EX as (em & r2 & EM); [lia|].
  rewrite EM. cbn [bind]. destruct (RT em r2 EM) as (DEC & LE & ps & EQ & NZ & LPS). rewrite EQ. cbn [rawtompi bind].
  assert (EC : encrypting (k_pka k)) by (destruct EW as (? & ? & ? & _ & _ & _ & EC & _); exact EC). unfold encrypting in EC. cbn [In] in EC.
  assert (B : n <> 0) by (intros ->; change (len (mpitoraw 0)) with 1 in BG; lia).
  destruct (k_pka k =? 16) eqn:P16.
  - apply N.eqb_eq in P16. rewrite P16. cbn [N.eqb Pos.eqb orb]. destruct KM as [-> |[X _]]; [|congruence]. unfold elgamal_encrypt. cbn [vec_at nth_error bind].
    unfold random. destruct (bitsize n =? 0) eqn:Z.
    { exfalso. assert (n = 0) by (unfold bitsize in Z; destruct n; [reflexivity|cbn in Z; lia]). congruence. }
    destruct draws as [|d draws]; [congruence|]. cbn [bind]. unfold mpz_mod. replace (n =? 0) with false by lia. cbn [bind]. unfold mpz_powm. rewrite EV. reflexivity.
  - assert (P12 : (k_pka k =? 1) || (k_pka k =? 2) = true) by lia. rewrite P12. unfold rsa_encrypt.
    replace (vec_at (k_mpi k) 1) with (@Ok N v1) by (destruct KM as [-> |[_ ->]]; reflexivity).
    replace (vec_at (k_mpi k) 0) with (@Ok N n) by (destruct KM as [-> |[_ ->]]; reflexivity). cbn [bind]. unfold mpz_powm. rewrite EV. reflexivity.
Qed.

(** A modulus of at most 10 octets: the room left is computed as 2^64 octets less a few, and the
    padding never ends (here: for any amount of random octets below 2^63). *)
Lemma pad_waits : forall rnd EM size, len EM + len rnd < size -> eme_pad rnd EM size = Diverge.
Proof.
  induction rnd as [|c rnd IH]; intros EM size L; cbn [eme_pad].
  - change (len []) with 0 in L. replace (len EM <? size) with true by lia. reflexivity.
  - rewrite len_cons in L. replace (len EM <? size) with true by lia. apply IH. destruct (c =? 0); rewrite ?len_app; change (len [c]) with 1; lia.
Qed.
Theorem C77_small_refuted : forall zip unzip fuel a pub k n more now now' rnd draws id,
  enc_valid a = true -> In (e_sym a) offered -> meaningful pub = Ok true -> revoke_check pub = Ok 0%Z -> encrypts_with pub k -> get_keyid k = Ok id ->
  k_mpi k = n :: more -> len (mpitoraw n) <= 10 -> len rnd < 2 ^ 63 ->
  encrypt_pka zip unzip fuel a pub now now' rnd draws = Diverge.
Proof.
  intros zip unzip fuel a pub k n more now now' rnd draws id V I M RC EW KI KM SM LR.
  destruct (offered_tables _ I) as (TB & TK & _ & N0 & BS & KS).
  unfold encrypt_pka. rewrite V, M. cbn [negb bind]. rewrite RC. cbn [bind]. change (negb (0 =? 0)%Z) with false. cbv iota.
  rewrite (encrypts_found _ _ None EW). cbn [bind]. rewrite KI. cbn [bind]. rewrite TK. cbn [bind]. rewrite shiftr_8.
  destruct (rand_bytes (N.of_nat (key_octets (e_sym a))) rnd) as [[session r1]|e| |] eqn:RB; [|unfold rand_bytes in RB; destruct (_ <? _); discriminate..|reflexivity].
  cbn [bind]. apply rand_inv in RB as [-> LS]. rewrite len_app in LR. rewrite KM. cbn [vec_at nth_error bind].
  assert (LM : len (e_sym a :: session ++ sum16 session) = 3 + N.of_nat (key_octets (e_sym a))) by (rewrite len_cons, len_app, sum16_len; lia).
  unfold eme_encode. rewrite LM. set (b := len (mpitoraw n)) in *. set (o := N.of_nat (key_octets (e_sym a))) in *. assert (OB : 16 <= o <= 32) by (unfold o; lia).
  assert (U : u32 (b + (two32 - 11)) <? 3 + o = false).
  { unfold u32. rewrite N.mod_small by (unfold two32; lia). unfold two32. lia. }
  rewrite U. rewrite pad_waits; [reflexivity|]. change (len [0; 2]) with 2.
  assert (SZ : sub64 (sub64 b (3 + o)) 1 = two64 + b - 3 - o - 1).
  { assert (A : sub64 b (3 + o) = two64 + b - 3 - o).
    { unfold sub64. rewrite (N.mod_small (3 + o)) by (unfold two64; lia). rewrite N.mod_small by (unfold two64; lia). unfold two64. lia. }
    rewrite A, sub64_small by (unfold two64; lia). unfold two64. lia. }
  rewrite SZ. unfold two64. lia.
Qed.

Example C77_public_ex : sound_key big_pub /\ (forall k, encrypts_with big_pub k -> usable k) /\
  defined (encrypt_pka (fun _ _ => None) (fun _ _ => None) 0 (toy_enc 3 None) big_pub 5 6 (repeat 7 80) [1]).
Proof.
  assert (S : sound_key big_pub).
  { split; [typed_all|]. intros (k & revs & E & _ & F & _). injection E as <- <-. apply Forall_cons_iff in F as [[T _] _]. discriminate. }
  assert (U : forall k, encrypts_with big_pub k -> usable k).
  { intros k E. apply (encrypts_found _ _ None) in E. change (find_encrypting (g_packets big_pub) None) with (Ok (Some big_key)) in E.
    apply Ok_inj in E. injection E as <-. split; [|discriminate]. intros _. do 3 eexists. split; [reflexivity|vm_compute; reflexivity]. }
  split; [exact S|]. split; [exact U|]. apply C77_public_partial; auto. repeat constructor.
Qed.
Definition weak_key (pka : N) (values : list N) : key := mkKey 4 7 pka values 0.
Definition weak_pub (pka : N) (values : list N) : pgp := mkPgp true 2 [] [new_packet 6 (PKey (weak_key pka values)); ex_user "a"; ex_sig 16].
Lemma weak_encrypts pka values : encrypting pka -> encrypts_with (weak_pub pka values) (weak_key pka values).
Proof. intros E. exists [], (new_packet 6 (PKey (weak_key pka values))), [ex_user "a"; ex_sig 16]. split; [reflexivity|]. split; [cbn; tauto|]. split; [now left|]. split; [exact E|constructor]. Qed.
Example C77_even_ex : encrypt_pka (fun _ _ => None) (fun _ _ => None) 0 (toy_enc 3 None) (weak_pub 1 [2 ^ 300; 3]) 5 6 (repeat 7 80) [1] = UB.
Proof.
  destruct (keyid_v4 (weak_key 1 [2 ^ 300; 3]) eq_refl) as (fp & id & _ & KI & _).
  eapply (C77_even_refuted _ _ _ _ _ (weak_key 1 [2 ^ 300; 3]) (2 ^ 300) 3 0 [] _ _ _ _ id); [ |cbn; tauto|reflexivity|vm_compute; reflexivity| |exact KI|..].
  - apply toy_enc_valid. cbn. tauto.
  - apply weak_encrypts. now left.
  - right. split; [discriminate|reflexivity].
  - reflexivity.
  - vm_compute. split; [discriminate|reflexivity].
  - vm_compute. discriminate.
  - discriminate.
Qed.
Example C77_small_ex : encrypt_pka (fun _ _ => None) (fun _ _ => None) 0 (toy_enc 3 None) (weak_pub 16 [23; 5; 8]) 5 6 (repeat 7 80) [1] = Diverge.
Proof.
  destruct (keyid_v4 (weak_key 16 [23; 5; 8]) eq_refl) as (fp & id & _ & KI & _).
  eapply (C77_small_refuted _ _ _ _ _ (weak_key 16 [23; 5; 8]) 23 [5; 8] _ _ _ _ id); [ |cbn; tauto|reflexivity|vm_compute; reflexivity| |exact KI|..].
  - apply toy_enc_valid. cbn. tauto.
  - apply weak_encrypts. cbn. tauto.
  - reflexivity.
  - vm_compute. discriminate.
  - vm_compute. reflexivity.
Qed.

(** * C46 once more: verification with an even modulus *)

(** Every signature with the right two octets, whatever its integer, stops the program when the
    RSA key that is to check it has an even modulus. *)
Theorem C46_even_refuted : forall g k n e data now v, meaningful g = Ok true -> has_primary g k ->
  k_version k = 4 -> k_pka k = 1 -> k_mpi k = [n; e] -> N.even n = true -> 38 <= N.shiftr (bitsize n) 3 < 2 ^ 32 ->
  exists s, t2_pka s = 1 /\ t2_mpi s = [v] /\ t2_hashed s = [(false, Sub2 now)] /\
    verify_detached g data (detached_of s) = UB.
Proof.
  intros g k n e data now v M HP V PK K EV SZ. destruct (keyid_v4 k V) as (fp & id & _ & KI & _ & L & _).
  set (s := fun l => mkTag2 4 0 1 2 [v] l 0 [] [(false, Sub2 now)] [(false, Sub16 id)]).
  assert (I0 : exists x, input_00 data (s []) = Ok x) by (eexists; reflexivity). destruct I0 as (x & I0).
  assert (I : forall l, input_00 data (s l) = Ok x) by (intros l; rewrite <- I0; reflexivity).
  destruct (hash_use_ok 2 x ltac:(cbn; auto)) as (digest & H).
  assert (D : forall l, to_sign_00 data (s l) = Ok digest).
  { intros l. unfold to_sign_00, hashed_with. rewrite I. exact H. }
  exists (s (prefix digest 2)). do 3 (split; [reflexivity|]).
  unfold verify_detached. rewrite (verify_document_at 0 g _ (to_sign_00 data) id digest k); auto.
  2:{ rewrite PK. cbn. auto. } 2:{ lia. }
  cbn [t2_hash t2_pka t2_mpi s]. rewrite K. unfold verify_with_pka. cbn [N.eqb Pos.eqb orb vec_at nth_error bind].
  pose proof (hash_use_len 2 x digest 160 H eq_refl) as LD.
  destruct (C22_length 2 160 (str "3021300906052B0E03021A05000414") digest (N.shiftr (bitsize n) 3) eq_refl eq_refl LD ltac:(lia)) as (em & c & t & -> & _ & _ & ->).
  { change (len (str "3021300906052B0E03021A05000414") / 2 + 3 + 160 / 8) with 38. lia. }
  cbn [bind]. unfold rsa_verify_raw. cbn [rawtompi bind]. unfold rsa_verify, rsa_encrypt. cbn [vec_at nth_error bind]. unfold mpz_powm. rewrite EV. reflexivity.
Qed.
Example C46_even_ex : exists s, verify_detached (weak_pub 1 [2 ^ 400; 3]) (str "hello") (detached_of s) = UB.
Proof.
  destruct (C46_even_refuted (weak_pub 1 [2 ^ 400; 3]) (weak_key 1 [2 ^ 400; 3]) (2 ^ 400) 3 (str "hello") 7 1) as (s & _ & _ & _ & H);
    try reflexivity; eauto.
  - do 2 eexists. split; [reflexivity|]. exists (weak_key 1 [2 ^ 400; 3]). split; [now left|]. repeat split.
  - vm_compute. split; [discriminate|reflexivity].
Qed.

Print Assumptions C77_symmetric.
Print Assumptions C77_recipient.
Print Assumptions C77_public_partial.
Print Assumptions C77_even_refuted.
Print Assumptions C77_small_refuted.
Print Assumptions C46_even_refuted.
