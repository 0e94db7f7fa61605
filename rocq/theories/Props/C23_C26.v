(** Key packets: protection of secret values, generated keys, public view, fingerprint and
    key ID. *)
From Verif Require Import Proofs.KeyP Spec.Keys Spec.Hash.

Lemma mpi_small m : N.log2 m < 65528 -> 0 < m -> mpi_fits m.
Proof. intros H P. unfold mpi_fits. now apply N.log2_lt_pow2. Qed.
Ltac small_mpis := repeat (apply Forall_cons; [apply mpi_small; reflexivity|]); apply Forall_nil.

Lemma bind_ok_inv {A B} (m : result A) (f : A -> result B) b : bind m f = Ok b -> exists a, m = Ok a /\ f a = Ok b.
Proof. destruct m as [a| | |]; try discriminate. cbn [bind]. intros H. now exists a. Qed.

(** C23: with any allowed protection whose SHA-1 check is really made with SHA-1, secret values
    stored with encrypt_secret_keys are returned by decrypt_secret_keys with the same
    passphrase.  Partial: for s2k usage 254 the code makes the check with the hash of the
    string-to-key specifier but verifies it with SHA-1; see the refutation below. *)
Theorem C23_roundtrip_partial : forall s pass keys, protection (eq 2) s -> Forall mpi_fits keys ->
  len (concat (map write_MPI keys)) + 64 < two64 ->
  exists y, encrypt_secret_keys s pass keys = Ok y /\
    decrypt_secret_keys (mkSecret (sk_con s) (sk_sym s) (sk_s2k s) (sk_iv s) y) pass = Ok keys.
Proof. intros. now apply protect_roundtrip. Qed.
Definition cast_protection (con hash : N) : secret :=
  mkSecret con 3 (Some (mkS2k S2K1 1 hash [1; 2; 3; 4; 5; 6; 7; 8] 0)) [8; 7; 6; 5; 4; 3; 2; 1] [].
Example C23_roundtrip_ex : protection (eq 2) (cast_protection 254 2) /\ Forall mpi_fits [1000003; 17] /\
  (y <- encrypt_secret_keys (cast_protection 254 2) (str "pw") [1000003; 17] ;;
   decrypt_secret_keys (with_secret (cast_protection 254 2) y) (str "pw")) = Ok [1000003; 17].
Proof.
  split; [|split].
  - intros _. cbn [cast_protection sk_sym sk_iv sk_s2k sk_con]. split; [cbn; auto|]. split; [reflexivity|].
    eexists. split; [reflexivity|]. repeat split; cbn; auto.
  - small_mpis.
  - vm_compute. reflexivity.
Qed.
(** The other protections: none, and the old one keyed by an MD5 digest. *)
Example C23_old_ex :
  (y <- encrypt_secret_keys (mkSecret 3 3 None (repeat 9 8) []) (str "pw") [1000003; 17] ;;
   decrypt_secret_keys (mkSecret 3 3 None (repeat 9 8) y) (str "pw")) = Ok [1000003; 17] /\
  (y <- encrypt_secret_keys secret_new (str "pw") [5] ;; decrypt_secret_keys (with_secret secret_new y) []) = Ok [5].
Proof. split; vm_compute; reflexivity. Qed.

(** The property fails for a specifier with another hash: here SHA-256, the default of the
    key generator. *)
Theorem C23_other_hash_refuted : exists s pass keys y, protection (fun _ => True) s /\ Forall mpi_fits keys /\
  encrypt_secret_keys s pass keys = Ok y /\ decrypt_secret_keys (with_secret s y) pass = Ok [] /\ keys <> [].
Proof.
  assert (E : exists y, encrypt_secret_keys (cast_protection 254 8) (str "pw") [5] = Ok y /\
     decrypt_secret_keys (with_secret (cast_protection 254 8) y) (str "pw") = Ok []).
  { assert (E : (y <- encrypt_secret_keys (cast_protection 254 8) (str "pw") [5] ;;
      decrypt_secret_keys (with_secret (cast_protection 254 8) y) (str "pw")) = Ok []) by (vm_compute; reflexivity).
    exact (bind_ok_inv _ _ _ E). }
  destruct E as (y & E1 & E2). exists (cast_protection 254 8), (str "pw"), [5], y.
  split; [|split].
  - intros _. cbn [cast_protection sk_sym sk_iv sk_s2k sk_con]. split; [cbn; auto|]. split; [reflexivity|].
    eexists. split; [reflexivity|]. repeat split; cbn; auto 10.
  - small_mpis.
  - split; [exact E1|]. split; [exact E2|discriminate].
Qed.

(** Secret values are only returned if their check matches: for every stored octet string and
    passphrase, a non-empty answer means the deciphered octets end with the SHA-1 digest of
    the rest (usage 254), or with the sum of the rest modulo 65536. *)
Theorem C23_checked : forall s pass r, protection (fun _ => True) s -> len (sk_secret s) < two64 ->
  decrypt_secret_keys s pass = Ok r -> r <> [] ->
  exists data chk,
    (if sk_con s =? 0 then sk_secret s = data ++ chk
     else exists key, calculate_key s pass = Ok key /\
            use_ncfb_decrypt (sk_sym s) (sk_secret s) key (sk_iv s) = Ok (data ++ chk)) /\
    (if sk_con s =? 254 then hash_use 2 data = Ok chk else chk = be 2 (fold_right N.add 0 data)).
Proof.
  intros s pass r P B R N0. destruct (decrypt_checked _ s pass r P B R N0) as (d & c & H & K). exists d, c. split.
  - destruct (sk_con s =? 0); [now apply Ok_inj in H|]. destruct (calculate_key s pass) as [k| | |]; try discriminate.
    exists k. auto.
  - rewrite <- sum16_sum. exact K.
Qed.
Example C23_checked_ex : decrypt_secret_keys (with_secret secret_new ([0; 3; 5; 0; 8])) [] = Ok [5] /\
  decrypt_secret_keys (with_secret secret_new ([0; 3; 5; 0; 9])) [] = Ok [].
Proof. split; vm_compute; reflexivity. Qed.

(** C24: a generated primary key, with or without passphrase, and a generated subkey without
    passphrase, give back their secret values.  Partial: subkeys with a passphrase do not. *)
Theorem C24_generated_partial : forall sub pass sym hash salt iv pri,
  In sym offered -> In hash hashes -> length salt = 8%nat -> length iv = block_octets sym ->
  Forall mpi_fits pri -> len (concat (map write_MPI pri)) + 64 < two64 -> sub = false \/ pass = [] ->
  exists s, generated_secret sub pass sym hash salt iv pri = Ok s /\ decrypt_secret_keys s pass = Ok pri.
Proof. intros. now apply generated_back. Qed.
(** Every subkey generated with a passphrase is stored so that decrypt_secret_keys never
    returns its secret values: if it returns, there are further values behind them (the
    checksum of the first application read as integers). *)
Theorem C24_subkey_refuted : forall c pass sym hash salt iv pri,
  In sym offered -> In hash hashes -> length salt = 8%nat -> length iv = block_octets sym ->
  Forall mpi_fits pri -> len (concat (map write_MPI pri)) + 64 < two64 ->
  exists s, generated_secret true (c :: pass) sym hash salt iv pri = Ok s /\
    forall r, decrypt_secret_keys s (c :: pass) = Ok r -> exists r', r = pri ++ r' /\ r' <> [].
Proof. intros. now apply generated_twice. Qed.
Example C24_ex : In 9 offered /\ In 8 hashes /\ length (repeat 1 8) = 8%nat /\ length (repeat 2 16) = block_octets 9 /\
  Forall mpi_fits [1000003; 17; 19; 2] /\ len (concat (map write_MPI [1000003; 17; 19; 2])) + 64 < two64.
Proof.
  split; [cbn; auto 10|]. split; [cbn; auto 10|]. split; [reflexivity|]. split; [reflexivity|].
  split; [small_mpis|reflexivity].
Qed.

(** C25: the public packet of a secret key has the same version, time, algorithm and values,
    and the same fingerprint and key ID; the secret part has no influence on it. *)
Theorem C25_public_view : forall k s w, key_fits days_16 k -> secret_raw k s = Ok w ->
  exists k', get_public k s = Ok k' /\ same_public k' k /\
    get_fingerprint k' = get_fingerprint k /\ get_keyid k' = get_keyid k.
Proof.
  intros k s w F H. exists (reread k). split; [eapply public_reread; eassumption|]. split; [|apply reread_fingerprint].
  unfold reread, same_public. destruct (k_version k <? 4); cbn [k_version k_time k_pka k_mpi]; auto.
Qed.
Theorem C25_secret_independent : forall k s1 s2 w1 w2, key_fits days_16 k ->
  secret_raw k s1 = Ok w1 -> secret_raw k s2 = Ok w2 -> get_public k s1 = get_public k s2.
Proof. intros. erewrite !public_reread by eassumption. reflexivity. Qed.
(** For version 4 keys, and older keys whose validity octets are below 128, all fields agree. *)
Theorem C25_same_key_partial : forall k s w, key_fits days_kept k -> secret_raw k s = Ok w -> get_public k s = Ok k.
Proof. intros k s w F H. destruct (public_eq k s w H) as (post & ->). now rewrite key_roundtrip. Qed.
(** For other old keys the validity period of the public packet is wrong. *)
Theorem C25_validity_refuted : exists k s k', key_fits days_16 k /\ get_public k s = Ok k' /\ key_raw k' <> key_raw k.
Proof.
  exists (mkKey 3 1000 1 [35; 5] 128), (with_secret secret_new [0; 3; 5; 0; 8]). eexists. split; [|split].
  - split; [cbn; lia|]. split; [reflexivity|]. split; [small_mpis|].
    split; [reflexivity|]. vm_compute. reflexivity.
  - vm_compute. reflexivity.
  - vm_compute. discriminate.
Qed.
Example C25_ex : key_fits days_16 (mkKey 4 1000 1 [35; 5] 0) /\
  exists w, secret_raw (mkKey 4 1000 1 [35; 5] 0) (cast_protection 254 8) = Ok w.
Proof.
  split; [|eexists; reflexivity].
  split; [cbn; lia|]. split; [reflexivity|]. split; [small_mpis|].
  split; reflexivity.
Qed.

(** C26: version 4.  The fingerprint is the SHA-1 digest of the public fields, and the key ID
    is its last eight octets. *)
Theorem C26_v4 : forall k, k_version k = 4 ->
  exists fp id, get_fingerprint k = Ok fp /\ hash_use 2 (v4_fingerprint_input k) = Ok fp /\ get_keyid k = Ok id /\
    len fp = 20 /\ len id = 8 /\ fp = firstn 12 fp ++ id.
Proof.
  intros k V. destruct (keyid_v4 k V) as (fp & id & F & I & L & Li & E). exists fp, id. repeat split; auto.
  rewrite <- F. unfold get_fingerprint. rewrite V. change (4 <? 4) with false. change (4 =? 4) with true. cbn iota.
  rewrite body_v4 by auto. reflexivity.
Qed.
(** Both are the same for keys with the same public fields, whatever the rest. *)
Theorem C26_public_only : forall k k', same_public k k' -> get_fingerprint k = get_fingerprint k' /\ get_keyid k = get_keyid k'.
Proof.
  intros [v t a m e] [v' t' a' m' e'] (A & B & C & D). cbn [k_version k_time k_pka k_mpi] in *. subst.
  unfold get_keyid, get_fingerprint, key_raw. cbn [k_version k_time k_pka k_mpi k_expire].
  destruct (v' <? 4); auto.
Qed.
(** The hashed octets determine the fields: two keys with the same input are the same key. *)
Theorem C26_input_injective : forall k k', key_fits days_16 k -> key_fits days_16 k' -> k_version k = 4 -> k_version k' = 4 ->
  v4_fingerprint_input k = v4_fingerprint_input k' -> k = k'.
Proof.
  intros k k' F F' V V' E. unfold v4_fingerprint_input in E.
  assert (E2 : v4_body k = v4_body k').
  { apply (f_equal (skipn 3)) in E. rewrite !be2 in E. exact E. }
  rewrite <- !body_v4 in E2 by auto.
  assert (G : key_fits days_kept k) by (unfold key_fits in *; rewrite V in *; exact F).
  assert (G' : key_fits days_kept k') by (unfold key_fits in *; rewrite V' in *; exact F').
  pose proof (key_roundtrip k [] G) as R. pose proof (key_roundtrip k' [] G') as R'. rewrite E2, R' in R. congruence.
Qed.
(** Version 2 and 3: the key ID is the low 64 bits of the modulus, if it has more than 56 bits. *)
Theorem C26_v3_partial : forall k n l, k_version k < 4 -> k_mpi k = n :: l -> 2 ^ 56 <= n -> mpi_fits n ->
  get_keyid k = Ok (be 8 (n mod 2 ^ 64)).
Proof. exact keyid_v3. Qed.
(** With a smaller modulus it never is: the code throws, or takes octets of the length field. *)
Theorem C26_v3_short_refuted : forall k n l, k_version k < 4 -> k_mpi k = n :: l -> n < 2 ^ 56 ->
  get_keyid k <> Ok (be 8 n).
Proof. exact keyid_v3_short. Qed.
(** The fingerprint is the MD5 digest of the integers without their lengths. *)
Theorem C26_v3_fingerprint : forall k, k_version k < 4 -> get_fingerprint k = hash_use 1 (v3_fingerprint_input k).
Proof.
  intros k V. unfold get_fingerprint, v3_fingerprint_input. apply N.ltb_lt in V. rewrite V. do 2 f_equal.
Qed.
Example C26_ex : get_keyid (mkKey 3 0 1 [2 ^ 60 + 5; 3] 0) = Ok [16; 0; 0; 0; 0; 0; 0; 5] /\
  get_keyid (mkKey 3 0 1 [35; 3] 0) = Throw EOutOfRange /\
  get_fingerprint (mkKey 4 1000 1 [35; 5] 0) =
    Ok [70; 59; 250; 93; 161; 2; 139; 71; 48; 57; 240; 55; 53; 245; 250; 50; 216; 227; 128; 242] /\
  get_keyid (mkKey 4 1000 1 [35; 5] 0) = Ok [53; 245; 250; 50; 216; 227; 128; 242].
Proof. repeat split; vm_compute; reflexivity. Qed.

Print Assumptions C23_roundtrip_partial.
Print Assumptions C23_other_hash_refuted.
Print Assumptions C23_checked.
Print Assumptions C24_generated_partial.
Print Assumptions C24_subkey_refuted.
Print Assumptions C25_public_view.
Print Assumptions C25_secret_independent.
Print Assumptions C25_same_key_partial.
Print Assumptions C25_validity_refuted.
Print Assumptions C26_v4.
Print Assumptions C26_public_only.
Print Assumptions C26_input_injective.
Print Assumptions C26_v3_partial.
Print Assumptions C26_v3_short_refuted.
Print Assumptions C26_v3_fingerprint.
