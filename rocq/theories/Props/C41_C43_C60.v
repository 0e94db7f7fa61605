(** Properties C41, C42, C43, C60: public key algorithms and random numbers. *)
From Verif Require Import Proofs.RngP.
Local Open Scope N_scope.

(** ** C41 *)

(** Decryption inverts encryption; the key vectors may hold further values. *)
Theorem C41_decrypt : forall n e d pub pri m, rsa_key n e d -> m < n ->
  exists c, rsa_encrypt m (n :: e :: pub) = Ok c /\ rsa_decrypt c (d :: pri) (n :: e :: pub) = Ok m.
Proof.
  intros n e d pub pri m (p & q & P & Q & D & OP & OQ & -> & E) M.
  unfold rsa_encrypt, rsa_decrypt. cbn [vec_at nth_error bind]. pose proof (odd_mul p q OP OQ) as O.
  rewrite mpz_powm_ok by auto. eexists. split; [reflexivity|]. rewrite mpz_powm_ok by auto. now rewrite rsa_math.
Qed.
(** Verification accepts every signature, on numbers and on octet strings. *)
Theorem C41_verify : forall n e d pub pri m rest, rsa_key n e d -> m < n ->
  exists s, rsa_sign m (d :: pri) (n :: e :: pub) = Ok s /\ rsa_verify m (s :: rest) (n :: e :: pub) = Ok true.
Proof.
  intros n e d pub pri m rest (p & q & P & Q & D & OP & OQ & -> & E) M.
  unfold rsa_sign, rsa_verify, rsa_encrypt, rsa_decrypt. cbn [vec_at nth_error bind]. pose proof (odd_mul p q OP OQ) as O.
  rewrite mpz_powm_ok by auto. eexists. split; [reflexivity|]. rewrite mpz_powm_ok by auto. cbn [bind].
  rewrite rsa_math; auto; [|now rewrite N.mul_comm]. now rewrite N.eqb_refl.
Qed.
Theorem C41_verify_octets : forall n e d pub pri data m rest, rsa_key n e d -> rawtompi data = Ok m -> m < n ->
  exists s, rsa_sign_raw data (d :: pri) (n :: e :: pub) = Ok s /\ rsa_verify_raw data (s :: rest) (n :: e :: pub) = Ok true.
Proof.
  intros n e d pub pri data m rest K R M. unfold rsa_sign_raw, rsa_verify_raw. rewrite R. cbn [bind]. now apply C41_verify.
Qed.
(** It accepts exactly the values whose e-th power is the message. *)
Theorem C41_verify_only : forall n e pub m s rest b, N.odd n = true ->
  rsa_verify m (s :: rest) (n :: e :: pub) = Ok b -> (b = true <-> s ^ e mod n = m).
Proof.
  intros n e pub m s rest b O H. unfold rsa_verify, rsa_encrypt in H. cbn [vec_at nth_error bind] in H.
  rewrite mpz_powm_ok in H by auto. cbn [bind] in H. apply Ok_inj in H. subst b. apply N.eqb_eq.
Qed.
(** A generated key with an odd modulus is such a key, with the primes in order and the
    inverse the format asks for. *)
Theorem C41_generated : forall nextprime bits draws v rest, (forall n, is_prime (nextprime n)) ->
  rsa_keygen nextprime bits draws = Ok (v, rest) ->
  exists n e d p q u, v = [n; e; d; p; q; u] /\ n = p * q /\ p < q /\ (u * p) mod q = 1 /\
    (N.odd n = true -> rsa_key n e d).
Proof.
  intros np bits draws v rest NP E. apply rsa_keygen_ok in E as (e & d & p & q & u & -> & P & Q & L & ED & U); auto.
  exists (p * q), e, d, p, q, u. repeat (split; [reflexivity || assumption|]). intros O.
  rewrite N.odd_mul in O. apply andb_prop in O as [OP OQ]. exists p, q. repeat (split; [assumption || lia|]). exact ED.
Qed.

Definition toy_prime_after (n : N) : N := if n <? 2 then 2 else if n <? 53 then 53 else if n <? 61 then 61 else 67.
Example rsa_toy : rsa_key 3233 17 2753.
Proof.
  exists 61, 53. split; [apply prime_check; vm_compute; reflexivity|]. split; [apply prime_check; vm_compute; reflexivity|].
  repeat split; vm_compute; congruence.
Qed.
Example rsa_toy_run : rsa_encrypt 65 [3233; 17] = Ok 2790 /\ rsa_decrypt 2790 [2753] [3233; 17] = Ok 65.
Proof. split; vm_compute; reflexivity. Qed.
Example rsa_toy_keygen : rsa_keygen toy_prime_after 6 [10; 54; 16] = Ok ([3233; 17; 2753; 53; 61; 38], []).
Proof. vm_compute. reflexivity. Qed.
(** Drawing 0 or 1 gives the prime 2; the modular power then stops the program. *)
Example rsa_even_modulus : rsa_keygen toy_prime_after 6 [1; 54; 16] = Ok ([122; 17; 53; 2; 61; 31], []) /\
  rsa_encrypt 65 [122; 17] = UB.
Proof. split; vm_compute; reflexivity. Qed.

(** ** C42 *)

(** For every random number drawn. *)
Theorem C42_decrypt : forall p g y x pub pri m k draws, elgamal_key p g y x -> m < p ->
  exists c, elgamal_encrypt m (p :: g :: y :: pub) (k :: draws) = Ok (c, draws) /\
            elgamal_decrypt c (x :: pri) (p :: g :: y :: pub) = Ok (mpitoraw m).
Proof.
  intros p g y x pub pri m k draws (P & O & G & ->) M. pose proof P as [P1 _].
  unfold elgamal_encrypt, elgamal_decrypt. cbn [vec_at nth_error bind].
  unfold random. replace (bitsize p =? 0) with false by (unfold bitsize; lia). cbn [bind].
  rewrite mpz_mod_ok by lia. cbn [bind]. rewrite !mpz_powm_ok by auto. cbn [bind]. rewrite mpz_mod_ok by lia. cbn [bind].
  eexists. split; [reflexivity|]. cbn [vec_at nth_error bind]. rewrite mpz_powm_ok by auto. cbn [bind].
  unfold invert. replace (p =? 0) with false by lia. cbn [bind]. rewrite mpz_mod_ok by lia. cbn [bind].
  pose proof (elgamal_math p g x (k mod 2 ^ bitsize p mod p) m P G M) as E. cbv zeta in E. now rewrite E.
Qed.
(** Octet strings: what comes back has the same value; leading zero octets are gone. *)
Theorem C42_decrypt_octets : forall p g y x pub pri data m k draws, elgamal_key p g y x ->
  rawtompi data = Ok m -> m < p ->
  exists c out, elgamal_encrypt_raw data (p :: g :: y :: pub) (k :: draws) = Ok (c, draws) /\
    elgamal_decrypt c (x :: pri) (p :: g :: y :: pub) = Ok out /\ rawtompi out = Ok m.
Proof.
  intros p g y x pub pri data m k draws K R M. unfold elgamal_encrypt_raw. rewrite R. cbn [bind].
  destruct (C42_decrypt p g y x pub pri m k draws K M) as (c & E & D). exists c, (mpitoraw m).
  split; [exact E|]. split; [exact D|apply rawtompi_raw].
Qed.
(** Generated keys are such keys. *)
Theorem C42_generated : forall fuel nextprime prime_test bits draws v rest,
  (forall n, is_prime (nextprime n)) -> (forall n, prime_test n = true -> is_prime n) ->
  elgamal_keygen fuel nextprime prime_test bits draws = Ok (v, rest) ->
  exists p g y x, v = [p; g; y; x] /\ elgamal_key p g y x /\ 0 < x < p.
Proof. exact elgamal_keygen_ok. Qed.
Example elgamal_toy : elgamal_keygen 9 (fun n => 3) (fun n => n =? 523) 10 [1; 0; 17] = Ok ([523; 462; 60; 17], []) /\
  elgamal_encrypt 99 [523; 462; 60] [701] = Ok ([462; 187], []) /\ elgamal_decrypt [462; 187] [17] [523; 462; 60] = Ok [99].
Proof. repeat split; vm_compute; reflexivity. Qed.

Example elgamal_toy_key : elgamal_key 523 462 60 17.
Proof. split; [apply prime_check; vm_compute; reflexivity|]. repeat split; vm_compute; congruence. Qed.

(** ** C43 *)

(** Every signature is accepted, with a given or a drawn k. *)
Theorem C43_verify : forall p q g y x pub pri data k draws sig rest, dsa_key p q g y x ->
  dsa_sign data (x :: pri) (p :: q :: g :: y :: pub) k draws = Ok (sig, rest) ->
  dsa_verify data sig (p :: q :: g :: y :: pub) = Ok true.
Proof.
  intros p q g y x pub pri data k draws sig rest K E. unfold dsa_sign in E. destruct (k =? 0).
  - apply dsa_rounds_ok in E as (k' & a & b & -> & T). eapply dsa_one; eauto.
  - apply bind_ok in E as (t & T & E). destruct t as [[a b]|]; [|discriminate]. apply Ok_inj in E.
    assert (sig = [a; b]) as -> by congruence. eapply dsa_one; eauto.
Qed.
Theorem C43_generated : forall fuel nextprime prime_test L n draws pub0 d0 pri pub rest,
  (forall n, is_prime (nextprime n)) -> (forall n, prime_test n = true -> is_prime n) ->
  dsa_new_public fuel nextprime prime_test L n draws = Ok (pub0, d0) ->
  dsa_keygen fuel pub0 d0 = Ok (pri, pub, rest) ->
  exists p q g y x, pub = [p; q; g; y] /\ pri = [x] /\ is_prime p /\ N.divide q (p - 1) /\ dsa_key p q g y x /\ 0 < x < q.
Proof. exact dsa_generated. Qed.
(** Only r between 0 and q is accepted. *)
Theorem C43_range_partial : forall p q g y pub data r s, N.odd p = true -> 0 < q ->
  dsa_verify data [r; s] (p :: q :: g :: y :: pub) = Ok true -> 0 < r < q.
Proof.
  intros p q g y pub data r s O Q E. unfold dsa_verify in E. cbn [vec_at nth_error bind] in E.
  destruct (0 <? r) eqn:R; [|discriminate]. cbn [bind] in E. destruct (_ && _); [discriminate|].
  repeat match type of E with bind _ _ = _ => apply bind_ok in E as (? & ? & E) end.
  rewrite mpz_mod_ok in H5 by lia. apply Ok_inj in H5, E. pose proof (N.mod_lt x4 q ltac:(lia)). lia.
Qed.
(** Missing part: s is not checked.  With s = 0 the pair (1, 0) is a signature of every
    message under every key. *)
Theorem C43_forgery_refuted : forall p q g y pub data, 1 < p -> N.odd p = true -> 1 < q ->
  dsa_verify data [1; 0] (p :: q :: g :: y :: pub) = Ok true.
Proof.
  intros p q g y pub data P O Q. rewrite dsa_verify_ok by lia || auto.
  assert (I : mod_inverse 0 q = 0).
  { destruct (inverse_cases 0 q Q) as [_ [[G _]|[_ H]]]; [rewrite N.gcd_0_l in G; lia|auto]. }
  rewrite I, !N.mul_0_r, N.mod_0_l, !N.pow_0_r by lia. rewrite (N.mod_small 1 p), N.mul_1_l, (N.mod_small 1 p), (N.mod_small 1 q) by lia.
  reflexivity.
Qed.
(** And q can be added to s. *)
Theorem C43_malleable_refuted : forall p q g y pub data r s, 1 < p -> N.odd p = true -> 1 < q -> 0 < r < q ->
  dsa_verify data [r; s + q] (p :: q :: g :: y :: pub) = dsa_verify data [r; s] (p :: q :: g :: y :: pub).
Proof.
  intros p q g y pub data r s P O Q R. rewrite !dsa_verify_ok by auto.
  replace (mod_inverse (s + q) q) with (mod_inverse s q); [reflexivity|].
  unfold mod_inverse. replace ((s + q) mod q) with (s mod q); [reflexivity|]. symmetry. rewrite <- (N.mul_1_l q) at 1. apply N.mod_add. lia.
Qed.
Example dsa_toy : dsa_sign 5 [7] [23; 11; 4; 4 ^ 7 mod 23] 0 [3; 9] = Ok ([7; 7], [9]) /\
  dsa_verify 5 [7; 7] [23; 11; 4; 4 ^ 7 mod 23] = Ok true /\ dsa_verify 6 [7; 7] [23; 11; 4; 4 ^ 7 mod 23] = Ok false /\
  dsa_verify 6 [1; 0] [23; 11; 4; 4 ^ 7 mod 23] = Ok true.
Proof. repeat split; vm_compute; reflexivity. Qed.
Example dsa_toy_key : dsa_key 23 11 4 (4 ^ 7 mod 23) 7.
Proof. repeat (split; [reflexivity|]). split; [apply prime_check; vm_compute; reflexivity|]. split; reflexivity. Qed.

(** ** C60 *)

(** The Blum-Blum-Shub generator with an odd modulus. *)
Theorem C60_bits : forall n k b, N.odd (bbs_m b) = true ->
  exists out b', bbs_rand_bits n k b = Ok (out, b') /\ length out = n /\ Forall (fun c => c = 48 \/ c = 49) out /\
    bbs_m b' = bbs_m b.
Proof. intros. now apply bbs_bits. Qed.
Theorem C60_bytes_partial : forall n k b, N.odd (bbs_m b) = true -> n < 2 ^ 29 ->
  exists out b', bbs_rand_bytes n k b = Ok (out, b') /\ len out = n /\ octets out.
Proof.
  intros n k b O L. destruct (bbs_bytes n k b O) as (out & b' & E & Len & Oc). exists out, b'.
  split; [exact E|]. split; [|exact Oc]. rewrite Len, N.mod_small, N.div_mul by lia. reflexivity.
Qed.
(** Missing part: from 2^29 octets on fewer are returned. *)
Theorem C60_bytes_refuted : forall n k b, N.odd (bbs_m b) = true -> 2 ^ 29 <= n ->
  exists out b', bbs_rand_bytes n k b = Ok (out, b') /\ len out < n.
Proof.
  intros n k b O L. destruct (bbs_bytes n k b O) as (out & b' & E & Len & Oc). exists out, b'.
  split; [exact E|]. rewrite Len. apply N.div_lt_upper_bound; [lia|]. pose proof (N.mod_lt (n * 8) (2 ^ 32) ltac:(lia)). lia.
Qed.
(** OpenSSL's generator: n digits, or an exception. *)
Theorem C60_openssl_bits : forall source n, (forall k b, source k = Some b -> len b = k) -> n < 2 ^ 32 ->
  (exists out, ssl_rand_bits source n = Ok out /\ len out = n /\ Forall (fun c => c = 48 \/ c = 49) out) \/
  ssl_rand_bits source n = Throw ERuntime.
Proof. exact ssl_bits. Qed.
(** Numbers made of drawn bits: bits are read most significant first; n of them make every
    number below 2^n, each by exactly one string. *)
Definition digits (s : bytes) : Prop := Forall (fun c => c = 48 \/ c = 49) s.
Lemma bin_fold : forall s a, digits s -> exists x, x < 2 ^ len s /\ fold_left (fun v c => 2 * v + (c - 48)) s a = a * 2 ^ len s + x /\
  fold_left (fun v c => 2 * v + (c - 48)) s 0 = x.
Proof.
  induction s as [|c s IH]; intros a D; [exists 0; rewrite len_nil, N.pow_0_r; cbn [fold_left]; lia|].
  apply Forall_cons_iff in D as [C D]. cbn [fold_left].
  destruct (IH (2 * a + (c - 48)) D) as (x & L & E & E0). destruct (IH (2 * 0 + (c - 48)) D) as (x' & L' & E' & E0').
  assert (x' = x) as -> by congruence.
  replace (len (c :: s)) with (N.succ (len s)) by (rewrite len_cons; lia). rewrite N.pow_succ_r'.
  exists ((c - 48) * 2 ^ len s + x). rewrite E, E'. assert (C' : c - 48 = 0 \/ c - 48 = 1) by lia. clear - L C'.
  set (h := 2 ^ len s) in *. repeat apply conj; try ring. destruct C' as [-> | ->]; lia.
Qed.
Theorem C60_first_bit : forall c s x, digits (c :: s) -> s <> [] -> bintompi s = Ok x -> bintompi (c :: s) = Ok ((c - 48) * 2 ^ len s + x).
Proof.
  intros c s x D N E. apply Forall_cons_iff in D as [C D]. destruct s as [|d s]; [congruence|]. unfold bintompi in *.
  apply Ok_inj in E. f_equal. change (fold_left ?f (c :: ?l) 0) with (fold_left f l (2 * 0 + (c - 48))).
  destruct (bin_fold (d :: s) (2 * 0 + (c - 48)) D) as (y & _ & F & F0). rewrite F.
  rewrite <- F0, E. lia.
Qed.
Theorem C60_numbers : forall n, (0 < n)%nat ->
  (forall s, digits s -> length s = n -> exists x, bintompi s = Ok x /\ x < 2 ^ N.of_nat n) /\
  (forall x, x < 2 ^ N.of_nat n -> exists s, digits s /\ length s = n /\ bintompi s = Ok x) /\
  (forall s t x, digits s -> digits t -> length s = n -> length t = n -> bintompi s = Ok x -> bintompi t = Ok x -> s = t).
Proof.
  intros n N. split; [|split].
  - intros s D L. destruct (bin_fold s 0 D) as (x & B & _ & E). exists x. destruct s; [cbn in L; lia|]. unfold bintompi. rewrite E.
    split; [reflexivity|]. unfold len in B. now rewrite L in B.
  - assert (H : forall m x, x < 2 ^ N.of_nat (S m) -> exists s, digits s /\ length s = S m /\ bintompi s = Ok x).
    { induction m as [|m IH]; intros x B.
      - change (2 ^ N.of_nat 1) with 2 in B. exists [48 + x]. split; [constructor; [lia|constructor]|]. split; [reflexivity|].
        unfold bintompi. cbn [fold_left]. f_equal. lia.
      - rewrite Nat2N.inj_succ, N.pow_succ_r' in B. set (h := 2 ^ N.of_nat (S m)) in *.
        destruct (x <? h) eqn:X.
        + destruct (IH x ltac:(lia)) as (s & D & L & E). exists (48 :: s). split; [constructor; auto|]. split; [cbn; lia|].
          rewrite (C60_first_bit 48 s x); [reflexivity|constructor; auto|intros ->; discriminate L|exact E].
        + destruct (IH (x - h) ltac:(lia)) as (s & D & L & E). exists (49 :: s). split; [constructor; auto|]. split; [cbn; lia|].
          rewrite (C60_first_bit 49 s (x - h)); [|constructor; auto|intros ->; discriminate L|exact E].
          unfold len. rewrite L. fold h. change (49 - 48) with 1. rewrite N.mul_1_l. f_equal. lia. }
    destruct n as [|m]; [lia|]. apply H.
  - clear N. assert (H : forall s t, digits s -> digits t -> length s = length t ->
      fold_left (fun v c => 2 * v + (c - 48)) s 0 = fold_left (fun v c => 2 * v + (c - 48)) t 0 -> s = t).
    { induction s as [|c s IH]; intros [|d t] Ds Dt L E; try discriminate L; [reflexivity|].
      apply Forall_cons_iff in Ds as [C Ds], Dt as [D Dt]. cbn [fold_left] in E. injection L as L.
      destruct (bin_fold s (2 * 0 + (c - 48)) Ds) as (x & X & F & F0). destruct (bin_fold t (2 * 0 + (d - 48)) Dt) as (y & Y & G & G0).
      rewrite F, G in E. unfold len in *. rewrite L in *. set (h := 2 ^ N.of_nat (length t)) in *.
      destruct C as [-> | ->], D as [-> | ->]; change (48 - 48) with 0 in E; change (49 - 48) with 1 in E.
      - f_equal. apply IH; auto. lia.
      - exfalso. lia.
      - exfalso. lia.
      - f_equal. apply IH; auto. lia. }
    intros s t x Ds Dt Ls Lt Es Et. apply H; auto; [congruence|]. unfold bintompi in *. destruct s, t; try discriminate; congruence.
Qed.
Example bintompi_example : bintompi (str "1101") = Ok 13.
Proof. reflexivity. Qed.
(** Seeding: the first prime is 3 modulo 4, the second any prime. *)
Theorem C60_modulus_partial : forall fuel nextprime seed r1 r2 b b', (forall n, is_prime (nextprime n)) ->
  bbs_seeded b = false -> bbs_init fuel nextprime seed 0 0 r1 r2 b = Ok b' ->
  exists p, is_prime p /\ p mod 4 = 3 /\ b' = mkBbs true seed (p * nextprime r2).
Proof.
  intros fuel np seed r1 r2 b b' NP B E. unfold bbs_init in E. rewrite B in E. cbn [N.eqb] in E.
  apply bind_ok in E as (p & P & E). apply blum_from_ok in P as [P M]; auto. apply bind_ok in E as (q & Q & E).
  destruct fuel as [|fuel]; [discriminate Q|]. cbn [blum2_from] in Q. change (1025 <? 1024) with false in Q.
  rewrite andb_false_r in Q. apply Ok_inj in Q, E. exists p. subst. auto.
Qed.
(** Missing part: whenever the next prime is 1 modulo 4, so is the second factor. *)
Theorem C60_modulus_refuted : forall fuel nextprime seed r1 r2 b b', (forall n, is_prime (nextprime n)) ->
  bbs_seeded b = false -> bbs_init fuel nextprime seed 0 0 r1 r2 b = Ok b' -> nextprime r2 mod 4 = 1 ->
  exists p q, b' = mkBbs true seed (p * q) /\ is_prime p /\ is_prime q /\ q mod 4 = 1.
Proof.
  intros fuel np seed r1 r2 b b' NP B E M. destruct (C60_modulus_partial _ _ _ _ _ _ _ NP B E) as (p & P & _ & ->).
  exists p, (np r2). auto.
Qed.
Example bbs_toy : bbs_init 5 (fun n => if n <? 7 then 7 else if n <? 11 then 11 else 13) 3 0 0 5 12 (mkBbs false 0 0) =
  Ok (mkBbs true 3 91) /\ bbs_rand_bytes 2 Even (mkBbs true 3 91) = Ok ([85; 85], mkBbs true 81 91).
Proof. split; vm_compute; reflexivity. Qed.

Print Assumptions C41_decrypt.
Print Assumptions C41_verify.
Print Assumptions C41_verify_octets.
Print Assumptions C41_verify_only.
Print Assumptions C41_generated.
Print Assumptions C42_decrypt.
Print Assumptions C42_decrypt_octets.
Print Assumptions C42_generated.
Print Assumptions C43_verify.
Print Assumptions C43_generated.
Print Assumptions C43_range_partial.
Print Assumptions C43_forgery_refuted.
Print Assumptions C43_malleable_refuted.
Print Assumptions C60_bits.
Print Assumptions C60_bytes_partial.
Print Assumptions C60_bytes_refuted.
Print Assumptions C60_openssl_bits.
Print Assumptions C60_modulus_partial.
Print Assumptions C60_modulus_refuted.
Print Assumptions C60_first_bit.
Print Assumptions C60_numbers.
