(** What a user asks key generation for, and what the packets of the key should be. *)
From Verif Require Export Model.KeyGen Spec.KeyGrammar Spec.Sigs.

(** The parts of a user ID that are not empty, with one space between them. *)
Fixpoint spaced (l : list bytes) : bytes :=
  match l with [] => [] | [a] => a | a :: r => a ++ [32] ++ spaced r end.
Definition full_name (name comment email : bytes) : bytes :=
  spaced (match name with [] => [] | _ => [name] end ++
          match comment with [] => [] | _ => [[40] ++ comment ++ [41]] end ++
          match email with [] => [] | _ => [[60] ++ email ++ [62]] end).

(** A version 4 signature of this type and hash made at [time] by [k]. *)
Definition made_by (k : key) (type hash time : N) (s : tag2) : Prop :=
  t2_version s = 4 /\ t2_type s = type /\ t2_hash s = hash /\ t2_pka s = k_pka k /\
  sig_keyid s = get_keyid k /\ t2_hashed s = [(false, Sub2 time)].
(** The user ID asked for and its positive certification by [k], of which [ok] holds. *)
Definition uid_made (ok : packet -> tag2 -> Prop) (k : key) (time : N) (u : uid_conf) (l : list packet) : Prop :=
  exists p q s, l = [p; q] /\ p_tag p = 13 /\ p_body p = PRaw (full_name (u_user u) (u_comment u) (u_email u)) /\
    p_tag q = 2 /\ p_body q = PSig s /\ made_by k 19 (u_sig u) time s /\ ok p s.
(** The subkey asked for and its binding by [k]. *)
Definition sub_made (ok : key -> secret -> tag2 -> Prop) (k : key) (time : N) (b : sub_conf) (l : list packet) : Prop :=
  exists p q kk x s, l = [p; q] /\ p_tag p = 7 /\ p_body p = PSecret kk x /\
    k_version kk = 4 /\ k_time kk = time /\ k_pka kk = b_pka b /\
    p_tag q = 2 /\ p_body q = PSig s /\ made_by k 24 (b_sig b) time s /\ ok kk x s.
(** The binding signature is accepted by [k] for the primary key and the subkey. *)
Definition binds (k kk : key) (s : tag2) : Prop :=
  exists digest, to_sign_18 k kk s = Ok digest /\ t2_left16 s = prefix digest 2 /\ verify_key digest k s = Ok 1%Z.

(** What is asked of the number library: [nextprime] gives primes and the test accepts only
    primes. *)
Definition sound_primes (nextprime : N -> N) (prime_test : N -> bool) : Prop :=
  (forall n, is_prime (nextprime n)) /\ (forall n, prime_test n = true -> is_prime n).
(** The public values can be written, and an RSA modulus has no factor 2. *)
Definition sane_values (k : key) : Prop :=
  Forall mpi_fits (k_mpi k) /\ (In (k_pka k) [1; 2; 3] -> exists n e, k_mpi k = [n; e] /\ N.odd n = true).
(** A signature with this hash fits the modulus [n] (EMSA-PKCS1-v1_5). *)
Definition hash_fits (n hash : N) : Prop :=
  exists bits der, map_at hash_length hash = Ok bits /\ map_at asn1_der hash = Ok der /\ len der / 2 + 3 + bits / 8 <= bitsize n / 8.
(** Three numbers from which an RSA key of this size is made at the first attempt: two that
    lead to different odd primes, and one for the exponent. *)
Definition rsa_draws (nextprime : N -> N) (bits : N) (t : N * N * N) : Prop :=
  let '(a, b, _) := t in 1 < bits < 2 ^ 32 /\ a < 2 ^ (bits / 2) /\ b < 2 ^ (bits / 2) /\ nextprime a <> nextprime b /\
    N.odd (nextprime a * nextprime b) = true /\ mpi_fits (nextprime a * nextprime b).
Definition flat (t : N * N * N) : list N := let '(a, b, c) := t in [a; b; c].
Definition modulus (nextprime : N -> N) (t : N * N * N) : N := let '(a, b, _) := t in nextprime a * nextprime b.
(** The cipher and hash that protect a key exist. *)
Definition can_protect (sym hash : N) : Prop := In sym offered /\ In hash hashes.
(** The salt and initial vector a protected secret part was made with. *)
Definition salt_and_iv (p : packet) : bytes :=
  match p_body p with
  | PSecret _ x => match sk_s2k x with Some y => s2k_salt y ++ sk_iv x | None => [] end
  | _ => []
  end.
(** The same request with other expiration times. *)
Definition same_request (c c' : config) : Prop :=
  c_pass c = c_pass c' /\ c_pka c = c_pka c' /\ c_bits c = c_bits c' /\ c_sym c = c_sym c' /\ c_hash c = c_hash c' /\
  Forall2 (fun u u' => u_user u = u_user u' /\ u_comment u = u_comment u' /\ u_email u = u_email u' /\ u_sig u = u_sig u') (c_uids c) (c_uids c') /\
  Forall2 (fun b b' => b_pka b = b_pka b' /\ b_bits b = b_bits b' /\ b_sym b = b_sym b' /\ b_hash b = b_hash b' /\ b_sig b = b_sig b') (c_subkeys c) (c_subkeys c').
(** The numbers of section 9 of the RFC and of RFC 6637, and the private ones. *)
Definition known (l : list N) (x : N) : Prop := In x l \/ 100 <= x <= 110.
Definition known_pka : N -> Prop := known [1; 2; 3; 16; 17; 18; 19; 20; 21].
Definition known_hash : N -> Prop := known [1; 2; 3; 4; 5; 6; 7; 8; 9; 10; 11].
Definition known_sym : N -> Prop := known [0; 1; 2; 3; 4; 5; 6; 7; 8; 9; 10; 11; 12; 13].
(** Requests the check is meant to accept: a primary key that signs, at least one user ID, known
    numbers, and hashes of 256 bits or more wherever DSA is asked for. *)
Definition acceptable (c : config) : Prop :=
  In (c_pka c) [1; 3; 17] /\ known_sym (c_sym c) /\ known_hash (c_hash c) /\ c_uids c <> [] /\
  Forall (fun u => known_hash (u_sig u) /\ (c_pka c = 17 -> In (u_sig u) [8; 9; 10])) (c_uids c) /\
  Forall (fun b => known_pka (b_pka b) /\ known_sym (b_sym b) /\ known_hash (b_hash b) /\ known_hash (b_sig b) /\
                   (b_pka b = 17 -> In (b_sig b) [8; 9; 10])) (c_subkeys c).
(** Public values of the size asked for, as far as the number library keeps to it: an RSA modulus
    is the product of the primes after two numbers of half the bits; ElGamal and DSA get half of
    the bits. *)
Definition size_kept (nextprime : N -> N) (pka bits : N) (vals : list N) : Prop :=
  (In pka [1; 2; 3] -> exists a b e, vals = [nextprime a * nextprime b; e] /\ a < 2 ^ (bits / 2) /\ b < 2 ^ (bits / 2) /\ nextprime a <> nextprime b) /\
  (pka = 16 -> let n := 5 * (bits / 2 / 5) in exists p g y, vals = [p; g; y] /\ 2 ^ (n - 1) < p + 2 ^ (n / 5)) /\
  (pka = 17 -> let n := if bits / 2 =? 1024 then 160 else 256 in
     exists p q g y, vals = [p; q; g; y] /\ 2 ^ (bits / 2 - 1) < p + q /\ 2 ^ (n - 1) <= q < 2 ^ n).
