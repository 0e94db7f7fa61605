(** Public key algorithms: src/PKA/RSA.cpp, ElGamal.cpp, DSA.cpp, PKAs.cpp.
    Values (std::vector<MPI>) are lists; operator[] out of range is undefined.
    GMP is replaced by its arithmetic: a zero divisor, and an even modulus in
    mpz_powm_sec, stop the program (UB here); mpz_powm_sec with exponent 0 gives 1 mod m;
    mpz_invert without an inverse leaves the fresh result 0.
    Every random number drawn, bintompi(RNG().rand_bits(n)), is the next element of a list
    of numbers, reduced to [n] bits; running out of them is Diverge. *)
From Verif Require Export Model.Mpi Model.Base Model.Tables.

Definition mpz_mod (a m : N) : result N := if m =? 0 then UB else Ok (a mod m).
Definition mpz_div (a m : N) : result N := if m =? 0 then UB else Ok (a / m).
(** powm, mpi.cpp 73-77: mpz_powm_sec. *)
Definition mpz_powm (b e m : N) : result N := if N.even m then UB else Ok (powm b e m).
(** invert, mpi.cpp 79-83: mpz_invert, by the extended Euclidean algorithm. *)
Fixpoint euclid (n : nat) (r0 r1 t0 t1 : Z) : Z * Z :=
  match n with
  | O => (r0, t0)
  | S n' => if (r1 =? 0)%Z then (r0, t0)
            else euclid n' r1 (r0 mod r1)%Z t1 (t0 - (r0 / r1) * t1)%Z
  end.
Definition mod_inverse (a m : N) : N :=
  let '(g, t) := euclid (N.to_nat (2 * N.size m)) (Z.of_N m) (Z.of_N (a mod m)) 0 1 in
  if (g =? 1)%Z then Z.to_N (t mod Z.of_N m)%Z else 0.
Definition invert (a m : N) : result N := if m =? 0 then UB else Ok (mod_inverse a m).

(** bintompi(RNG::RNG().rand_bits(bits)): no bits make an empty string, which mpz_class
    rejects.  [top_random] is bintompi("1" + rand_bits(bits - 1)), uint32_t bits. *)
Definition random (bits : N) (draws : list N) : result (N * list N) :=
  if bits =? 0 then Throw EInvalidArgument
  else match draws with [] => Diverge | x :: r => Ok (x mod 2 ^ bits, r) end.
Definition top_random (bits : N) (draws : list N) : result (N * list N) :=
  let w := u32 (bits + (two32 - 1)) in
  if w =? 0 then Ok (1, draws)
  else ' (x, r) <- random w draws ;; Ok (2 ^ w + x, r).

(** ** RSA *)
(** encrypt, RSA.cpp 53-59. *)
Definition rsa_encrypt (data : N) (pub : list N) : result N :=
  e <- vec_at pub 1 ;; n <- vec_at pub 0 ;; mpz_powm data e n.
Definition rsa_encrypt_raw (data : bytes) (pub : list N) : result N := m <- rawtompi data ;; rsa_encrypt m pub.
(** decrypt, 61-63. *)
Definition rsa_decrypt (data : N) (pri pub : list N) : result N :=
  d <- vec_at pri 0 ;; n <- vec_at pub 0 ;; mpz_powm data d n.
(** sign, 65-71. *)
Definition rsa_sign (data : N) (pri pub : list N) : result N := rsa_decrypt data pri pub.
Definition rsa_sign_raw (data : bytes) (pri pub : list N) : result N := m <- rawtompi data ;; rsa_sign m pri pub.
(** verify, 73-79. *)
Definition rsa_verify (data : N) (signature pub : list N) : result bool :=
  s <- vec_at signature 0 ;; c <- rsa_encrypt s pub ;; Ok (c =? data).
Definition rsa_verify_raw (data : bytes) (signature pub : list N) : result bool :=
  m <- rawtompi data ;; rsa_verify m signature pub.

(** keygen, RSA.cpp 7-51 without GPG_COMPATIBLE.  [nextprime] is mpz_nextprime. *)
Fixpoint rsa_primes (fuel : nat) (nextprime : N -> N) (bits : N) (draws : list N) : result (N * N * list N) :=
  match fuel with
  | O => Diverge
  | S f =>
    ' (a, draws) <- random bits draws ;;
    ' (b, draws) <- random bits draws ;;
    let p := nextprime a in
    let q := nextprime b in
    if p =? q then rsa_primes f nextprime bits draws else Ok (p, q, draws)
  end.
Fixpoint coprime_from (fuel : nat) (tot e : N) : result N :=
  match fuel with
  | O => Diverge
  | S f => if N.gcd tot e =? 1 then Ok e else coprime_from f tot (e + 2)
  end.
Definition rsa_keygen (nextprime : N -> N) (bits : N) (draws : list N) : result (list N * list N) :=
  ' (p, q, draws) <- rsa_primes (S (length draws)) nextprime bits draws ;;
  let n := p * q in
  let '(p, q) := if q <? p then (q, p) else (p, q) in
  let tot := (p - 1) * (q - 1) in
  ' (e, draws) <- random bits draws ;;
  let e := if N.even e then e + 1 else e in
  e <- coprime_from (S (N.to_nat tot)) tot e ;;
  d <- invert e tot ;;
  u <- invert p q ;;
  Ok ([n; e; d; p; q; u], draws).

(** ** ElGamal *)
(** encrypt, ElGamal.cpp 57-69. *)
Definition elgamal_encrypt (data : N) (pub : list N) (draws : list N) : result (list N * list N) :=
  p <- vec_at pub 0 ;;
  ' (k, draws) <- random (bitsize p) draws ;;
  k <- mpz_mod k p ;;
  g <- vec_at pub 1 ;;
  r <- mpz_powm g k p ;;
  y <- vec_at pub 2 ;;
  s <- mpz_powm y k p ;;
  c <- mpz_mod (data * s) p ;;
  Ok ([r; c], draws).
Definition elgamal_encrypt_raw (data : bytes) (pub : list N) (draws : list N) : result (list N * list N) :=
  m <- rawtompi data ;; elgamal_encrypt m pub draws.
(** decrypt, 71-78. *)
Definition elgamal_decrypt (c pri pub : list N) : result bytes :=
  c0 <- vec_at c 0 ;; x <- vec_at pri 0 ;; p <- vec_at pub 0 ;;
  s <- mpz_powm c0 x p ;;
  m <- invert s p ;;
  c1 <- vec_at c 1 ;;
  m <- mpz_mod (m * c1) p ;;
  Ok (mpitoraw m).

(** Searches for p = k q + 1 and for a generator: ElGamal.cpp 25-40 and DSA.cpp 25-40.
    [prime_test] is mpz_probab_prime_p; neither loop is bounded in the code. *)
Fixpoint prime_from (fuel : nat) (prime_test : N -> bool) (p q : N) : result N :=
  match fuel with
  | O => Diverge
  | S f => if prime_test p then Ok p else prime_from f prime_test (p + q) q
  end.
Fixpoint generator_from (fuel : nat) (h exp p : N) : result N :=
  match fuel with
  | O => Diverge
  | S f => g <- mpz_powm h exp p ;; if g =? 1 then generator_from f (h + 1) exp p else Ok g
  end.
Fixpoint prime_within (fuel : nat) (nextprime : N -> N) (draw : list N -> result (N * list N)) (bits : N)
  (draws : list N) : result (N * list N) :=
  match fuel with
  | O => Diverge
  | S f =>
    ' (a, draws) <- draw draws ;;
    let q := nextprime a in
    if bits <? bitsize q then prime_within f nextprime draw bits draws else Ok (q, draws)
  end.
(** A number x with 0 < x < m. *)
Fixpoint exponent_below (fuel : nat) (bits m : N) (draws : list N) : result (N * list N) :=
  match fuel with
  | O => Diverge
  | S f =>
    ' (x, draws) <- random bits draws ;;
    if (x =? 0) || (m <=? x) then exponent_below f bits m draws else Ok (x, draws)
  end.
(** keygen, ElGamal.cpp 11-55. *)
Definition elgamal_keygen (fuel : nat) (nextprime : N -> N) (prime_test : N -> bool) (bits : N) (draws : list N)
  : result (list N * list N) :=
  let b5 := bits / 5 in
  ' (q, draws) <- prime_within fuel nextprime (random b5) b5 draws ;;
  let bits := b5 * 5 in
  ' (p0, draws) <- top_random bits draws ;;
  k <- mpz_div (p0 - 1) q ;;
  p <- prime_from fuel prime_test (k * q + 1) q ;;
  exp <- mpz_div (p - 1) q ;;
  g <- generator_from fuel 2 exp p ;;
  ' (x, draws) <- exponent_below fuel bits p draws ;;
  y <- mpz_powm g x p ;;
  Ok ([p; g; y; x], draws).

(** ** DSA *)
(** One round of sign, DSA.cpp 82-103, with the value of k; None when r or s is 0. *)
Definition dsa_try (data : N) (pri pub : list N) (k : N) : result (option (N * N)) :=
  g <- vec_at pub 2 ;; p <- vec_at pub 0 ;; q <- vec_at pub 1 ;;
  r <- mpz_powm g k p ;;
  r <- mpz_mod r q ;;
  if r =? 0 then Ok None
  else
    s <- invert k q ;;
    x <- vec_at pri 0 ;;
    s <- mpz_mod (s * (data + x * r)) q ;;
    if s =? 0 then Ok None else Ok (Some (r, s)).
Fixpoint dsa_rounds (fuel : nat) (data : N) (pri pub draws : list N) : result (list N * list N) :=
  match fuel with
  | O => Diverge
  | S f =>
    q <- vec_at pub 1 ;;
    ' (k, draws) <- random (bitsize q) draws ;;
    k <- mpz_mod k q ;;
    t <- dsa_try data pri pub k ;;
    match t with
    | Some (r, s) => Ok ([r; s], draws)
    | None => dsa_rounds f data pri pub draws
    end
  end.
(** sign, DSA.cpp 75-111; a given k that does not work is tried for ever. *)
Definition dsa_sign (data : N) (pri pub : list N) (k : N) (draws : list N) : result (list N * list N) :=
  if k =? 0 then dsa_rounds (S (length draws)) data pri pub draws
  else
    t <- dsa_try data pri pub k ;;
    match t with Some (r, s) => Ok ([r; s], draws) | None => Diverge end.
Definition dsa_sign_raw (data : bytes) (pri pub : list N) (k : N) (draws : list N) : result (list N * list N) :=
  m <- rawtompi data ;; dsa_sign m pri pub k draws.
(** verify, DSA.cpp 113-135.  The test is !(0 < r && r < q) & !(0 < r && s < q). *)
Definition dsa_verify (data : N) (sig pub : list N) : result bool :=
  r <- vec_at sig 0 ;;
  bad_r <- (if 0 <? r then q <- vec_at pub 1 ;; Ok (negb (r <? q)) else Ok true) ;;
  bad_s <- (if 0 <? r then s <- vec_at sig 1 ;; q <- vec_at pub 1 ;; Ok (negb (s <? q)) else Ok true) ;;
  if bad_r && bad_s then Ok false
  else
    s <- vec_at sig 1 ;; q <- vec_at pub 1 ;;
    w <- invert s q ;;
    u1 <- mpz_mod (data * w) q ;;
    u2 <- mpz_mod (r * w) q ;;
    g <- vec_at pub 2 ;; p <- vec_at pub 0 ;;
    gu <- mpz_powm g u1 p ;;
    y <- vec_at pub 3 ;;
    yu <- mpz_powm y u2 p ;;
    v <- mpz_mod (gu * yu) p ;;
    v <- mpz_mod v q ;;
    Ok (v =? r).
Definition dsa_verify_raw (data : bytes) (sig pub : list N) : result bool :=
  m <- rawtompi data ;; dsa_verify m sig pub.
(** new_public, DSA.cpp 7-43. *)
Definition dsa_new_public (fuel : nat) (nextprime : N -> N) (prime_test : N -> bool) (L n : N) (draws : list N)
  : result (list N * list N) :=
  ' (q, draws) <- prime_within fuel nextprime (top_random n) n draws ;;
  ' (p0, draws) <- top_random L draws ;;
  k <- mpz_div (p0 - 1) q ;;
  p <- prime_from fuel prime_test (k * q + 1) q ;;
  exp <- mpz_div (p - 1) q ;;
  g <- generator_from fuel 2 exp p ;;
  Ok ([p; q; g], draws).
(** keygen, DSA.cpp 45-73: tries the key on a fixed text; x keeps its value, so a failing
    key is tried again with the same x. *)
Fixpoint dsa_keygen_rounds (fuel : nat) (x : N) (pub draws : list N) : result (list N * list N * list N) :=
  match fuel with
  | O => Diverge
  | S f =>
    g <- vec_at pub 2 ;; p <- vec_at pub 0 ;;
    y <- mpz_powm g x p ;;
    let pub' := pub ++ [y] in
    ' (rs, draws) <- dsa_sign_raw (str "testing testing 123") [x] pub' 0 draws ;;
    ok <- dsa_verify_raw (str "testing testing 123") rs pub' ;;
    if ok : bool then Ok ([x], pub', draws) else dsa_keygen_rounds f x pub draws
  end.
Definition dsa_keygen (fuel : nat) (pub draws : list N) : result (list N * list N * list N) :=
  q <- vec_at pub 1 ;;
  let bits := u32 (bitsize q + (two32 - 1)) in
  ' (x, draws) <- exponent_below fuel bits q draws ;;
  dsa_keygen_rounds fuel x pub draws.

(** ** PKAs.cpp *)
(** generate_params, 39-63. *)
Definition generate_params (pka bits : N) : list N :=
  if is_RSA pka || (pka =? 16) then [bits]
  else if pka =? 17 then
    if negb (N.land bits 1023 =? 0) then [] else [bits; if bits =? 1024 then 160 else 256]
  else [].
(** generate_keypair, 65-103: the algorithm (0 on failure), secret and public values. *)
Definition generate_keypair (fuel : nat) (nextprime : N -> N) (prime_test : N -> bool) (pka : N) (params draws : list N)
  : result (N * list N * list N * list N) :=
  match params with
  | [] => Ok (0, [], [], draws)
  | b :: _ =>
    if is_RSA pka then
      ' (v, draws) <- rsa_keygen nextprime (u32 b) draws ;;
      Ok (pka, skipn 2 v, firstn 2 v, draws)
    else if pka =? 16 then
      ' (v, draws) <- elgamal_keygen fuel nextprime prime_test (u32 b) draws ;;
      Ok (pka, skipn 3 v, firstn 3 v, draws)
    else if pka =? 17 then
      n <- vec_at params 1 ;;
      ' (v, draws) <- dsa_new_public fuel nextprime prime_test (u32 b) (u32 n) draws ;;
      ' (pri, pub, draws) <- dsa_keygen fuel v draws ;;
      Ok (pka, pri, pub, draws)
    else Ok (0, [], [], draws)
  end.
