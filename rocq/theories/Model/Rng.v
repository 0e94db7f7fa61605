(** Random numbers: src/RNG/BBS.cpp and src/RNG/RAND_bytes.cpp. *)
From Verif Require Export Model.Pka Model.Includes.

(** The static members of BBS: seeded, state, m (include/RNG/BBS.h). *)
Record bbs := mkBbs { bbs_seeded : bool; bbs_state : N; bbs_m : N }.

(** Search for a prime that is 3 modulo 4, BBS.cpp 27-34: unbounded in the code. *)
Fixpoint blum_from (fuel : nat) (nextprime : N -> N) (p : N) : result N :=
  match fuel with
  | O => Diverge
  | S f => if N.land p 3 =? 3 then Ok p else blum_from f nextprime (nextprime (p + 1))
  end.
(** Second search, 36-46: the condition needs pq_gcd < 1024, which starts at 1025. *)
Fixpoint blum2_from (fuel : nat) (nextprime : N -> N) (p q pq_gcd : N) : result N :=
  match fuel with
  | O => Diverge
  | S f =>
    if negb (N.land q 3 =? 3) && (pq_gcd <? 1024) then
      let q' := nextprime (q + 1) in blum2_from f nextprime p q' (N.gcd (p - 1) (q' - 1))
    else Ok q
  end.
(** BBS::init, BBS.cpp 15-52.  [r1], [r2]: the two numbers drawn from GMP's generator. *)
Definition bbs_init (fuel : nat) (nextprime : N -> N) (seed p q r1 r2 : N) (b : bbs) : result bbs :=
  if bbs_seeded b then Ok b
  else
    p <- (if p =? 0 then blum_from fuel nextprime (nextprime r1) else Ok p) ;;
    q <- (if q =? 0 then blum2_from fuel nextprime p (nextprime r2) 1025 else Ok q) ;;
    Ok (mkBbs true seed (p * q)).

(** BBS::parity, 58-73; [par] is "least", "odd" or anything else. *)
Fixpoint ones (p : positive) : bool :=
  match p with xH => true | xO p' => ones p' | xI p' => negb (ones p') end.
Inductive parity_kind := Least | Odd | Even.
Definition parity (k : parity_kind) (state : N) : bool :=
  match k with
  | Least => N.odd state
  | Odd => negb (match state with 0 => false | Npos p => ones p end)
  | Even => match state with 0 => false | Npos p => ones p end
  end.
(** BBS::rand_bits, 87-98 (r_number, 54-56), once seeded. *)
Fixpoint bbs_rand_bits (n : nat) (k : parity_kind) (b : bbs) : result (bytes * bbs) :=
  match n with
  | O => Ok ([], b)
  | S n' =>
    s <- mpz_powm (bbs_state b) 2 (bbs_m b) ;;
    let b' := mkBbs (bbs_seeded b) s (bbs_m b) in
    ' (out, b'') <- bbs_rand_bits n' k b' ;;
    Ok ((if parity k s then 49 else 48) :: out, b'')
  end.
(** BBS::rand_bytes, 100-102: bytes << 3 is an unsigned int. *)
Definition bbs_rand_bytes (bytes : N) (k : parity_kind) (b : bbs) : result (list N * bbs) :=
  ' (bits, b') <- bbs_rand_bits (N.to_nat (u32 (N.shiftl bytes 3))) k b ;;
  out <- unbinify bits ;;
  Ok (out, b').

(** RAND_bytes::rand_bytes, RAND_bytes.cpp 42-57.  [source n] is what OpenSSL puts in a
    buffer of n octets, None when all attempts fail. *)
Definition ssl_rand_bytes (source : N -> option bytes) (n : N) : result bytes :=
  match source n with Some b => Ok b | None => Throw ERuntime end.
(** RAND_bytes::rand_bits, 38-40. *)
Definition ssl_rand_bits (source : N -> option bytes) (bits : N) : result bytes :=
  b <- ssl_rand_bytes source (u32 (N.shiftr bits 3 + (if N.land bits 255 =? 0 then 0 else 1))) ;;
  substr (binify b 0) 0 bits.
