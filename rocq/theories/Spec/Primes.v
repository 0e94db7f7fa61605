(** Prime numbers. *)
From Coq Require Export NArith.
Definition is_prime (p : N) : Prop := (1 < p)%N /\ forall d, N.divide d p -> d = 1%N \/ d = p.
Local Open Scope N_scope.

(** RSA key: n = p q for different odd primes, e d = 1 modulo (p-1)(q-1). *)
Definition rsa_key (n e d : N) : Prop :=
  exists p q, is_prime p /\ is_prime q /\ p <> q /\ N.odd p = true /\ N.odd q = true /\
    n = p * q /\ (e * d) mod ((p - 1) * (q - 1)) = 1.
(** ElGamal key: an odd prime, a residue g that is not zero, y = g^x. *)
Definition elgamal_key (p g y x : N) : Prop :=
  is_prime p /\ N.odd p = true /\ g mod p <> 0 /\ y = g ^ x mod p.
(** DSA key: a prime q, an odd p, g of order dividing q, y = g^x. *)
Definition dsa_key (p q g y x : N) : Prop :=
  1 < p /\ N.odd p = true /\ is_prime q /\ g ^ q mod p = 1 /\ y = g ^ x mod p.
