(** Polynomials over GF(2), written as binary numbers (bit i is the coefficient of x^i). *)
From Coq Require Import NArith.
Open Scope N_scope.

(** Carry-less product. *)
Fixpoint clmul_pos (q : positive) (p : N) : N :=
  match q with
  | xH => p
  | xO q' => N.shiftl (clmul_pos q' p) 1
  | xI q' => N.lxor (N.shiftl (clmul_pos q' p) 1) p
  end.
Definition clmul (q p : N) : N := match q with N0 => 0 | Npos q => clmul_pos q p end.

(** r is the remainder of e divided by p, a polynomial of degree d. *)
Definition is_poly_rem (d : N) (e p r : N) : Prop :=
  r < 2 ^ d /\ exists q, e = N.lxor (clmul q p) r.

(** The CRC-24 generator of RFC 4880 section 6.1:
    x^24 + x^23 + x^18 + x^17 + x^14 + x^11 + x^10 + x^7 + x^6 + x^5 + x^4 + x^3 + x + 1 *)
Definition rfc4880_poly : N :=
  2^24 + 2^23 + 2^18 + 2^17 + 2^14 + 2^11 + 2^10 + 2^7 + 2^6 + 2^5 + 2^4 + 2^3 + 2 + 1.
(** The CRC-24 initial value of RFC 4880 section 6.1. *)
Definition rfc4880_init : N := 11994318.
