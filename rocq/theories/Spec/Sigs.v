(** What it means for a signature to be accepted by a public key. *)
From Verif Require Export Spec.Keys Spec.Primes Spec.KeyGrammar Model.Key Model.Pkcs1.

(** The secret integers [pri] belong to the public integers [pub] (RFC 4880 section 5.5.2
    and 5.5.3): RSA n, e and d; DSA p, q, g, y and x. *)
Definition key_pair (pka : N) (pri pub : list N) : Prop :=
  if pka =? 17
  then exists p q g y x more more', pub = p :: q :: g :: y :: more /\ pri = x :: more' /\ dsa_key p q g y x
  else exists n e d more more', pub = n :: e :: more /\ pri = d :: more' /\ rsa_key n e d.

(** The public-key check of a signature with integers [vals] over a digest (section 5.2.2):
    RSA, the e-th power is the EMSA-PKCS1-v1_5 block of the digest; DSA, the equation of
    FIPS 186 with w the inverse of s, or 0 if s has none. *)
Definition accepts (pka hash : N) (digest : bytes) (pub vals : list N) : Prop :=
  ((pka = 1 \/ pka = 3) /\ exists n e more s more' em, pub = n :: e :: more /\ vals = s :: more' /\
     emsa_encode hash digest (bitsize n / 8) = Ok em /\ s ^ e mod n = be_val em) \/
  (pka = 17 /\ exists p q g y more r s more' w, pub = p :: q :: g :: y :: more /\ vals = r :: s :: more' /\
     (1 < q -> (w * s) mod q = 1 \/ (N.gcd s q <> 1 /\ w = 0)) /\
     (g ^ ((be_val digest * w) mod q) * y ^ ((r * w) mod q)) mod p mod q = r).

(** The key packet [p] of a transferable key holds the public fields of [k]. *)
Definition holds (p : packet) (k : key) : Prop :=
  exists k', (p_body p = PKey k' \/ exists s, p_body p = PSecret k' s) /\ same_public k' k.
(** The transferable key [g] has primary key [k]. *)
Definition has_primary (g : pgp) (k : key) : Prop := exists p rest, g_packets g = p :: rest /\ holds p k.
(** A secret key whose primary key, with secret part [sec], can sign: algorithm 1, 3 or 17. *)
Definition signs_with (g : pgp) (k : key) (sec : secret) : Prop :=
  exists p rest, g_packets g = p :: rest /\ p_body p = PSecret k sec /\ In (k_pka k) [1; 3; 17].

(** One of the signing keys of [g] accepts the integers of signature [s] for these octets,
    with the hash and public-key algorithm the signature names. *)
Definition signed_under (g : pgp) (s : tag2) (octets : bytes) : Prop :=
  exists p k digest, In p (g_packets g) /\ In (p_tag p) [5; 6; 7; 14] /\
    (p_body p = PKey k \/ exists x, p_body p = PSecret k x) /\ In (k_pka k) [1; 3; 17] /\
    hash_use (t2_hash s) octets = Ok digest /\ accepts (t2_pka s) (t2_hash s) digest (k_mpi k) (t2_mpi s).

(** The values the check of [s] with [k] needs are there: RSA n (odd) and e, and one integer;
    DSA p (odd), q (not 0), g and y, and two integers. *)
Definition checkable (k : key) (s : tag2) : Prop :=
  match t2_pka s with
  | 1 | 3 => exists n e m v w, k_mpi k = n :: e :: m /\ t2_mpi s = v :: w /\ N.odd n = true
  | 17 => exists p q g y m r v w, k_mpi k = p :: q :: g :: y :: m /\ t2_mpi s = r :: v :: w /\ N.odd p = true /\ q <> 0
  | _ => True
  end.
