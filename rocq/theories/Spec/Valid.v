(** What a well-formed packet is (RFC 4880 sections 5 and 9): the registered identifiers, the
    field sizes and the number of integers.  The identifiers are listed here again, from the
    RFC; nothing below uses the tables of the model. *)
From Verif Require Export Model.Packets.

(** The numbers every registry leaves for private or experimental use. *)
Definition experimental (a : N) : Prop := 100 <= a <= 110.
(** 9.1: RSA (1, 2 encrypt-only, 3 sign-only), ElGamal 16 and 20, DSA 17, EC 18, ECDSA 19, DH 21. *)
Definition known_pka (a : N) : Prop := In a [1;2;3;16;17;18;19;20;21] \/ experimental a.
(** 9.2 and RFC 5581: plaintext 0 up to Camellia 13, reserved numbers included. *)
Definition known_cipher (a : N) : Prop := a <= 13 \/ experimental a.
(** 9.3: uncompressed, ZIP, ZLIB, BZip2. *)
Definition known_compression (a : N) : Prop := a <= 3 \/ experimental a.
(** 9.4: MD5 up to SHA-224, reserved numbers included. *)
Definition known_hash (a : N) : Prop := 1 <= a <= 11 \/ experimental a.
(** 5.2.1 *)
Definition known_signature_type (t : N) : Prop :=
  t <= 0x02 \/ 0x10 <= t <= 0x13 \/ In t [0x18;0x19;0x1F;0x20;0x28;0x30;0x40;0x50].
(** 5.2.3.23 *)
Definition known_reason (c : N) : Prop := c <= 3 \/ c = 32 \/ experimental c.
(** 5.2.3.17, 5.2.3.21, 5.2.3.24: the bit numbers of no-modify; of certify, sign, encrypt
    (two), split, authenticate, shared; of modification detection. *)
Definition preference_bits : list N := [7].
Definition key_flag_bits : list N := [0;1;2;3;4;5;7].
Definition feature_bits : list N := [0].
(** Octets of a digest; the other numbers have no algorithm. *)
Definition digest_octets (h : N) : option N :=
  match h with
  | 1 => Some 16 | 2 => Some 20 | 3 => Some 20 | 8 => Some 32 | 9 => Some 48 | 10 => Some 64 | 11 => Some 28
  | _ => None
  end.
(** Octets of a cipher block; the other numbers have no algorithm. *)
Definition block_octets (a : N) : option N :=
  if (1 <=? a) && (a <=? 4) then Some 8 else if (7 <=? a) && (a <=? 13) then Some 16 else None.

(** Every bit set in the flag octets is a known one. *)
Definition only_bits (bits : list N) (flags : bytes) : Prop :=
  forall o b, In o flags -> b < 8 -> N.testbit o b = true -> In b bits.

(** One subpacket; [embedded] says when an embedded signature is well-formed. *)
Definition sub_ok {S} (regex_ok : bytes -> bool) (embedded : S -> Prop) (s : sub S) : Prop :=
  match s with
  | Sub6 r => regex_ok r = true
  | Sub11 d => forall a, In a d -> known_cipher a
  | Sub12 c p f => N.testbit c 7 = true /\ known_pka p /\ len f = 20
  | Sub16 k => len k = 8
  | Sub20 f _ _ => len f = 4 /\ forall a, In a f -> a = 0 \/ a = 0x80
  | Sub21 d => forall a, In a d -> known_hash a
  | Sub22 d => forall a, In a d -> known_compression a
  | Sub23 d => only_bits preference_bits d
  | Sub27 d => only_bits key_flag_bits d
  | Sub29 c _ => known_reason c
  | Sub30 d => only_bits feature_bits d
  | Sub31 p h d => known_pka p /\ digest_octets h = Some (len d)
  | Sub32 e => exists x, e = Some x /\ embedded x
  | _ => True
  end.

(** Number of integers of a signature (5.2.2), of a session key (5.1) and of a public key
    (5.5.2), for the algorithms that have them. *)
Definition sig_integers (pka : N) : option nat :=
  match pka with 1 | 3 => Some 1%nat | 17 => Some 2%nat | _ => None end.
Definition session_integers (pka : N) : option nat :=
  match pka with 1 | 2 => Some 1%nat | 16 => Some 2%nat | _ => None end.
Definition key_integers (pka : N) : option nat :=
  match pka with 1 | 2 | 3 => Some 2%nat | 16 => Some 3%nat | 17 => Some 4%nat | _ => None end.

(** A well-formed signature; [mpis] asks for the integer count too.  [embedded] as above. *)
Definition sig_ok regex_ok (embedded : tag2 -> Prop) (mpis : bool) (s : tag2) : Prop :=
  (t2_version s = 3 \/ t2_version s = 4) /\ known_signature_type (t2_type s) /\
  sig_integers (t2_pka s) <> None /\ known_hash (t2_hash s) /\ len (t2_left16 s) = 2 /\
  (mpis = true -> sig_integers (t2_pka s) = Some (length (t2_mpi s))) /\
  (t2_version s = 4 -> forall c x, In (c, x) (t2_hashed s ++ t2_unhashed s) -> sub_ok regex_ok embedded x).

(** A well-formed public key: version 3 is RSA only. *)
Definition key_ok (mpis : bool) (k : key) : Prop :=
  (k_version k = 3 /\ 1 <= k_pka k <= 3 \/ k_version k = 4 /\ known_pka (k_pka k)) /\
  (mpis = true -> key_integers (k_pka k) = Some (length (k_mpi k))).

(** A string-to-key specifier (3.7): simple, salted, iterated and salted. *)
Definition s2k_ok (s : s2k) : Prop :=
  known_hash (s2k_hash s) /\
  (s2k_kind s = S2K0 /\ s2k_type s = 0 \/
   s2k_kind s = S2K1 /\ s2k_type s = 1 /\ len (s2k_salt s) = 8 \/
   s2k_kind s = S2K3 /\ s2k_type s = 3 /\ len (s2k_salt s) = 8).

(** The protection of a secret key (5.5.3): none, or a specifier and an initial vector of one
    block.  [specifier] is what is asked of the string-to-key specifier. *)
Definition protection_ok (specifier : s2k -> Prop) (s : secret) : Prop :=
  sk_con s = 0 \/
  block_octets (sk_sym s) = Some (len (sk_iv s)) /\
  ((sk_con s = 254 \/ sk_con s = 255) -> exists k, sk_s2k s = Some k /\ specifier k).

(** A well-formed body of a packet with tag [tag]. *)
Definition packet_ok regex_ok (embedded : tag2 -> Prop) (specifier : s2k -> Prop) (mpis : bool) (tag : N) (c : contents) : Prop :=
  match c with
  | PSession v keyid pka mpi => v = 3 /\ len keyid = 8 /\ session_integers pka <> None /\
                                (mpis = true -> session_integers pka = Some (length mpi))
  | PSig s => sig_ok regex_ok embedded mpis s
  | PSymSession v sym s _ => v = 4 /\ known_cipher sym /\ exists k, s = Some k /\ s2k_ok k
  | POnePass v type hash pka keyid _ => v = 3 /\ known_signature_type type /\ known_hash hash /\ known_pka pka /\ len keyid = 8
  | PSecret k s => key_ok mpis k /\ protection_ok specifier s
  | PKey k => key_ok mpis k
  | PCompressed a _ => known_compression a
  | PLiteral format _ _ _ => In format (str "btu")
  | PAttributes l => forall i, In i l -> im_version i = 1 /\ im_encoding i = 1
  | PProtected v _ => v = 1
  | PRaw d => (tag = 9 -> 2 <= len d) /\ (tag = 10 -> d = str "PGP") /\ tag <> 12 /\ (tag = 19 -> len d = 20)
  end.
