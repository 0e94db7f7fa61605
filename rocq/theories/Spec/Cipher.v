(** What is expected of a block cipher object. *)
From Verif Require Export Model.Ciphers.

(** Every whole block is enciphered to a block of the same size, and deciphering that gives
    the block back. *)
Definition inverts (c : cipher) (bs : nat) : Prop :=
  forall b, octets b -> length b = bs ->
  exists e, c_encrypt c b = Ok e /\ octets e /\ length e = bs /\ c_decrypt c e = Ok b.

(** Anything but a whole block is refused, by both operations. *)
Definition whole_blocks (c : cipher) (bs : nat) : Prop :=
  forall b, length b <> bs -> c_encrypt c b = Throw ERuntime /\ c_decrypt c b = Throw ERuntime.

(** Octets in a block, by algorithm number: 8 for the older ciphers, 16 for the others. *)
Definition block_octets (alg : N) : nat := if alg <? 7 then 8%nat else 16%nat.

(** Octets in a key, by algorithm number (RFC 4880 section 9.2, RFC 5581). *)
Definition key_octets (alg : N) : nat :=
  match alg with
  | 1 | 3 | 4 | 7 | 11 => 16%nat | 2 | 8 | 12 => 24%nat | 9 | 10 | 13 => 32%nat | _ => 0%nat
  end.
(** The ciphers the library offers. *)
Definition offered : list N := [1; 2; 3; 4; 7; 8; 9; 10; 11; 12; 13].

(** Every string of [bs] values is enciphered, to as many. *)
Definition enciphers_blocks (c : cipher) (bs : nat) : Prop :=
  forall b, length b = bs -> exists e, c_encrypt c b = Ok e /\ length e = bs.
