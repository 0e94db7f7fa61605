(** Cipher feedback mode and its OpenPGP variants (RFC 4880 sections 5.7, 5.13 and 13.9). *)
From Verif Require Export Model.Cfb.

(** Octet-wise exclusive or, as long as the shorter string. *)
Fixpoint xor (a b : bytes) : bytes :=
  match a, b with
  | x :: a', y :: b' => N.lxor x y :: xor a' b'
  | _, _ => []
  end.

(** A block function on blocks of [bs] octets. *)
Definition block_function (E : bytes -> bytes) (bs : nat) : Prop :=
  forall b, length b = bs -> length (E b) = bs.

(** The cipher object computes [E]: every whole block is enciphered, without exception. *)
Definition enciphers (c : cipher) (bs : nat) (E : bytes -> bytes) : Prop :=
  c_block c = N.of_nat bs /\ block_function E bs /\
  forall b, length b = bs -> c_encrypt c b = Ok (E b).

(** Cipher feedback: each block of ciphertext is the plaintext xor the enciphered feedback
    register, which then takes that ciphertext.  The last block may be short. *)
Fixpoint cfb (E : bytes -> bytes) (bs fuel : nat) (fr p : bytes) : bytes :=
  match fuel with
  | O => []
  | S f =>
    match p with
    | [] => []
    | _ => let c := xor (E fr) (firstn bs p) in c ++ cfb E bs f c (skipn bs p)
    end
  end.
Definition cfb_mode (E : bytes -> bytes) (bs : nat) (fr p : bytes) : bytes := cfb E bs (length p) fr p.

(** The last two octets of a block. *)
Definition last_two (p : bytes) : bytes := skipn (length p - 2) p.

(** Tag 18: plain CFB from zeros over prefix, repeated octets and data.  Tag 9: the same over
    prefix and repeated octets, then the register is loaded with the last block of that
    ciphertext and CFB goes on with the data. *)
Definition openpgp_cfb (E : bytes -> bytes) (bs : nat) (resync : bool) (prefix data : bytes) : bytes :=
  let zeros := repeat 0 bs in
  if resync then
    let c := cfb_mode E bs zeros (prefix ++ last_two prefix) in
    c ++ cfb_mode E bs (skipn 2 c) data
  else cfb_mode E bs zeros (prefix ++ last_two prefix ++ data).

(** Deciphered first block of an OpenPGP CFB ciphertext and the two octets that follow it. *)
Definition opened_prefix (E : bytes -> bytes) (bs : nat) (c : bytes) : bytes :=
  xor (E (repeat 0 bs)) (firstn bs c).
Definition opened_repeat (E : bytes -> bytes) (bs : nat) (c : bytes) : bytes :=
  xor (E (firstn bs c)) (firstn 2 (skipn bs c)).

(** The cipher object refuses anything but one whole block. *)
Definition refuses_others (c : cipher) (bs : nat) : Prop :=
  forall b, length b <> bs -> c_encrypt c b = Throw ERuntime.
