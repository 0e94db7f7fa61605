(** Iterated hash functions (RFC 1321, FIPS 180-4, RIPEMD-160): padding and iteration. *)
From Verif Require Export Model.Hashes.
Local Open Scope N_scope.

(** Little-endian number. *)
Fixpoint le_val (s : bytes) : N :=
  match s with [] => 0 | c :: s' => c + 256 * le_val s' end.

(** [s] in pieces of [n] elements. *)
Fixpoint pieces (n : nat) (fuel : nat) (s : bytes) : list bytes :=
  match fuel with
  | O => []
  | S f => match s with [] => [] | _ => firstn n s :: pieces n f (skipn n s) end
  end.
Definition split_in (n : nat) (s : bytes) : list bytes := pieces n (length s) s.

(** What the standards fix for each hash identifier: octets per block, octets of the length
    field, octets per word, little-endian words, octets of the digest. *)
Record shape := mkShape { sh_block : N; sh_len : nat; sh_word : nat; sh_little : bool; sh_out : nat }.
Definition shapes : list (N * shape) :=
  [(1, mkShape 64 8 4 true 16); (2, mkShape 64 8 4 false 20); (3, mkShape 64 8 4 true 20);
   (8, mkShape 64 8 4 false 32); (9, mkShape 128 16 8 false 48); (10, mkShape 128 16 8 false 64);
   (11, mkShape 64 8 4 false 28)].

(** Padding: a one bit, the fewest zeros that complete a block with the length field, and
    the length in bits. *)
Definition pad (h : shape) (m : bytes) : bytes :=
  let zeros := (sh_block h - (len m + 1 + N.of_nat (sh_len h)) mod sh_block h) mod sh_block h in
  let bits := be (sh_len h) (8 * len m) in
  m ++ [128] ++ repeat 0 (N.to_nat zeros) ++ (if sh_little h then rev bits else bits).

(** The words of a block, and the digest: the compression function (of [A]) over all blocks
    of the padded message. *)
Definition words (h : shape) (b : bytes) : list N :=
  map (if sh_little h then le_val else be_val) (split_in (sh_word h) b).
Definition digest_spec (A : md) (h : shape) (m : bytes) : bytes :=
  md_out A (fold_left (md_block A) (map (words h) (split_in (N.to_nat (sh_block h)) (pad h m))) (md_init A)).

(** Use of a hash object: pieces of data and requests for the digest in any order. *)
Inductive hash_op := Update (s : bytes) | Digest.
Fixpoint hash_ops (A : md) (s : md_state A) (ops : list hash_op) : list bytes :=
  match ops with
  | [] => []
  | Update d :: ops' => hash_ops A (md_update A s d) ops'
  | Digest :: ops' => md_digest A s :: hash_ops A s ops'
  end.
(** What the requests should give: the digest of all data so far. *)
Fixpoint digests (A : md) (h : shape) (sofar : bytes) (ops : list hash_op) : list bytes :=
  match ops with
  | [] => []
  | Update d :: ops' => digests A h (sofar ++ d) ops'
  | Digest :: ops' => digest_spec A h sofar :: digests A h sofar ops'
  end.
(** All data fed. *)
Fixpoint fed (ops : list hash_op) : bytes :=
  match ops with
  | [] => []
  | Update d :: ops' => d ++ fed ops'
  | Digest :: ops' => fed ops'
  end.
