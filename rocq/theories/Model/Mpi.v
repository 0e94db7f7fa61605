(** Model of src/Misc/mpi.cpp.  MPI is GMP's mpz_class; the code only ever holds
    non-negative values, which are modelled by [N].  GMP operations are replaced by their
    mathematical meaning. *)
From Verif Require Import Model.Base Model.Includes Spec.Bytes.

(** bitsize, mpi.cpp 49-51: number of characters of get_str(2); "0" has one. *)
Definition bitsize (a : N) : N := N.max 1 (N.size a).

(** mpitohex / mpitoraw, mpi.cpp 25-31, 41-43: hexadecimal digits padded to an even
    number, then unhexlify; zero is one zero octet.  The number of octets is therefore
    ceil(bits/8), at least one.  [be] is unhexlify(makehex(.)) by lemma unhexlify_makehex. *)
Definition mpitoraw (a : N) : bytes := be (N.to_nat ((bitsize a + 7) / 8)) a.

(** rawtompi, mpi.cpp 21-23: mpz_class(hexlify(raw), 16) throws std::invalid_argument
    for the empty string. *)
Definition rawtompi (s : bytes) : result N :=
  match s with [] => Throw EInvalidArgument | _ => Ok (be_val s) end.

(** bintompi, mpi.cpp 17-19, on strings of the characters 0 and 1. *)
Definition bintompi (s : bytes) : result N :=
  match s with
  | [] => Throw EInvalidArgument
  | _ => Ok (fold_left (fun v c => 2 * v + (c - 48)) s 0)
  end.

(** write_MPI, mpi.cpp 90-93: the 16-bit bit count truncates. *)
Definition write_MPI (a : N) : bytes := be 2 (bitsize a) ++ mpitoraw a.

(** read_MPI, mpi.cpp 96-115.  Returns the value and the new position.  [size] is a
    uint16_t: rounding 65529..65535 up to a multiple of 8 wraps to 0. *)
Definition read_MPI (data : bytes) (pos : N) : result (N * N) :=
  hi <- at_ data pos ;;
  lo <- at_ data (pos + 1) ;;
  let bits := u16 (N.lor (N.shiftl (u8 hi) 8) (u8 lo)) in
  let size := u16 ((bits + 7) / 8 * 8) / 8 in
  raw <- substr data (pos + 2) size ;;
  v <- rawtompi raw ;;
  Ok (v, pos + 2 + size).

(** powm, mpi.cpp 73-77 (mpz_powm_sec): modular exponentiation by squaring; the result
    is the mathematical residue.  Only called with mod <> 0. *)
Fixpoint powm_pos (b : N) (e : positive) (m : N) : N :=
  match e with
  | xH => b mod m
  | xO e' => let r := powm_pos b e' m in (r * r) mod m
  | xI e' => let r := powm_pos b e' m in (((r * r) mod m) * b) mod m
  end.
Definition powm (b e m : N) : N :=
  match e with N0 => 1 mod m | Npos p => powm_pos b p m end.
