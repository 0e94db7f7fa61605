(** Specification vocabulary for octet strings, independent of the model's functions. *)
From Coq Require Import List NArith.
Import ListNotations.
Open Scope N_scope.

(** Value of an octet string read as a big-endian number. *)
Fixpoint be_val (s : list N) : N :=
  match s with
  | [] => 0
  | c :: r => c * 256 ^ N.of_nat (length r) + be_val r
  end.

(** The n-octet big-endian encoding of v (of v mod 256^n). *)
Fixpoint be (n : nat) (v : N) : list N :=
  match n with
  | O => []
  | S k => (v / 256 ^ N.of_nat k) mod 256 :: be k v
  end.

(** Hexadecimal digits, in both cases. *)
Definition is_hex (c : N) : Prop :=
  (48 <= c <= 57) \/ (65 <= c <= 70) \/ (97 <= c <= 102).
