(** Base vocabulary of the model: outcomes, octet strings and the C++ string
    operations the code uses.  No proofs here. *)
From Coq Require Export Ascii String.
From Coq Require Export NArith ZArith Lia Bool List.
Export ListNotations.
#[global] Open Scope N_scope.

(** Kinds of C++ exceptions the code can raise.  ERuntime: std::runtime_error thrown
    by the library itself; EOutOfRange: std::out_of_range from std::string::substr or
    std::map::at; EInvalidArgument: std::invalid_argument from GMP's mpz_class(string);
    ELogic: std::logic_error. *)
Inductive exn := ERuntime | EOutOfRange | EInvalidArgument | ELogic.

(** Outcome of a C++ function: normal return, exception, undefined behaviour, or
    non-termination (used only for loops that provably never exit). *)
Inductive result (A : Type) : Type :=
| Ok (a : A)
| Throw (e : exn)
| UB
| Diverge.
Arguments Ok {A} a.
Arguments Throw {A} e.
Arguments UB {A}.
Arguments Diverge {A}.

(** A computation that neither hits undefined behaviour nor diverges. *)
Definition safe {A} (r : result A) : Prop :=
  match r with Ok _ | Throw _ => True | UB | Diverge => False end.

Definition bind {A B} (m : result A) (f : A -> result B) : result B :=
  match m with
  | Ok a => f a
  | Throw e => Throw e
  | UB => UB
  | Diverge => Diverge
  end.

Declare Scope result_scope.
Notation "x <- m ;; k" := (bind m (fun x => k))
  (at level 61, m at next level, right associativity) : result_scope.
Notation "' p <- m ;; k" := (bind m (fun p => k))
  (at level 61, p pattern, m at next level, right associativity) : result_scope.
#[global] Open Scope result_scope.

(** Octet strings (std::string).  Characters are N; a real string satisfies [octets]. *)
Definition bytes := list N.
Definition octets (s : bytes) : Prop := Forall (fun c => c < 256) s.
Definition octetsb (s : bytes) : bool := forallb (fun c => c <? 256) s.
Definition len (s : bytes) : N := N.of_nat (length s).

(** String literals. *)
Fixpoint str (s : string) : bytes :=
  match s with
  | EmptyString => []
  | String a r => N_of_ascii a :: str r
  end.

(** Unsigned integer types. *)
Definition two64 : N := 18446744073709551616.
Definition two32 : N := 4294967296.
Definition u8 (x : N) : N := x mod 256.
Definition u16 (x : N) : N := x mod 65536.
Definition u32 (x : N) : N := x mod two32.
Definition u64 (x : N) : N := x mod two64.
(** size_t subtraction, wrapping. *)
Definition sub64 (a b : N) : N := (a + (two64 - b mod two64)) mod two64.

(** std::string::operator[] : s[size()] is the terminating NUL (C++11), beyond it is
    undefined behaviour. *)
Definition at_ (s : bytes) (p : N) : result N :=
  if p <? len s then
    match nth_error s (N.to_nat p) with Some c => Ok c | None => UB end
  else if p =? len s then Ok 0
  else UB.

(** std::string::substr(p, n): throws std::out_of_range if p > size(), otherwise the
    at most n characters from p. *)
Definition substr (s : bytes) (p n : N) : result bytes :=
  if len s <? p then Throw EOutOfRange
  else Ok (firstn (N.to_nat (N.min n (len s - p))) (skipn (N.to_nat p) s)).

(** std::string::substr(0, n) never throws. *)
Definition prefix (s : bytes) (n : N) : bytes := firstn (N.to_nat (N.min n (len s))) s.

(** std::vector::operator[] : out of range is undefined behaviour. *)
Definition vec_at {A} (v : list A) (i : nat) : result A :=
  match nth_error v i with Some x => Ok x | None => UB end.

(** Equality of strings (std::string::operator==). *)
Fixpoint beq (a b : bytes) : bool :=
  match a, b with
  | [], [] => true
  | x :: a', y :: b' => (x =? y) && beq a' b'
  | _, _ => false
  end.

(** std::map::at on the code's constant tables (association lists). *)
Fixpoint map_at {A} (m : list (N * A)) (k : N) : result A :=
  match m with
  | [] => Throw EOutOfRange
  | (k', v) :: m' => if k' =? k then Ok v else map_at m' k
  end.

(** std::map::find on the code's constant tables: is the key present? *)
Definition map_mem {A} (m : list (N * A)) (k : N) : bool :=
  existsb (fun kv => fst kv =? k) m.

(** Lines of std::getline over a std::stringstream holding [s]: a '\n' ends a line; a
    final part without '\n' is a line only if it is non-empty. *)
Fixpoint getlines_aux (cur : bytes) (s : bytes) : list bytes :=
  match s with
  | [] => match cur with [] => [] | _ => [rev cur] end
  | c :: r => if c =? 10 then rev cur :: getlines_aux [] r else getlines_aux (c :: cur) r
  end.
Definition getlines (s : bytes) : list bytes := getlines_aux [] s.
