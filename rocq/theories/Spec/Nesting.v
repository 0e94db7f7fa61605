(** Specification of indented output: independent of HumanReadable's state machine. *)
From Coq Require Import List ZArith.
From Verif Require Import Model.HumanReadable.
Import ListNotations.
Local Open Scope Z_scope.

(** Net number of "down" moves of a sequence of operations. *)
Fixpoint net (ops : list hr_op) : Z :=
  match ops with
  | [] => 0
  | OpDown :: r => 1 + net r
  | OpUp :: r => -1 + net r
  | OpPrint _ :: r => net r
  end.

(** The nesting level after [ops], when "up" at the outermost level is ignored: the
    largest net count of any suffix of [ops]. *)
Definition nesting (ops : list hr_op) (n : Z) : Prop :=
  (exists pre suf, ops = pre ++ suf /\ net suf = n) /\
  (forall pre suf, ops = pre ++ suf -> net suf <= n).

(** [times n s]: s repeated n times. *)
Definition times (n : nat) (s : list N) : list N := concat (repeat s n).

(** The text [ops] must print: one line per print, indented by the nesting level at that
    point. *)
Inductive rendered (pre ind : list N) : list hr_op -> list N -> Prop :=
| R_nil : rendered pre ind [] []
| R_move ops o out : rendered pre ind ops out -> (o = OpUp \/ o = OpDown) ->
    rendered pre ind (ops ++ [o]) out
| R_print ops s out n : rendered pre ind ops out -> nesting ops (Z.of_nat n) ->
    rendered pre ind (ops ++ [OpPrint s]) (out ++ pre ++ times n ind ++ s ++ [10%N]).
