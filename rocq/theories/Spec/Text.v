(** Text as lines. *)
From Verif Require Export Spec.Armor Model.Base.

(** Lines joined by line feeds. *)
Fixpoint joined (ls : list bytes) : bytes :=
  match ls with [] => [] | [l] => l | l :: r => l ++ [10] ++ joined r end.
(** No octet of a line is a line feed. *)
Definition line (l : bytes) : Prop := ~ In 10 l.
(** A part of a line that transport may remove: spaces and tabs. *)
Definition spaces (w : bytes) : Prop := Forall (fun c => c = 32 \/ c = 9) w.
(** A line whose white space at the end is an optional carriage return, then spaces and
    tabs; [x] is what is before them. *)
Definition ends_tamely (l x : bytes) : Prop :=
  exists w, spaces w /\ (l = x ++ w \/ l = x ++ [13] ++ w) /\ (forall y c, x = y ++ [c] -> ~ blank c).
(** A line with something other than white space in it. *)
Definition visible (l : bytes) : Prop := exists ch, In ch l /\ ~ blank ch.
(** The text does not end in two lines of white space, nor in one with other white space than
    spaces and tabs (after other lines). *)
Definition ends_visibly (m : bytes) : Prop :=
  forall a b c, getlines m = a ++ [b; c] -> visible c \/ (spaces c /\ visible b).
