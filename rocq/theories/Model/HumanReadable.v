(** Model of src/common/HumanReadable.cpp. *)
From Verif Require Import Model.Base.

(** The object: HumanReadable.h members; constructors HumanReadable.cpp 12-24. *)
Record hr := mkHR { hr_indent : bytes; hr_prefix : bytes; hr_data : bytes; hr_level : nat }.

(** duplicate_string, 3-10. *)
Fixpoint duplicate_string (src : bytes) (times : nat) : bytes :=
  match times with O => [] | S k => src ++ duplicate_string src k end.

(** The two constructors, 12-24. *)
Definition hr_new_size (indent_size depth : nat) (indent_char : N) : hr :=
  let i := repeat indent_char indent_size in mkHR i (duplicate_string i depth) [] 0.
Definition hr_new (pre ind : bytes) : hr := mkHR ind pre [] 0.

(** up 26-32, down 34-36, operator<<(string) 46-55. *)
Definition hr_up (h : hr) : hr :=
  mkHR (hr_indent h) (hr_prefix h) (hr_data h)
       (match hr_level h with O => O | S k => k end).
Definition hr_down (h : hr) : hr :=
  mkHR (hr_indent h) (hr_prefix h) (hr_data h) (S (hr_level h)).
Definition hr_print (h : hr) (s : bytes) : hr :=
  mkHR (hr_indent h) (hr_prefix h)
       (hr_data h ++ hr_prefix h ++ duplicate_string (hr_indent h) (hr_level h) ++ s ++ [10])
       (hr_level h).

(** operator<<(Move) 57-67. *)
Inductive hr_op := OpUp | OpDown | OpPrint (s : bytes).
Definition hr_step (h : hr) (o : hr_op) : hr :=
  match o with OpUp => hr_up h | OpDown => hr_down h | OpPrint s => hr_print h s end.
Definition hr_run (h : hr) (ops : list hr_op) : hr := fold_left hr_step ops h.
