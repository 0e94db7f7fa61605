(** ASCII armor (RFC 4880 section 6.2): lines and header keys. *)
From Verif Require Export Model.Base.
Local Open Scope nat_scope.

(** Text as lines, each ended by a newline. *)
Definition unlines (ls : list bytes) : bytes := flat_map (fun l => l ++ [10%N]) ls.

(** [ls] is [s] cut in lines of [n] characters; only the last one may be shorter. *)
Definition cut_in_lines (n : nat) (s : bytes) (ls : list bytes) : Prop :=
  concat ls = s /\ (forall l, In l ls -> 1 <= length l <= n) /\
  (forall a l b, ls = a ++ l :: b -> b <> [] -> length l = n).

(** White space of the armor reader. *)
Definition blank (c : N) : Prop := In c [32; 9; 10; 11; 12; 13]%N.

(** A header key and value that can be written on one line and told apart again: no newline,
    no colon in the key, the value not empty and without white space at its ends. *)
Definition armor_key_ok (k : bytes * bytes) : Prop :=
  ~ In 10%N (fst k) /\ ~ In 58%N (fst k) /\ ~ In 10%N (snd k) /\
  (exists c v, snd k = c :: v /\ ~ blank c) /\ (exists v c, snd k = v ++ [c] /\ ~ blank c) /\
  (N.of_nat (length (fst k) + length (snd k)) < 2 ^ 62)%N.

(** A line of [data] begins with [h]. *)
Definition line_begins (h data : bytes) : Prop :=
  exists before after, data = before ++ h ++ after /\ (before = [] \/ exists b, before = b ++ [10%N]).
