(** The manual: what the help texts are meant to say. *)
From Verif Require Import Model.Base.
Local Open Scope N_scope.

(** [a] comes before [b] in a dictionary. *)
Definition before (a b : bytes) : Prop :=
  exists p, (exists c r, a = p /\ b = p ++ c :: r) \/ exists c d r s, a = p ++ c :: r /\ b = p ++ d :: s /\ c < d.
Fixpoint alphabetical (l : list bytes) : Prop := match l with [] => True | x :: r => Forall (before x) r /\ alphabetical r end.
(** The lines of the manual of one function: its name and arguments, then its options with explanations
    and default values, then its flags. *)
Definition option_line (indent o e d : bytes) : bytes := indent ++ repeat 32 8 ++ o ++ [32] ++ e ++ str "; default value: " ++ d.
Definition manual (explained : bytes -> bytes) (name : bytes) (pos : list bytes) (opts : list (bytes * bytes)) (flags : list (bytes * bool)) (indent : bytes) : list bytes :=
  (indent ++ name ++ concat (map (fun p => 32 :: p) pos) ++ match opts, flags with [], [] => [] | _, _ => str " [options]" end) ::
  match opts with [] => [] | _ => (indent ++ str "    Optional Arguments:") :: map (fun o : bytes * bytes => option_line indent (fst o) (explained (fst o)) ([34] ++ snd o ++ [34])) opts end ++
  match flags with [] => [] | _ => [] :: (indent ++ str "    Optional Flags:") :: map (fun o : bytes * bool => option_line indent (fst o) (explained (fst o)) (if snd o then str "true" else str "false")) flags end.
Definition as_text (lines : list bytes) : bytes := concat (map (fun l => l ++ [10]) lines).
