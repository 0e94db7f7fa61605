(** What is expected of the octets a signature covers. *)
From Verif Require Export Model.Sigcalc Spec.Keys.

(** A text as lines, each with its own ending (LF, or CR LF), and a last line without ending.
    A line contains no LF and does not end with CR. *)
Definition plain_line (l : bytes) : Prop := ~ In 10 l /\ forall l', l <> l' ++ [13].
Definition LF : bytes := [10].
Definition CRLF : bytes := [13; 10].
Definition text (ls : list (bytes * bool)) (last : bytes) : bytes :=
  concat (map (fun x => fst x ++ if snd x : bool then CRLF else LF) ls) ++ last.
Definition crlf_text (ls : list bytes) : bytes := concat (map (fun l => l ++ CRLF) ls).

(** Hashed subpackets a version 4 signature can carry. *)
Definition hashed_fits (s : tag2) : Prop :=
  t2_version s = 4 /\ allP (fun c => sub_fits sig_fits (snd c)) (t2_hashed s) /\
  len (area tag2_raw (t2_hashed s)) < 2 ^ 16.

(** Last value of a kind of subpacket in an area, if there is one. *)
Fixpoint last_value (f : sub tag2 -> option N) (l : list (bool * sub tag2)) (v : N) : N :=
  match l with
  | [] => v
  | c :: l' => last_value f l' (match f (snd c) with Some x => x | None => v end)
  end.
Definition creation (x : sub tag2) : option N := match x with Sub2 t => Some t | _ => None end.
Definition sig_expiry (x : sub tag2) : option N := match x with Sub3 t => Some t | _ => None end.
Definition key_expiry (x : sub tag2) : option N := match x with Sub9 t => Some t | _ => None end.

(** The same signature with another unhashed area. *)
Definition with_unhashed (s : tag2) (us : list (bool * sub tag2)) : tag2 :=
  let 'mkTag2 v ty p h m l ti k hs _ := s in mkTag2 v ty p h m l ti k hs us.
