(** What it means that a copy is a copy and is independent: the value an object stands for, what
    can be reached from it, and everything that can be done through pointers one holds. *)
From Verif Require Import Model.Heap.

Fixpoint all {A} (f : addr -> option A) (l : list addr) : option (list A) :=
  match l with
  | [] => Some []
  | a :: r => match f a, all f r with Some x, Some r => Some (x :: r) | _, _ => None end
  end.
Definition maybe {A} (f : addr -> option A) (p : option addr) : option (option A) :=
  match p with None => Some None | Some a => match f a with Some x => Some (Some x) | None => None end end.
Definition s2k_value (h : heap) (a : addr) : option s2k := match nth_error h a with Some (CS2k s) => Some s | _ => None end.
Definition string_value (h : heap) (a : addr) : option bytes := match nth_error h a with Some (CString s) => Some s | _ => None end.
Definition image_value (h : heap) (a : addr) : option image := match nth_error h a with Some (CImage i) => Some i | _ => None end.
Definition sig_of (p : option packet) : option tag2 := match p with Some p => match p_body p with PSig s => Some s | _ => None end | None => None end.
Definition sub_of (sig : addr -> option tag2) (s : sub addr) : option (sub tag2) :=
  match s with
  | Sub2 t => Some (Sub2 t) | Sub3 t => Some (Sub3 t) | Sub4 e => Some (Sub4 e) | Sub5 l a => Some (Sub5 l a) | Sub6 r => Some (Sub6 r)
  | Sub7 r => Some (Sub7 r) | Sub9 t => Some (Sub9 t) | Sub10 s => Some (Sub10 s) | Sub11 p => Some (Sub11 p) | Sub12 c p f => Some (Sub12 c p f)
  | Sub16 k => Some (Sub16 k) | Sub20 f m n => Some (Sub20 f m n) | Sub21 p => Some (Sub21 p) | Sub22 p => Some (Sub22 p) | Sub23 f => Some (Sub23 f)
  | Sub24 p => Some (Sub24 p) | Sub25 p => Some (Sub25 p) | Sub26 u => Some (Sub26 u) | Sub27 f => Some (Sub27 f) | Sub28 s => Some (Sub28 s)
  | Sub29 c r => Some (Sub29 c r) | Sub30 f => Some (Sub30 f) | Sub31 p a h => Some (Sub31 p a h)
  | Sub32 e => match maybe sig e with Some e => Some (Sub32 e) | None => None end
  end.
Definition sub_value (sig : addr -> option tag2) (h : heap) (a : addr) : option (bool * sub tag2) :=
  match nth_error h a with Some (CSub c s) => match sub_of sig s with Some s => Some (c, s) | None => None end | _ => None end.
Definition body_value (sig : addr -> option tag2) (h : heap) (b : hcontents) : option contents :=
  match b with
  | HSig v t p ha m l ti k hs us =>
    match all (sub_value sig h) hs, all (sub_value sig h) us with
    | Some hs, Some us => Some (PSig (mkTag2 v t p ha m l ti k hs us))
    | _, _ => None
    end
  | HSymSession v s s2k esk => match maybe (s2k_value h) s2k, maybe (string_value h) esk with Some s2k, Some esk => Some (PSymSession v s s2k esk) | _, _ => None end
  | HSecret k c s s2k iv x => match maybe (s2k_value h) s2k with Some s2k => Some (PSecret k (mkSecret c s s2k iv x)) | None => None end
  | HAttributes l => match all (image_value h) l with Some l => Some (PAttributes l) | None => None end
  | HPlain c => Some c
  end.
(** The packet, as the rest of the model knows it, that the object at an address stands for: it
    exists for every object without dangling pointers whose embedded signatures are nested less
    than [n] deep. *)
Fixpoint value (n : nat) (h : heap) (a : addr) : option packet :=
  match n with
  | O => None
  | S n =>
    match nth_error h a with
    | Some (CPacket t f p b) => match body_value (fun e => sig_of (value n h e)) h b with Some b => Some (mkPacket t f p b) | None => None end
    | _ => None
    end
  end.
Definition pgp_value (n : nat) (h : heap) (g : hpgp) : option pgp :=
  match all (value n h) (hg_packets g) with Some ps => Some (mkPgp (hg_armored g) (hg_type g) (hg_keys g) ps) | None => None end.

(** The pointers an object holds. *)
Definition somes (p : option addr) : list addr := match p with Some a => [a] | None => [] end.
Definition body_ptrs (b : hcontents) : list addr :=
  match b with
  | HSig _ _ _ _ _ _ _ _ hs us => hs ++ us
  | HSymSession _ _ s2k esk => somes s2k ++ somes esk
  | HSecret _ _ _ s2k _ _ => somes s2k
  | HAttributes l => l
  | HPlain _ => []
  end.
Definition ptrs (c : cell) : list addr :=
  match c with CPacket _ _ _ b => body_ptrs b | CSub _ (Sub32 (Some e)) => [e] | _ => [] end.
(** What can be reached from the pointers [from]. *)
Inductive reach (h : heap) (from : list addr) : addr -> Prop :=
| reach_root a : In a from -> reach h from a
| reach_next a c b : reach h from a -> nth_error h a = Some c -> In b (ptrs c) -> reach h from b.
(** No dangling pointer. *)
Definition closed (h : heap) : Prop := forall a c b, nth_error h a = Some c -> In b (ptrs c) -> (b < length h)%nat.

(** Everything that can be done by someone who holds the pointers [from]: make new objects and
    change objects they can reach, in any way and any number of times, where the pointers put
    into an object are pointers they can reach. *)
Inductive history : list addr -> heap -> heap -> Prop :=
| done from h : history from h h
| make from h c h' : (forall b, In b (ptrs c) -> reach h from b) -> history (length h :: from) (h ++ [c]) h' -> history from h h'
| change from h a c h' : reach h from a -> (a < length h)%nat -> (forall b, In b (ptrs c) -> reach h from b) -> history from (put h a c) h' -> history from h h'.
(** Nothing done through [from] shows in [seen]. *)
Definition unaffected (h : heap) (from seen : list addr) : Prop :=
  forall h', history from h h' -> forall n a v, In a seen -> value n h a = Some v -> value n h' a = Some v.
