(** Compressed formats and what the loops of the code may expect of a compression library. *)
From Verif Require Export Model.Compress.

(** A format: a machine that reads compressed octets and writes the data. *)
Inductive status_of := Open | Ended | Broken.
Record machine := mkMachine { m_state : Type; m_start : m_state; m_feed : m_state -> N -> m_state * bytes; m_status : m_state -> status_of }.
(** Reading [inp] from state [t] until the stream ends or breaks: the state reached, the data
    written and the octets not read. *)
Fixpoint run (M : machine) (t : m_state M) (inp : bytes) : m_state M * bytes * bytes :=
  match m_status M t with
  | Open =>
    match inp with
    | [] => (t, [], [])
    | x :: r => let '(t', o) := m_feed M t x in let '(t'', o', rest) := run M t' r in (t'', o ++ o', rest)
    end
  | _ => (t, [], inp)
  end.
(** [z] is a whole stream for the data [d]. *)
Definition stream (M : machine) (z d : bytes) : Prop := exists t, run M (m_start M) z = (t, d, []) /\ m_status M t = Ended.

(** A decompression library for the format: a state stands for a state of the machine and data
    not delivered yet ([view]).  A call reads part of the input and delivers at most [room]
    octets; it delivers fewer only if there is no more to deliver and either the input is used up
    or the stream is over.  It reports a broken stream, and the end of the stream once everything
    is delivered.  [again]: whether a call after the end is allowed (and reports the end again). *)
Definition decoder (M : machine) (again : bool) (St : Type) (start : St) (f : St -> bytes -> N -> call St)
  (view : St -> m_state M * bytes) : Prop :=
  view start = (m_start M, []) /\
  forall s inp room t owed, 0 < room -> view s = (t, owed) -> m_status M t <> Broken ->
    (again = true \/ m_status M t = Open \/ owed <> []) ->
    exists used o t' owed', inp = used ++ c_rest (f s inp room) /\ run M t used = (t', o, []) /\
      view (c_state (f s inp room)) = (t', owed') /\ owed ++ o = c_out (f s inp room) ++ owed' /\
      len (c_out (f s inp room)) <= room /\
      (len (c_out (f s inp room)) < room -> owed' = [] /\ (c_rest (f s inp room) = [] \/ m_status M t' <> Open)) /\
      c_code (f s inp room) = match m_status M t' with Broken => Bad | Ended => match owed' with [] => End | _ => Fine end | Open => Fine end.
(** After the end a call is refused. *)
Definition refuses (M : machine) (St : Type) (f : St -> bytes -> N -> call St) (view : St -> m_state M * bytes) : Prop :=
  forall s inp room t, view s = (t, []) -> m_status M t = Ended -> c_code (f s inp room) = Misuse.
(** The library leaves input unread only when the next octet leads to data it has no room for. *)
Definition eager (M : machine) (St : Type) (f : St -> bytes -> N -> call St) (view : St -> m_state M * bytes) : Prop :=
  forall s inp room t owed x r, view (c_state (f s inp room)) = (t, owed) -> c_rest (f s inp room) = x :: r ->
    m_status M t = Open -> owed <> [] \/ snd (m_feed M t x) <> [].

(** A compression library for the format: [past] is the input taken and the output given so far.
    A call gives at most [room] octets, and fewer only if it took all input and, when asked to
    finish, ended the stream; a stream that was ended is a whole stream for the input.  [due]
    bounds the output still to come.  Once asked to finish it has to be called to finish, with the
    input left over, until it reports the end; then it may be called once more if [again]. *)
Inductive phase := Running | Finishing (left : bytes) | Over.
Definition encoder (M : machine) (again : bool) (St : Type) (start : St) (f : St -> bool -> bytes -> N -> call St)
  (past : St -> bytes * bytes) (at_phase : St -> phase) (due : St -> bool -> bytes -> N) : Prop :=
  past start = ([], []) /\ at_phase start = Running /\
  forall s finish inp room i z, 0 < room -> past s = (i, z) ->
    match at_phase s with Running => True | Finishing l => finish = true /\ inp = l | Over => again = true /\ finish = true /\ inp = [] end ->
    exists used, inp = used ++ c_rest (f s finish inp room) /\
      past (c_state (f s finish inp room)) = (i ++ used, z ++ c_out (f s finish inp room)) /\
      len (c_out (f s finish inp room)) <= room /\
      (len (c_out (f s finish inp room)) < room -> c_rest (f s finish inp room) = [] /\ (finish = true -> c_code (f s finish inp room) = End)) /\
      len (c_out (f s finish inp room)) + due (c_state (f s finish inp room)) finish (c_rest (f s finish inp room)) <= due s finish inp /\
      (c_code (f s finish inp room) = Fine \/
       (c_code (f s finish inp room) = End /\ finish = true /\ c_rest (f s finish inp room) = [] /\ stream M (z ++ c_out (f s finish inp room)) (i ++ used))) /\
      at_phase (c_state (f s finish inp room)) =
        (if ended (c_code (f s finish inp room)) then Over else if finish then Finishing (c_rest (f s finish inp room)) else Running).
(** After the end a call is refused. *)
Definition refuses_more (St : Type) (f : St -> bool -> bytes -> N -> call St) (at_phase : St -> phase) : Prop :=
  forall s finish inp room, at_phase s = Over -> c_code (f s finish inp room) = Misuse.
(** [due] is exact, as much of it as fits is given, and the end is reported with the last octet. *)
Definition prompt (St : Type) (f : St -> bool -> bytes -> N -> call St) (at_phase : St -> phase) (due : St -> bool -> bytes -> N) : Prop :=
  forall s inp room, 0 < room -> at_phase s = Running \/ at_phase s = Finishing inp ->
    len (c_out (f s true inp room)) = N.min room (due s true inp) /\
    due (c_state (f s true inp room)) true (c_rest (f s true inp room)) = due s true inp - len (c_out (f s true inp room)) /\
    (due s true inp <= room -> c_code (f s true inp room) = End).
