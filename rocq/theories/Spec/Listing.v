(** What a listing says: the lines for each packet. *)
From Verif Require Import Model.Base Model.Includes.
From Verif Require Export Model.Listing Spec.Calendar.

Definition newline : bytes := [10].
(** Lines, each ended by a newline. *)
Definition text (ls : list bytes) : bytes := concat (map (fun l => l ++ newline) ls).
Definition one_line (l : bytes) : Prop := ~ In 10 l.
(** The lines of a text; what follows the last newline is the last one. *)
Fixpoint lines (s : bytes) (l : bytes) : list bytes :=
  match s with [] => [l] | c :: r => if c =? 10 then l :: lines r [] else lines r (l ++ [c]) end.

(** A column for a date that may be absent. *)
Definition column (gm : Z -> option tm) (t : N) (s : bytes) : Prop := (t = 0 /\ s = repeat 32 9) \/ (t <> 0 /\ show_date gm (Z.of_N t) = Ok s).
Definition kind (t : N) : bytes := if (t =? 32) || (t =? 40) || (t =? 48) then str "revok" else if t =? 24 then str "sbind" else str " sig ".
Definition short_id (id : bytes) : bytes := hexlify (firstn 4 (skipn 4 id)).

(** The kind of key, its size, a letter for its algorithm, the end of its ID and its date. *)
Definition key_line (gm : Z -> option tm) (indent : bytes) (tag : N) (k : key) (l : bytes) : Prop :=
  exists name letter n r id date, In (tag, name) [(5, str "sec"); (6, str "pub"); (7, str "ssb"); (14, str "sub")] /\
    In (k_pka k, letter) [(1, str "R"); (2, str "R"); (3, str "R"); (16, str "g"); (17, str "D")] /\ k_mpi k = n :: r /\
    get_keyid k = Ok id /\ 4 <= len id /\ show_date gm (Z.of_N (k_time k)) = Ok date /\
    l = indent ++ name ++ str "  " ++ padded 32 4 (decimal (N.max 1 (N.size n))) ++ indent ++ letter ++ str "/" ++ indent ++ short_id id ++ str " " ++ indent ++ date.
(** The kind of signature, the end of the issuer's ID, when it was made, when it expires, and
    when the key does. *)
Definition sig_line (gm : Z -> option tm) (indent : bytes) (s : tag2) (l : bytes) : Prop :=
  exists made expires ends id c0 c1 c2, get_times s = Ok (made, expires, ends) /\ sig_keyid s = Ok id /\ 4 <= len id /\
    ((made = 0 /\ c0 = []) \/ (made <> 0 /\ exists d, show_date gm (Z.of_N made) = Ok d /\ c0 = str " " ++ d)) /\ column gm expires c1 /\ column gm ends c2 /\
    l = indent ++ str "sig " ++ kind (t2_type s) ++ str "  " ++ short_id id ++ c0 ++ str " " ++ c1 ++ str " " ++ c2.
(** The lines of one packet. *)
Definition listed (gm : Z -> option tm) (indent : bytes) (p : packet) (ls : list bytes) : Prop :=
  match p_tag p, p_body p with
  | 5, PSecret k _ | 5, PKey k | 6, PKey k | 6, PSecret k _ => exists l, key_line gm indent (p_tag p) k l /\ ls = [l]
  | 7, PSecret k _ | 7, PKey k | 14, PKey k | 14, PSecret k _ => exists l, key_line gm indent (p_tag p) k l /\ ls = [[]; l]
  | 13, PRaw u => ls = [[]; indent ++ str "uid " ++ u]
  | 17, PAttributes a => ls = [] :: map (fun i => indent ++ str "att  att  [jpeg image of size " ++ decimal (len (im_image i)) ++ str "]") a
  | 2, PSig s => exists l, sig_line gm indent s l /\ ls = [l]
  | _, _ => False
  end.

(** Packets that have lines: keys of the five algorithms with an ID, signatures with times and
    an issuer. *)
Definition listable (p : packet) : Prop :=
  match p_body p with
  | PKey k | PSecret k _ => In (k_pka k) [1; 2; 3; 16; 17] /\ k_mpi k <> [] /\ k_time k < 2 ^ 32 /\ exists id, get_keyid k = Ok id /\ 4 <= len id
  | PSig s => (exists a b c, get_times s = Ok (a, b, c) /\ a < 2 ^ 32 /\ b < 2 ^ 32 /\ c < 2 ^ 32) /\ exists id, sig_keyid s = Ok id /\ 4 <= len id
  | _ => True
  end.
Definition user_id (u : bytes) : packet := mkPacket 13 NEW NOT_PARTIAL (PRaw u).
