(** Packet sequences and ASCII armor: src/PGP.cpp. *)
From Verif Require Export Model.Packets Model.Crc24 Model.Radix64.

(** PGP::read_packet_raw, PGP.cpp 180-267: a packet object from a located body. *)
Definition read_packet_raw (data : bytes) (pos length tag : N) (f : header_format)
  (part : partial_flag) : result packet :=
  if is_partial part && negb (can_have_partial_length tag) then Throw ERuntime
  else c <- tag_read tag data pos length ;; Ok (mkPacket tag f part c).

(** PGP::read_packet, PGP.cpp 269-288; the caller has checked pos < size. *)
Definition read_packet (data : bytes) (pos : N) : result (packet * N) :=
  ' (f, tag, b) <- read_frame data pos ;;
  p <- (match bl_part b with
        | NOT_PARTIAL => read_packet_raw data (bl_start b) (bl_len b) tag f NOT_PARTIAL
        | PARTIAL => read_packet_raw (bl_data b) (bl_start b) (bl_len b) tag f PARTIAL
        end) ;;
  Ok (p, bl_pos b).

(** PGP::read_raw, PGP.cpp 469-483.  Every packet moves the position forward, so
    [length data + 1] iterations are enough (proved). *)
Fixpoint read_packets (n : nat) (data : bytes) (pos : N) : result (list packet) :=
  match n with
  | O => Diverge
  | S n' =>
    if pos <? len data then
      ' (p, pos) <- read_packet data pos ;;
      ps <- read_packets n' data pos ;; Ok (p :: ps)
    else Ok []
  end.
Definition read_raw (data : bytes) : result (list packet) :=
  read_packets (S (length data)) data 0.

(** PGP::raw without a Status pointer, PGP.cpp 501-511. *)
Fixpoint write_packets (ps : list packet) : result bytes :=
  match ps with
  | [] => Ok []
  | p :: ps' => w <- write p ;; r <- write_packets ps' ;; Ok (w ++ r)
  end.

Section status.
  Variable regex_ok : bytes -> bool.

  (** Tag::raw and Tag::write with a Status pointer, Packet.cpp 119-137: the status and the
      returned string. *)
  Definition raw_status (check_mpi : bool) (p : packet) : result (status * bytes) :=
    v <- valid regex_ok check_mpi (p_tag p) (p_body p) ;;
    if success v then w <- raw (p_body p) ;; Ok (v, w) else Ok (v, []).
  Definition write_status (check_mpi : bool) (p : packet) : result (status * bytes) :=
    v <- valid regex_ok check_mpi (p_tag p) (p_body p) ;;
    if success v then w <- write p ;; Ok (v, w) else Ok (v, []).

  (** PGP::raw with a Status pointer, PGP.cpp 501-511.  [st] is what the caller's variable
      holds; with no packets it is left as it was. *)
  Fixpoint pgp_raw_loop (check_mpi : bool) (st : status) (out : bytes) (ps : list packet)
    : result (status * bytes) :=
    match ps with
    | [] => Ok (st, out)
    | p :: ps' =>
      v <- valid regex_ok check_mpi (p_tag p) (p_body p) ;;
      if success v then w <- write p ;; pgp_raw_loop check_mpi v (out ++ w) ps'
      else Ok (v, [])
    end.
  Definition pgp_raw_status (check_mpi : bool) (st : status) (ps : list packet) :=
    pgp_raw_loop check_mpi st [] ps.
End status.

(** PGP's members, include/PGP.h 68-72. *)
Record pgp := mkPgp {
  g_armored : bool; g_type : N; g_keys : list (bytes * bytes); g_packets : list packet }.

(** PGP::PGP(), PGP.cpp 300-305. *)
Definition pgp_new : pgp := mkPgp true 0 [] [].

(** Armor strings, PGP.cpp 14-53. *)
Definition dashes : bytes := str "-----".
Definition armor_begin : bytes := dashes ++ str "BEGIN PGP ".
Definition armor_end : bytes := dashes ++ str "END PGP ".
Definition armor_headers : list bytes :=
  [[]; str "MESSAGE"; str "PUBLIC KEY BLOCK"; str "PRIVATE KEY BLOCK";
   str "MESSAGE, PART X/Y"; str "MESSAGE, PART X"; str "SIGNATURE"; str "SIGNED MESSAGE"].

(** PGP::format_string, PGP.cpp 290-298: lines of [n] characters.  The index is an unsigned
    int; strings of 2^32 characters or more are not modelled. *)
Definition format_string (s : bytes) (n : nat) : bytes :=
  flat_map (fun l => l ++ [10]) (chunks n (length s) s).

(** MAX_LINE_LENGTH, include/Misc/radix64.h 95. *)
Definition max_line_length : nat := 64.

(** The armored text of PGP::write, PGP.cpp 524-530.  Indexing ASCII_Armor_Header outside
    its eight entries is undefined behaviour. *)
Definition armor (type : N) (keys : list (bytes * bytes)) (body : bytes) : result bytes :=
  h <- vec_at armor_headers (N.to_nat type) ;;
  Ok (armor_begin ++ h ++ dashes ++ [10] ++
      flat_map (fun k => fst k ++ str ": " ++ snd k ++ [10]) keys ++ [10] ++
      format_string (ascii2radix64 body) max_line_length ++
      str "=" ++ ascii2radix64 (be 3 (crc24 body)) ++ [10] ++
      armor_end ++ h ++ dashes).

(** PGP::Armored, include/PGP.h 58-62. *)
Inductive armored := ArmorDefault | ArmorYes | ArmorNo.

(** PGP::write without a Status pointer, PGP.cpp 513-530. *)
Definition pgp_write (g : pgp) (a : armored) : result bytes :=
  body <- write_packets (g_packets g) ;;
  match a with
  | ArmorNo => Ok body
  | ArmorDefault => if g_armored g then armor (g_type g) (g_keys g) body else Ok body
  | ArmorYes => armor (g_type g) (g_keys g) body
  end.

(** PGP::write with a Status pointer, PGP.cpp 513-530: nothing is written unless the status
    left by PGP::raw is SUCCESS. *)
Definition pgp_write_status (regex_ok : bytes -> bool) (check_mpi : bool) (st : status)
  (g : pgp) (a : armored) : result (status * bytes) :=
  ' (v, body) <- pgp_raw_status regex_ok check_mpi st (g_packets g) ;;
  if success v then
    match a with
    | ArmorNo => Ok (v, body)
    | ArmorDefault =>
      if g_armored g then t <- armor (g_type g) (g_keys g) body ;; Ok (v, t) else Ok (v, body)
    | ArmorYes => t <- armor (g_type g) (g_keys g) body ;; Ok (v, t)
    end
  else Ok (v, []).

(** The line with trailing white space removed starts with [h]
    (!line.compare(0, h.size(), h)). *)
Fixpoint starts_with (h s : bytes) : bool :=
  match h, s with
  | [], _ => true
  | x :: h', y :: s' => (x =? y) && starts_with h' s'
  | _, [] => false
  end.

(** Search for the armor header line, PGP.cpp 358-367. *)
Fixpoint find_begin (ls : list bytes) : result (option (bytes * list bytes)) :=
  match ls with
  | [] => Ok None
  | l :: ls' =>
    t <- trim_whitespace l false true ;;
    if starts_with armor_begin t then Ok (Some (t, ls')) else find_begin ls'
  end.

(** The armor type loop, PGP.cpp 382-391: types 1..6; otherwise SIGNED_MESSAGE, which
    throws. *)
Definition armor_type (line : bytes) : result N :=
  match find (fun t => match nth_error armor_headers (N.to_nat t) with
                       | Some h => beq (armor_begin ++ h ++ dashes) line
                       | None => false end) [1;2;3;4;5;6] with
  | Some t => Ok t
  | None => Throw ERuntime
  end.

(** One "key: value" line, PGP.cpp 404-424; None when it is discarded. *)
Fixpoint split_colon (s : bytes) : option (bytes * bytes) :=
  match s with
  | [] => None
  | c :: r => if c =? 58 then Some ([], r)
              else match split_colon r with Some (k, v) => Some (c :: k, v) | None => None end
  end.
Definition armor_key (line : bytes) : result (option (bytes * bytes)) :=
  match split_colon line with
  | Some (k, v) =>
    if 0 <? len v then v' <- trim_whitespace v true true ;; Ok (Some (k, v')) else Ok None
  | None => Ok None
  end.

(** The header loop, PGP.cpp 394-425: keys and the remaining lines. *)
Fixpoint armor_keys (ls : list bytes) : result (list (bytes * bytes) * list bytes) :=
  match ls with
  | [] => Ok ([], [])
  | l :: ls' =>
    if len l =? 0 then Ok ([], ls')
    else
      t <- trim_whitespace l false true ;;
      if len t =? 0 then Ok ([], ls')
      else
        k <- armor_key t ;;
        ' (ks, rest) <- armor_keys ls' ;;
        Ok (match k with Some k => k :: ks | None => ks end, rest)
  end.

(** The body loop, PGP.cpp 428-447: body and latest checksum line. *)
Fixpoint armor_lines (ls : list bytes) (body sum : bytes) : result (bytes * bytes) :=
  match ls with
  | [] => Ok (body, sum)
  | l :: ls' =>
    t <- trim_whitespace l false true ;;
    c <- at_ t 0 ;;
    if c =? 61 then armor_lines ls' body t
    else if starts_with armor_end t then Ok (body, sum)
    else armor_lines ls' (body ++ t) sum
  end.

(** PGP::read, PGP.cpp 333-467.  A wrong or missing checksum only prints a warning, so the
    checksum's value is not used; keys are appended to those already there. *)
Definition pgp_read (g : pgp) (data : bytes) : result pgp :=
  h <- find_begin (getlines data) ;;
  match h with
  | None => ps <- read_raw data ;; Ok (mkPgp false 0 (g_keys g) ps)
  | Some (line, rest) =>
    t <- armor_type line ;;
    ' (ks, rest) <- armor_keys rest ;;
    ' (body, sum) <- armor_lines rest [] [] ;;
    _ <- (if 0 <? len sum then
            d <- substr sum 1 (len sum - 1) ;; radix642ascii d
          else Ok []) ;;
    b <- radix642ascii body ;;
    ps <- read_raw b ;;
    Ok (mkPgp true t (g_keys g ++ ks) ps)
  end.

(** PGP::operator==, PGP.cpp 579-604: types, and raw contents pairwise; tags are not
    compared. *)
Fixpoint raws_eq (a b : list packet) : result bool :=
  match a, b with
  | [], [] => Ok true
  | x :: a', y :: b' =>
    rx <- raw (p_body x) ;; ry <- raw (p_body y) ;;
    if beq rx ry then raws_eq a' b' else Ok false
  | _, _ => Ok false
  end.
Definition pgp_eq (a b : pgp) : result bool :=
  if g_type a =? g_type b then
    if Nat.eqb (length (g_packets a)) (length (g_packets b))
    then raws_eq (g_packets a) (g_packets b) else Ok false
  else Ok false.
