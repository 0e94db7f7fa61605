(** Compressed data and the Message class: src/Compress/Compress.cpp, src/Packets/Tag8.cpp,
    src/Message.cpp.  The compression libraries are arguments: [zip alg d] and [unzip alg d]
    are what zlib or bzip2 return, None for an error code. *)
From Verif Require Export Model.Message.

(** compress and decompress, Compress.cpp 12-69. *)
Definition codec (f : N -> bytes -> option bytes) (alg : N) (src : bytes) : result bytes :=
  if negb (alg =? 0) && (0 <? len src) then
    if mem [1; 2; 3] alg then match f alg src with Some d => Ok d | None => Throw ERuntime end
    else Throw ERuntime
  else Ok src.

(** The static_pointer_cast of a packet to Tag8. *)
Definition as_compressed (p : packet) : result (N * bytes) :=
  match p_body p with PCompressed comp d => Ok (comp, d) | _ => UB end.

(** A Message: its PGP part and the Tag8 packet kept by decompress (member comp), without
    data; [m_comp] holds that packet's header format, partial flag and algorithm. *)
Record message := mkMessage { m_pgp : pgp; m_comp : option (header_format * partial_flag * N) }.
(** Message(), Message.cpp 139-144. *)
Definition message_new : message := mkMessage (mkPgp true 1 [] []) None.

(** decompress, 115-137, and read_raw, 196-209, each calling the other without a bound on the
    depth; the packets and comp of the object afterwards.  read_raw has already thrown when
    decompress tests meaningful() again.  comp -> set_data("") compresses nothing and the
    object keeps the innermost Tag8. *)
Section Read.
  Variable unzip : N -> bytes -> option bytes.
  Definition decompressed (read : bytes -> result (list packet * option (header_format * partial_flag * N)))
    (ps : list packet) : result (list packet * option (header_format * partial_flag * N)) :=
    match ps with
    | [p] =>
      if p_tag p =? 8 then
        ' (alg, d) <- as_compressed p ;;
        data <- codec unzip alg d ;;
        ' (ps, c) <- read data ;;
        Ok (ps, match c with Some x => Some x | None => Some (p_format p, p_partial p, alg) end)
      else Ok (ps, None)
    | _ => Ok (ps, None)
    end.
  Fixpoint message_read_raw (fuel : nat) (data : bytes)
    : result (list packet * option (header_format * partial_flag * N)) :=
    match fuel with
    | O => Diverge
    | S f =>
      ps <- read_raw data ;;
      m <- message_match false 1 (map p_tag ps) OPENM ;;
      if m : bool then decompressed (message_read_raw f) ps else Throw ERuntime
    end.
  (** Message(data), 160-176: PGP::read, then the same.  A compressed message ends up not
      armored, because of PGP::read_raw. *)
  Definition message_read (fuel : nat) (data : bytes) : result message :=
    g <- pgp_read pgp_new data ;;
    m <- message_match false 1 (map p_tag (g_packets g)) OPENM ;;
    if m : bool then
      ' (ps, c) <- decompressed (message_read_raw fuel) (g_packets g) ;;
      Ok (mkMessage (mkPgp (match c with Some _ => false | None => g_armored g end) 1 (g_keys g) ps) c)
    else Throw ERuntime.
  (** Message(PGP), 146-154. *)
  Definition message_of_pgp (fuel : nat) (g : pgp) : result message :=
    ' (ps, c) <- decompressed (message_read_raw fuel) (g_packets g) ;;
    Ok (mkMessage (mkPgp (match c with Some _ => false | None => g_armored g end) 1 (g_keys g) ps) c).
End Read.

(** Tag8::write for the data [d], Tag8.cpp 77-83 and set_data. *)
Definition compressed_packet (zip : N -> bytes -> option bytes) (c : header_format * partial_flag * N) (d : bytes) : result bytes :=
  let '(f, part, alg) := c in
  z <- codec zip alg d ;; write (mkPacket 8 f part (PCompressed alg z)).
(** Message::raw, 218-231, and write, 233-260, without a Status pointer; write compresses the
    result of raw once more. *)
Definition message_raw (zip : N -> bytes -> option bytes) (m : message) : result bytes :=
  out <- write_packets (g_packets (m_pgp m)) ;;
  match m_comp m with None => Ok out | Some c => compressed_packet zip c out end.
Definition message_write (zip : N -> bytes -> option bytes) (m : message) (a : armored) : result bytes :=
  out <- message_raw zip m ;;
  out <- match m_comp m with None => Ok out | Some c => compressed_packet zip c out end ;;
  match a with
  | ArmorNo => Ok out
  | ArmorYes => armor 1 (g_keys (m_pgp m)) out
  | ArmorDefault => if g_armored (m_pgp m) then armor 1 (g_keys (m_pgp m)) out else Ok out
  end.
