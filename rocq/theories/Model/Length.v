(** Packet and subpacket length headers: src/Misc/Length.cpp, the header part of
    src/PGP.cpp and src/Packets/Subpacket.cpp.  Positions are N; a position never wraps
    because it stays below size() + 2^33 (strings are shorter than 2^62).  Readers return
    the length and the new position instead of updating references. *)
From Verif Require Export Model.Base Model.Includes Spec.Bytes.

(** Packet::HeaderFormat, include/Packets/Packet.h. *)
Inductive header_format := OLD | NEW.
(** Packet::PartialBodyLength, include/Packets/PartialBodyLengthEnums.h. *)
Inductive partial_flag := NOT_PARTIAL | PARTIAL.

Definition is_old (f : header_format) : bool := match f with OLD => true | NEW => false end.
Definition is_partial (p : partial_flag) : bool := match p with PARTIAL => true | _ => false end.

(** read_one_octet_lengths, Length.cpp 10-14. *)
Definition read_one_octet_lengths (data : bytes) (pos : N) : result (N * N) :=
  o <- at_ data pos ;; Ok (u8 o, pos + 1).

(** read_two_octet_lengths, Length.cpp 16-25.  In the new format every caller has checked
    that the first octet is at least 192, so the int subtraction does not go negative. *)
Definition read_two_octet_lengths (f : header_format) (data : bytes) (pos : N) : result (N * N) :=
  match f with
  | OLD => s <- substr data pos 2 ;; Ok (toint256 s, pos + 2)
  | NEW => a <- at_ data pos ;; b <- at_ data (pos + 1) ;;
           Ok (N.shiftl (u8 a - 192) 8 + u8 b + 192, pos + 2)
  end.

(** read_five_octet_lengths, Length.cpp 27-31: the same code for both formats. *)
Definition read_five_octet_lengths (data : bytes) (pos : N) : result (N * N) :=
  s <- substr data (pos + 1) 4 ;; Ok (toint256 s, pos + 5).

(** read_partialBodyLen, Length.cpp 33-35. *)
Definition read_partialBodyLen (first_octet : N) : N := N.shiftl 1 (N.land first_octet 31).

(** The requested length-of-length after the fallbacks, Length.cpp 47-61. *)
Definition old_octets (length octets : N) : N :=
  if octets =? 1 then if 255 <? length then 0 else octets
  else if octets =? 2 then if 65535 <? length then 0 else octets
  else if (octets =? 3) || (octets =? 4) || (5 <? octets) then 0
  else octets.

(** write_old_length, Length.cpp 39-87.  unhexlify(makehex(length, 2n)) is [be n length]
    (theorem C02_makehex_big_endian). *)
Definition write_old_length (tag : N) (data : bytes) (part : partial_flag) (octets : N) : bytes :=
  let length := len data in
  let h := u8 (N.lor 128 (N.shiftl tag 2)) in
  match part with
  | PARTIAL => N.lor h 3 :: data
  | NOT_PARTIAL =>
    let o := old_octets length octets in
    if (o =? 1) || ((o =? 0) && (length <? 256)) then
      N.lor h 0 :: u8 length :: data
    else if (o =? 2) || ((o =? 0) && (256 <=? length) && (length <? 65536)) then
      N.lor h 1 :: be 2 length ++ data
    else if (o =? 5) || ((o =? 0) && (65536 <=? length)) then
      N.lor h 2 :: be 4 length ++ data
    else h :: data
  end.

(** The requested length-of-length after the fallbacks, Length.cpp 127-141. *)
Definition new_octets (length octets : N) : N :=
  if octets =? 1 then if 191 <? length then 0 else octets
  else if octets =? 2 then if 8382 <? length then 0 else octets
  else if (octets =? 3) || (octets =? 4) || (5 <? octets) then 0
  else octets.

(** write_new_length with NOT_PARTIAL, Length.cpp 125-165.  [length -= 0xc0] wraps. *)
Definition write_new_plain (tag : N) (data : bytes) (octets : N) : bytes :=
  let length := len data in
  let h := u8 (N.lor 192 tag) in
  let o := new_octets length octets in
  if (o =? 1) || ((o =? 0) && (length <=? 191)) then
    h :: u8 length :: data
  else if (o =? 2) || ((o =? 0) && ((192 <=? length) && (length <=? 8383))) then
    let l := sub64 length 192 in
    h :: u8 (N.shiftr l 8 + 192) :: N.land l 255 :: data
  else if (o =? 5) || ((o =? 0) && (8383 <? length)) then
    h :: 255 :: be 4 length ++ data
  else h :: data.

(** The bits 30..9 that are set in the length, high to low, Length.cpp 105-111. *)
Definition set_bits (length : N) : list N :=
  rev (filter (N.testbit length) (map N.of_nat (seq 9 22))).

(** The partial chunks, Length.cpp 113-120; the running offset is a uint32_t, which does
    not wrap because the chunk lengths sum to less than 2^31. *)
Fixpoint write_chunks (data : bytes) (pos : N) (bits : list N) : result (bytes * N) :=
  match bits with
  | [] => Ok ([], pos)
  | b :: bits' =>
    c <- substr data pos (2 ^ b) ;;
    ' (rest, p) <- write_chunks data (pos + 2 ^ b) bits' ;;
    Ok (N.lor b 224 :: c ++ rest, p)
  end.

(** write_new_length, Length.cpp 91-168.  The last piece is written by the recursive call,
    header octet included (line 123). *)
Definition write_new_length (tag : N) (data : bytes) (part : partial_flag) (octets : N)
  : result bytes :=
  match part with
  | PARTIAL =>
    if len data <? 512 then Throw ERuntime
    else
      let non_partial := N.land (len data) 511 in
      ' (chunks, p) <- write_chunks data 0 (set_bits (len data)) ;;
      last <- substr data p non_partial ;;
      Ok (u8 (N.lor 192 tag) :: chunks ++ write_new_plain tag last 0)
  | NOT_PARTIAL => Ok (write_new_plain tag data octets)
  end.

(** PGP::read_packet_header, PGP.cpp 55-75: first octet, format, tag, new position. *)
Definition read_packet_header (data : bytes) (pos : N) : result (N * header_format * N * N) :=
  c <- at_ data pos ;;
  let ctb := u8 c in
  if N.land ctb 128 =? 0 then Throw ERuntime
  else if negb (N.land ctb 64 =? 0) then Ok (ctb, NEW, N.land ctb 63, pos + 1)
  else Ok (ctb, OLD, N.land (N.shiftr ctb 2) 15, pos + 1).

(** Where the body of a packet is: either a range of the input or gathered chunks. *)
Record body_loc := {
  bl_part : partial_flag;   (* returned PartialBodyLength *)
  bl_start : N;             (* packet_start *)
  bl_len : N;               (* packet_length *)
  bl_data : bytes;          (* partial_data *)
  bl_pos : N                (* pos *)
}.

(** The while loop over further partial lengths, PGP.cpp 148-154.  Each round advances
    the position by at least two; [fuel] is the data length (see
    LengthP.read_partials_fuel). *)
Fixpoint read_partials (fuel : nat) (data : bytes) (pos : N) (acc : bytes)
  : result (bytes * N) :=
  c <- at_ data pos ;;
  if (224 <=? u8 c) && (u8 c <=? 254) then
    match fuel with
    | O => Diverge
    | S f =>
      let l := read_partialBodyLen (u8 c) in
      s <- substr data (pos + 1) l ;;
      read_partials f data (pos + 1 + l) (acc ++ s)
    end
  else Ok (acc, pos).

(** PGP::read_packet_unformatted, PGP.cpp 81-178, without the branch for partial lengths:
    used at top level and for the last piece (the recursive call of line 161, whose first
    octet is not a partial length).  [None] stands for "first octet is a partial length".
    A first octet of 223 in the new format matches no branch: everything stays 0. *)
Definition read_plain (f : header_format) (ctb : N) (data : bytes) (pos : N)
  : result (option body_loc) :=
  let plain r := ' (l, p) <- r ;;
    Ok (Some {| bl_part := NOT_PARTIAL; bl_start := p; bl_len := l; bl_data := [];
                bl_pos := p + l |}) in
  match f with
  | OLD =>
    let t := N.land ctb 3 in
    if t =? 0 then plain (read_one_octet_lengths data pos)
    else if t =? 1 then plain (read_two_octet_lengths OLD data pos)
    else if t =? 2 then plain (read_five_octet_lengths data pos)
    else
      let l := sub64 (len data) pos in
      s <- substr data pos l ;;
      Ok (Some {| bl_part := PARTIAL; bl_start := 0; bl_len := l; bl_data := s;
                  bl_pos := pos + l |})
  | NEW =>
    c <- at_ data pos ;;
    let o := u8 c in
    if o <? 192 then plain (read_one_octet_lengths data pos)
    else if (192 <=? o) && (o <? 223) then plain (read_two_octet_lengths NEW data pos)
    else if o =? 255 then plain (read_five_octet_lengths data pos)
    else if 224 <=? o then Ok None
    else Ok (Some {| bl_part := NOT_PARTIAL; bl_start := 0; bl_len := 0; bl_data := [];
                     bl_pos := pos |})
  end.

(** PGP::read_packet_unformatted, PGP.cpp 81-178.  In the old-format indeterminate case
    packet_start keeps the caller's 0.  The final piece advances the position twice
    (inside the recursive call and again at line 168). *)
Definition read_packet_unformatted (f : header_format) (ctb : N) (data : bytes) (pos : N)
  : result body_loc :=
  r <- read_plain f ctb data pos ;;
  match r with
  | Some b => Ok b
  | None =>
    c <- at_ data pos ;;
    let l := read_partialBodyLen (u8 c) in
    s <- substr data (pos + 1) l ;;
    ' (acc, p) <- read_partials (length data) data (pos + 1 + l) s ;;
    fin <- read_plain f ctb data p ;;
    match fin with
    | Some b =>
      match bl_part b with
      | NOT_PARTIAL =>
        last <- substr data (bl_start b) (bl_len b) ;;
        Ok {| bl_part := PARTIAL; bl_start := 0; bl_len := len (acc ++ last);
              bl_data := acc ++ last; bl_pos := bl_pos b + bl_len b |}
      | PARTIAL =>  (* only a warning *)
        Ok {| bl_part := PARTIAL; bl_start := 0; bl_len := len acc; bl_data := acc;
              bl_pos := bl_pos b |}
      end
    | None => Diverge  (* not reached: the loop stops at an octet outside 224..254 *)
    end
  end.

(** Subpacket::Sub::read_subpacket, Subpacket.cpp 9-20: length and new position. *)
Definition read_subpacket (data : bytes) (pos : N) : result (N * N) :=
  c <- at_ data pos ;;
  let o := u8 c in
  if o <? 192 then read_one_octet_lengths data pos
  else if (192 <=? o) && (o <? 255) then read_two_octet_lengths NEW data pos
  else read_five_octet_lengths data pos.

(** Subpacket::Sub::write_subpacket, Subpacket.cpp 30-40. *)
Definition write_subpacket (data : bytes) : bytes :=
  let n := len data in
  if n <? 192 then u8 n :: data
  else if (192 <=? n) && (n <? 8383) then
    let l := u16 (sub64 n 192) in
    u8 (N.shiftr l 8 + 192) :: N.land l 255 :: data
  else 255 :: be 4 n ++ data.

(** The header part of PGP::read_packet, PGP.cpp 274-283: format, tag and body location. *)
Definition read_frame (data : bytes) (pos : N) : result (header_format * N * body_loc) :=
  ' (ctb, f, tag, p) <- read_packet_header data pos ;;
  b <- read_packet_unformatted f ctb data p ;;
  Ok (f, tag, b).
