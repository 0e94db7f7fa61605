(** All packet types: src/Packets/Tag*.cpp, Key.cpp, Packet.cpp, Partial.cpp.  A reader takes
    the whole data, the start position and the body length, as in the code, and returns the
    new contents and position. *)
From Verif Require Export Model.Signature Model.S2k.

(** Key's members, include/Packets/Key.h (no GPG_COMPATIBLE members). *)
Record key := mkKey {
  k_version : N; k_time : N; k_pka : N; k_mpi : list N; k_expire : N }.

(** Tag5's own members, include/Packets/Tag5.h. *)
Record secret := mkSecret {
  sk_con : N; sk_sym : N; sk_s2k : option s2k; sk_iv : bytes; sk_secret : bytes }.

(** Image attribute, include/Packets/Tag17/Sub1.h (display counter left out). *)
Record image := mkImage { im_version : N; im_encoding : N; im_image : bytes }.

(** Packet contents per class.  PKey is Tag6 and Tag14, PSecret is Tag5 and Tag7, PRaw the
    classes that hold one string: Tag9, 10, 12, 13, 19, 60-63.  The version member is kept
    only where a class stores it from the data. *)
Inductive contents :=
| PSession (version : N) (keyid : bytes) (pka : N) (mpi : list N)        (* Tag1 *)
| PSig (s : tag2)                                                       (* Tag2 *)
| PSymSession (version sym : N) (s2k : option s2k) (esk : option bytes)  (* Tag3 *)
| POnePass (version type hash pka : N) (keyid : bytes) (last : N)        (* Tag4 *)
| PSecret (k : key) (s : secret)                                        (* Tag5, Tag7 *)
| PKey (k : key)                                                        (* Tag6, Tag14 *)
| PCompressed (comp : N) (data : bytes)                                 (* Tag8 *)
| PLiteral (format : N) (filename : bytes) (time : N) (literal : bytes)  (* Tag11 *)
| PAttributes (attrs : list image)                                      (* Tag17 *)
| PProtected (version : N) (data : bytes)                               (* Tag18 *)
| PRaw (data : bytes).

(** Tag::tag, header_format, and Partial::partial (always NOT_PARTIAL for classes that do
    not derive from Partial). *)
Record packet := mkPacket {
  p_tag : N; p_format : header_format; p_partial : partial_flag; p_body : contents }.

(** Default-constructed key and secret parts: Key.cpp 6-19, Tag5.cpp 212-219. *)
Definition key_new : key := mkKey 0 0 0 [] 0.
Definition secret_new : secret := mkSecret 0 0 None [] [].

(** Default-constructed contents; the switch of PGP::read_packet_raw, PGP.cpp 188-258.
    Tag 0's constructor throws (Tag0.cpp), other undefined tags throw. *)
Definition contents_new (tag : N) : result contents :=
  match tag with
  | 1 => Ok (PSession 3 [] 0 [])
  | 2 => Ok (PSig tag2_new)
  | 3 => Ok (PSymSession 4 0 None None)
  | 4 => Ok (POnePass 3 0 0 0 [] 1)
  | 5 | 7 => Ok (PSecret key_new secret_new)
  | 6 | 14 => Ok (PKey key_new)
  | 8 => Ok (PCompressed 0 [])
  | 9 | 12 | 13 | 19 | 60 | 61 | 62 | 63 => Ok (PRaw [])
  | 10 => Ok (PRaw (str "PGP"))
  | 11 => Ok (PLiteral 0 [] 0 [])
  | 17 => Ok (PAttributes [])
  | 18 => Ok (PProtected 1 [])
  | _ => Throw ERuntime
  end.

(** Tag1::actual_read, Tag1.cpp 6-14.  The loop compares the absolute position with the
    body length.  Each MPI takes at least two octets, so [length data] iterations are
    enough (proved). *)
Fixpoint read_mpis_until (n : nat) (data : bytes) (pos stop : N) : result (list N * N) :=
  match n with
  | O => Diverge
  | S n' =>
    if pos <? stop then
      ' (m, pos) <- read_MPI data pos ;;
      ' (ms, pos) <- read_mpis_until n' data pos stop ;;
      Ok (m :: ms, pos)
    else Ok ([], pos)
  end.

Definition tag1_read (data : bytes) (pos length : N) : result (contents * N) :=
  version <- at_ data pos ;;
  keyid <- substr data (pos + 1) 8 ;;
  pka <- at_ data (pos + 9) ;;
  ' (mpi, pos) <- read_mpis_until (S (List.length data)) data (pos + 10) length ;;
  Ok (PSession version keyid pka mpi, pos).

(** Class chosen from an S2K type octet, Tag3.cpp 10-24 and Tag5.cpp 9-20 (both throw
    std::runtime_error for other values). *)
Definition s2k_class_of (t : N) : result s2k_class :=
  match t with 0 => Ok S2K0 | 1 => Ok S2K1 | 3 => Ok S2K3 | _ => Throw ERuntime end.

(** Tag3::actual_read, Tag3.cpp 6-35. *)
Definition tag3_read (data : bytes) (pos length : N) : result (contents * N) :=
  version <- at_ data pos ;;
  sym <- at_ data (pos + 1) ;;
  t <- at_ data (pos + 2) ;;
  k <- s2k_class_of t ;;
  ' (s, p) <- s2k_read k data (pos + 2) ;;
  esk <- (if p <? pos + length then
            e <- substr data p (pos + length - p) ;; Ok (Some e)
          else Ok None) ;;
  Ok (PSymSession version sym (Some s) esk, pos + length).

(** Tag4::actual_read, Tag4.cpp 6-14; set_keyid throws unless 8 octets (Tag4.cpp). *)
Definition tag4_read (data : bytes) (pos : N) : result (contents * N) :=
  version <- at_ data pos ;;
  type <- at_ data (pos + 1) ;;
  hash <- at_ data (pos + 2) ;;
  pka <- at_ data (pos + 3) ;;
  keyid <- substr data (pos + 4) 8 ;;
  if len keyid =? 8 then
    last <- at_ data (pos + 12) ;;
    Ok (POnePass version type hash pka keyid last, pos + 13)
  else Throw ERuntime.

(** [(data[5] << 8) + data[6]] with signed characters, converted to uint32_t,
    Key.cpp 50: left shift of a negative value is taken as arithmetic (C++20, and every
    compiler the project supports). *)
Definition signed_char (c : N) : Z := if c <? 128 then Z.of_N c else (Z.of_N c - 256)%Z.
Definition expire_of (a b : N) : N :=
  Z.to_N ((signed_char a * 256 + signed_char b) mod (Z.of_N two32)).

(** Key::read_common, Key.cpp 45-109. *)
Definition key_read (data : bytes) (pos : N) : result (key * N) :=
  version <- at_ data pos ;;
  ts <- substr data (pos + 1) 4 ;;
  let time := u32 (toint256 ts) in
  if version <? 4 then
    a <- at_ data (pos + 5) ;;
    b <- at_ data (pos + 6) ;;
    pka <- at_ data (pos + 7) ;;
    ' (mpi, pos) <- read_mpis 2 data (pos + 8) ;;
    Ok (mkKey version time pka mpi (expire_of a b), pos)
  else if version =? 4 then
    pka <- at_ data (pos + 5) ;;
    ' (mpi, pos) <-
      (if is_RSA pka then read_mpis 2 data (pos + 6)
       else if pka =? 17 then read_mpis 4 data (pos + 6)
       else if pka =? 16 then read_mpis 3 data (pos + 6)
       else Throw ERuntime) ;;
    Ok (mkKey version time pka mpi 0, pos)
  else Ok (mkKey version time 0 [] 0, pos).

(** Tag5::actual_read and read_s2k, Tag5.cpp 6-57. *)
Definition secret_read (data : bytes) (pos0 length : N) : result (contents * N) :=
  ' (k, pos) <- key_read data pos0 ;;
  con <- at_ data pos ;;
  let pos := pos + 1 in
  let has_s2k := (con =? 254) || (con =? 255) in
  ' (sym, pos) <-
    (if has_s2k then s <- at_ data pos ;; Ok (s, pos + 1)
     else Ok (con, pos)) ;;
  ' (s2k, pos) <-
    (if has_s2k then
       t <- at_ data pos ;; c <- s2k_class_of t ;;
       ' (s, p) <- s2k_read c data pos ;; Ok (Some s, p)
     else Ok (None, pos)) ;;
  ' (iv, pos) <-
    (if con =? 0 then Ok ([], pos)
     else bl <- map_at block_length sym ;;
          iv <- substr data pos (N.shiftr bl 3) ;; Ok (iv, pos + len iv)) ;;
  sec <- substr data pos (sub64 length (pos - pos0)) ;;
  Ok (PSecret k (mkSecret con sym s2k iv sec), pos0 + length).

(** Tag8::actual_read, Tag8.cpp 17-23. *)
Definition tag8_read (data : bytes) (pos length : N) : result (contents * N) :=
  c <- at_ data pos ;;
  d <- substr data (pos + 1) (length - 1) ;;
  Ok (PCompressed c d, pos + length).

(** Tag11::actual_read, Tag11.cpp 15-22; the literal's length is size_t arithmetic. *)
Definition tag11_read (data : bytes) (pos length : N) : result (contents * N) :=
  f <- at_ data pos ;;
  n <- at_ data (pos + 1) ;;
  name <- substr data (pos + 2) n ;;
  ts <- substr data (pos + 2 + n) 4 ;;
  lit <- substr data (pos + 6 + n) (sub64 length (6 + n)) ;;
  Ok (PLiteral f name (u32 (toint256 ts)) lit, pos + length).

(** Tag17 Sub1::actual_read, Tag17/Sub1.cpp 11-17, after Sub::read. *)
Definition image_read (data : bytes) : result image :=
  if 16 <=? len data then
    v <- at_ data 2 ;; e <- at_ data 3 ;; i <- substr data 16 (len data - 16) ;;
    Ok (mkImage v e i)
  else Ok (mkImage 0 0 []).

(** Tag17::actual_read, Tag17.cpp 6-27: again the position is compared with the body
    length.  Every iteration moves forward, so [length data + 2] iterations are enough
    (proved). *)
Fixpoint attrs_read (n : nat) (data : bytes) (pos stop : N) : result (list image * N) :=
  match n with
  | O => Diverge
  | S n' =>
    if pos <? stop then
      ' (l, pos) <- read_subpacket data pos ;;
      t <- at_ data pos ;;
      if t =? 1 then
        d <- substr data (pos + 1) (sub64 l 1) ;;
        im <- image_read d ;;
        ' (rest, pos) <- attrs_read n' data (pos + l) stop ;;
        Ok (im :: rest, pos)
      else Throw ERuntime
    else Ok ([], pos)
  end.

Definition tag17_read (data : bytes) (pos length : N) : result (contents * N) :=
  ' (a, p) <- attrs_read (S (S (List.length data))) data pos length ;;
  Ok (PAttributes a, p).

(** Tag18::actual_read, Tag18.cpp 6-10. *)
Definition tag18_read (data : bytes) (pos length : N) : result (contents * N) :=
  v <- at_ data pos ;;
  d <- substr data (pos + 1) (length - 1) ;;
  Ok (PProtected v d, pos + length).

(** Tag9, 10, 12, 13, 19, 60-63 actual_read. *)
Definition raw_read (data : bytes) (pos length : N) : result (contents * N) :=
  d <- substr data pos length ;; Ok (PRaw d, pos + length).

(** Virtual dispatch of actual_read. *)
Definition actual_read (tag : N) (data : bytes) (pos length : N) : result (contents * N) :=
  match tag with
  | 1 => tag1_read data pos length
  | 2 => ' (s, p) <- tag2_read data pos ;; Ok (PSig s, p)
  | 3 => tag3_read data pos length
  | 4 => tag4_read data pos
  | 5 | 7 => secret_read data pos length
  | 6 | 14 => ' (k, p) <- key_read data pos ;; Ok (PKey k, p)
  | 8 => tag8_read data pos length
  | 9 | 10 | 12 | 13 | 19 | 60 | 61 | 62 | 63 => raw_read data pos length
  | 11 => tag11_read data pos length
  | 17 => tag17_read data pos length
  | 18 => tag18_read data pos length
  | _ => Throw ERuntime
  end.

(** Tag::read with check_end, Packet.cpp 89-100, on a new object of class [tag]. *)
Definition tag_read (tag : N) (data : bytes) (pos length : N) : result contents :=
  c0 <- contents_new tag ;;
  if length =? 0 then Ok c0
  else
    ' (c, p) <- actual_read tag data pos length ;;
    if p =? pos + length then Ok c else Throw ERuntime.

(** Key::raw_common, Key.cpp 158-188. *)
Definition key_raw (k : key) : bytes :=
  k_version k :: be 4 (k_time k) ++
  (if k_version k <? 4 then be 2 (k_expire k) else []) ++
  k_pka k :: concat (map write_MPI (k_mpi k)).

(** Tag5::actual_raw, Tag5.cpp 162-184. *)
Definition secret_raw (k : key) (s : secret) : result bytes :=
  let has_s2k := (sk_con s =? 254) || (sk_con s =? 255) in
  mid <- (if has_s2k then
            match sk_s2k s with
            | Some x => Ok (sk_sym s :: s2k_raw x)
            | None => Throw ERuntime
            end
          else Ok []) ;;
  Ok (key_raw k ++ sk_con s :: mid ++ (if sk_con s =? 0 then [] else sk_iv s) ++ sk_secret s).

(** Tag17 Sub1::raw, Tag17/Sub1.cpp 61-63: the version and encoding members are not used. *)
Definition image_raw (i : image) : bytes :=
  [16; 0; 1; 1] ++ repeat 0 12 ++ im_image i.

(** Virtual dispatch of actual_raw: Tag1.cpp 29-35, Tag3.cpp 51-53, Tag4.cpp 25-27,
    Tag8.cpp 43-45, Tag11.cpp 38-40, Tag17.cpp 35-41, Tag18.cpp 21-23, and the classes
    holding one string. *)
Definition raw (c : contents) : result bytes :=
  match c with
  | PSession _ keyid pka mpi => Ok (3 :: keyid ++ pka :: concat (map write_MPI mpi))
  | PSig s => Ok (tag2_raw s)
  | PSymSession v sym s2k esk =>
    Ok (v :: sym :: (match s2k with Some s => s2k_raw s | None => [] end) ++
        match esk with Some e => e | None => [] end)
  | POnePass _ type hash pka keyid last => Ok (3 :: type :: hash :: pka :: keyid ++ [last])
  | PSecret k s => secret_raw k s
  | PKey k => Ok (key_raw k)
  | PCompressed c d => Ok (c :: d)
  | PLiteral f name time lit => Ok (f :: u8 (len name) :: name ++ be 4 time ++ lit)
  | PAttributes l => Ok (concat (map (fun i => write_subpacket (1 :: image_raw i)) l))
  | PProtected v d => Ok (v :: d)
  | PRaw d => Ok d
  end.

(** Partial::can_have_partial_length, Partial.cpp 41-46. *)
Definition can_have_partial_length (tag : N) : bool := mem [8;9;11;18] tag.

(** Tag::actual_write, Packet.cpp 63-70, and Partial::write, Partial.cpp 15-21 (used by
    Tag8, 9, 11 and 18). *)
Definition write (p : packet) : result bytes :=
  data <- raw (p_body p) ;;
  let part := if can_have_partial_length (p_tag p) then p_partial p else NOT_PARTIAL in
  match p_format p with
  | NEW => write_new_length (p_tag p) data part 0
  | OLD => if 15 <? p_tag p then write_new_length (p_tag p) data part 0
           else Ok (write_old_length (p_tag p) data part 0)
  end.

(** Tag6::actual_valid, Tag6.cpp 6-51. *)
Definition key_valid (check_mpi : bool) (k : key) : status :=
  if k_version k =? 3 then
    check (is_RSA (k_pka k)) PKA_CANNOT_BE_USED
    (check (negb check_mpi || Nat.eqb (length (k_mpi k)) 2) INVALID_MPI_COUNT SUCCESS)
  else if k_version k =? 4 then
    check (pka_valid (k_pka k)) INVALID_PUBLIC_KEY_ALGORITHM
    (check (negb check_mpi ||
            match k_pka k with
            | 1 | 2 | 3 => Nat.eqb (length (k_mpi k)) 2
            | 17 => Nat.eqb (length (k_mpi k)) 4
            | 16 => Nat.eqb (length (k_mpi k)) 3
            | _ => false
            end) INVALID_MPI_COUNT SUCCESS)
  else INVALID_VERSION.

Section valid.
  Variable regex_ok : bytes -> bool.

  (** Virtual dispatch of actual_valid: Tag1.cpp 37-79, Tag2.cpp 287-354, Tag3.cpp 55-69,
      Tag4.cpp 29-51, Tag5.cpp 186-210, Tag6.cpp 6-51, Tag8.cpp 51-57, Tag9.cpp, Tag10.cpp,
      Tag11.cpp, Tag12.cpp, Tag13.cpp, Tag17.cpp, Tag18.cpp, Tag19.cpp, Tag60-63.cpp.
      [tag] is the class of the object. *)
  Definition valid (check_mpi : bool) (tag : N) (c : contents) : result status :=
    match c with
    | PSession v keyid pka mpi =>
      Ok (check (v =? 3) INVALID_VERSION
         (check (len keyid =? 8) INVALID_LENGTH
         (check (pka_valid pka) INVALID_PUBLIC_KEY_ALGORITHM
         (check (can_encrypt pka) PKA_CANNOT_BE_USED
         (check (negb check_mpi ||
                 match pka with
                 | 1 | 2 => Nat.eqb (length mpi) 1
                 | 16 => Nat.eqb (length mpi) 2
                 | _ => false
                 end) INVALID_MPI_COUNT SUCCESS)))))
    | PSig s => tag2_valid regex_ok check_mpi s
    | PSymSession v sym s _ =>
      Ok (check (v =? 4) INVALID_VERSION
         (check (sym_valid sym) INVALID_SYMMETRIC_ENCRYPTION_ALGORITHM
         (match s with None => MISSING_S2K | Some s => s2k_valid s end)))
    | POnePass v type hash pka keyid _ =>
      Ok (check (v =? 3) INVALID_VERSION
         (check (sigtype_valid type) INVALID_SIGNATURE_TYPE
         (check (hash_valid hash) INVALID_HASH_ALGORITHM
         (check (pka_valid pka) INVALID_PUBLIC_KEY_ALGORITHM
         (check (len keyid =? 8) INVALID_LENGTH SUCCESS)))))
    | PSecret k s =>
      let pub := key_valid check_mpi k in
      if success pub then
        let has_s2k := (sk_con s =? 254) || (sk_con s =? 255) in
        let st := if has_s2k then
                    match sk_s2k s with None => MISSING_S2K | Some _ => SUCCESS end
                  else if sk_con s =? 0 then SUCCESS
                  else check (sym_valid (sk_sym s)) INVALID_SYMMETRIC_ENCRYPTION_ALGORITHM SUCCESS in
        if success st then
          if sk_con s =? 0 then Ok SUCCESS
          else bl <- map_at block_length (sk_sym s) ;;
               Ok (check (len (sk_iv s) =? N.shiftr bl 3) INVALID_LENGTH SUCCESS)
        else Ok st
      else Ok pub
    | PKey k => Ok (key_valid check_mpi k)
    | PCompressed c _ => Ok (check (comp_valid c) INVALID_COMPRESSION_ALGORITHM SUCCESS)
    | PLiteral f _ _ _ => Ok (check (mem literal_ids f) INVALID_LITERAL_DATA_FORMAT SUCCESS)
    | PAttributes l =>
      first_error (fun i => Ok (check (im_version i =? 1) INVALID_VERSION
                               (check (im_encoding i =? 1) INVALID SUCCESS))) l
    | PProtected v _ => Ok (check (v =? 1) INVALID_VERSION SUCCESS)
    | PRaw d =>
      Ok (match tag with
          | 9 => check (2 <=? len d) INVALID_LENGTH SUCCESS
          | 10 => check (beq d (str "PGP")) INVALID_CONTENTS SUCCESS
          | 12 => SHOULD_NOT_BE_EMITTED
          | 19 => check (len d =? 20) INVALID_SHA1_HASH SUCCESS
          | _ => SUCCESS
          end)
    end.
End valid.
