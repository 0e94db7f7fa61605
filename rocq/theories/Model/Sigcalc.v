(** The octets a signature is computed over: src/Misc/sigcalc.cpp, and the accessors of
    src/Packets/Tag2.cpp that signing and verification use.  Arguments are never null here
    (the functions throw std::runtime_error for a null pointer). *)
From Verif Require Export Model.KeyOps.

(** Tag2::get_up_to_hashed, Tag2.cpp 514-529. *)
Definition get_up_to_hashed (s : tag2) : result bytes :=
  if t2_version s =? 3 then Ok (3 :: t2_type s :: be 4 (t2_time s))
  else if t2_version s =? 4 then
    let hashed := concat (map (sub_write tag2_raw) (t2_hashed s)) in
    Ok (4 :: t2_type s :: t2_pka s :: t2_hash s :: be 2 (len hashed) ++ hashed)
  else Throw ERuntime.

(** Tag2::get_without_unhashed, Tag2.cpp 531-547. *)
Definition get_without_unhashed (s : tag2) : bytes :=
  let hashed := concat (map (sub_write tag2_raw) (t2_hashed s)) in
  t2_version s ::
  (if t2_version s <? 4 then
     5 :: t2_type s :: be 4 (t2_time s) ++ t2_keyid s ++ t2_pka s :: t2_hash s :: t2_left16 s
   else []) ++
  (if t2_version s =? 4 then
     t2_type s :: t2_pka s :: t2_hash s :: be 2 (len hashed) ++ hashed ++ 0 :: 0 :: t2_left16 s
   else []) ++
  concat (map write_MPI (t2_mpi s)).

(** addtrailer, sigcalc.cpp 11-28. *)
Definition addtrailer (data : bytes) (s : tag2) : result bytes :=
  trailer <- get_up_to_hashed s ;;
  if t2_version s =? 3 then Ok (data ++ skipn 1 trailer)
  else if t2_version s =? 4 then Ok (data ++ trailer ++ [4; 255] ++ be 4 (len trailer))
  else Throw ERuntime.

(** overkey, sigcalc.cpp 30-37. *)
Definition overkey (k : key) : bytes := 153 :: be 2 (len (key_raw k)) ++ key_raw k.

(** A user ID (tag 13) or user attribute (tag 17) packet; certification, sigcalc.cpp 39-60. *)
Definition certification (version : N) (tag : N) (id : contents) : result bytes :=
  if version =? 3 then raw id
  else if version =? 4 then
    data <- raw id ;;
    if tag =? 13 then Ok (180 :: be 4 (len data) ++ data)
    else if tag =? 17 then Ok (209 :: be 4 (len data) ++ data)
    else Ok []
  else Throw ERuntime.

(** text_to_canonical, sigcalc.cpp 74-96. *)
Definition canonical_line (line : bytes) : bytes :=
  line ++ (match rev line with 13 :: _ => [] | _ => [13] end) ++ [10].
Definition text_to_canonical (data : bytes) : bytes := concat (map canonical_line (getlines data)).

(** The octets handed to Hash::use by each function; to_sign_00 66-72, to_sign_01 98-105
    (canonical.size() - 2 wraps for an empty text), to_sign_02 107-116, to_sign_10/11/12/13
    118-192, to_sign_18/19 226-240, to_sign_1f 242-248, to_sign_20 250-268, to_sign_28
    270-288, to_sign_30 290-308, to_sign_40 310-320, to_sign_50 322-325. *)
Definition input_00 (data : bytes) (s : tag2) : result bytes := addtrailer data s.
Definition input_01 (data : bytes) (s : tag2) : result bytes :=
  let canonical := text_to_canonical data in
  addtrailer (prefix canonical (sub64 (len canonical) 2)) s.
Definition input_02 (s : tag2) : result bytes :=
  if t2_version s =? 3 then Throw ERuntime else addtrailer [] s.
Definition input_cert (type : N) (k : key) (tag : N) (id : contents) (s : tag2) : result bytes :=
  if t2_type s =? type then
    c <- certification (t2_version s) tag id ;; addtrailer (overkey k ++ c) s
  else Throw ERuntime.
Definition input_18 (primary k : key) (s : tag2) : result bytes := addtrailer (overkey primary ++ overkey k) s.
Definition input_1f (k : key) (s : tag2) : result bytes := addtrailer (overkey k) s.
Definition input_20 (tag : N) (k : key) (s : tag2) : result bytes :=
  if mem [5; 6] tag then if t2_type s =? 32 then addtrailer (overkey k) s else Throw ERuntime else Throw ERuntime.
Definition input_28 (tag : N) (k : key) (s : tag2) : result bytes :=
  if mem [7; 14] tag then if t2_type s =? 40 then addtrailer (overkey k) s else Throw ERuntime else Throw ERuntime.
Definition input_40 (s : tag2) : result bytes :=
  if t2_type s =? 64 then addtrailer [] s else Throw ERuntime.
Definition to_sign_50 (s : tag2) : bytes :=
  let data := get_without_unhashed s in 136 :: be 4 (len data) ++ data.

(** Hash::use(tag2 -> get_hash(), .) of those octets. *)
Definition hashed_with (s : tag2) (input : result bytes) : result bytes := d <- input ;; hash_use (t2_hash s) d.
Definition to_sign_00 data s := hashed_with s (input_00 data s).
Definition to_sign_01 data s := hashed_with s (input_01 data s).
Definition to_sign_02 s := hashed_with s (input_02 s).
Definition to_sign_10 k tag id s := hashed_with s (input_cert 16 k tag id s).
Definition to_sign_11 k tag id s := hashed_with s (input_cert 17 k tag id s).
Definition to_sign_12 k tag id s := hashed_with s (input_cert 18 k tag id s).
Definition to_sign_13 k tag id s := hashed_with s (input_cert 19 k tag id s).
Definition to_sign_18 p k s := hashed_with s (input_18 p k s).
Definition to_sign_19 p k s := hashed_with s (input_18 p k s).
Definition to_sign_1f k s := hashed_with s (input_1f k s).
Definition to_sign_20 tag k s := hashed_with s (input_20 tag k s).
Definition to_sign_28 tag k s := hashed_with s (input_28 tag k s).
Definition to_sign_30 k tag id s := hashed_with s (input_cert 48 k tag id s).
Definition to_sign_40 s := hashed_with s (input_40 s).
(** to_sign_cert, sigcalc.cpp 194-224. *)
Definition to_sign_cert (cert : N) (k : key) (tag : N) (id : contents) (s : tag2) : result bytes :=
  match cert with
  | 16 => to_sign_10 k tag id s
  | 17 => to_sign_11 k tag id s
  | 18 => to_sign_12 k tag id s
  | 19 => to_sign_13 k tag id s
  | _ => Throw ERuntime
  end.

(** One pass over a subpacket area keeping the last value of each time subpacket,
    Tag2.cpp 420-435 ([hashed]) and 438-445. *)
Definition scan_times (hashed : bool) (l : list (bool * sub tag2)) (t : N * N * N) : N * N * N :=
  fold_left (fun t c =>
    let '(a, b, e) := t in
    match snd c with
    | Sub2 x => if hashed then (x, b, e) else t
    | Sub3 x => (a, x, e)
    | Sub9 x => (a, b, x)
    | _ => t
    end) l t.

(** Tag2::get_times, Tag2.cpp 413-462: uint32_t additions. *)
Definition get_times (s : tag2) : result (N * N * N) :=
  if t2_version s =? 3 then Ok (t2_time s, 0, 0)
  else if t2_version s =? 4 then
    let '(a, b, e) := scan_times false (t2_unhashed s) (scan_times true (t2_hashed s) (0, 0, 0)) in
    if a =? 0 then Throw ERuntime
    else Ok (a, if b =? 0 then 0 else u32 (b + a), if e =? 0 then 0 else u32 (e + a))
  else Throw ERuntime.

(** First issuer subpacket of an area; Tag2::get_keyid, Tag2.cpp 464-488. *)
Fixpoint find_issuer (l : list (bool * sub tag2)) : option bytes :=
  match l with
  | [] => None
  | (_, Sub16 k) :: _ => Some k
  | _ :: l' => find_issuer l'
  end.
Definition sig_keyid (s : tag2) : result bytes :=
  if t2_version s =? 3 then Ok (t2_keyid s)
  else if t2_version s =? 4 then
    match find_issuer (t2_unhashed s) with
    | Some k => Ok k
    | None => match find_issuer (t2_hashed s) with Some k => Ok k | None => Ok [] end
    end
  else Throw ERuntime.

(** Tag2::find_subpacket, Tag2.cpp 631-655: the first of that type in the hashed area, unless
    the unhashed area has one. *)
Definition find_first (l : list (bool * sub tag2)) (type : N) : option (sub tag2) :=
  option_map snd (find (fun c => sub_type (snd c) =? type) l).
Definition find_subpacket (s : tag2) (type : N) : bytes :=
  match find_first (t2_unhashed s) type with
  | Some x => sub_raw tag2_raw x
  | None => match find_first (t2_hashed s) type with Some x => sub_raw tag2_raw x | None => [] end
  end.

(** Tag2::set_time, Tag2.cpp 569-589, and set_keyid, 591-615. *)
Fixpoint replace_first (type : N) (x : sub tag2) (l : list (bool * sub tag2)) : list (bool * sub tag2) :=
  match l with
  | [] => [(false, x)]
  | c :: l' => if sub_type (snd c) =? type then (false, x) :: l' else c :: replace_first type x l'
  end.
Definition set_time (t : N) (s : tag2) : tag2 :=
  let 'mkTag2 v ty p h m l ti k hs us := s in
  if v =? 3 then mkTag2 v ty p h m l t k hs us
  else if v =? 4 then mkTag2 v ty p h m l ti k (replace_first 2 (Sub2 t) hs) us
  else s.
Definition set_keyid (id : bytes) (s : tag2) : result tag2 :=
  if len id =? 8 then
    let 'mkTag2 v ty p h m l ti k hs us := s in
    if v =? 3 then Ok (mkTag2 v ty p h m l ti id hs us)
    else if v =? 4 then Ok (mkTag2 v ty p h m l ti k hs (replace_first 16 (Sub16 id) us))
    else Ok s
  else Throw ERuntime.
