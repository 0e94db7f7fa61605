(** Signature packets and their subpackets: src/Packets/Tag2.cpp, src/Packets/Subpacket.cpp
    and src/Packets/Tag2/Sub*.cpp. *)
From Verif Require Export Model.Tables Model.Includes Model.Mpi Model.Length.

(** Subpacket contents, include/Packets/Tag2/Sub*.h.  [S] is the type of an embedded
    signature (Sub32).  Boolean members are C++ bool. *)
Inductive sub (S : Type) : Type :=
| Sub2 (time : N) | Sub3 (dt : N) | Sub4 (exportable : bool) | Sub5 (level amount : N)
| Sub6 (regex : bytes) | Sub7 (revocable : bool) | Sub9 (dt : N) | Sub10 (stuff : bytes)
| Sub11 (psa : bytes) | Sub12 (cls pka : N) (fingerprint : bytes) | Sub16 (keyid : bytes)
| Sub20 (flags m n : bytes) | Sub21 (pha : bytes) | Sub22 (pca : bytes) | Sub23 (flags : bytes)
| Sub24 (pks : bytes) | Sub25 (primary : bool) | Sub26 (uri : bytes) | Sub27 (flags : bytes)
| Sub28 (signer : bytes) | Sub29 (code : N) (reason : bytes) | Sub30 (flags : bytes)
| Sub31 (pka hash_alg : N) (hash : bytes) | Sub32 (embedded : option S).
Arguments Sub2 {S}. Arguments Sub3 {S}. Arguments Sub4 {S}. Arguments Sub5 {S}.
Arguments Sub6 {S}. Arguments Sub7 {S}. Arguments Sub9 {S}. Arguments Sub10 {S}.
Arguments Sub11 {S}. Arguments Sub12 {S}. Arguments Sub16 {S}. Arguments Sub20 {S}.
Arguments Sub21 {S}. Arguments Sub22 {S}. Arguments Sub23 {S}. Arguments Sub24 {S}.
Arguments Sub25 {S}. Arguments Sub26 {S}. Arguments Sub27 {S}. Arguments Sub28 {S}.
Arguments Sub29 {S}. Arguments Sub30 {S}. Arguments Sub31 {S}. Arguments Sub32 {S}.

(** Sub::type as set by each constructor, include/Packets/Tag2/Subpacket.h. *)
Definition sub_type {S} (s : sub S) : N :=
  match s with
  | Sub2 _ => 2 | Sub3 _ => 3 | Sub4 _ => 4 | Sub5 _ _ => 5 | Sub6 _ => 6 | Sub7 _ => 7
  | Sub9 _ => 9 | Sub10 _ => 10 | Sub11 _ => 11 | Sub12 _ _ _ => 12 | Sub16 _ => 16
  | Sub20 _ _ _ => 20 | Sub21 _ => 21 | Sub22 _ => 22 | Sub23 _ => 23 | Sub24 _ => 24
  | Sub25 _ => 25 | Sub26 _ => 26 | Sub27 _ => 27 | Sub28 _ => 28 | Sub29 _ _ => 29
  | Sub30 _ => 30 | Sub31 _ _ _ => 31 | Sub32 _ => 32
  end.

(** Default-constructed subpacket of a type; the switch of Tag2::read_subpackets,
    Tag2.cpp 20-99 (other types throw). *)
Definition sub_new {S} (type : N) : result (sub S) :=
  match type with
  | 2 => Ok (Sub2 0) | 3 => Ok (Sub3 0) | 4 => Ok (Sub4 false) | 5 => Ok (Sub5 0 0)
  | 6 => Ok (Sub6 []) | 7 => Ok (Sub7 false) | 9 => Ok (Sub9 0) | 10 => Ok (Sub10 [])
  | 11 => Ok (Sub11 []) | 12 => Ok (Sub12 0 0 []) | 16 => Ok (Sub16 [])
  | 20 => Ok (Sub20 [] [] []) | 21 => Ok (Sub21 []) | 22 => Ok (Sub22 [])
  | 23 => Ok (Sub23 []) | 24 => Ok (Sub24 []) | 25 => Ok (Sub25 false) | 26 => Ok (Sub26 [])
  | 27 => Ok (Sub27 []) | 28 => Ok (Sub28 []) | 29 => Ok (Sub29 0 []) | 30 => Ok (Sub30 [])
  | 31 => Ok (Sub31 0 0 []) | 32 => Ok (Sub32 None)
  | _ => Throw ERuntime
  end.

(** Sub6::set_regex, Sub6.cpp 51-58: trailing NULs are removed. *)
Fixpoint strip_nul_rev (s : bytes) : bytes :=
  match s with 0 :: r => strip_nul_rev r | _ => s end.
Definition strip_nul (s : bytes) : bytes := rev (strip_nul_rev (rev s)).

(** Sub2/3/9::actual_read: uint32_t of toint(data, 256). *)
Definition read_time (data : bytes) : N := u32 (toint256 data).

(** The actual_read functions of Sub*.cpp, on non-empty data; [emb] is the constructor
    Packet::Tag2(data) used by Sub32.cpp 7-9. *)
Definition sub_actual_read {S} (emb : bytes -> result S) (s : sub S) (data : bytes) : result (sub S) :=
  match s with
  | Sub2 _ => Ok (Sub2 (read_time data))                       (* Sub2.cpp 7-9 *)
  | Sub3 _ => Ok (Sub3 (read_time data))                       (* Sub3.cpp 7-9 *)
  | Sub4 _ => c <- at_ data 0 ;; Ok (Sub4 (negb (c =? 0)))     (* Sub4.cpp 7-11 *)
  | Sub5 l a =>                                                (* Sub5.cpp 7-12 *)
    if 2 <=? len data then l' <- at_ data 0 ;; a' <- at_ data 1 ;; Ok (Sub5 l' a')
    else Ok (Sub5 l a)
  | Sub6 _ => Ok (Sub6 (strip_nul data))                       (* Sub6.cpp 9-11 *)
  | Sub7 _ => c <- at_ data 0 ;; Ok (Sub7 (negb (c =? 0)))     (* Sub7.cpp 7-11 *)
  | Sub9 _ => Ok (Sub9 (read_time data))                       (* Sub9.cpp 7-9 *)
  | Sub10 _ => Ok (Sub10 data)                                 (* Sub10.cpp 7-9 *)
  | Sub11 _ => Ok (Sub11 data)                                 (* Sub11.cpp 7-9 *)
  | Sub12 c p f =>                                             (* Sub12.cpp 7-13 *)
    if 22 <=? len data then
      c' <- at_ data 0 ;; p' <- at_ data 1 ;; f' <- substr data 2 20 ;; Ok (Sub12 c' p' f')
    else Ok (Sub12 c p f)
  | Sub16 _ => Ok (Sub16 data)                                 (* Sub16.cpp 7-9 *)
  | Sub20 f m n =>                                             (* Sub20.cpp 7-18 *)
    if 8 <=? len data then
      f' <- substr data 0 4 ;;
      ms <- substr data 4 2 ;; ns <- substr data 6 2 ;;
      let mlen := u16 (toint256 ms) in
      let nlen := u16 (toint256 ns) in
      if (8 + mlen + nlen) <? len data then
        m' <- substr data 8 mlen ;; n' <- substr data (8 + mlen) nlen ;; Ok (Sub20 f' m' n')
      else Ok (Sub20 f' m n)
    else Ok (Sub20 f m n)
  | Sub21 _ => Ok (Sub21 data) | Sub22 _ => Ok (Sub22 data)    (* Sub21/22.cpp 7-9 *)
  | Sub23 _ => Ok (Sub23 data) | Sub24 _ => Ok (Sub24 data)    (* Sub23/24.cpp 7-9 *)
  | Sub25 _ => c <- at_ data 0 ;; Ok (Sub25 (negb (c =? 0)))   (* Sub25.cpp 7-11 *)
  | Sub26 _ => Ok (Sub26 data) | Sub27 _ => Ok (Sub27 data)    (* Sub26/27.cpp 7-9 *)
  | Sub28 _ => Ok (Sub28 data)                                 (* Sub28.cpp 7-9 *)
  | Sub29 _ _ =>                                               (* Sub29.cpp 7-12 *)
    c <- at_ data 0 ;; r <- substr data 1 (len data - 1) ;; Ok (Sub29 c r)
  | Sub30 _ => Ok (Sub30 data)                                 (* Sub30.cpp 7-9 *)
  | Sub31 p h d =>                                             (* Sub31.cpp 7-13 *)
    if 2 <? len data then
      p' <- at_ data 0 ;; h' <- at_ data 1 ;; d' <- substr data 2 (len data - 2) ;;
      Ok (Sub31 p' h' d')
    else Ok (Sub31 p h d)
  | Sub32 _ => e <- emb data ;; Ok (Sub32 (Some e))            (* Sub32.cpp 7-9 *)
  end.

(** Sub::read, Subpacket.cpp 54-59: empty data leaves the object unchanged. *)
Definition sub_read {S} (emb : bytes -> result S) (s : sub S) (data : bytes) : result (sub S) :=
  if 0 <? len data then sub_actual_read emb s data else Ok s.

Definition bool_octet (b : bool) : bytes := [if b then 1 else 0].

(** The raw functions of Sub*.cpp; [emb] is Tag2::raw (Sub32.cpp 44-46). *)
Definition sub_raw {S} (emb : S -> bytes) (s : sub S) : bytes :=
  match s with
  | Sub2 t | Sub3 t | Sub9 t => be 4 t
  | Sub4 b | Sub7 b | Sub25 b => bool_octet b
  | Sub5 l a => [l; a]
  | Sub6 r => r ++ [0]
  | Sub10 d | Sub11 d | Sub16 d | Sub21 d | Sub22 d | Sub23 d | Sub24 d | Sub26 d | Sub27 d
  | Sub28 d | Sub30 d => d
  | Sub12 c p f => c :: p :: f
  | Sub20 f m n => f ++ be 2 (len m) ++ be 2 (len n) ++ m ++ n
  | Sub29 c r => c :: r
  | Sub31 p h d => p :: h :: d
  | Sub32 e => match e with Some x => emb x | None => [] end
  end.

(** Sub::write, Subpacket.cpp 77-79: type octet with the critical bit, then raw. *)
Definition sub_write {S} (emb : S -> bytes) (c : bool * sub S) : bytes :=
  write_subpacket (N.lor (sub_type (snd c)) (if fst c then 128 else 0) :: sub_raw emb (snd c)).

(** Tag2's members, include/Packets/Tag2.h; each subpacket with its critical bit. *)
Inductive tag2 : Type := mkTag2
  (version type pka hash : N) (mpi : list N) (left16 : bytes) (time : N) (keyid : bytes)
  (hashed unhashed : list (bool * sub tag2)).

Definition t2_version (s : tag2) := let (v,_,_,_,_,_,_,_,_,_) := s in v.
Definition t2_type (s : tag2) := let (_,t,_,_,_,_,_,_,_,_) := s in t.
Definition t2_pka (s : tag2) := let (_,_,p,_,_,_,_,_,_,_) := s in p.
Definition t2_hash (s : tag2) := let (_,_,_,h,_,_,_,_,_,_) := s in h.
Definition t2_mpi (s : tag2) := let (_,_,_,_,m,_,_,_,_,_) := s in m.
Definition t2_left16 (s : tag2) := let (_,_,_,_,_,l,_,_,_,_) := s in l.
Definition t2_time (s : tag2) := let (_,_,_,_,_,_,t,_,_,_) := s in t.
Definition t2_keyid (s : tag2) := let (_,_,_,_,_,_,_,k,_,_) := s in k.
Definition t2_hashed (s : tag2) := let (_,_,_,_,_,_,_,_,h,_) := s in h.
Definition t2_unhashed (s : tag2) := let (_,_,_,_,_,_,_,_,_,u) := s in u.

(** Tag2::Tag2(), Tag2.cpp 356-367. *)
Definition tag2_new : tag2 := mkTag2 0 0 0 0 [] [] 0 [] [] [].

(** Tag2::read_subpackets, Tag2.cpp 8-110.  [n] bounds the iterations; every iteration
    moves the position forward, so [length data + 1] is enough (proved).  [length - 1] is
    size_t arithmetic: a zero length takes the rest of the data. *)
Fixpoint read_subpackets {S} (emb : bytes -> result S) (n : nat) (data : bytes) (pos : N)
  : result (list (bool * sub S)) :=
  match n with
  | O => Diverge
  | Datatypes.S n' =>
    if pos <? len data then
      ' (length, pos) <- read_subpacket data pos ;;
      t <- at_ data pos ;;
      s0 <- sub_new (N.land t 127) ;;
      d <- substr data (pos + 1) (sub64 length 1) ;;
      s <- sub_read emb s0 d ;;
      rest <- read_subpackets emb n' data (pos + length) ;;
      Ok ((N.testbit t 7, s) :: rest)
    else Ok []
  end.

(** [k] MPIs in a row. *)
Fixpoint read_mpis (k : nat) (data : bytes) (pos : N) : result (list N * N) :=
  match k with
  | O => Ok ([], pos)
  | Datatypes.S k' =>
    ' (m, pos) <- read_MPI data pos ;;
    ' (ms, pos) <- read_mpis k' data pos ;;
    Ok (m :: ms, pos)
  end.

(** Tag2::actual_read, Tag2.cpp 112-184, on a default-constructed object.  [n] bounds the
    depth of embedded signatures; a signature embedded in data is shorter than it, so
    [length data + 1] is enough (proved).  The v3 branch really assigns [pos = 19]. *)
Fixpoint tag2_read_n (n : nat) (data : bytes) (pos : N) : result (tag2 * N) :=
  match n with
  | O => Diverge
  | Datatypes.S n' =>
    (** Packet::Tag2(data), Tag2.cpp 383-387: Tag::read with check_end, Packet.cpp 89-105 *)
    let embed d :=
      if 0 <? len d then
        ' (s, p) <- tag2_read_n n' d 0 ;; if p =? len d then Ok s else Throw ERuntime
      else Ok tag2_new in
    version <- at_ data pos ;;
    if version =? 3 then
      five <- at_ data (pos + 1) ;;
      if five =? 5 then
        type <- at_ data (pos + 2) ;;
        time <- substr data (pos + 3) 4 ;;
        keyid <- substr data (pos + 7) 8 ;;
        if len keyid =? 8 then
          pka <- at_ data (pos + 15) ;;
          hash <- at_ data (pos + 16) ;;
          left16 <- substr data (pos + 17) 2 ;;
          let pos := 19 in
          ' (mpi, pos) <-
            (if is_RSA pka then read_mpis 1 data pos
             else if pka =? 17 then read_mpis 2 data pos
             else Throw ERuntime) ;;
          Ok (mkTag2 3 type pka hash mpi left16 (u32 (toint256 time)) keyid [] [], pos)
        else Throw ERuntime
      else Throw ERuntime
    else if version =? 4 then
      type <- at_ data (pos + 1) ;;
      pka <- at_ data (pos + 2) ;;
      hash <- at_ data (pos + 3) ;;
      let pos := pos + 4 in
      hs <- substr data pos 2 ;;
      let hashed_size := u16 (toint256 hs) in
      let pos := pos + 2 in
      hd <- substr data pos hashed_size ;;
      hashed <- read_subpackets embed (Datatypes.S (length hd)) hd 0 ;;
      let pos := pos + hashed_size in
      us <- substr data pos 2 ;;
      let unhashed_size := u16 (toint256 us) in
      let pos := pos + 2 in
      ud <- substr data pos unhashed_size ;;
      unhashed <- read_subpackets embed (Datatypes.S (length ud)) ud 0 ;;
      let pos := pos + unhashed_size in
      left16 <- substr data pos 2 ;;
      let pos := pos + 2 in
      ' (mpi, pos) <- read_mpis (if pka =? 17 then 2 else 1) data pos ;;
      Ok (mkTag2 4 type pka hash mpi left16 0 [] hashed unhashed, pos)
    else Throw ERuntime
  end.

Definition tag2_read (data : bytes) (pos : N) : result (tag2 * N) :=
  tag2_read_n (Datatypes.S (length data)) data pos.

(** The constructor Packet::Tag2(data), Tag2.cpp 383-387, which calls Tag::read with
    check_end, Packet.cpp 89-105. *)
Definition tag2_of (data : bytes) : result tag2 :=
  if 0 <? len data then
    ' (s, p) <- tag2_read data 0 ;; if p =? len data then Ok s else Throw ERuntime
  else Ok tag2_new.

(** Tag2::actual_raw, Tag2.cpp 265-285. *)
Fixpoint tag2_raw (s : tag2) : bytes :=
  match s with
  | mkTag2 version type pka hash mpi left16 time keyid hashed unhashed =>
    let hs := concat (map (fun c => sub_write tag2_raw c) hashed) in
    let us := concat (map (fun c => sub_write tag2_raw c) unhashed) in
    version ::
    (if version =? 3 then
       5 :: type :: be 4 time ++ keyid ++ pka :: hash :: left16
     else []) ++
    (if version =? 4 then
       type :: pka :: hash :: be 2 (len hs) ++ hs ++ be 2 (len us) ++ us ++ left16
     else []) ++
    concat (map write_MPI mpi)
  end.

(** Key server preference, key flag and feature octets: every set bit must be known,
    Sub23.cpp 22-34, Sub27.cpp 22-34, Sub30.cpp 22-35. *)
Definition flags_valid (ids : list N) (flags : bytes) : bool :=
  forallb (fun o => forallb (fun b => negb (N.testbit o b) || mem ids (2 ^ b))
                            [0;1;2;3;4;5;6;7]) flags.

Section valid.
  (** std::regex construction and matching on "" do not throw. *)
  Variable regex_ok : bytes -> bool.

  (** Sub*::actual_valid; [emb] is Tag2::valid of an embedded signature.  Sub32.cpp 17-24
      tests [!embedded->valid()], and SUCCESS is 0, so the test is inverted.  Sub31 uses
      Hash::LENGTH.at, which throws for a hash number without a length. *)
  Definition sub_valid {S} (emb : S -> result status) (s : sub S) : result status :=
    match s with
    | Sub6 r => Ok (check (regex_ok r) REGEX_ERROR SUCCESS)
    | Sub11 d => Ok (check (forallb sym_valid d) INVALID_SYMMETRIC_ENCRYPTION_ALGORITHM SUCCESS)
    | Sub12 c p f =>
      Ok (check (N.testbit c 7) INVALID
         (check (pka_valid p) INVALID_PUBLIC_KEY_ALGORITHM
         (check (len f =? 20) INVALID_FINGERPRINT SUCCESS)))
    | Sub16 k => Ok (check (len k =? 8) INVALID_LENGTH SUCCESS)
    | Sub20 f _ _ =>
      Ok (check (len f =? 4) INVALID_LENGTH
         (check (forallb (mem notation_ids) f) INVALID_FLAG SUCCESS))
    | Sub21 d => Ok (check (forallb hash_valid d) INVALID_HASH_ALGORITHM SUCCESS)
    | Sub22 d => Ok (check (forallb comp_valid d) INVALID_COMPRESSION_ALGORITHM SUCCESS)
    | Sub23 d => Ok (check (flags_valid ksp_ids d) INVALID_FLAG SUCCESS)
    | Sub27 d => Ok (check (flags_valid key_flag_ids d) INVALID_FLAG SUCCESS)
    | Sub29 c _ => Ok (check (mem revoke_ids c) INVALID_REASON_FOR_REVOCATION SUCCESS)
    | Sub30 d => Ok (check (flags_valid feature_ids d) INVALID_FLAG SUCCESS)
    | Sub31 p h d =>
      if pka_valid p then
        if hash_valid h then
          l <- map_at hash_length h ;;
          Ok (check (N.shiftr l 3 =? len d) INVALID_LENGTH SUCCESS)
        else Ok INVALID_HASH_ALGORITHM
      else Ok INVALID_PUBLIC_KEY_ALGORITHM
    | Sub32 e =>
      match e with
      | None => Ok INVALID_CONTENTS
      | Some x => v <- emb x ;; Ok (if success v then INVALID_CONTENTS else SUCCESS)
      end
    | _ => Ok SUCCESS
    end.

  (** First failing status of a list of checks (Tag2.cpp 309-323). *)
  Definition first_error {A} (f : A -> result status) : list A -> result status :=
    fix go l :=
      match l with
      | [] => Ok SUCCESS
      | x :: l' => v <- f x ;; if success v then go l' else Ok v
      end.

  (** Tag2::actual_valid, Tag2.cpp 287-354; subpackets are checked without MPIs. *)
  Fixpoint tag2_valid (check_mpi : bool) (s : tag2) : result status :=
    match s with
    | mkTag2 version type pka hash mpi left16 time keyid hashed unhashed =>
      if negb ((version =? 3) || (version =? 4)) then Ok INVALID_VERSION
      else if negb (sigtype_valid type) then Ok INVALID_SIGNATURE_TYPE
      else if negb (pka_valid pka) then Ok INVALID_PUBLIC_KEY_ALGORITHM
      else if negb (can_sign pka) then Ok PKA_CANNOT_BE_USED
      else if negb (hash_valid hash) then Ok INVALID_HASH_ALGORITHM
      else
        subs <- (if version =? 4 then
                   v <- first_error (fun c => sub_valid (tag2_valid false) (snd c)) hashed ;;
                   if success v then
                     first_error (fun c => sub_valid (tag2_valid false) (snd c)) unhashed
                   else Ok v
                 else Ok SUCCESS) ;;
        if success subs then
          Ok (check (len left16 =? 2) INVALID_LEFT16_BITS
             (if check_mpi then
                check (match pka with
                       | 1 | 3 => Nat.eqb (length mpi) 1
                       | 17 => Nat.eqb (length mpi) 2
                       | _ => false
                       end) INVALID_MPI_COUNT SUCCESS
              else SUCCESS))
        else Ok subs
    end.
End valid.
