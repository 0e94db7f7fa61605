(** Hash functions: src/Hashes/ (the library's own implementations; OpenSSL's are optional
    and off by default, CMakeLists.txt 82-84). *)
From Verif Require Export Model.HashConst Model.Includes Model.Tables Spec.Bytes.

(** 32- and 64-bit words: complement, and ROR / ROL of include/common/cryptomath.h 99-113. *)
Definition not32 (x : N) : N := N.lxor x 0xffffffff.
Definition not64 (x : N) : N := N.lxor x 0xffffffffffffffff.
Definition ror_bits (x n bits : N) : N :=
  N.lor (N.shiftr x n) (N.shiftl (N.land x (N.ones n)) (bits - n)).
Definition ror32 (x n : N) : N := u32 (ror_bits x n 32).
Definition rol32 (x n : N) : N := ror32 x (32 - n).
Definition ror64 (x n : N) : N := u64 (ror_bits x n 64).

(** An array element; every use below has an index within the array's fixed size. *)
Definition idx (l : list N) (i : nat) : N := nth i l 0.

(** Characters p..p+n-1 of a string (substr with p in range). *)
Definition slice (s : bytes) (p n : N) : bytes := firstn (N.to_nat n) (skipn (N.to_nat p) s).

(** One hash class: initial context, log2 of the block size in octets, whether the data is
    turned to little-endian words first, octets per word, the work of one iteration of
    calc's outer loop on a block's sixteen words, and the context as the octets of the
    digest.  hexdigest gives their hexadecimal digits and Alg::digest (Alg.cpp 10-12) undoes
    that, so the model works with the octets. *)
Record md := mkMd {
  md_ctx : Type; md_init : md_ctx; md_shift : N; md_little : bool; md_word : nat;
  md_block : md_ctx -> list N -> md_ctx; md_out : md_ctx -> bytes }.

(** MD5::calc, MD5.cpp 14-53: one block.  Round function and message index, 22-38. *)
Definition md5_ctx : Type := N * N * N * N.
Definition md5_f (x : nat) (b c d : N) : N * nat :=
  if Nat.ltb x 16 then (N.lor (N.land b c) (N.land (not32 b) d), x)
  else if Nat.ltb x 32 then
    (N.lor (N.land d b) (N.land (not32 d) c), ((5 * x + 1) mod 16)%nat)
  else if Nat.ltb x 48 then (N.lxor (N.lxor b c) d, ((3 * x + 5) mod 16)%nat)
  else (N.lxor c (N.lor b (not32 d)), ((7 * x) mod 16)%nat).
Definition md5_round (w : list N) (s : md5_ctx) (x : nat) : md5_ctx :=
  let '(a, b, c, d) := s in
  let '(f, g) := md5_f x b c d in
  (d, u32 (b + rol32 (u32 (a + f + idx MD5_K x + idx w g)) (idx MD5_R x)), b, c).
Definition md5_block (s : md5_ctx) (w : list N) : md5_ctx :=
  let '(h0, h1, h2, h3) := s in
  let '(a, b, c, d) := fold_left (md5_round w) (seq 0 64) s in
  (u32 (h0 + a), u32 (h1 + b), u32 (h2 + c), u32 (h3 + d)).
(** MD5::MD5 55-58, hexdigest 78-88: little_end(makehex(h, 8)) for each word. *)
Definition MD5 : md :=
  mkMd md5_ctx (0x67452301, 0xefcdab89, 0x98badcfe, 0x10325476) 6 true 4 md5_block
    (fun s => let '(h0, h1, h2, h3) := s in
              rev (be 4 h0) ++ rev (be 4 h1) ++ rev (be 4 h2) ++ rev (be 4 h3)).

(** SHA1::calc, SHA1.cpp 6-47: message schedule 9-15 (most recent word first), round
    17-41. *)
Definition sha1_ctx : Type := N * N * N * N * N.
Fixpoint sha1_ext (n : nat) (r : list N) : list N :=
  match n with
  | O => r
  | S n' => sha1_ext n' (rol32 (N.lxor (N.lxor (N.lxor (idx r 2) (idx r 7)) (idx r 13)) (idx r 15)) 1 :: r)
  end.
Definition sha1_f (j : nat) (b c d : N) : N * N :=
  if Nat.leb j 19 then (N.lor (N.land b c) (N.land (not32 b) d), 0x5A827999)
  else if Nat.leb j 39 then (N.lxor (N.lxor b c) d, 0x6ED9EBA1)
  else if Nat.leb j 59 then
    (N.lor (N.lor (N.land b c) (N.land b d)) (N.land c d), 0x8F1BBCDC)
  else (N.lxor (N.lxor b c) d, 0xCA62C1D6).
Definition sha1_round (s : sha1_ctx) (x : nat * N) : sha1_ctx :=
  let '(a, b, c, d, e) := s in
  let '(j, w) := x in
  let '(f, k) := sha1_f j b c d in
  (u32 (rol32 a 5 + f + e + k + w), a, rol32 b 30, c, d).
Definition sha1_block (s : sha1_ctx) (w : list N) : sha1_ctx :=
  let '(h0, h1, h2, h3, h4) := s in
  let '(a, b, c, d, e) :=
    fold_left sha1_round (combine (seq 0 80) (rev (sha1_ext 64 (rev w)))) s in
  (u32 (h0 + a), u32 (h1 + b), u32 (h2 + c), u32 (h3 + d), u32 (h4 + e)).
(** SHA1::SHA1 49-52, hexdigest 71-77. *)
Definition SHA1 : md :=
  mkMd sha1_ctx (0x67452301, 0xEFCDAB89, 0x98BADCFE, 0x10325476, 0xC3D2E1F0) 6 false 4 sha1_block
    (fun s => let '(h0, h1, h2, h3, h4) := s in
              be 4 h0 ++ be 4 h1 ++ be 4 h2 ++ be 4 h3 ++ be 4 h4).

(** RIPEMD160::F, RIPEMD160.cpp 6-22. *)
Definition ripemd_F (x y z : N) (round : nat) : N :=
  if Nat.ltb round 16 then N.lxor (N.lxor x y) z
  else if Nat.ltb round 32 then N.lor (N.land x y) (N.land (not32 x) z)
  else if Nat.ltb round 48 then N.lxor (N.lor x (not32 y)) z
  else if Nat.ltb round 64 then N.lor (N.land x z) (N.land y (not32 z))
  else N.lxor x (N.lor y (not32 z)).
(** RIPEMD160::calc, RIPEMD160.cpp 32-58: both lines of one round 42-45, and a block. *)
Definition ripemd_ctx : Type := N * N * N * N * N.
Definition ripemd_step (f x k s : N) (t : ripemd_ctx) : ripemd_ctx :=
  let '(a, b, c, d, e) := t in
  (e, u32 (rol32 (u32 (a + f + x + k)) s + e), b, rol32 c 10, d).
Definition ripemd_round (w : list N) (p : ripemd_ctx * ripemd_ctx) (j : nat)
  : ripemd_ctx * ripemd_ctx :=
  let '(l, r) := p in
  let '(a, b, c, d, e) := l in
  let '(A, B, C, D, E) := r in
  (ripemd_step (ripemd_F b c d j) (idx w (N.to_nat (idx RIPEMD_r j)))
     (idx RIPEMD160_k (j / 16)) (idx RIPEMD_s j) l,
   ripemd_step (ripemd_F B C D (79 - j)) (idx w (N.to_nat (idx RIPEMD_R j)))
     (idx RIPEMD160_K (j / 16)) (idx RIPEMD_S j) r).
Definition ripemd_block (s : ripemd_ctx) (w : list N) : ripemd_ctx :=
  let '(h0, h1, h2, h3, h4) := s in
  let '(l, r) := fold_left (ripemd_round w) (seq 0 80) (s, s) in
  let '(a, b, c, d, e) := l in
  let '(A, B, C, D, E) := r in
  (u32 (h1 + c + D), u32 (h2 + d + E), u32 (h3 + e + A), u32 (h4 + a + B), u32 (h0 + b + C)).
(** RIPEMD160::RIPEMD160 60-63, hexdigest 83-93. *)
Definition RIPEMD160 : md :=
  mkMd ripemd_ctx (0x67452301, 0xEFCDAB89, 0x98BADCFE, 0x10325476, 0xC3D2E1F0) 6 true 4 ripemd_block
    (fun s => let '(h0, h1, h2, h3, h4) := s in
       rev (be 4 h0) ++ rev (be 4 h1) ++ rev (be 4 h2) ++ rev (be 4 h3) ++ rev (be 4 h4)).

(** Ch, Maj, SHA2_Functions.cpp 6-12.  They are 64-bit; on 32-bit arguments the high half
    of the result is 0. *)
Definition Ch (m n o : N) : N := N.lxor (N.land m n) (N.land (not64 m) o).
Definition Maj (m n o : N) : N := N.lxor (N.lxor (N.land m n) (N.land m o)) (N.land n o).

Definition sha2_ctx : Type := N * N * N * N * N * N * N * N.
(** SHA256::S0, S1, s0, s1, SHA256.cpp 6-20. *)
Definition S0_256 (x : N) : N := N.lxor (N.lxor (ror32 x 2) (ror32 x 13)) (ror32 x 22).
Definition S1_256 (x : N) : N := N.lxor (N.lxor (ror32 x 6) (ror32 x 11)) (ror32 x 25).
Definition s0_256 (x : N) : N := N.lxor (N.lxor (ror32 x 7) (ror32 x 18)) (N.shiftr x 3).
Definition s1_256 (x : N) : N := N.lxor (N.lxor (ror32 x 17) (ror32 x 19)) (N.shiftr x 10).
(** SHA256::calc, SHA256.cpp 33-60; message schedule most recent word first. *)
Fixpoint sha256_ext (n : nat) (r : list N) : list N :=
  match n with
  | O => r
  | S n' => sha256_ext n' (u32 (s1_256 (idx r 1) + idx r 6 + s0_256 (idx r 14) + idx r 15) :: r)
  end.
Definition sha256_round (s : sha2_ctx) (x : N * N) : sha2_ctx :=
  let '(a, b, c, d, e, f, g, h) := s in
  let '(k, w) := x in
  let t1 := u32 (h + S1_256 e + Ch e f g + k + w) in
  let t2 := u32 (S0_256 a + Maj a b c) in
  (u32 (t1 + t2), a, b, c, u32 (d + t1), e, f, g).
Definition sha256_block (s : sha2_ctx) (w : list N) : sha2_ctx :=
  let '(h0, h1, h2, h3, h4, h5, h6, h7) := s in
  let '(a, b, c, d, e, f, g, h) :=
    fold_left sha256_round (combine SHA256_K (rev (sha256_ext 48 (rev w)))) s in
  (u32 (h0 + a), u32 (h1 + b), u32 (h2 + c), u32 (h3 + d),
   u32 (h4 + e), u32 (h5 + f), u32 (h6 + g), u32 (h7 + h)).
Definition sha2_out (n : nat) (s : sha2_ctx) : bytes :=
  let '(h0, h1, h2, h3, h4, h5, h6, h7) := s in
  be n h0 ++ be n h1 ++ be n h2 ++ be n h3 ++ be n h4 ++ be n h5 ++ be n h6 ++ be n h7.
(** original_h, SHA256.cpp 22-31; hexdigest 85-91. *)
Definition SHA256 : md :=
  mkMd sha2_ctx (0x6a09e667, 0xbb67ae85, 0x3c6ef372, 0xa54ff53a,
                 0x510e527f, 0x9b05688c, 0x1f83d9ab, 0x5be0cd19) 6 false 4 sha256_block (sha2_out 4).
(** SHA224::original_h, SHA224.cpp 6-15; hexdigest 29-31 keeps 56 digits. *)
Definition SHA224 : md :=
  mkMd sha2_ctx (0xc1059ed8, 0x367cd507, 0x3070dd17, 0xf70e5939,
                 0xffc00b31, 0x68581511, 0x64f98fa7, 0xbefa4fa4) 6 false 4 sha256_block
    (fun s => firstn 28 (sha2_out 4 s)).

(** SHA512::S0, S1, s0, s1, SHA512.cpp 6-20. *)
Definition S0_512 (x : N) : N := N.lxor (N.lxor (ror64 x 28) (ror64 x 34)) (ror64 x 39).
Definition S1_512 (x : N) : N := N.lxor (N.lxor (ror64 x 14) (ror64 x 18)) (ror64 x 41).
Definition s0_512 (x : N) : N := N.lxor (N.lxor (ror64 x 1) (ror64 x 8)) (N.shiftr x 7).
Definition s1_512 (x : N) : N := N.lxor (N.lxor (ror64 x 19) (ror64 x 61)) (N.shiftr x 6).
(** SHA512::calc, SHA512.cpp 33-60. *)
Fixpoint sha512_ext (n : nat) (r : list N) : list N :=
  match n with
  | O => r
  | S n' => sha512_ext n' (u64 (s1_512 (idx r 1) + idx r 6 + s0_512 (idx r 14) + idx r 15) :: r)
  end.
Definition sha512_round (s : sha2_ctx) (x : N * N) : sha2_ctx :=
  let '(a, b, c, d, e, f, g, h) := s in
  let '(k, w) := x in
  let t1 := u64 (h + S1_512 e + Ch e f g + k + w) in
  let t2 := u64 (S0_512 a + Maj a b c) in
  (u64 (t1 + t2), a, b, c, u64 (d + t1), e, f, g).
Definition sha512_block (s : sha2_ctx) (w : list N) : sha2_ctx :=
  let '(h0, h1, h2, h3, h4, h5, h6, h7) := s in
  let '(a, b, c, d, e, f, g, h) :=
    fold_left sha512_round (combine SHA512_K (rev (sha512_ext 64 (rev w)))) s in
  (u64 (h0 + a), u64 (h1 + b), u64 (h2 + c), u64 (h3 + d),
   u64 (h4 + e), u64 (h5 + f), u64 (h6 + g), u64 (h7 + h)).
(** original_h, SHA512.cpp 22-31; hexdigest 85-91. *)
Definition SHA512 : md :=
  mkMd sha2_ctx (0x6a09e667f3bcc908, 0xbb67ae8584caa73b, 0x3c6ef372fe94f82b, 0xa54ff53a5f1d36f1,
                 0x510e527fade682d1, 0x9b05688c2b3e6c1f, 0x1f83d9abfb41bd6b, 0x5be0cd19137e2179)
    7 false 8 sha512_block (sha2_out 8).
(** SHA384::original_h, SHA384.cpp 6-15; hexdigest 29-31 keeps 96 digits. *)
Definition SHA384 : md :=
  mkMd sha2_ctx (0xcbbb9d5dc1059ed8, 0x629a292a367cd507, 0x9159015a3070dd17, 0x152fecd8f70e5939,
                 0x67332667ffc00b31, 0x8eb44a8768581511, 0xdb0c2e0d64f98fa7, 0x47b5481dbefa4fa4)
    7 false 8 sha512_block (fun s => firstn 48 (sha2_out 8 s)).

(** What the classes have in common; each has its own copy of this code. *)
Section md.
  Variable A : md.

  (** Block size in octets (blocksize() / 8). *)
  Definition md_size : N := N.shiftl 1 (md_shift A).

  (** to_little_end, MD5.cpp 6-12, RIPEMD160.cpp 24-30.  x << 2 is an unsigned int, so it
      wraps at 2^32 (strings of 2^34 octets or more, where x itself would, are not
      modelled). *)
  Definition to_little_end (data : bytes) : bytes :=
    flat_map (fun x => rev (slice data (u32 (4 * N.of_nat x)) 4)) (seq 0 (length data / 4)).

  (** The words of block n, MD5.cpp 17-20, SHA1.cpp 8-12, RIPEMD160.cpp 35-38,
      SHA256.cpp 35-39, SHA512.cpp 35-39.  n << 6 (n << 7) is an unsigned int and wraps at
      2^32 (strings of 2^38 octets or more, where n would, are not modelled). *)
  Definition md_words (data : bytes) (n : nat) : list N :=
    let temp := slice data (u32 (N.shiftl (N.of_nat n) (md_shift A))) md_size in
    map (fun x => toint256 (slice temp (N.of_nat (md_word A * x)) (N.of_nat (md_word A)))) (seq 0 16).

  (** calc: every block in turn. *)
  Definition md_calc (data : bytes) (s : md_ctx A) : md_ctx A :=
    fold_left (fun s n => md_block A s (md_words data n))
      (seq 0 (N.to_nat (N.shiftr (len data) (md_shift A)))) s.

  (** The members ctx, stack and clen (MerkleDamgard.h 36-37). *)
  Record md_state := mkState { st_ctx : md_ctx A; st_stack : bytes; st_clen : N }.
  Definition md_new : md_state := mkState (md_init A) [] 0.

  (** update, MD5.cpp 66-76, SHA1.cpp 60-69, RIPEMD160.cpp 71-81, SHA256.cpp 74-83,
      SHA512.cpp 74-83. *)
  Definition md_update (s : md_state) (str : bytes) : md_state :=
    let data := st_stack s ++ str in
    let size := N.shiftl (N.shiftr (len data) (md_shift A)) (md_shift A) in
    let whole := slice data 0 size in
    mkState (md_calc (if md_little A then to_little_end whole else whole) (st_ctx s))
      (slice data size (len data - size)) (u64 (st_clen s + size)).

  (** The padded end of the message, MD5.cpp 80-85, SHA1.cpp 73-74, RIPEMD160.cpp 85-90,
      SHA256.cpp 87-88, SHA512.cpp 87-88.  The stack is shorter than a block, so the
      uint16_t and uint32_t copies of its size are exact. *)
  Definition md_last (s : md_state) : bytes :=
    let size := len (st_stack s) in
    let low := N.land size (md_size - 1) in
    let lenb := if md_shift A =? 6 then 8 else 16 in
    let room := md_size - 1 - lenb in
    let zeros := (if room <? low then room + md_size else room) - low in
    let last := st_stack s ++ [128] ++ repeat 0 (N.to_nat zeros) in
    let bits := u64 (N.shiftl (u64 (st_clen s + size)) 3) in
    if md_little A then
      let temp := be 8 bits in to_little_end last ++ slice temp 4 4 ++ slice temp 0 4
    else last ++ be (N.to_nat lenb) bits.

  (** digest (hexdigest without the hexadecimal step); the context is copied, so the object
      stays as it was. *)
  Definition md_digest (s : md_state) : bytes := md_out A (md_calc (md_last s) (st_ctx s)).

  (** Constructor with data, then digest (Hash::use). *)
  Definition md_hash (data : bytes) : bytes := md_digest (md_update md_new data).
End md.

(** Hash::get_instance, Hashes.cpp 14-43. *)
Definition hash_alg (alg : N) : result md :=
  match alg with
  | 1 => Ok MD5 | 2 => Ok SHA1 | 3 => Ok RIPEMD160
  | 8 => Ok SHA256 | 9 => Ok SHA384 | 10 => Ok SHA512 | 11 => Ok SHA224
  | _ => Throw ERuntime
  end.
(** Hash::use, Hashes.cpp 10-12. *)
Definition hash_use (alg : N) (data : bytes) : result bytes :=
  A <- hash_alg alg ;; Ok (md_hash A data).
