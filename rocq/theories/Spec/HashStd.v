(** The hash functions of RFC 1321 (MD5), FIPS 180-4 (SHA-1, SHA-2) and of Dobbertin,
    Bosselaers and Preneel (RIPEMD-160), written from the standards. *)
From Verif Require Export Spec.Hash.
Local Open Scope N_scope.

(** Operations on words of [w] bits. *)
Definition rotl (w n x : N) : N := (x * 2 ^ n) mod 2 ^ w + x / 2 ^ (w - n).
Definition rotr (w n x : N) : N := x / 2 ^ n + (x * 2 ^ (w - n)) mod 2 ^ w.
Definition shr (n x : N) : N := x / 2 ^ n.
Definition cpl (w x : N) : N := 2 ^ w - 1 - x.
Definition sum (w : N) (l : list N) : N := fold_right N.add 0 l mod 2 ^ w.
Definition at_word (l : list N) (i : nat) : N := nth i l 0.
Definition xor3 (x y z : N) : N := N.lxor (N.lxor x y) z.

(** The integer cube root, bit by bit. *)
Fixpoint cbrt_from (i : nat) (r x : N) : N :=
  match i with
  | O => r
  | S i' => let r' := r + 2 ^ N.of_nat i' in cbrt_from i' (if r' ^ 3 <=? x then r' else r) x
  end.
Definition cbrt (x : N) : N := cbrt_from (N.to_nat (N.size x)) 0 x.
(** The first [w] bits of the fractional parts of the roots of [p]. *)
Definition sqrt_fraction (w p : N) : N := N.sqrt (p * 2 ^ (2 * w)) mod 2 ^ w.
Definition cbrt_fraction (w p : N) : N := cbrt (p * 2 ^ (3 * w)) mod 2 ^ w.
(** The first eighty primes. *)
Definition primes : list N :=
  [2; 3; 5; 7; 11; 13; 17; 19; 23; 29; 31; 37; 41; 43; 47; 53; 59; 61; 67; 71; 73; 79; 83; 89; 97; 101; 103; 107; 109; 113; 127; 131;
   137; 139; 149; 151; 157; 163; 167; 173; 179; 181; 191; 193; 197; 199; 211; 223; 227; 229; 233; 239; 241; 251; 257; 263; 269; 271; 277; 281; 283; 293; 307; 311;
   313; 317; 331; 337; 347; 349; 353; 359; 367; 373; 379; 383; 389; 397; 401; 409].

(** ** FIPS 180-4 *)
Definition ch (w x y z : N) : N := N.lxor (N.land x y) (N.land (cpl w x) z).
Definition parity (x y z : N) : N := xor3 x y z.
Definition maj (x y z : N) : N := xor3 (N.land x y) (N.land x z) (N.land y z).

(** SHA-1, 4.1.1, 4.2.1 and 6.1.2. *)
Definition sha1_function (t : nat) (x y z : N) : N :=
  if (t <? 20)%nat then ch 32 x y z else if (t <? 40)%nat then parity x y z else if (t <? 60)%nat then maj x y z else parity x y z.
(** The constants are 2^30 times the square roots of 2, 3, 5 and 10. *)
Definition sha1_constant (t : nat) : N :=
  let root n := N.sqrt (n * 2 ^ 60) in
  if (t <? 20)%nat then root 2 else if (t <? 40)%nat then root 3 else if (t <? 60)%nat then root 5 else root 10.
(** The first [n] words of the message schedule. *)
Fixpoint sha1_schedule (m : list N) (n : nat) : list N :=
  match n with
  | O => []
  | S t =>
    let W := sha1_schedule m t in
    W ++ [if (t <? 16)%nat then at_word m t
          else rotl 32 1 (N.lxor (xor3 (at_word W (t - 3)) (at_word W (t - 8)) (at_word W (t - 14))) (at_word W (t - 16)))]
  end.
Definition sha1_step (W : list N) (s : sha1_ctx) (t : nat) : sha1_ctx :=
  let '(a, b, c, d, e) := s in
  (sum 32 [rotl 32 5 a; sha1_function t b c d; e; sha1_constant t; at_word W t], a, rotl 32 30 b, c, d).
Definition sha1_std_block (H : sha1_ctx) (m : list N) : sha1_ctx :=
  let '(h0, h1, h2, h3, h4) := H in
  let '(a, b, c, d, e) := fold_left (sha1_step (sha1_schedule m 80)) (seq 0 80) H in
  (sum 32 [a; h0], sum 32 [b; h1], sum 32 [c; h2], sum 32 [d; h3], sum 32 [e; h4]).

(** SHA-2, 4.1.2, 4.1.3, 6.2.2 and 6.4.2: the two variants differ in the word size, the
    number of rounds, the rotations and the constants. *)
Record sha2 := mkSha2 {
  v_w : N; v_rounds : nat;
  v_Sigma0 : N -> N; v_Sigma1 : N -> N; v_sigma0 : N -> N; v_sigma1 : N -> N }.
Definition v256 : sha2 := mkSha2 32 64
  (fun x => xor3 (rotr 32 2 x) (rotr 32 13 x) (rotr 32 22 x)) (fun x => xor3 (rotr 32 6 x) (rotr 32 11 x) (rotr 32 25 x))
  (fun x => xor3 (rotr 32 7 x) (rotr 32 18 x) (shr 3 x)) (fun x => xor3 (rotr 32 17 x) (rotr 32 19 x) (shr 10 x)).
Definition v512 : sha2 := mkSha2 64 80
  (fun x => xor3 (rotr 64 28 x) (rotr 64 34 x) (rotr 64 39 x)) (fun x => xor3 (rotr 64 14 x) (rotr 64 18 x) (rotr 64 41 x))
  (fun x => xor3 (rotr 64 1 x) (rotr 64 8 x) (shr 7 x)) (fun x => xor3 (rotr 64 19 x) (rotr 64 61 x) (shr 6 x)).
Section Sha2.
  Variable v : sha2.
  (** The cube roots of the first primes. *)
  Definition sha2_constant (t : nat) : N := cbrt_fraction (v_w v) (at_word primes t).
  Fixpoint sha2_schedule (m : list N) (n : nat) : list N :=
    match n with
    | O => []
    | S t =>
      let W := sha2_schedule m t in
      W ++ [if (t <? 16)%nat then at_word m t
            else sum (v_w v) [v_sigma1 v (at_word W (t - 2)); at_word W (t - 7); v_sigma0 v (at_word W (t - 15)); at_word W (t - 16)]]
    end.
  Definition sha2_step (W : list N) (s : sha2_ctx) (t : nat) : sha2_ctx :=
    let '(a, b, c, d, e, f, g, h) := s in
    let T1 := sum (v_w v) [h; v_Sigma1 v e; ch (v_w v) e f g; sha2_constant t; at_word W t] in
    let T2 := sum (v_w v) [v_Sigma0 v a; maj a b c] in
    (sum (v_w v) [T1; T2], a, b, c, sum (v_w v) [d; T1], e, f, g).
  Definition sha2_std_block (H : sha2_ctx) (m : list N) : sha2_ctx :=
    let '(h0, h1, h2, h3, h4, h5, h6, h7) := H in
    let '(a, b, c, d, e, f, g, h) := fold_left (sha2_step (sha2_schedule m (v_rounds v))) (seq 0 (v_rounds v)) H in
    (sum (v_w v) [a; h0], sum (v_w v) [b; h1], sum (v_w v) [c; h2], sum (v_w v) [d; h3],
     sum (v_w v) [e; h4], sum (v_w v) [f; h5], sum (v_w v) [g; h6], sum (v_w v) [h; h7]).
End Sha2.
Definition eight (f : nat -> N) (i : nat) : sha2_ctx :=
  (f i, f (i + 1)%nat, f (i + 2)%nat, f (i + 3)%nat, f (i + 4)%nat, f (i + 5)%nat, f (i + 6)%nat, f (i + 7)%nat).
(** Initial values, 5.3: square roots of the first or the second eight primes; SHA-224 takes
    the second 32 bits. *)
Definition iv_224 : sha2_ctx := eight (fun i => sqrt_fraction 64 (at_word primes i) mod 2 ^ 32) 8.
Definition iv_256 : sha2_ctx := eight (fun i => sqrt_fraction 32 (at_word primes i)) 0.
Definition iv_384 : sha2_ctx := eight (fun i => sqrt_fraction 64 (at_word primes i)) 8.
Definition iv_512 : sha2_ctx := eight (fun i => sqrt_fraction 64 (at_word primes i)) 0.

(** ** RFC 1321 *)
(** The functions of 3.4. *)
Definition md5_F (x y z : N) : N := N.lor (N.land x y) (N.land (cpl 32 x) z).
Definition md5_G (x y z : N) : N := N.lor (N.land x z) (N.land y (cpl 32 z)).
Definition md5_H (x y z : N) : N := xor3 x y z.
Definition md5_I (x y z : N) : N := N.lxor y (N.lor x (cpl 32 z)).
(** T[i], the integer part of 4294967296 abs(sin(i)), as printed in the appendix. *)
Definition md5_T : list N :=
  [0xd76aa478; 0xe8c7b756; 0x242070db; 0xc1bdceee; 0xf57c0faf; 0x4787c62a; 0xa8304613; 0xfd469501;
   0x698098d8; 0x8b44f7af; 0xffff5bb1; 0x895cd7be; 0x6b901122; 0xfd987193; 0xa679438e; 0x49b40821;
   0xf61e2562; 0xc040b340; 0x265e5a51; 0xe9b6c7aa; 0xd62f105d; 0x02441453; 0xd8a1e681; 0xe7d3fbc8;
   0x21e1cde6; 0xc33707d6; 0xf4d50d87; 0x455a14ed; 0xa9e3e905; 0xfcefa3f8; 0x676f02d9; 0x8d2a4c8a;
   0xfffa3942; 0x8771f681; 0x6d9d6122; 0xfde5380c; 0xa4beea44; 0x4bdecfa9; 0xf6bb4b60; 0xbebfbc70;
   0x289b7ec6; 0xeaa127fa; 0xd4ef3085; 0x04881d05; 0xd9d4d039; 0xe6db99e5; 0x1fa27cf8; 0xc4ac5665;
   0xf4292244; 0x432aff97; 0xab9423a7; 0xfc93a039; 0x655b59c3; 0x8f0ccc92; 0xffeff47d; 0x85845dd1;
   0x6fa87e4f; 0xfe2ce6e0; 0xa3014314; 0x4e0811a1; 0xf7537e82; 0xbd3af235; 0x2ad7d2bb; 0xeb86d391].
(** The four rounds of sixteen operations: a = b + ((a + F(b,c,d) + X[k] + T[i]) <<< s); the
    registers trade places after each.  k starts at 0, 1, 5, 0 and grows by 1, 5, 3, 7. *)
Definition md5_step (X : list N) (F : N -> N -> N -> N) (k0 dk : nat) (s : list N) (t0 : nat) (r : md5_ctx) (i : nat) : md5_ctx :=
  let '(a, b, c, d) := r in
  (d, sum 32 [b; rotl 32 (at_word s (i mod 4)) (sum 32 [a; F b c d; at_word X ((k0 + dk * i) mod 16); at_word md5_T (t0 + i)])], b, c).
Definition md5_std_round (X : list N) (F : N -> N -> N -> N) (k0 dk : nat) (s : list N) (t0 : nat) (R : md5_ctx) : md5_ctx :=
  fold_left (md5_step X F k0 dk s t0) (seq 0 16) R.
Definition md5_std_block (H : md5_ctx) (X : list N) : md5_ctx :=
  let '(aa, bb, cc, dd) := H in
  let R := md5_std_round X md5_F 0 1 [7; 12; 17; 22] 0 H in
  let R := md5_std_round X md5_G 1 5 [5; 9; 14; 20] 16 R in
  let R := md5_std_round X md5_H 5 3 [4; 11; 16; 23] 32 R in
  let '(a, b, c, d) := md5_std_round X md5_I 0 7 [6; 10; 15; 21] 48 R in
  (sum 32 [a; aa], sum 32 [b; bb], sum 32 [c; cc], sum 32 [d; dd]).

(** ** RIPEMD-160 *)
Definition rmd_f (j : nat) (x y z : N) : N :=
  match (j / 16)%nat with
  | O => xor3 x y z
  | 1%nat => N.lor (N.land x y) (N.land (cpl 32 x) z)
  | 2%nat => N.lxor (N.lor x (cpl 32 y)) z
  | 3%nat => N.lor (N.land x z) (N.land y (cpl 32 z))
  | _ => N.lxor x (N.lor y (cpl 32 z))
  end.
(** The permutations of the message words: powers of rho, for the right line after pi. *)
Definition rho (i : nat) : nat := nth i [7; 4; 13; 1; 10; 6; 15; 3; 12; 0; 9; 5; 2; 14; 11; 8]%nat 0%nat.
Definition pi (i : nat) : nat := ((9 * i + 5) mod 16)%nat.
Definition rmd_left (j : nat) : nat := Nat.iter (j / 16)%nat rho (j mod 16)%nat.
(** In the right line the permutation of round n is pi followed by n times rho, applied to
    the position. *)
Definition rmd_right (j : nat) : nat := Nat.iter (j / 16)%nat rho (pi (j mod 16)%nat).
(** The shifts, by round and message word, the same in both lines. *)
Definition rmd_shifts : list (list N) :=
  [[11; 14; 15; 12; 5; 8; 7; 9; 11; 13; 14; 15; 6; 7; 9; 8];
   [12; 13; 11; 15; 6; 9; 9; 7; 12; 15; 11; 13; 7; 8; 7; 7];
   [13; 15; 14; 11; 7; 7; 6; 8; 13; 14; 13; 12; 5; 5; 6; 9];
   [14; 11; 12; 14; 8; 6; 5; 5; 15; 12; 15; 14; 9; 9; 8; 6];
   [15; 12; 13; 13; 9; 5; 8; 6; 14; 11; 12; 11; 8; 6; 5; 5]].
Definition rmd_shift (j word : nat) : N := at_word (nth (j / 16)%nat rmd_shifts []) word.
(** 2^30 times the square and cube roots of 2, 3, 5 and 7. *)
Definition rmd_K (j : nat) : N := match (j / 16)%nat with O => 0 | n => N.sqrt (at_word [2; 3; 5; 7] (n - 1) * 2 ^ 60) end.
Definition rmd_K' (j : nat) : N := match (j / 16)%nat with 4%nat => 0 | n => cbrt (at_word [2; 3; 5; 7] n * 2 ^ 90) end.
Definition rmd_step (X : list N) (f : nat -> N -> N -> N -> N) (K : nat -> N) (r : nat -> nat) (s : ripemd_ctx) (j : nat) : ripemd_ctx :=
  let '(A, B, C, D, E) := s in
  (E, sum 32 [rotl 32 (rmd_shift j (r j)) (sum 32 [A; f j B C D; at_word X (r j); K j]); E], B, rotl 32 10 C, D).
Definition rmd_line (X : list N) (f : nat -> N -> N -> N -> N) (K : nat -> N) (r : nat -> nat) (H : ripemd_ctx) : ripemd_ctx :=
  fold_left (rmd_step X f K r) (seq 0 80) H.
Definition rmd_std_block (H : ripemd_ctx) (X : list N) : ripemd_ctx :=
  let '(h0, h1, h2, h3, h4) := H in
  let '(A, B, C, D, E) := rmd_line X rmd_f rmd_K rmd_left H in
  let '(A', B', C', D', E') := rmd_line X (fun j => rmd_f (79 - j)) rmd_K' rmd_right H in
  (sum 32 [h1; C; D'], sum 32 [h2; D; E'], sum 32 [h3; E; A'], sum 32 [h4; A; B'], sum 32 [h0; B; C']).

(** ** The functions: the blocks of the padded message in turn, and the output. *)
Definition big (n : nat) (l : list N) : bytes := concat (map (be n) l).
Definition little (l : list N) : bytes := concat (map (fun x => rev (be 4 x)) l).
Definition blocks (h : shape) (m : bytes) : list (list N) := map (words h) (split_in (N.to_nat (sh_block h)) (pad h m)).
Definition iv_md5 : md5_ctx := (0x67452301, 0xefcdab89, 0x98badcfe, 0x10325476).
Definition iv_sha1 : sha1_ctx := (0x67452301, 0xefcdab89, 0x98badcfe, 0x10325476, 0xc3d2e1f0).
Definition list4 (s : md5_ctx) : list N := let '(a, b, c, d) := s in [a; b; c; d].
Definition list5 (s : sha1_ctx) : list N := let '(a, b, c, d, e) := s in [a; b; c; d; e].
Definition list8 (s : sha2_ctx) : list N := let '(a, b, c, d, e, f, g, h) := s in [a; b; c; d; e; f; g; h].
Definition md5 (m : bytes) : bytes := little (list4 (fold_left md5_std_block (blocks (mkShape 64 8 4 true 16) m) iv_md5)).
Definition sha1 (m : bytes) : bytes := big 4 (list5 (fold_left sha1_std_block (blocks (mkShape 64 8 4 false 20) m) iv_sha1)).
Definition ripemd160 (m : bytes) : bytes := little (list5 (fold_left rmd_std_block (blocks (mkShape 64 8 4 true 20) m) iv_sha1)).
Definition sha256 (m : bytes) : bytes := big 4 (list8 (fold_left (sha2_std_block v256) (blocks (mkShape 64 8 4 false 32) m) iv_256)).
Definition sha224 (m : bytes) : bytes := firstn 28 (big 4 (list8 (fold_left (sha2_std_block v256) (blocks (mkShape 64 8 4 false 28) m) iv_224))).
Definition sha512 (m : bytes) : bytes := big 8 (list8 (fold_left (sha2_std_block v512) (blocks (mkShape 128 16 8 false 64) m) iv_512)).
Definition sha384 (m : bytes) : bytes := firstn 48 (big 8 (list8 (fold_left (sha2_std_block v512) (blocks (mkShape 128 16 8 false 48) m) iv_384))).
(** The identifiers of RFC 4880, 9.4. *)
Definition standard (id : N) : option (bytes -> bytes) :=
  match id with
  | 1 => Some md5 | 2 => Some sha1 | 3 => Some ripemd160 | 8 => Some sha256 | 9 => Some sha384 | 10 => Some sha512 | 11 => Some sha224
  | _ => None
  end.
(** What requests for the digest should give on an object fed piece by piece: the standard's
    function of everything fed so far. *)
Fixpoint requested (f : bytes -> bytes) (sofar : bytes) (ops : list hash_op) : list bytes :=
  match ops with
  | [] => []
  | Update d :: ops' => requested f (sofar ++ d) ops'
  | Digest :: ops' => f sofar :: requested f sofar ops'
  end.
