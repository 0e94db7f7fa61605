(** Block ciphers: src/Encryptions/.  Words are N; uint32_t and uint16_t results are reduced
    where the C++ type reduces them. *)
From Verif Require Export Model.CipherConst Model.Hashes Model.Cfb.

Local Infix "^^" := N.lxor (at level 40, left associativity).

(** A 32-bit word read from four octets, toint(s, 256) stored in a uint32_t. *)
Definition word (s : bytes) : N := u32 (toint256 s).
(** unhexlify(makehex(w, 8)). *)
Definition word_out (w : N) : result bytes := unhexlify (makehex w 8).
(** Constant table lookup; indices are octets (or smaller) and the tables have that size. *)
Definition tab (t : list N) (i : N) : N := idx t (N.to_nat i).
Definition row (t : list (list N)) (i : nat) : list N := nth i t [].
(** byte(value, n), includes.h 59-61. *)
Definition byte (x n : N) : N := N.land (N.shiftr x (8 * n)) 255.
(** The uint32_t difference. *)
Definition sub32 (a b : N) : N := u32 (a + (two32 - u32 b)).
(** The size test at the start of every encrypt and decrypt. *)
Definition on_block (n : N) (f : bytes -> result bytes) (d : bytes) : result bytes :=
  if negb (len d =? n) then Throw ERuntime else f d.
(** Assignment to an array element. *)
Fixpoint set_idx (l : list N) (i : nat) (v : N) : list N :=
  match l, i with
  | [], _ => []
  | _ :: r, O => v :: r
  | x :: r, S j => x :: set_idx r j v
  end.

(** * AES, AES.cpp *)

(** The transposition loops of shiftrow and invshiftrow, 5-11 and 17-24. *)
Definition aes_transpose (d : list N) : list N :=
  map (fun x => fold_left (fun t y =>
         u32 (t + N.shiftl (N.land (N.shiftr (tab d y) ((3 - x) * 8)) 255) ((3 - y) * 8)))
       [0; 1; 2; 3] 0) [0; 1; 2; 3].
(** shiftrow, 3-25, and invshiftrow, 27-49.  ROL(x, 0, 32) evaluates x >> 32 on a uint32_t,
    which C++ leaves undefined; processors give 0 or x, and both make ROL(x, 0, 32) = x,
    which is what [rol32] gives. *)
Definition aes_shiftrow (d : list N) : list N :=
  aes_transpose (map (fun x => rol32 (tab (aes_transpose d) x) (8 * x)) [0; 1; 2; 3]).
Definition aes_invshiftrow (d : list N) : list N :=
  aes_transpose (map (fun x => ror32 (tab (aes_transpose d) x) (8 * x)) [0; 1; 2; 3]).

(** GF, 74-92. *)
Fixpoint aes_gf_loop (n : nat) (a b p : N) : N :=
  match n with
  | O => p
  | S n' =>
    if (a =? 0) || (b =? 0) then p
    else
      let p := if N.testbit b 0 then p ^^ a else p in
      let a' := N.land (N.shiftl a 1) 255 in
      aes_gf_loop n' (if N.land a 0x80 =? 0 then a' else a' ^^ 0x1b) (N.shiftr b 1) p
  end.
Definition aes_gf (a b : N) : N := aes_gf_loop 8 a b 0.

(** The substitution of one word, AES.cpp 220, 230, 265, 276. *)
Definition aes_sub (t : list N) (w : N) : N :=
  u32 (N.shiftl (tab t (N.shiftr w 24)) 24 + N.shiftl (tab t (byte w 2)) 16 +
       N.shiftl (tab t (byte w 1)) 8 + tab t (byte w 0)).

(** mixcolumns, 94-103, and invmixcolumns, 105-114: one word. *)
Definition aes_mix (w : N) : N :=
  let a := byte w 3 in let b := byte w 2 in let c := byte w 1 in let d := byte w 0 in
  u32 (N.shiftl (aes_gf 2 a ^^ aes_gf 3 b ^^ c ^^ d) 24 +
       N.shiftl (aes_gf 2 b ^^ aes_gf 3 c ^^ d ^^ a) 16 +
       N.shiftl (aes_gf 2 c ^^ aes_gf 3 d ^^ a ^^ b) 8 +
       (aes_gf 2 d ^^ aes_gf 3 a ^^ b ^^ c)).
Definition aes_invmix (w : N) : N :=
  let a := byte w 3 in let b := byte w 2 in let c := byte w 1 in let d := byte w 0 in
  u32 (N.shiftl (aes_gf 14 a ^^ aes_gf 9 d ^^ aes_gf 13 c ^^ aes_gf 11 b) 24 +
       N.shiftl (aes_gf 14 b ^^ aes_gf 9 a ^^ aes_gf 13 d ^^ aes_gf 11 c) 16 +
       N.shiftl (aes_gf 14 c ^^ aes_gf 9 b ^^ aes_gf 13 a ^^ aes_gf 11 d) 8 +
       (aes_gf 14 d ^^ aes_gf 9 c ^^ aes_gf 13 b ^^ aes_gf 11 a)).

(** The words of the key schedule so far; [back k i] is key[key.size() - i]. *)
Definition back (k : list N) (i : nat) : N := idx k (length k - i).
(** for (j < m) key.push_back(key[size - 1] ^ key[size - n]), 172-174 and 184-186. *)
Fixpoint aes_push (m n : nat) (k : list N) : list N :=
  match m with O => k | S m' => aes_push m' n (k ++ [back k 1 ^^ back k n]) end.
(** The substitution loops 164-166 and 177-180. *)
Definition aes_sub_key (t : N) : N :=
  fold_left (fun s j => u32 (s + N.shiftl (tab AES_Subbytes (u8 (N.shiftr t (8 * j)))) (8 * j)))
    [0; 1; 2; 3] 0.
(** The loop 160-187; i starts at 1 and at most 10 rounds are made. *)
Fixpoint aes_expand (fuel n : nat) (b i : N) (k : list N) : list N :=
  match fuel with
  | O => k
  | S f =>
    if 4 * len k <? b then
      let t := aes_sub_key (rol32 (back k 1) 8) ^^ back k n in
      let t := t ^^ u32 (N.shiftl (N.shiftl 1 (i - 1) mod 229) 24) in
      let k := aes_push 3 n (k ++ [t]) in
      let k := if Nat.eqb n 8 then k ++ [aes_sub_key (back k 1) ^^ back k n] else k in
      aes_expand f n b (i + 1)
        (aes_push (if Nat.eqb n 6 then 2 else if Nat.eqb n 8 then 3 else 0) n k)
    else k
  end.
(** setkey, 137-195: the round keys, from a key of n octets (n as uint8_t). *)
Definition aes_keys (KEY : bytes) : list (list N) :=
  let n := u8 (len KEY) in
  let rounds := n / 4 + 6 in
  let b := (rounds + 1) * 16 in
  let key := map (fun x => word (slice KEY (4 * N.of_nat x) 4)) (seq 0 (N.to_nat (n / 4))) in
  let key := aes_expand 60 (N.to_nat (n / 4)) b 1 key in
  map (fun j => map (fun x => idx key (4 * j + x)) (seq 0 4)) (seq 0 (N.to_nat (b / 16))).

(** data[x] ^= keys[r][x]. *)
Definition aes_add (k d : list N) : list N :=
  map (fun x => u32 (idx d x ^^ idx k x)) (seq 0 4).
(** The four words of a block, 206-213, and OUT, 116-122. *)
Definition aes_in (d : bytes) : list N := map (fun x => word (slice d (4 * x) 4)) [0; 1; 2; 3].
Fixpoint words_out (d : list N) : result bytes :=
  match d with
  | [] => Ok []
  | w :: r => a <- word_out w ;; b <- words_out r ;; Ok (a ++ b)
  end.
(** encrypt, 197-240, and decrypt, 242-287 (which reverses keys and puts them back). *)
Definition aes_round (d : list N) (k : list N) : list N :=
  aes_add k (map aes_mix (aes_shiftrow (map (aes_sub AES_Subbytes) d))).
Definition aes_unround (d : list N) (k : list N) : list N :=
  map aes_invmix (aes_add k (map (aes_sub AES_Inv_Subbytes) (aes_invshiftrow d))).
Definition aes_encrypt (keys : list (list N)) (DATA : bytes) : result bytes :=
  let rounds := pred (length keys) in
  let d := aes_add (row keys 0) (aes_in DATA) in
  let d := fold_left aes_round (map (row keys) (seq 1 (rounds - 1))) d in
  words_out (aes_add (row keys rounds) (aes_shiftrow (map (aes_sub AES_Subbytes) d))).
Definition aes_decrypt (keys : list (list N)) (DATA : bytes) : result bytes :=
  let rounds := pred (length keys) in
  let keys := rev keys in
  let d := aes_add (row keys 0) (aes_in DATA) in
  let d := fold_left aes_unround (map (row keys) (seq 1 (rounds - 1))) d in
  words_out (aes_add (row keys rounds) (map (aes_sub AES_Inv_Subbytes) (aes_invshiftrow d))).
Definition AES (KEY : bytes) : result cipher :=
  let n := u8 (len KEY) in
  if (n =? 16) || (n =? 24) || (n =? 32) then
    let keys := aes_keys KEY in
    Ok (mkCipher 16 (on_block 16 (aes_encrypt keys)) (on_block 16 (aes_decrypt keys)))
  else Throw ERuntime.

(** * Blowfish, Blowfish.cpp *)

(** f, 3-5. *)
Definition bf_f (s : list (list N)) (x : N) : N :=
  u32 ((u32 (tab (row s 0) (N.shiftr x 24) + tab (row s 1) (byte x 2)) ^^ tab (row s 2) (byte x 1))
       + tab (row s 3) (byte x 0)).
(** One iteration of run's loop, 16-20: (left, right). *)
Definition bf_round (s : list (list N)) (lr : N * N) (k : N) : N * N :=
  let left := u32 (fst lr ^^ k) in (u32 (snd lr ^^ bf_f s left), left).
(** run, 7-27. *)
Definition bf_run (p : list N) (s : list (list N)) (d : bytes) : result bytes :=
  let lr := fold_left (bf_round s) (firstn 16 p) (word (slice d 0 4), word (slice d 4 4)) in
  words_out [u32 (snd lr ^^ idx p 17); u32 (fst lr ^^ idx p 16)].
(** setkey, 40-88. *)
Fixpoint bf_double (n : nat) (k : bytes) : bytes :=
  match n with O => k | S n' => bf_double n' (k ++ k) end.
Definition bf_p0 (KEY : bytes) : list N :=
  let key := prefix (bf_double (N.to_nat (72 / len KEY + 1)) KEY) 72 in
  map (fun x => u32 (idx Blowfish_P x ^^ word (slice key (4 * N.of_nat x) 4))) (seq 0 18).
(** The nine runs that replace p, 67-72. *)
Fixpoint bf_fill_p (todo : list nat) (s : list (list N)) (p : list N) (ini : bytes) :
  result (list N * bytes) :=
  match todo with
  | [] => Ok (p, ini)
  | x :: r =>
    NEW <- bf_run p s ini ;;
    bf_fill_p r s (set_idx (set_idx p (2 * x) (word (slice NEW 0 4))) (2 * x + 1) (word (slice NEW 4 4))) NEW
  end.
(** The runs that replace the boxes, 74-81. *)
Fixpoint set_row (t : list (list N)) (i : nat) (v : list N) : list (list N) :=
  match t, i with
  | [], _ => []
  | _ :: r, O => v :: r
  | x :: r, S j => x :: set_row r j v
  end.
Fixpoint bf_fill_s (todo : list (nat * nat)) (s : list (list N)) (p : list N) (ini : bytes) :
  result (list (list N)) :=
  match todo with
  | [] => Ok s
  | (x, y) :: r =>
    NEW <- bf_run p s ini ;;
    let b := set_idx (set_idx (row s x) (2 * y) (word (slice NEW 0 4))) (2 * y + 1) (word (slice NEW 4 4)) in
    bf_fill_s r (set_row s x b) p NEW
  end.
Definition Blowfish (KEY : bytes) : result cipher :=
  if (len KEY <? 4) || (112 <? len KEY) then Throw ERuntime
  else
    ' (p, ini) <- bf_fill_p (seq 0 9) Blowfish_SBOX (bf_p0 KEY) (repeat 0 8) ;;
    s <- bf_fill_s (list_prod (seq 0 4) (seq 0 128)) Blowfish_SBOX p ini ;;
    Ok (mkCipher 8 (on_block 8 (bf_run p s)) (on_block 8 (bf_run (rev p) s))).

(** * DES and triple DES, DES.cpp and TDES.cpp *)

(** Characters picked from a string by a table of 1-based positions. *)
Definition pick (t : list N) (s : bytes) : bytes := map (fun i => tab s (i - 1)) t.
(** The bits of a string, most significant first, 13-15 and 92-94. *)
Definition des_bits (d : bytes) : bytes := flat_map (fun c => makebin (u8 c) 8) d.
(** The round function, 27-56: expansion, key, boxes, permutation; as a number. *)
Definition des_box (r : bytes) (y : nat) : bytes :=
  let six := slice r (6 * N.of_nat y) 6 in
  let outer := toint2 [tab six 0; tab six 5] in
  makebin (tab (row DES_S_BOX (4 * y + N.to_nat outer)) (toint2 (slice six 1 4))) 4.
Definition des_f (right : bytes) (k : N) : N :=
  let r := makebin (toint2 (pick DES_EX right) ^^ k) 48 in
  toint2 (pick DES_P (flat_map (des_box r) (seq 0 8))).
(** One iteration of run's loop, 21-59. *)
Definition des_round (data : bytes) (k : N) : bytes :=
  let left := slice data 0 32 in
  let right := slice data 32 32 in
  right ++ makebin (toint2 left ^^ des_f right k) 32.
(** run, 3-70.  [out] is a uint64_t. *)
Definition des_run (keys : list N) (DATA : bytes) : result bytes :=
  let data := pick DES_IP (des_bits DATA) in
  let data := fold_left des_round keys data in
  let data := slice data 32 32 ++ slice data 0 32 in
  let out := fold_left (fun o x =>
      u64 (o + N.shiftl (if tab data (idx DES_INVIP x - 1) =? 49 then 1 else 0) (63 - N.of_nat x)))
    (seq 0 64) 0 in
  unhexlify (makehex out 16).
(** setkey, 83-112. *)
Fixpoint des_keys (rots : list N) (left right : bytes) : list N :=
  match rots with
  | [] => []
  | n :: r =>
    let left := slice (left ++ left) n 28 in
    let right := slice (right ++ right) n 28 in
    toint2 (pick DES_PC2 (left ++ right)) :: des_keys r left right
  end.
Definition des_setkey (KEY : bytes) : list N :=
  let key := des_bits KEY in des_keys DES_rot (pick DES_PC1_l key) (pick DES_PC1_r key).
Definition DES (KEY : bytes) : result cipher :=
  if negb (len KEY =? 8) then Throw ERuntime
  else Ok (mkCipher 8 (on_block 8 (des_run (des_setkey KEY))) (on_block 8 (des_run (rev (des_setkey KEY))))).

(** TDES::run, TDES.cpp 3-16; encrypt, 60-62; decrypt, 64-66, which applies the three keys
    in the same order as encrypt.  [m] is whether the mode string is "d". *)
Definition tdes_run (d key : bytes) (m : bool) : result bytes :=
  if negb (len d =? 8) then Throw ERuntime
  else c <- DES key ;; (if m then c_decrypt c else c_encrypt c) d.
Definition tdes_chain (k1 k2 k3 : bytes) (m1 m2 m3 : bool) (d : bytes) : result bytes :=
  d <- tdes_run d k1 m1 ;; d <- tdes_run d k2 m2 ;; tdes_run d k3 m3.
Definition TDES (k1 : bytes) (m1 : bool) (k2 : bytes) (m2 : bool) (k3 : bytes) (m3 : bool) : result cipher :=
  if negb (len k1 =? 8) || negb (len k2 =? 8) || negb (len k3 =? 8) then Throw ERuntime
  else Ok (mkCipher 8 (tdes_chain k1 k2 k3 m1 m2 m3)
                      (tdes_chain k1 k2 k3 (negb m1) (negb m2) (negb m3))).

(** * CAST-128, CAST128.cpp *)

(** F, 3-31.  The rounds 1, 4, .. 16 / 2, 5, .. 14 / 3, 6, .. 15 are told apart by their
    remainder modulo 3; only rounds 1 to 16 occur. *)
Definition cast_f (i D km kr : N) : N :=
  match i mod 3 with
  | 1 => let I := rol32 (u32 (km + D)) kr in
         u32 (sub32 (tab CAST_S1 (N.shiftr I 24) ^^ tab CAST_S2 (byte I 2)) (tab CAST_S3 (byte I 1))
              + tab CAST_S4 (byte I 0))
  | 2 => let I := rol32 (u32 (km ^^ D)) kr in
         u32 (u32 (sub32 (tab CAST_S1 (N.shiftr I 24)) (tab CAST_S2 (byte I 2)) + tab CAST_S3 (byte I 1))
              ^^ tab CAST_S4 (byte I 0))
  | _ => let I := rol32 (sub32 km D) kr in
         sub32 (u32 (tab CAST_S1 (N.shiftr I 24) + tab CAST_S2 (byte I 2)) ^^ tab CAST_S3 (byte I 1))
               (tab CAST_S4 (byte I 0))
  end.
(** run, 33-50, over the rounds in the given order. *)
Definition cast_round (km kr : list N) (lr : N * N) (i : nat) : N * N :=
  (snd lr, u32 (fst lr ^^ cast_f (N.of_nat i) (snd lr) (idx km (i - 1)) (idx kr (i - 1)))).
Definition cast_run (km kr : list N) (rounds : list nat) (d : bytes) : result bytes :=
  let lr := fold_left (cast_round km kr) rounds (word (slice d 0 4), word (slice d 4 4)) in
  words_out [snd lr; fst lr].
Definition cast_word (a b c d : N) : N := u32 (N.shiftl a 24 + N.shiftl b 16 + N.shiftl c 8 + d).
(** The octets of temp: z0 = temp >> 24; z1 = (temp >> 16) & 255; .. (for example 92). *)
Definition cast_octets (t : N) : list N :=
  [N.shiftr t 24; N.land (N.shiftr t 16) 255; N.land (N.shiftr t 8) 255; N.land t 255].
Definition cast_S5 := tab CAST128_S5. Definition cast_S6 := tab CAST128_S6.
Definition cast_S7 := tab CAST128_S7. Definition cast_S8 := tab CAST128_S8.
(** z0, .. zF from x0, .. xF, setkey 91-98.  The same eight lines stand at 115-122, 139-146
    and 163-170; the model uses one definition for the four. *)
Definition cast_z (s : list N) : list N :=
  let z := cast_octets (cast_word (idx s 0) (idx s 1) (idx s 2) (idx s 3) ^^ cast_S5 (idx s 13) ^^ cast_S6 (idx s 15) ^^ cast_S7 (idx s 12) ^^ cast_S8 (idx s 14) ^^ cast_S7 (idx s 8)) in
  let z := z ++ cast_octets (cast_word (idx s 8) (idx s 9) (idx s 10) (idx s 11) ^^ cast_S5 (idx z 0) ^^ cast_S6 (idx z 2) ^^ cast_S7 (idx z 1) ^^ cast_S8 (idx z 3) ^^ cast_S8 (idx s 10)) in
  let z := z ++ cast_octets (cast_word (idx s 12) (idx s 13) (idx s 14) (idx s 15) ^^ cast_S5 (idx z 7) ^^ cast_S6 (idx z 6) ^^ cast_S7 (idx z 5) ^^ cast_S8 (idx z 4) ^^ cast_S5 (idx s 9)) in
  z ++ cast_octets (cast_word (idx s 4) (idx s 5) (idx s 6) (idx s 7) ^^ cast_S5 (idx z 10) ^^ cast_S6 (idx z 9) ^^ cast_S7 (idx z 11) ^^ cast_S8 (idx z 8) ^^ cast_S6 (idx s 11)).
(** x0, .. xF from z0, .. zF, setkey 103-110; also 127-134, 151-158 and 175-182. *)
Definition cast_x (s : list N) : list N :=
  let x := cast_octets (cast_word (idx s 8) (idx s 9) (idx s 10) (idx s 11) ^^ cast_S5 (idx s 5) ^^ cast_S6 (idx s 7) ^^ cast_S7 (idx s 4) ^^ cast_S8 (idx s 6) ^^ cast_S7 (idx s 0)) in
  let x := x ++ cast_octets (cast_word (idx s 0) (idx s 1) (idx s 2) (idx s 3) ^^ cast_S5 (idx x 0) ^^ cast_S6 (idx x 2) ^^ cast_S7 (idx x 1) ^^ cast_S8 (idx x 3) ^^ cast_S8 (idx s 2)) in
  let x := x ++ cast_octets (cast_word (idx s 4) (idx s 5) (idx s 6) (idx s 7) ^^ cast_S5 (idx x 7) ^^ cast_S6 (idx x 6) ^^ cast_S7 (idx x 5) ^^ cast_S8 (idx x 4) ^^ cast_S5 (idx s 1)) in
  x ++ cast_octets (cast_word (idx s 12) (idx s 13) (idx s 14) (idx s 15) ^^ cast_S5 (idx x 10) ^^ cast_S6 (idx x 9) ^^ cast_S7 (idx x 11) ^^ cast_S8 (idx x 8) ^^ cast_S6 (idx s 3)).
(** Four keys from the octets [t]: 99-102 (and 147-150), 111-114 (159-162), 123-126 (171-174)
    and 135-138 (183-186). *)
Definition cast_four1 (s : list N) : list N :=
  [cast_S5 (idx s 8) ^^ cast_S6 (idx s 9) ^^ cast_S7 (idx s 7) ^^ cast_S8 (idx s 6) ^^ cast_S5 (idx s 2);
   cast_S5 (idx s 10) ^^ cast_S6 (idx s 11) ^^ cast_S7 (idx s 5) ^^ cast_S8 (idx s 4) ^^ cast_S6 (idx s 6);
   cast_S5 (idx s 12) ^^ cast_S6 (idx s 13) ^^ cast_S7 (idx s 3) ^^ cast_S8 (idx s 2) ^^ cast_S7 (idx s 9);
   cast_S5 (idx s 14) ^^ cast_S6 (idx s 15) ^^ cast_S7 (idx s 1) ^^ cast_S8 (idx s 0) ^^ cast_S8 (idx s 12)].
Definition cast_four2 (s : list N) : list N :=
  [cast_S5 (idx s 3) ^^ cast_S6 (idx s 2) ^^ cast_S7 (idx s 12) ^^ cast_S8 (idx s 13) ^^ cast_S5 (idx s 8);
   cast_S5 (idx s 1) ^^ cast_S6 (idx s 0) ^^ cast_S7 (idx s 14) ^^ cast_S8 (idx s 15) ^^ cast_S6 (idx s 13);
   cast_S5 (idx s 7) ^^ cast_S6 (idx s 6) ^^ cast_S7 (idx s 8) ^^ cast_S8 (idx s 9) ^^ cast_S7 (idx s 3);
   cast_S5 (idx s 5) ^^ cast_S6 (idx s 4) ^^ cast_S7 (idx s 10) ^^ cast_S8 (idx s 11) ^^ cast_S8 (idx s 7)].
Definition cast_four3 (s : list N) : list N :=
  [cast_S5 (idx s 3) ^^ cast_S6 (idx s 2) ^^ cast_S7 (idx s 12) ^^ cast_S8 (idx s 13) ^^ cast_S5 (idx s 9);
   cast_S5 (idx s 1) ^^ cast_S6 (idx s 0) ^^ cast_S7 (idx s 14) ^^ cast_S8 (idx s 15) ^^ cast_S6 (idx s 12);
   cast_S5 (idx s 7) ^^ cast_S6 (idx s 6) ^^ cast_S7 (idx s 8) ^^ cast_S8 (idx s 9) ^^ cast_S7 (idx s 2);
   cast_S5 (idx s 5) ^^ cast_S6 (idx s 4) ^^ cast_S7 (idx s 10) ^^ cast_S8 (idx s 11) ^^ cast_S8 (idx s 6)].
Definition cast_four4 (s : list N) : list N :=
  [cast_S5 (idx s 8) ^^ cast_S6 (idx s 9) ^^ cast_S7 (idx s 7) ^^ cast_S8 (idx s 6) ^^ cast_S5 (idx s 3);
   cast_S5 (idx s 10) ^^ cast_S6 (idx s 11) ^^ cast_S7 (idx s 5) ^^ cast_S8 (idx s 4) ^^ cast_S6 (idx s 7);
   cast_S5 (idx s 12) ^^ cast_S6 (idx s 13) ^^ cast_S7 (idx s 3) ^^ cast_S8 (idx s 2) ^^ cast_S7 (idx s 8);
   cast_S5 (idx s 14) ^^ cast_S6 (idx s 15) ^^ cast_S7 (idx s 1) ^^ cast_S8 (idx s 0) ^^ cast_S8 (idx s 13)].
(** setkey, 72-187: the masking keys km, then the rotation keys kr (the same again, from the
    octets left over, masked with 31). *)
Definition cast_keys (KEY : bytes) : list N * list N :=
  let z1 := cast_z KEY in let x1 := cast_x z1 in
  let z2 := cast_z x1 in let x2 := cast_x z2 in
  let z3 := cast_z x2 in let x3 := cast_x z3 in
  let z4 := cast_z x3 in let x4 := cast_x z4 in
  (cast_four1 z1 ++ cast_four2 x1 ++ cast_four3 z2 ++ cast_four4 x2,
   map (fun k => N.land k 31) (cast_four1 z3 ++ cast_four2 x3 ++ cast_four3 z4 ++ cast_four4 x4)).

(** The constructor: rounds and padding, 67-70; encrypt, 188-190; decrypt, 192-194. *)
Definition CAST128 (KEY : bytes) : result cipher :=
  let rounds := if 10 <? len KEY then 16%nat else 12%nat in
  let k := cast_keys (KEY ++ repeat 0 (N.to_nat (16 - len KEY))) in
  Ok (mkCipher 8 (on_block 8 (cast_run (fst k) (snd k) (seq 1 rounds)))
                 (on_block 8 (cast_run (fst k) (snd k) (rev (seq 1 rounds))))).

(** * IDEA, IDEA.cpp *)

(** mult, 5-22. *)
Definition idea_mult (a b : N) : N :=
  if (a =? 0) && (b =? 0) then 1
  else
    let a := if a =? 0 then 65536 else a in
    let b := if b =? 0 then 65536 else b in
    let v := u32 (a * b) mod 65537 in
    if v =? 65536 then 0 else u16 v.
(** One iteration of run's loop, 38-53, on (x1, x2, x3, x4); fewer than six keys would be
    read out of range. *)
Definition idea_round (x : N * N * N * N) (k : list N) : result (N * N * N * N) :=
  let '(x1, x2, x3, x4) := x in
  match k with
  | k0 :: k1 :: k2 :: k3 :: k4 :: k5 :: _ =>
    let t1 := idea_mult x1 k0 in
    let t2 := u16 (x2 + k1) in
    let t3 := u16 (x3 + k2) in
    let t4 := idea_mult x4 k3 in
    let t5 := t1 ^^ t3 in
    let t6 := t2 ^^ t4 in
    let t7 := idea_mult t5 k4 in
    let t8 := u16 (t6 + t7) in
    let t9 := idea_mult t8 k5 in
    let t10 := u16 (t7 + t9) in
    Ok (t1 ^^ t9, t3 ^^ t9, t2 ^^ t10, t4 ^^ t10)
  | _ => UB
  end.
Fixpoint idea_rounds (ks : list (list N)) (x : N * N * N * N) : result (N * N * N * N) :=
  match ks with
  | [] => Ok x
  | k :: r => x <- idea_round x k ;; idea_rounds r x
  end.
(** run, 25-60: eight rounds and the output transformation. *)
Definition idea_run (keys : list (list N)) (d : bytes) : result bytes :=
  let w x := u16 (toint256 (slice d x 2)) in
  ' (x1, x2, x3, x4) <- idea_rounds (firstn 8 keys) (w 0, w 2, w 4, w 6) ;;
  match nth_error keys 8 with
  | Some (k0 :: k1 :: k2 :: k3 :: _) =>
    let o v := makehex v 4 in
    unhexlify (o (idea_mult x1 k0) ++ o (u16 (x3 + k1)) ++ o (u16 (x2 + k2)) ++ o (idea_mult x4 k3))
  | _ => UB
  end.
(** setkey, 73-110.  The code keeps the key as hexadecimal digits; the model keeps its
    octets.  Eight 16-bit words are taken seven times, rotating the key left by 25 bits in
    between, and the first 52 are kept. *)
Definition idea_rot (key : bytes) : bytes :=
  let b := des_bits key in
  let b := slice b 25 103 ++ slice b 0 25 in
  map (fun y => toint2 (slice b (8 * N.of_nat y) 8)) (seq 0 16).
Fixpoint idea_words (n : nat) (key : bytes) : list N :=
  match n with
  | O => []
  | S n' => map (fun y => toint256 (slice key (2 * N.of_nat y) 2)) (seq 0 8) ++ idea_words n' (idea_rot key)
  end.
Definition idea_setkey (KEY : bytes) : list N := firstn 52 (idea_words 7 KEY).
(** Grouping k by six, 121-134 and 163-177. *)
Definition idea_group (k : list N) : list (list N) :=
  map (fun x => firstn 6 (skipn (6 * x) k)) (seq 0 8) ++ [firstn 4 (skipn 48 k)].
(** encrypt, 112-138. *)
Definition idea_encrypt (k : list N) (d : bytes) : result bytes := idea_run (idea_group k) d.
(** invmod(a, b), cryptomath.h 31-53, on int; Euclid's algorithm.  [fuel] bounds the number
    of steps (33 are enough for 65537, proved). *)
Fixpoint invmod_loop (fuel : nat) (a b y lasty : Z) : Z :=
  match fuel with
  | O => lasty
  | S f => if (b =? 0)%Z then lasty
           else invmod_loop f b (Z.rem a b) (lasty - Z.quot a b * y)%Z y
  end.
Definition idea_inv (k : N) : N :=
  let y := invmod_loop 40 65537 (Z.of_N k) 1 0 in
  Z.to_N ((if (y <? 0)%Z then y + 65537 else y) mod 65536).
(** two_comp(a), cryptomath.h 92-97, on uint16_t. *)
Definition two_comp (a : N) : N := u16 (a ^^ 65535 + 1).
(** The new contents of k after decrypt, 149-164: decrypt leaves the inverted key in the
    object. *)
Definition idea_inverse (k : list N) : list N :=
  flat_map (fun x =>
      [idea_inv (idx k (48 - 6 * x)); two_comp (idx k (50 - 6 * x)); two_comp (idx k (49 - 6 * x));
       idea_inv (idx k (51 - 6 * x)); idx k (46 - 6 * x); idx k (47 - 6 * x)]) (seq 0 8) ++
  [idea_inv (idx k 0); two_comp (idx k 1); two_comp (idx k 2); idea_inv (idx k 3)].
(** decrypt, 140-182; std::swap(keys[0][1], keys[0][2]) at 179. *)
Definition idea_swap (keys : list (list N)) : result (list (list N)) :=
  match keys with
  | (a :: b :: c :: r) :: ks => Ok ((a :: c :: b :: r) :: ks)
  | _ => UB
  end.
Definition idea_decrypt (k : list N) (d : bytes) : result bytes :=
  keys <- idea_swap (idea_group (idea_inverse k)) ;; idea_run keys d.
Definition IDEA_from (k : list N) : cipher :=
  mkCipher 8 (on_block 8 (idea_encrypt k)) (on_block 8 (idea_decrypt k)).
Definition IDEA (KEY : bytes) : result cipher :=
  if negb (len KEY =? 16) then Throw ERuntime else Ok (IDEA_from (idea_setkey KEY)).
(** The same object after a successful decrypt. *)
Definition IDEA_after_decrypt (KEY : bytes) : cipher := IDEA_from (idea_inverse (idea_setkey KEY)).

(** * Camellia, Camellia.cpp *)

(** ROL(str, bits), includes.cpp 191-209.  [top] keeps the high bits of the first octet. *)
Fixpoint rol_shift (push top : N) (s : bytes) : bytes :=
  match s with
  | [] => []
  | c :: r =>
    let nxt := match r with [] => top | d :: _ => N.shiftr d (8 - push) end in
    u8 (N.lor (N.shiftl c push) (N.land nxt (N.ones push))) :: rol_shift push top r
  end.
Definition rol_string (s : bytes) (bits : N) : bytes :=
  let out := slice (s ++ s) (N.shiftr bits 3) (len s) in
  let push := N.land bits 7 in
  if push =? 0 then out
  else match out with [] => [] | c :: _ => rol_shift push (N.shiftr c (8 - push)) out end.
(** ROL / ROR of a uint8_t. *)
Definition rol8 (x n : N) : N := u8 (ror_bits x (8 - n) 8).
(** SBOX, 3-16. *)
Definition cam_sbox (s v : N) : N :=
  match s with
  | 1 => tab Camellia_SBox v
  | 2 => rol8 (tab Camellia_SBox v) 1
  | 3 => rol8 (tab Camellia_SBox v) 7
  | _ => tab Camellia_SBox (rol8 v 1)
  end.
(** FL, 18-26, and FLINV, 28-36. *)
Definition cam_fl (d ke : bytes) : bytes :=
  let x1 := slice d 0 4 in let x2 := slice d 4 4 in
  let k1 := slice ke 0 4 in let k2 := slice ke 4 4 in
  let x2 := xor_strings x2 (rol_string (and_strings x1 k1) 1) in
  let x1 := xor_strings x1 (or_strings x2 k2) in
  x1 ++ x2.
Definition cam_flinv (d ke : bytes) : bytes :=
  let y1 := slice d 0 4 in let y2 := slice d 4 4 in
  let k1 := slice ke 0 4 in let k2 := slice ke 4 4 in
  let y1 := xor_strings y1 (or_strings y2 k2) in
  let y2 := xor_strings y2 (rol_string (and_strings y1 k1) 1) in
  y1 ++ y2.
(** F, 38-65. *)
Definition cam_f (d ke : bytes) : bytes :=
  let x := xor_strings d ke in
  let t1 := cam_sbox 1 (idx x 0) in let t2 := cam_sbox 2 (idx x 1) in
  let t3 := cam_sbox 3 (idx x 2) in let t4 := cam_sbox 4 (idx x 3) in
  let t5 := cam_sbox 2 (idx x 4) in let t6 := cam_sbox 3 (idx x 5) in
  let t7 := cam_sbox 4 (idx x 6) in let t8 := cam_sbox 1 (idx x 7) in
  [t1 ^^ t3 ^^ t4 ^^ t6 ^^ t7 ^^ t8; t1 ^^ t2 ^^ t4 ^^ t5 ^^ t7 ^^ t8;
   t1 ^^ t2 ^^ t3 ^^ t5 ^^ t6 ^^ t8; t2 ^^ t3 ^^ t4 ^^ t5 ^^ t6 ^^ t7;
   t1 ^^ t2 ^^ t6 ^^ t7 ^^ t8; t2 ^^ t3 ^^ t5 ^^ t7 ^^ t8;
   t3 ^^ t4 ^^ t5 ^^ t6 ^^ t8; t1 ^^ t4 ^^ t5 ^^ t6 ^^ t7].
(** D2 ^= F(D1, ka); D1 ^= F(D2, kb), the pairs of lines of run (for example 106-107). *)
Definition cam_pair (D : bytes * bytes) (ka kb : bytes) : bytes * bytes :=
  let D2 := xor_strings (snd D) (cam_f (fst D) ka) in
  (xor_strings (fst D) (cam_f D2 kb), D2).
Definition cam_six (D : bytes * bytes) (a b c d e f : bytes) : bytes * bytes :=
  cam_pair (cam_pair (cam_pair D a b) c d) e f.
Definition cam_fls (D : bytes * bytes) (ka kb : bytes) : bytes * bytes :=
  (cam_fl (fst D) ka, cam_flinv (snd D) kb).
Definition cam_white (D : bytes * bytes) (ka kb : bytes) : bytes * bytes :=
  (xor_strings (fst D) ka, xor_strings (snd D) kb).
(** run, 67-203.  Too few keys would be an out of range access. *)
Definition cam_run (keysize : N) (keys : list bytes) (data : bytes) : result bytes :=
  let D := (slice data 0 8, slice data 8 8) in
  if keysize =? 16 then
    match keys with
    | kw1 :: kw2 :: k1 :: k2 :: k3 :: k4 :: k5 :: k6 :: k7 :: k8 :: k9 :: ke1 :: ke2 :: ke3 :: ke4 ::
      k10 :: k11 :: k12 :: k13 :: k14 :: k15 :: k16 :: k17 :: k18 :: kw4 :: kw3 :: _ =>
      let D := cam_white D kw1 kw2 in
      let D := cam_six D k1 k2 k3 k4 k5 k6 in
      let D := cam_fls D ke1 ke2 in
      let D := cam_six D k7 k8 k9 k10 k11 k12 in
      let D := cam_fls D ke3 ke4 in
      let D := cam_six D k13 k14 k15 k16 k17 k18 in
      let D := cam_white D kw4 kw3 in
      Ok (snd D ++ fst D)
    | _ => UB
    end
  else
    match keys with
    | kw1 :: kw2 :: k1 :: k2 :: k3 :: k4 :: k5 :: k6 :: k7 :: k8 :: k9 :: k10 :: k11 :: k12 ::
      ke1 :: ke2 :: ke3 :: ke4 :: ke5 :: ke6 :: k13 :: k14 :: k15 :: k16 :: k17 :: k18 :: k19 ::
      k20 :: k21 :: k22 :: k23 :: k24 :: kw4 :: kw3 :: _ =>
      let D := cam_white D kw1 kw2 in
      let D := cam_six D k1 k2 k3 k4 k5 k6 in
      let D := cam_fls D ke1 ke2 in
      let D := cam_six D k7 k8 k9 k10 k11 k12 in
      let D := cam_fls D ke3 ke4 in
      let D := cam_six D k13 k14 k15 k16 k17 k18 in
      let D := cam_fls D ke5 ke6 in
      let D := cam_six D k19 k20 k21 k22 k23 k24 in
      let D := cam_white D kw4 kw3 in
      Ok (snd D ++ fst D)
    | _ => UB
    end.
(** setkey, 216-355: KL and KR, KA and KB, then the halves of their rotations. *)
Definition cam_setkey (KEY : bytes) : list bytes :=
  let keysize := u16 (len KEY) in
  let KL := prefix KEY 16 in
  let KR := if keysize =? 16 then repeat 0 16
            else if keysize =? 24 then slice KEY 16 8 ++ xor_strings (slice KEY 16 8) (repeat 255 8)
            else slice KEY 16 16 in
  let sg i := nth i Camellia_Sigma [] in
  let D := xor_strings KL KR in
  let D := cam_pair (slice D 0 8, slice D 8 8) (sg 0%nat) (sg 1%nat) in
  let D := cam_white D (slice KL 0 8) (slice KL 8 8) in
  let D := cam_pair D (sg 2%nat) (sg 3%nat) in
  let KA := fst D ++ snd D in
  let AR := xor_strings KA KR in
  let D := cam_pair (slice AR 0 8, slice AR 8 8) (sg 4%nat) (sg 5%nat) in
  let KB := fst D ++ snd D in
  let lo k n := slice (rol_string k n) 0 8 in
  let hi k n := slice (rol_string k n) 8 8 in
  if keysize =? 16 then
    [lo KL 0; hi KL 0; lo KA 0; hi KA 0; lo KL 15; hi KL 15; lo KA 15; hi KA 15; lo KL 45; hi KL 45;
     lo KA 45; lo KA 30; hi KA 30; lo KL 77; hi KL 77; hi KL 60; lo KA 60; hi KA 60; lo KL 94; hi KL 94;
     lo KA 94; hi KA 94; lo KL 111; hi KL 111; hi KA 111; lo KA 111]
  else
    [lo KL 0; hi KL 0; lo KB 0; hi KB 0; lo KR 15; hi KR 15; lo KA 15; hi KA 15; lo KB 30; hi KB 30;
     lo KL 45; hi KL 45; lo KA 45; hi KA 45; lo KR 30; hi KR 30; lo KL 60; hi KL 60; lo KA 77; hi KA 77;
     lo KR 60; hi KR 60; lo KB 60; hi KB 60; lo KL 77; hi KL 77; lo KR 94; hi KR 94; lo KA 94; hi KA 94;
     lo KL 111; hi KL 111; hi KB 111; lo KB 111].
(** keysize is a uint16_t; with a longer key of the same size modulo 65536 the code would
    take KL = KEY whole for 16, which [prefix KEY 16] ignores (no such key is ever made). *)
Definition Camellia (KEY : bytes) : result cipher :=
  let keysize := u16 (len KEY) in
  if (keysize =? 16) || (keysize =? 24) || (keysize =? 32) then
    Ok (mkCipher 16 (on_block 16 (cam_run keysize (cam_setkey KEY)))
                    (on_block 16 (cam_run keysize (rev (cam_setkey KEY)))))
  else Throw ERuntime.

(** * Twofish, Twofish.cpp *)

Definition q_tab (i : nat) (v : N) : N := tab (row Twofish_q_tab i) v.
Definition m_tab (i : nat) (v : N) : N := tab (row Twofish_m_tab i) v.
(** h_fun, 5-30. *)
Definition tf_h (x : N) (key : list N) : N :=
  let k i n := byte (idx key i) n in
  let '(b0, b1, b2, b3) := (byte x 0, byte x 1, byte x 2, byte x 3) in
  let '(b0, b1, b2, b3) :=
    if Nat.leb 4 (length key) then
      (q_tab 1 b0 ^^ k 3%nat 0, q_tab 0 b1 ^^ k 3%nat 1, q_tab 0 b2 ^^ k 3%nat 2, q_tab 1 b3 ^^ k 3%nat 3)
    else (b0, b1, b2, b3) in
  let '(b0, b1, b2, b3) :=
    if Nat.leb 3 (length key) then
      (q_tab 1 b0 ^^ k 2%nat 0, q_tab 1 b1 ^^ k 2%nat 1, q_tab 0 b2 ^^ k 2%nat 2, q_tab 0 b3 ^^ k 2%nat 3)
    else (b0, b1, b2, b3) in
  let b0 := q_tab 0 (q_tab 0 b0 ^^ k 1%nat 0) ^^ k 0%nat 0 in
  let b1 := q_tab 0 (q_tab 1 b1 ^^ k 1%nat 1) ^^ k 0%nat 1 in
  let b2 := q_tab 1 (q_tab 0 b2 ^^ k 1%nat 2) ^^ k 0%nat 2 in
  let b3 := q_tab 1 (q_tab 1 b3 ^^ k 1%nat 3) ^^ k 0%nat 3 in
  m_tab 0 b0 ^^ m_tab 1 b1 ^^ m_tab 2 b2 ^^ m_tab 3 b3.
(** The two table combinations of run, for example 54-55. *)
Definition tf_g (mk : list (list N)) (a b c d : N) : N :=
  tab (row mk 0) a ^^ tab (row mk 1) b ^^ tab (row mk 2) c ^^ tab (row mk 3) d.
Definition tf_t1 (mk : list (list N)) (w : N) : N := tf_g mk (byte w 3) (byte w 0) (byte w 1) (byte w 2).
Definition tf_t0 (mk : list (list N)) (w : N) : N := tf_g mk (byte w 0) (byte w 1) (byte w 2) (byte w 3).
(** One iteration of the enciphering loop, 53-62, and of the deciphering loop, 64-73. *)
Definition tf_enc_round (l : list N) (mk : list (list N)) (b : N * N * N * N) (i : nat) : N * N * N * N :=
  let '(b0, b1, b2, b3) := b in
  let t1 := tf_t1 mk b1 in
  let t0 := tf_t0 mk b0 in
  let b2 := ror32 (u32 (b2 ^^ u32 (t0 + t1 + idx l (4 * i + 8)))) 1 in
  let b3 := u32 (rol32 b3 1 ^^ u32 (t0 + 2 * t1 + idx l (4 * i + 9))) in
  let t1 := tf_t1 mk b3 in
  let t0 := tf_t0 mk b2 in
  let b0 := ror32 (u32 (b0 ^^ u32 (t0 + t1 + idx l (4 * i + 10)))) 1 in
  let b1 := u32 (rol32 b1 1 ^^ u32 (t0 + 2 * t1 + idx l (4 * i + 11))) in
  (b0, b1, b2, b3).
Definition tf_dec_round (l : list N) (mk : list (list N)) (b : N * N * N * N) (i : nat) : N * N * N * N :=
  let '(b0, b1, b2, b3) := b in
  let t1 := tf_t1 mk b1 in
  let t0 := tf_t0 mk b0 in
  let b2 := u32 (rol32 b2 1 ^^ u32 (t0 + t1 + idx l (4 * i + 10))) in
  let b3 := ror32 (u32 (b3 ^^ u32 (t0 + 2 * t1 + idx l (4 * i + 11)))) 1 in
  let t1 := tf_t1 mk b3 in
  let t0 := tf_t0 mk b2 in
  let b0 := u32 (rol32 b0 1 ^^ u32 (t0 + t1 + idx l (4 * i + 8))) in
  let b1 := ror32 (u32 (b1 ^^ u32 (t0 + 2 * t1 + idx l (4 * i + 9)))) 1 in
  (b0, b1, b2, b3).
(** run, 32-86.  Words are little endian: toint(little_end(s, 256), 256) and
    little_end(makehex(w, 8)), the latter as the reversed octets. *)
Definition tf_in (d : bytes) (x : N) : N := word (rev (slice d x 4)).
Definition tf_out (w : N) : bytes := rev (be 4 w).
Definition tf_run (l : list N) (mk : list (list N)) (enc : bool) (d : bytes) : result bytes :=
  let i (a b : nat) := idx l (if enc then a else b) in
  let b := (u32 (tf_in d 0 ^^ i 0%nat 4%nat), u32 (tf_in d 4 ^^ i 1%nat 5%nat),
            u32 (tf_in d 8 ^^ i 2%nat 6%nat), u32 (tf_in d 12 ^^ i 3%nat 7%nat)) in
  let b := if enc then fold_left (tf_enc_round l mk) (seq 0 8) b
           else fold_left (tf_dec_round l mk) (rev (seq 0 8)) b in
  let '(b0, b1, b2, b3) := b in
  Ok (tf_out (u32 (b2 ^^ i 4%nat 0%nat)) ++ tf_out (u32 (b3 ^^ i 5%nat 1%nat)) ++
      tf_out (u32 (b0 ^^ i 6%nat 2%nat)) ++ tf_out (u32 (b1 ^^ i 7%nat 3%nat))).
(** setkey, 100-195: the Reed-Solomon step 127-157. *)
Definition tf_rs_step (ab : N * N) : N * N :=
  let '(a, b) := ab in
  let t := N.shiftr b 24 in
  let b := u32 (N.lor (N.shiftl b 8) (N.shiftr a 24)) in
  let a := u32 (N.shiftl a 8) in
  let u := N.shiftl t 1 in
  let u := if N.land t 0x80 =? 0 then u else u ^^ 0x14d in
  let b := b ^^ (t ^^ u32 (N.shiftl u 16)) in
  let u := u ^^ N.shiftr t 1 in
  let u := if N.land t 1 =? 0 then u else u ^^ N.shiftr 0x14d 1 in
  (a, b ^^ N.lor (u32 (N.shiftl u 24)) (u32 (N.shiftl u 8))).
Definition tf_rs (a b : N) : N := snd (Nat.iter 8 tf_rs_step (a, b)).
(** l_key, 161-168: the pair of subkeys 2i and 2i+1. *)
Definition tf_subkeys (me mo : list N) (i : N) : list N :=
  let a := u32 (0x01010101 * (2 * i)) in
  let b := u32 (a + 0x01010101) in
  let a := tf_h a me in
  let b := rol32 (tf_h b mo) 8 in
  [u32 (a + b); rol32 (u32 (a + 2 * b)) 9].
(** mk_tab, 170-192: the q boxes applied to an octet, innermost first, for 2, 3 or 4 key
    words. *)
Definition tf_mk (s : list N) (col : nat) : list N :=
  let c := N.of_nat col in
  let k i := byte (idx s i) c in
  let q0 (x : N) := q_tab 0 x in let q1 (x : N) := q_tab 1 x in
  let chain (v : N) :=
    let v := if Nat.leb 4 (length s)
             then (match col with 0%nat => q1 v | 1%nat => q0 v | 2%nat => q0 v | _ => q1 v end) ^^ k 3%nat else v in
    let v := if Nat.leb 3 (length s)
             then (match col with 0%nat => q1 v | 1%nat => q1 v | 2%nat => q0 v | _ => q0 v end) ^^ k 2%nat else v in
    let v := (match col with 0%nat => q0 v | 1%nat => q1 v | 2%nat => q0 v | _ => q1 v end) ^^ k 1%nat in
    (match col with 0%nat => q0 v | 1%nat => q0 v | 2%nat => q1 v | _ => q1 v end) ^^ k 0%nat in
  map (fun i => m_tab col (chain (N.of_nat i))) (seq 0 256).
Definition tf_keys (KEY : bytes) : list N * list (list N) :=
  let k_len := N.to_nat (N.shiftr (u8 (len KEY)) 3) in
  let inw i := word (rev (slice KEY (4 * N.of_nat i) 4)) in
  let me := map (fun i => inw (2 * i)%nat) (seq 0 k_len) in
  let mo := map (fun i => inw (2 * i + 1)%nat) (seq 0 k_len) in
  let s := rev (map (fun i => tf_rs (inw (2 * i)%nat) (inw (2 * i + 1)%nat)) (seq 0 k_len)) in
  (flat_map (fun i => tf_subkeys me mo (N.of_nat i)) (seq 0 20), map (tf_mk s) (seq 0 4)).
Definition Twofish (KEY : bytes) : result cipher :=
  let n := u8 (len KEY) in
  if (n =? 16) || (n =? 24) || (n =? 32) then
    let k := tf_keys KEY in
    Ok (mkCipher 16 (on_block 16 (tf_run (fst k) (snd k) true)) (on_block 16 (tf_run (fst k) (snd k) false)))
  else Throw ERuntime.

(** * Choice of cipher, Encryptions.cpp *)

(** Sym::setup, 10-43; the modes are "e", "d", "e" (Encryptions.h 158-160). *)
Definition sym_setup (alg : N) (key : bytes) : result cipher :=
  match alg with
  | 1 => IDEA key
  | 2 =>
    k2 <- substr key 8 8 ;; k3 <- substr key 16 8 ;;
    TDES (prefix key 8) false k2 true k3 false
  | 3 => CAST128 key
  | 4 => Blowfish key
  | 7 | 8 | 9 => AES key
  | 10 => Twofish key
  | 11 | 12 | 13 => Camellia key
  | _ => Throw ERuntime
  end.

(** use_OpenPGP_CFB_encrypt, cfb.cpp 145-152; use_OpenPGP_CFB_decrypt, 154-161;
    use_normal_CFB_encrypt, 187-194; use_normal_CFB_decrypt, 196-203. *)
Definition use_ocfb_encrypt (alg packet : N) (data key pfx : bytes) : result bytes :=
  if alg =? 0 then Ok data else c <- sym_setup alg key ;; ocfb_encrypt c packet data pfx.
Definition use_ocfb_decrypt (alg packet : N) (data key : bytes) : result bytes :=
  if alg =? 0 then Ok data else c <- sym_setup alg key ;; ocfb_decrypt c packet data.
Definition use_ncfb_encrypt (alg : N) (data key IV : bytes) : result bytes :=
  if alg =? 0 then Ok data else c <- sym_setup alg key ;; ncfb_encrypt c data IV.
Definition use_ncfb_decrypt (alg : N) (data key IV : bytes) : result bytes :=
  if alg =? 0 then Ok data else c <- sym_setup alg key ;; ncfb_decrypt c data IV.
