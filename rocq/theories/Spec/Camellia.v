(** RFC 3713, the Camellia encryption algorithm: encryption of one block, written from the
    RFC with its numbers.  The RFC gives SBOX1 as a table; here it is the function that the
    specification of Camellia (section 4.5 of Aoki et al.) defines the table by. *)
From Verif Require Export Model.Base Spec.Bytes.
From Verif Require Import Spec.HashStd.
From Coq Require Export Bool Arith NArith List.
Export ListNotations.
Open Scope N_scope.

(** Bits a1 (the highest) to a8 of an octet. *)
Definition a (x : N) (i : N) : bool := N.testbit x (8 - i).
Definition of_bits (l : list bool) : N := fold_left (fun v b => 2 * v + N.b2n b) l 0.
Definition aff (x : N) (rows : list (list N)) : N := of_bits (map (fun r => fold_left (fun s i => xorb s (a x i)) r false) rows).
Definition f (x : N) : N := aff x [[6; 2]; [7; 1]; [8; 5; 3]; [8; 3]; [7; 4]; [5; 2]; [8; 1]; [6; 4]].
Definition h (x : N) : N := aff x [[5; 6; 2]; [6; 2]; [7; 4]; [8; 2]; [7; 3]; [8; 1]; [5; 1]; [6; 3]].
(** GF(2^8) = GF(2)[b] with b^8 + b^6 + b^5 + b^3 + 1 = 0, and alpha = b^238. *)
Definition times_b (x : N) : N := N.lxor (2 * x mod 256) (if 128 <=? x then 0x69 else 0).
Definition mul (x y : N) : N :=
  fold_right N.lxor 0 (map (fun i => if N.testbit y (N.of_nat i) then Nat.iter i times_b x else 0) (seq 0 8)).
Definition power (x : N) (n : positive) : N := Pos.iter_op mul n x.
Definition alpha : N := Nat.iter 238 times_b 1.
(** The element (a8 + a7 alpha + a6 alpha^2 + a5 alpha^3) + (a4 + a3 alpha + a2 alpha^2 +
    a1 alpha^3) b of the octet a1 ... a8, and the octet of an element (additive; given by
    the octets of b^0 to b^7). *)
Definition basis : list N :=
  let a2 := mul alpha alpha in let a3 := mul a2 alpha in
  [1; alpha; a2; a3; times_b 1; times_b alpha; times_b a2; times_b a3].
Definition combine_bits (l : list N) (x : N) : N :=
  fold_right N.lxor 0 (map (fun i => if N.testbit x (N.of_nat i) then nth i l 0 else 0) (seq 0 8)).
Definition element (x : N) : N := combine_bits basis x.
Definition octet_of (x : N) : N := combine_bits [1; 16; 25; 137; 20; 89; 203; 118] x.
Definition g (x : N) : N := octet_of (power (element x) 254).

Definition SBOX1 (x : N) : N := N.lxor (h (g (f (N.lxor 0xc5 x)))) 0x6e.
Definition SBOX2 (x : N) : N := rotl 8 1 (SBOX1 x).
Definition SBOX3 (x : N) : N := rotl 8 7 (SBOX1 x).
Definition SBOX4 (x : N) : N := SBOX1 (rotl 8 1 x).

(** 2.4: the F, FL and FLINV functions on 64-bit numbers. *)
Definition hi32 (x : N) : N := x / 2 ^ 32.
Definition lo32 (x : N) : N := x mod 2 ^ 32.
Definition F (F_IN KE : N) : N :=
  let x := N.lxor F_IN KE in
  let t (n : N) := x / 2 ^ n mod 256 in
  let t1 := SBOX1 (t 56) in let t2 := SBOX2 (t 48) in let t3 := SBOX3 (t 40) in let t4 := SBOX4 (t 32) in
  let t5 := SBOX2 (t 24) in let t6 := SBOX3 (t 16) in let t7 := SBOX4 (t 8) in let t8 := SBOX1 (t 0) in
  let xors := fold_right N.lxor 0 in
  be_val [xors [t1; t3; t4; t6; t7; t8]; xors [t1; t2; t4; t5; t7; t8];
          xors [t1; t2; t3; t5; t6; t8]; xors [t2; t3; t4; t5; t6; t7];
          xors [t1; t2; t6; t7; t8]; xors [t2; t3; t5; t7; t8];
          xors [t3; t4; t5; t6; t8]; xors [t1; t4; t5; t6; t7]].
Definition FL (FL_IN KE : N) : N :=
  let x1 := hi32 FL_IN in let x2 := lo32 FL_IN in let k1 := hi32 KE in let k2 := lo32 KE in
  let x2 := N.lxor x2 (rotl 32 1 (N.land x1 k1)) in
  let x1 := N.lxor x1 (N.lor x2 k2) in
  x1 * 2 ^ 32 + x2.
Definition FLINV (FLINV_IN KE : N) : N :=
  let y1 := hi32 FLINV_IN in let y2 := lo32 FLINV_IN in let k1 := hi32 KE in let k2 := lo32 KE in
  let y1 := N.lxor y1 (N.lor y2 k2) in
  let y2 := N.lxor y2 (rotl 32 1 (N.land y1 k1)) in
  y1 * 2 ^ 32 + y2.

(** 2.2: key scheduling. *)
Definition hi64 (x : N) : N := x / 2 ^ 64.
Definition lo64 (x : N) : N := x mod 2 ^ 64.
Definition Sigma1 : N := 0xA09E667F3BCC908B. Definition Sigma2 : N := 0xB67AE8584CAA73B2.
Definition Sigma3 : N := 0xC6EF372FE94F82BE. Definition Sigma4 : N := 0x54FF53A5F1D36F1C.
Definition Sigma5 : N := 0x10E527FADE682D1D. Definition Sigma6 : N := 0xB05688C2B3E6C1FD.
(** D2 = D2 ^ F(D1, k); D1 = D1 ^ F(D2, k'). *)
Definition two_rounds (k k' : N) (D : N * N) : N * N :=
  let D2 := N.lxor (snd D) (F (fst D) k) in (N.lxor (fst D) (F D2 k'), D2).
Definition K_L (key : bytes) : N := be_val (firstn 16 key).
Definition K_R (key : bytes) : N :=
  let r := skipn 16 key in
  if (length key =? 16)%nat then 0
  else if (length key =? 24)%nat then be_val r * 2 ^ 64 + (2 ^ 64 - 1 - be_val r)
  else be_val r.
Definition halves (x : N) : N * N := (hi64 x, lo64 x).
Definition join (D : N * N) : N := fst D * 2 ^ 64 + snd D.
Definition K_A (key : bytes) : N :=
  let D := two_rounds Sigma1 Sigma2 (halves (N.lxor (K_L key) (K_R key))) in
  let D := (N.lxor (fst D) (hi64 (K_L key)), N.lxor (snd D) (lo64 (K_L key))) in
  join (two_rounds Sigma3 Sigma4 D).
Definition K_B (key : bytes) : N := join (two_rounds Sigma5 Sigma6 (halves (N.lxor (K_A key) (K_R key)))).
(** The two halves of (K <<< n). *)
Definition parts (K n : N) : list N := let x := rotl 128 n K in [hi64 x; lo64 x].
Definition subkeys128 (key : bytes) : list N * list N * list N :=
  let KL := K_L key in let KA := K_A key in
  (parts KL 0 ++ parts KA 111,
   parts KA 0 ++ parts KL 15 ++ parts KA 15 ++ parts KL 45 ++ [hi64 (rotl 128 45 KA); lo64 (rotl 128 60 KL)]
     ++ parts KA 60 ++ parts KL 94 ++ parts KA 94 ++ parts KL 111,
   parts KA 30 ++ parts KL 77).
Definition subkeys256 (key : bytes) : list N * list N * list N :=
  let KL := K_L key in let KR := K_R key in let KA := K_A key in let KB := K_B key in
  (parts KL 0 ++ parts KB 111,
   parts KB 0 ++ parts KR 15 ++ parts KA 15 ++ parts KB 30 ++ parts KL 45 ++ parts KA 45
     ++ parts KR 60 ++ parts KB 60 ++ parts KL 77 ++ parts KR 94 ++ parts KA 94 ++ parts KL 111,
   parts KR 30 ++ parts KL 60 ++ parts KA 77).

(** 2.3: rounds in groups of six, FL and FLINV between the groups. *)
Definition at_key (l : list N) (i : nat) : N := nth (i - 1) l 0.
Definition six_rounds (k : list N) (i : nat) (D : N * N) : N * N :=
  two_rounds (at_key k (i + 4)) (at_key k (i + 5)) (two_rounds (at_key k (i + 2)) (at_key k (i + 3)) (two_rounds (at_key k i) (at_key k (i + 1)) D)).
Definition fl_layer (ke : list N) (i : nat) (D : N * N) : N * N := (FL (fst D) (at_key ke i), FLINV (snd D) (at_key ke (i + 1))).
Definition camellia_cipher (key block : bytes) : bytes :=
  let '(kw, k, ke) := if (length key =? 16)%nat then subkeys128 key else subkeys256 key in
  let D := halves (be_val block) in
  let D := (N.lxor (fst D) (at_key kw 1), N.lxor (snd D) (at_key kw 2)) in
  let D := six_rounds k 1 D in
  let D := fl_layer ke 1 D in
  let D := six_rounds k 7 D in
  let D := fl_layer ke 3 D in
  let D := six_rounds k 13 D in
  let D := if (length key =? 16)%nat then D else six_rounds k 19 (fl_layer ke 5 D) in
  let D2 := N.lxor (snd D) (at_key kw 3) in
  let D1 := N.lxor (fst D) (at_key kw 4) in
  be 16 (join (D2, D1)).
