(** DES and triple DES as FIPS 46-3 defines them, on lists of bits (most significant
    first, numbered from 1 as in the standard). *)
From Verif Require Export Model.Base Spec.Bytes.
From Coq Require Export NArith List.
Export ListNotations.
Open Scope N_scope.

(** Bits of a number, [n] of them, and back. *)
Definition bits_of (n : nat) (v : N) : list bool := map (fun i => N.testbit v (N.of_nat (n - 1 - i))) (seq 0 n).
Definition num_of (b : list bool) : N := fold_left (fun v (x : bool) => 2 * v + if x then 1 else 0) b 0.
(** A block of octets as bits. *)
Definition block_bits (s : bytes) : list bool := flat_map (bits_of 8) s.
Definition bits_block (b : list bool) (n : nat) : bytes := map (fun i => num_of (firstn 8 (skipn (8 * i) b))) (seq 0 n).
(** "bit i of the output is bit t_i of the input". *)
Definition permute (t : list nat) (b : list bool) : list bool := map (fun i => nth (i - 1) b false) t.
Definition xor_bits (a b : list bool) : list bool := map (fun p => xorb (fst p) (snd p)) (combine a b).

(** IP and its inverse. *)
Definition IP : list nat :=
  [58; 50; 42; 34; 26; 18; 10; 2;
   60; 52; 44; 36; 28; 20; 12; 4;
   62; 54; 46; 38; 30; 22; 14; 6;
   64; 56; 48; 40; 32; 24; 16; 8;
   57; 49; 41; 33; 25; 17; 9; 1;
   59; 51; 43; 35; 27; 19; 11; 3;
   61; 53; 45; 37; 29; 21; 13; 5;
   63; 55; 47; 39; 31; 23; 15; 7]%nat.
Definition IP_inverse : list nat :=
  [40; 8; 48; 16; 56; 24; 64; 32;
   39; 7; 47; 15; 55; 23; 63; 31;
   38; 6; 46; 14; 54; 22; 62; 30;
   37; 5; 45; 13; 53; 21; 61; 29;
   36; 4; 44; 12; 52; 20; 60; 28;
   35; 3; 43; 11; 51; 19; 59; 27;
   34; 2; 42; 10; 50; 18; 58; 26;
   33; 1; 41; 9; 49; 17; 57; 25]%nat.
(** E bit-selection table: groups of four with their neighbours. *)
Definition E : list nat :=
  [32; 1; 2; 3; 4; 5;
   4; 5; 6; 7; 8; 9;
   8; 9; 10; 11; 12; 13;
   12; 13; 14; 15; 16; 17;
   16; 17; 18; 19; 20; 21;
   20; 21; 22; 23; 24; 25;
   24; 25; 26; 27; 28; 29;
   28; 29; 30; 31; 32; 1]%nat.
Definition P : list nat :=
  [16; 7; 20; 21;
   29; 12; 28; 17;
   1; 15; 23; 26;
   5; 18; 31; 10;
   2; 8; 24; 14;
   32; 27; 3; 9;
   19; 13; 30; 6;
   22; 11; 4; 25]%nat.
(** The selection functions S1 to S8, four rows of sixteen each. *)
Definition S1 : list (list N) :=
  [[14; 4; 13; 1; 2; 15; 11; 8; 3; 10; 6; 12; 5; 9; 0; 7];
   [0; 15; 7; 4; 14; 2; 13; 1; 10; 6; 12; 11; 9; 5; 3; 8];
   [4; 1; 14; 8; 13; 6; 2; 11; 15; 12; 9; 7; 3; 10; 5; 0];
   [15; 12; 8; 2; 4; 9; 1; 7; 5; 11; 3; 14; 10; 0; 6; 13]].
Definition S2 : list (list N) :=
  [[15; 1; 8; 14; 6; 11; 3; 4; 9; 7; 2; 13; 12; 0; 5; 10];
   [3; 13; 4; 7; 15; 2; 8; 14; 12; 0; 1; 10; 6; 9; 11; 5];
   [0; 14; 7; 11; 10; 4; 13; 1; 5; 8; 12; 6; 9; 3; 2; 15];
   [13; 8; 10; 1; 3; 15; 4; 2; 11; 6; 7; 12; 0; 5; 14; 9]].
Definition S3 : list (list N) :=
  [[10; 0; 9; 14; 6; 3; 15; 5; 1; 13; 12; 7; 11; 4; 2; 8];
   [13; 7; 0; 9; 3; 4; 6; 10; 2; 8; 5; 14; 12; 11; 15; 1];
   [13; 6; 4; 9; 8; 15; 3; 0; 11; 1; 2; 12; 5; 10; 14; 7];
   [1; 10; 13; 0; 6; 9; 8; 7; 4; 15; 14; 3; 11; 5; 2; 12]].
Definition S4 : list (list N) :=
  [[7; 13; 14; 3; 0; 6; 9; 10; 1; 2; 8; 5; 11; 12; 4; 15];
   [13; 8; 11; 5; 6; 15; 0; 3; 4; 7; 2; 12; 1; 10; 14; 9];
   [10; 6; 9; 0; 12; 11; 7; 13; 15; 1; 3; 14; 5; 2; 8; 4];
   [3; 15; 0; 6; 10; 1; 13; 8; 9; 4; 5; 11; 12; 7; 2; 14]].
Definition S5 : list (list N) :=
  [[2; 12; 4; 1; 7; 10; 11; 6; 8; 5; 3; 15; 13; 0; 14; 9];
   [14; 11; 2; 12; 4; 7; 13; 1; 5; 0; 15; 10; 3; 9; 8; 6];
   [4; 2; 1; 11; 10; 13; 7; 8; 15; 9; 12; 5; 6; 3; 0; 14];
   [11; 8; 12; 7; 1; 14; 2; 13; 6; 15; 0; 9; 10; 4; 5; 3]].
Definition S6 : list (list N) :=
  [[12; 1; 10; 15; 9; 2; 6; 8; 0; 13; 3; 4; 14; 7; 5; 11];
   [10; 15; 4; 2; 7; 12; 9; 5; 6; 1; 13; 14; 0; 11; 3; 8];
   [9; 14; 15; 5; 2; 8; 12; 3; 7; 0; 4; 10; 1; 13; 11; 6];
   [4; 3; 2; 12; 9; 5; 15; 10; 11; 14; 1; 7; 6; 0; 8; 13]].
Definition S7 : list (list N) :=
  [[4; 11; 2; 14; 15; 0; 8; 13; 3; 12; 9; 7; 5; 10; 6; 1];
   [13; 0; 11; 7; 4; 9; 1; 10; 14; 3; 5; 12; 2; 15; 8; 6];
   [1; 4; 11; 13; 12; 3; 7; 14; 10; 15; 6; 8; 0; 5; 9; 2];
   [6; 11; 13; 8; 1; 4; 10; 7; 9; 5; 0; 15; 14; 2; 3; 12]].
Definition S8 : list (list N) :=
  [[13; 2; 8; 4; 6; 15; 11; 1; 10; 9; 3; 14; 5; 0; 12; 7];
   [1; 15; 13; 8; 10; 3; 7; 4; 12; 5; 6; 11; 0; 14; 9; 2];
   [7; 11; 4; 1; 9; 12; 14; 2; 0; 6; 10; 13; 15; 3; 5; 8];
   [2; 1; 14; 7; 4; 10; 8; 13; 15; 12; 9; 0; 3; 5; 6; 11]].
Definition S_boxes : list (list (list N)) := [S1; S2; S3; S4; S5; S6; S7; S8].
(** The first and last bits of the six select the row, the middle four the column. *)
Definition select (S : list (list N)) (b : list bool) : list bool :=
  let bit i := nth i b false in
  let r := num_of [bit 0%nat; bit 5%nat] in
  let c := num_of [bit 1%nat; bit 2%nat; bit 3%nat; bit 4%nat] in
  bits_of 4 (nth (N.to_nat c) (nth (N.to_nat r) S []) 0).
(** The cipher function f. *)
Definition f (R K : list bool) : list bool :=
  let x := xor_bits (permute E R) K in
  permute P (concat (map (fun i => select (nth i S_boxes []) (firstn 6 (skipn (6 * i) x))) (seq 0 8))).

(** Key schedule KS. *)
Definition PC1_C : list nat :=
  [57; 49; 41; 33; 25; 17; 9;
   1; 58; 50; 42; 34; 26; 18;
   10; 2; 59; 51; 43; 35; 27;
   19; 11; 3; 60; 52; 44; 36]%nat.
Definition PC1_D : list nat :=
  [63; 55; 47; 39; 31; 23; 15;
   7; 62; 54; 46; 38; 30; 22;
   14; 6; 61; 53; 45; 37; 29;
   21; 13; 5; 28; 20; 12; 4]%nat.
Definition PC2 : list nat :=
  [14; 17; 11; 24; 1; 5;
   3; 28; 15; 6; 21; 10;
   23; 19; 12; 4; 26; 8;
   16; 7; 27; 20; 13; 2;
   41; 52; 31; 37; 47; 55;
   30; 40; 51; 45; 33; 48;
   44; 49; 39; 56; 34; 53;
   46; 42; 50; 36; 29; 32]%nat.
(** Left shifts at iteration [n] (1 to 16), and in all up to it. *)
Definition shifts (n : nat) : nat := if existsb (Nat.eqb n) [1; 2; 9; 16]%nat then 1 else 2.
Fixpoint total_shifts (n : nat) : nat := match n with O => O | S m => (total_shifts m + shifts n)%nat end.
Definition rotate_left {A} (n : nat) (l : list A) : list A := skipn n l ++ firstn n l.
Definition KS (n : nat) (KEY : list bool) : list bool :=
  permute PC2 (rotate_left (total_shifts n) (permute PC1_C KEY) ++ rotate_left (total_shifts n) (permute PC1_D KEY)).

(** Enciphering: 16 iterations, then the halves are exchanged; deciphering takes the keys
    in the opposite order. *)
Definition iteration (KEY : list bool) (LR : list bool * list bool) (n : nat) : list bool * list bool :=
  (snd LR, xor_bits (fst LR) (f (snd LR) (KS n KEY))).
Definition des (order : list nat) (key : bytes) (block : bytes) : bytes :=
  let b := permute IP (block_bits block) in
  let LR := fold_left (iteration (block_bits key)) order (firstn 32 b, skipn 32 b) in
  bits_block (permute IP_inverse (snd LR ++ fst LR)) 8.
Definition des_encipher : bytes -> bytes -> bytes := des (seq 1 16).
Definition des_decipher : bytes -> bytes -> bytes := des (rev (seq 1 16)).
(** TDEA: O = E_K3 (D_K2 (E_K1 I)), and back I = D_K1 (E_K2 (D_K3 O)). *)
Definition tdea_encipher (K1 K2 K3 : bytes) (I : bytes) : bytes := des_encipher K3 (des_decipher K2 (des_encipher K1 I)).
Definition tdea_decipher (K1 K2 K3 : bytes) (O : bytes) : bytes := des_decipher K1 (des_encipher K2 (des_decipher K3 O)).
