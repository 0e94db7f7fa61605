(** Twofish: encryption of one block, written from "Twofish: A 128-Bit Block Cipher"
    (Schneier, Kelsey, Whiting, Wagner, Hall, Ferguson, 1998), section 4. *)
From Verif Require Export Model.Base Spec.Bytes.
From Coq Require Export Bool Arith NArith List.
Export ListNotations.
Local Open Scope N_scope.
Local Infix "^^" := N.lxor (at level 40, left associativity).

(** Words are 32 bits and little endian. *)
Definition mod32 (x : N) : N := x mod 2 ^ 32.
Definition rol (x n : N) : N := (x * 2 ^ n) mod 2 ^ 32 + x / 2 ^ (32 - n).
Definition ror (x n : N) : N := rol x (32 - n).
Definition octet_of (x : N) (j : nat) : N := x / 256 ^ N.of_nat j mod 256.
Definition word_of (s : bytes) : N := fold_right (fun o w => o + 256 * w) 0 s.
Definition word_at (s : bytes) (i : nat) : N := word_of (firstn 4 (skipn (4 * i) s)).
Definition octets_of (w : N) : bytes := map (octet_of w) (seq 0 4).

(** GF(2^8) modulo the polynomial [p]. *)
Definition times_x (p a : N) : N := (2 * a mod 256) ^^ (if 128 <=? a then p mod 256 else 0).
Definition times (p a b : N) : N :=
  fold_right N.lxor 0 (map (fun i => if N.testbit b (N.of_nat i) then Nat.iter i (times_x p) a else 0) (seq 0 8)).
Definition times_row (p : N) (r v : list N) : N :=
  fold_right N.lxor 0 (map (fun x => times p (fst x) (snd x)) (combine r v)).
Definition times_matrix (p : N) (m : list (list N)) (v : list N) : list N := map (fun r => times_row p r v) m.

(** 4.3.2: the matrix MDS, and 4.3: the matrix RS. *)
Definition MDS : list (list N) :=
  [[0x01; 0xEF; 0x5B; 0x5B]; [0x5B; 0xEF; 0xEF; 0x01]; [0xEF; 0x5B; 0x01; 0xEF]; [0xEF; 0x01; 0xEF; 0x5B]].
Definition RS : list (list N) :=
  [[0x01; 0xA4; 0x55; 0x87; 0x5A; 0x58; 0xDB; 0x9E]; [0xA4; 0x56; 0x82; 0xF3; 0x1E; 0xC6; 0x68; 0xE5];
   [0x02; 0xA1; 0xFC; 0xC1; 0x47; 0xAE; 0x3D; 0x19]; [0xA4; 0x55; 0x87; 0x5A; 0x58; 0xDB; 0x9E; 0x03]].

(** 4.3.5: the permutations q0 and q1. *)
Definition t_tables (i : nat) : list (list N) :=
  match i with
  | 0%nat => [[0x8;0x1;0x7;0xD;0x6;0xF;0x3;0x2;0x0;0xB;0x5;0x9;0xE;0xC;0xA;0x4]; [0xE;0xC;0xB;0x8;0x1;0x2;0x3;0x5;0xF;0x4;0xA;0x6;0x7;0x0;0x9;0xD];
              [0xB;0xA;0x5;0xE;0x6;0xD;0x9;0x0;0xC;0x8;0xF;0x3;0x2;0x4;0x7;0x1]; [0xD;0x7;0xF;0x4;0x1;0x2;0x6;0xE;0x9;0xB;0x3;0x0;0x8;0x5;0xC;0xA]]
  | _ => [[0x2;0x8;0xB;0xD;0xF;0x7;0x6;0xE;0x3;0x1;0x9;0x4;0x0;0xA;0xC;0x5]; [0x1;0xE;0x2;0xB;0x4;0xC;0x3;0x7;0x6;0xD;0xA;0x5;0xF;0x9;0x0;0x8];
          [0x4;0xC;0x7;0x5;0x1;0x6;0x9;0xA;0x0;0xE;0xD;0x8;0x2;0xB;0x3;0xF]; [0xB;0x9;0x5;0x1;0xC;0x3;0xD;0xE;0x6;0x4;0x7;0xF;0x2;0x0;0x8;0xA]]
  end.
Definition ror4 (x : N) : N := x / 2 + 8 * (x mod 2).
Definition q (i : nat) (x : N) : N :=
  let t n y := nth (N.to_nat y) (nth n (t_tables i) []) 0 in
  let mix a b := (a ^^ b, a ^^ ror4 b ^^ (8 * a mod 16)) in
  let (a1, b1) := mix (x / 16) (x mod 16) in
  let (a3, b3) := mix (t 0%nat a1) (t 1%nat b1) in
  16 * t 3%nat b3 + t 2%nat a3.

(** 4.3.2: the function h.  [q_of s j]: the permutation octet [j] goes through before it meets
    word [s] of the list, and, in the last line, before the matrix. *)
Definition q_of (s j : nat) : nat :=
  nth j (nth s [[0; 0; 1; 1]; [0; 1; 0; 1]; [1; 1; 0; 0]; [1; 0; 0; 1]]%nat []) 0%nat.
Definition q_last (j : nat) : nat := nth j [1; 0; 1; 0]%nat 0%nat.
Definition h_step (L : list N) (j : nat) (y : N) (s : nat) : N := q (q_of s j) y ^^ octet_of (nth s L 0) j.
Definition h_octet (L : list N) (j : nat) (x : N) : N :=
  q (q_last j) (fold_left (h_step L j) (rev (seq 0 (length L))) x).
Definition h (X : N) (L : list N) : N :=
  word_of (times_matrix 0x169 MDS (map (fun j => h_octet L j (octet_of X j)) (seq 0 4))).

(** 4.3: the key schedule. *)
Definition M_e (key : bytes) : list N := map (fun i => word_at key (2 * i)) (seq 0 (length key / 8)).
Definition M_o (key : bytes) : list N := map (fun i => word_at key (2 * i + 1)) (seq 0 (length key / 8)).
Definition S_i (key : bytes) (i : nat) : N := word_of (times_matrix 0x14d RS (firstn 8 (skipn (8 * i) key))).
Definition S_key (key : bytes) : list N := rev (map (S_i key) (seq 0 (length key / 8))).
Definition rho : N := 0x01010101.
Definition A_i (key : bytes) (i : nat) : N := h (2 * N.of_nat i * rho) (M_e key).
Definition B_i (key : bytes) (i : nat) : N := rol (h ((2 * N.of_nat i + 1) * rho) (M_o key)) 8.
Definition K (key : bytes) (n : nat) : N :=
  let a := A_i key (n / 2) in let b := B_i key (n / 2) in
  if Nat.even n then mod32 (a + b) else rol (mod32 (a + 2 * b)) 9.

(** 4.1 and 4.2: the function F, one round, and the cipher. *)
Definition round (key : bytes) (R : N * N * N * N) (r : nat) : N * N * N * N :=
  let '(R0, R1, R2, R3) := R in
  let T0 := h R0 (S_key key) in
  let T1 := h (rol R1 8) (S_key key) in
  let F0 := mod32 (T0 + T1 + K key (2 * r + 8)) in
  let F1 := mod32 (T0 + 2 * T1 + K key (2 * r + 9)) in
  (ror (R2 ^^ F0) 1, rol R3 1 ^^ F1, R0, R1).
Definition twofish_cipher (key P : bytes) : bytes :=
  let white i := word_at P i ^^ K key i in
  let '(R0, R1, R2, R3) := fold_left (round key) (seq 0 16) (white 0%nat, white 1%nat, white 2%nat, white 3%nat) in
  octets_of (R2 ^^ K key 4) ++ octets_of (R3 ^^ K key 5) ++ octets_of (R0 ^^ K key 6) ++ octets_of (R1 ^^ K key 7).
