(** IDEA as Lai and Massey define it (X. Lai, On the design and security of block ciphers). *)
From Verif Require Export Model.Base Spec.Bytes.
From Verif Require Spec.HashStd.
From Coq Require Export NArith List.
Export ListNotations.
Open Scope N_scope.

(** Addition modulo 2^16 and multiplication modulo 2^16 + 1, where 0 stands for 2^16. *)
Definition add16 (a b : N) : N := (a + b) mod 65536.
Definition unit16 (a : N) : N := if a =? 0 then 65536 else a.
Definition mul16 (a b : N) : N := (unit16 a * unit16 b mod 65537) mod 65536.
(** The 52 subkeys: the 16-bit words of the key, then of the key rotated left by 25 bits,
    and so on. *)
Definition subkey (K : N) (n : nat) : N :=
  let rotated := HashStd.rotl 128 (N.of_nat (25 * (n / 8)) mod 128) K in
  rotated / 2 ^ (112 - 16 * N.of_nat (n mod 8)) mod 65536.
Definition quad : Type := N * N * N * N.
(** Round [r] (0 to 7) with subkeys 6r to 6r+5. *)
Definition idea_step (Z : nat -> N) (x : quad) (r : nat) : quad :=
  let '(x1, x2, x3, x4) := x in
  let z i := Z (6 * r + i)%nat in
  let a := mul16 x1 (z 0%nat) in let b := add16 x2 (z 1%nat) in
  let c := add16 x3 (z 2%nat) in let d := mul16 x4 (z 3%nat) in
  let e := mul16 (N.lxor a c) (z 4%nat) in
  let f := mul16 (add16 (N.lxor b d) e) (z 5%nat) in
  let g := add16 e f in
  (N.lxor a f, N.lxor c f, N.lxor b g, N.lxor d g).
(** The output transformation undoes the last exchange of the middle words. *)
Definition idea_final (Z : nat -> N) (x : quad) : quad :=
  let '(x1, x2, x3, x4) := x in (mul16 x1 (Z 48%nat), add16 x3 (Z 49%nat), add16 x2 (Z 50%nat), mul16 x4 (Z 51%nat)).
Definition idea_cipher (key block : bytes) : bytes :=
  let Z := subkey (be_val key) in
  let w i := be_val (firstn 2 (skipn (2 * i) block)) in
  let '(y1, y2, y3, y4) := idea_final Z (fold_left (idea_step Z) (seq 0 8) (w 0%nat, w 1%nat, w 2%nat, w 3%nat)) in
  be 2 y1 ++ be 2 y2 ++ be 2 y3 ++ be 2 y4.
