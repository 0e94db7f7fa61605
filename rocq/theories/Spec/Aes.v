(** FIPS 197, the Advanced Encryption Standard: encryption of one block, written from the
    standard.  A word is four octets, the state its sixteen octets in the order of the input
    (octet r of column c at position r + 4 c). *)
From Verif Require Export Model.Base Spec.Bytes.
From Coq Require Export Bool Arith NArith List.
Export ListNotations.
Local Open Scope N_scope.

(** Arithmetic in GF(2^8), 4.2: polynomials modulo x^8 + x^4 + x^3 + x + 1. *)
Definition xtime (a : N) : N := N.lxor (2 * a mod 256) (if 128 <=? a then 0x1b else 0).
Definition gmul (a b : N) : N :=
  fold_right N.lxor 0 (map (fun i => if N.testbit b (N.of_nat i) then Nat.iter i xtime a else 0) (seq 0 8)).
(** The multiplicative inverse, 0 for 0: the 254th power. *)
Definition ginv (a : N) : N :=
  let sq x := gmul x x in
  let a3 := gmul (sq a) a in let a15 := gmul (sq (sq a3)) a3 in
  gmul (gmul (sq (sq (sq (sq a15)))) (sq (sq a3))) (sq a).
(** The S-box, 5.1.1. *)
Definition sbox (a : N) : N :=
  let b := ginv a in
  let bit i := xorb (xorb (xorb (N.testbit b i) (N.testbit b ((i + 4) mod 8))) (xorb (N.testbit b ((i + 5) mod 8)) (N.testbit b ((i + 6) mod 8))))
                    (xorb (N.testbit b ((i + 7) mod 8)) (N.testbit 0x63 i)) in
  fold_right N.add 0 (map (fun i => N.b2n (bit i) * 2 ^ i) [0; 1; 2; 3; 4; 5; 6; 7]).

Definition at_octet (s : bytes) (i : nat) : N := nth i s 0.
Definition xors (a b : bytes) : bytes := map (fun p => N.lxor (fst p) (snd p)) (combine a b).
(** The transformations of 5.1. *)
Definition sub_bytes (s : bytes) : bytes := map sbox s.
Definition shift_rows (s : bytes) : bytes :=
  map (fun i => let r := (i mod 4)%nat in let c := (i / 4)%nat in at_octet s (r + 4 * ((c + r) mod 4))) (seq 0 16).
Definition mix_columns (s : bytes) : bytes :=
  map (fun i => let c := (i / 4)%nat in let o k := at_octet s ((i + k) mod 4 + 4 * c) in
                N.lxor (N.lxor (gmul 2 (o 0%nat)) (gmul 3 (o 1%nat))) (N.lxor (o 2%nat) (o 3%nat))) (seq 0 16).

(** Key expansion, 5.2: the first [n] words from the key in words. *)
Definition rot_word (w : bytes) : bytes := match w with a :: r => r ++ [a] | [] => [] end.
Definition rcon (j : nat) : bytes := [Nat.iter (j - 1) xtime 1; 0; 0; 0].
Fixpoint key_expansion (key : list bytes) (n : nat) : list bytes :=
  match n with
  | O => []
  | S i =>
    let w := key_expansion key i in
    let Nk := length key in
    let temp := nth (i - 1) w [] in
    let temp :=
      if (i mod Nk =? 0)%nat then xors (map sbox (rot_word temp)) (rcon (i / Nk))
      else if (6 <? Nk)%nat && (i mod Nk =? 4)%nat then map sbox temp
      else temp in
    w ++ [if (i <? Nk)%nat then nth i key [] else xors (nth (i - Nk) w []) temp]
  end.
(** [s] in groups of [n]. *)
Definition groups (n k : nat) (s : bytes) : list bytes := map (fun i => firstn n (skipn (n * i) s)) (seq 0 k).

(** Cipher, figure 5, with Nr = Nk + 6 rounds. *)
Definition round_key (w : list bytes) (r : nat) : bytes := concat (firstn 4 (skipn (4 * r) w)).
Definition aes_cipher (key : bytes) (input : bytes) : bytes :=
  let Nk := (length key / 4)%nat in
  let Nr := (Nk + 6)%nat in
  let w := key_expansion (groups 4 Nk key) (4 * (Nr + 1)) in
  let s := xors input (round_key w 0) in
  let s := fold_left (fun s r => xors (mix_columns (shift_rows (sub_bytes s))) (round_key w r)) (seq 1 (Nr - 1)) s in
  xors (shift_rows (sub_bytes s)) (round_key w Nr).
