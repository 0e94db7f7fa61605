(** Blowfish as B. Schneier defines it (Description of a new variable-length key, 64-bit
    block cipher).  The initial subkeys are the 1042 words of the fractional part of pi; the
    tables of the code are taken for them (sections of Model/CipherConst.v). *)
From Verif Require Export Model.Base Spec.Bytes.
From Verif Require Import Model.CipherConst.
From Coq Require Export NArith List.
Export ListNotations.
Open Scope N_scope.

(** All subkeys in one list: P1 to P18, then the four S-boxes of 256 words. *)
Definition pi_words : list N := Blowfish_P ++ concat Blowfish_SBOX.
Definition P (T : list N) (i : nat) : N := nth (i - 1) T 0.
Definition S (T : list N) (j : nat) (a : N) : N := nth (18 + 256 * (j - 1) + N.to_nat a) T 0.
Definition add (a b : N) : N := (a + b) mod 2 ^ 32.
Definition F (T : list N) (x : N) : N :=
  let a := x / 2 ^ 24 in let b := x / 2 ^ 16 mod 256 in
  let c := x / 2 ^ 8 mod 256 in let d := x mod 256 in
  add (N.lxor (add (S T 1 a) (S T 2 b)) (S T 3 c)) (S T 4 d).
(** xL = xL xor Pi; xR = F(xL) xor xR; swap. *)
Definition bf_step (T : list N) (x : N * N) (i : nat) : N * N :=
  let l := N.lxor (fst x) (P T i) in (N.lxor (F T l) (snd x), l).
(** Sixteen rounds; undo the last swap; xR = xR xor P17; xL = xL xor P18. *)
Definition encrypt (T : list N) (x : N * N) : N * N :=
  let y := fold_left (bf_step T) (seq 1 16) x in
  (N.lxor (snd y) (P T 18), N.lxor (fst y) (P T 17)).
(** Word [i] (from 0) of the key repeated for ever. *)
Definition key_word (key : bytes) (i : nat) : N :=
  be_val (map (fun j => nth ((4 * i + j) mod length key) key 0) (seq 0 4)).
Definition keyed (key : bytes) : list N :=
  map (fun i => N.lxor (nth i pi_words 0) (key_word key i)) (seq 0 18) ++ skipn 18 pi_words.
(** Encrypt zero, replace P1 and P2 by the result, encrypt it again, replace P3 and P4, and
    so on through all subkeys: 9 pairs in P, 512 in the S-boxes. *)
Definition replace_pair (T : list N) (k : nat) (x : N * N) : list N :=
  firstn (2 * k) T ++ [fst x; snd x] ++ skipn (2 * k + 2) T.
Definition expand_step (Tx : list N * (N * N)) (k : nat) : list N * (N * N) :=
  let y := encrypt (fst Tx) (snd Tx) in (replace_pair (fst Tx) k y, y).
Definition subkeys (key : bytes) : list N := fst (fold_left expand_step (seq 0 (9 + 512)) (keyed key, (0, 0))).
Definition blowfish_cipher (key block : bytes) : bytes :=
  let y := encrypt (subkeys key) (be_val (firstn 4 block), be_val (skipn 4 block)) in be 4 (fst y) ++ be 4 (snd y).
