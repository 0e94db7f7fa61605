(** RFC 2144, the CAST-128 encryption algorithm: encryption of one block, written from the
    RFC.  The S-boxes S1 to S8 of its appendix are given only as tables, and the tables of
    the code are taken for them. *)
From Verif Require Export Model.Base Spec.Bytes.
From Verif Require Import Model.CipherConst Spec.HashStd.
From Coq Require Export Arith NArith List.
Export ListNotations.
Open Scope N_scope.

Definition at_octet (s : list N) (i : nat) : N := nth i s 0.
Definition xors : list N -> N := fold_right N.lxor 0.
Definition box (n : nat) (v : N) : N :=
  nth (N.to_nat v) (nth (n - 1) [CAST_S1; CAST_S2; CAST_S3; CAST_S4; CAST128_S5; CAST128_S6; CAST128_S7; CAST128_S8] []) 0.
Definition add (a b : N) : N := (a + b) mod 2 ^ 32.
Definition sub (a b : N) : N := (a + (2 ^ 32 - b)) mod 2 ^ 32.

(** 2.2: the three functions, by the round number. *)
Definition f (i : nat) (D Km Kr : N) : N :=
  let I := match (i mod 3)%nat with
           | 1%nat => rotl 32 Kr (add Km D)
           | 2%nat => rotl 32 Kr (N.lxor Km D)
           | _ => rotl 32 Kr (sub Km D)
           end in
  let a := box 1 (I / 2 ^ 24) in let b := box 2 (I / 2 ^ 16 mod 256) in
  let c := box 3 (I / 2 ^ 8 mod 256) in let d := box 4 (I mod 256) in
  match (i mod 3)%nat with
  | 1%nat => add (sub (N.lxor a b) c) d
  | 2%nat => N.lxor (add (sub a b) c) d
  | _ => sub (N.lxor (add a b) c) d
  end.

(** 2.4: the octets z0 ... zF from x0 ... xF, and x0 ... xF anew from z0 ... zF. *)
Definition quad (s : list N) (i : nat) : N := be_val (firstn 4 (skipn i s)).
Definition z_of (x : list N) : list N :=
  let S n i := box n (at_octet x i) in
  let z := be 4 (xors [quad x 0x0; S 5 0xD; S 6 0xF; S 7 0xC; S 8 0xE; S 7 0x8])%nat in
  let S' n i := box n (at_octet z i) in
  let z := z ++ be 4 (xors [quad x 0x8; S' 5 0x0; S' 6 0x2; S' 7 0x1; S' 8 0x3; S 8 0xA])%nat in
  let S' n i := box n (at_octet z i) in
  let z := z ++ be 4 (xors [quad x 0xC; S' 5 0x7; S' 6 0x6; S' 7 0x5; S' 8 0x4; S 5 0x9])%nat in
  let S' n i := box n (at_octet z i) in
  z ++ be 4 (xors [quad x 0x4; S' 5 0xA; S' 6 0x9; S' 7 0xB; S' 8 0x8; S 6 0xB])%nat.
Definition x_of (z : list N) : list N :=
  let S n i := box n (at_octet z i) in
  let x := be 4 (xors [quad z 0x8; S 5 0x5; S 6 0x7; S 7 0x4; S 8 0x6; S 7 0x0])%nat in
  let S' n i := box n (at_octet x i) in
  let x := x ++ be 4 (xors [quad z 0x0; S' 5 0x0; S' 6 0x2; S' 7 0x1; S' 8 0x3; S 8 0x2])%nat in
  let S' n i := box n (at_octet x i) in
  let x := x ++ be 4 (xors [quad z 0x4; S' 5 0x7; S' 6 0x6; S' 7 0x5; S' 8 0x4; S 5 0x1])%nat in
  let S' n i := box n (at_octet x i) in
  x ++ be 4 (xors [quad z 0xC; S' 5 0xA; S' 6 0x9; S' 7 0xB; S' 8 0x8; S 6 0x3])%nat.
(** Four subkeys: S5[a] ^ S6[b] ^ S7[c] ^ S8[d] ^ Sn[e] for n = 5, 6, 7, 8. *)
Definition four_keys (t : list N) (sel : list (list nat)) : list N :=
  map (fun ns => let s i := at_octet t (nth i (snd ns) 0%nat) in
                 xors [box 5 (s 0%nat); box 6 (s 1%nat); box 7 (s 2%nat); box 8 (s 3%nat); box (fst ns) (s 4%nat)])
      (combine [5; 6; 7; 8]%nat sel).
Definition sel1 : list (list nat) := [[0x8; 0x9; 0x7; 0x6; 0x2]; [0xA; 0xB; 0x5; 0x4; 0x6]; [0xC; 0xD; 0x3; 0x2; 0x9]; [0xE; 0xF; 0x1; 0x0; 0xC]]%nat.
Definition sel2 : list (list nat) := [[0x3; 0x2; 0xC; 0xD; 0x8]; [0x1; 0x0; 0xE; 0xF; 0xD]; [0x7; 0x6; 0x8; 0x9; 0x3]; [0x5; 0x4; 0xA; 0xB; 0x7]]%nat.
Definition sel3 : list (list nat) := [[0x3; 0x2; 0xC; 0xD; 0x9]; [0x1; 0x0; 0xE; 0xF; 0xC]; [0x7; 0x6; 0x8; 0x9; 0x2]; [0x5; 0x4; 0xA; 0xB; 0x6]]%nat.
Definition sel4 : list (list nat) := [[0x8; 0x9; 0x7; 0x6; 0x3]; [0xA; 0xB; 0x5; 0x4; 0x7]; [0xC; 0xD; 0x3; 0x2; 0x8]; [0xE; 0xF; 0x1; 0x0; 0xD]]%nat.
(** K1 to K16 from x0 ... xF, with the octets that the next sixteen start from. *)
Definition sixteen (x : list N) : list N * list N :=
  let z1 := z_of x in let x1 := x_of z1 in let z2 := z_of x1 in let x2 := x_of z2 in
  (four_keys z1 sel1 ++ four_keys x1 sel2 ++ four_keys z2 sel3 ++ four_keys x2 sel4, x2).
(** 2.4 and 2.5: a key of fewer than 128 bits is padded with zeros; Km1 to Km16 are K1 to
    K16, Kr1 to Kr16 the low five bits of K17 to K32; 12 rounds for keys up to 80 bits. *)
Definition padded (key : bytes) : bytes := firstn 16 (key ++ repeat 0 16).
Definition masking (key : bytes) : list N := fst (sixteen (padded key)).
Definition rotation (key : bytes) : list N := map (fun k => k mod 32) (fst (sixteen (snd (sixteen (padded key))))).
Definition rounds (key : bytes) : nat := if (length key <=? 10)%nat then 12 else 16.
Definition cast_step (Km Kr : list N) (LR : N * N) (i : nat) : N * N :=
  (snd LR, N.lxor (fst LR) (f i (snd LR) (nth (i - 1) Km 0) (nth (i - 1) Kr 0))).
Definition cast128_cipher (key block : bytes) : bytes :=
  let LR := fold_left (cast_step (masking key) (rotation key)) (seq 1 (rounds key)) (be_val (firstn 4 block), be_val (skipn 4 block)) in
  be 4 (snd LR) ++ be 4 (fst LR).
