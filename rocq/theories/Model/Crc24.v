(** Model of src/Misc/CRC-24.cpp. *)
From Verif Require Import Model.Base.

(** INIT and POLY, CRC-24.cpp 7-8. *)
Definition CRC24_INIT : N := 11994318.   (* 0xB704CE *)
Definition CRC24_POLY : N := 25578747.   (* 0x1864CFB *)

(** One round of the inner loop, CRC-24.cpp 14-17 (uint32_t). *)
Definition crc24_bit (crc : N) : N :=
  let crc := u32 (N.shiftl crc 1) in
  if N.testbit crc 24 then N.lxor crc CRC24_POLY else crc.

(** One octet, CRC-24.cpp 11-18. *)
Definition crc24_octet (crc c : N) : N :=
  Nat.iter 8 crc24_bit (N.lxor crc (u32 (N.shiftl (u8 c) 16))).

(** crc24, CRC-24.cpp 6-22. *)
Definition crc24 (s : bytes) : N :=
  N.land (fold_left crc24_octet s CRC24_INIT) 16777215.
