(** String-to-key specifiers: src/Misc/s2k.cpp (octet form and validity; key derivation is
    in Model/S2kRun.v). *)
From Verif Require Export Model.Tables Model.Includes Spec.Bytes.

(** The classes S2K0, S2K1, S2K3 of include/Misc/s2k.h.  [s2k_kind] is the dynamic class,
    [s2k_type] the stored type octet (they can differ: set_type is public); fields a class
    lacks are unused. *)
Inductive s2k_class := S2K0 | S2K1 | S2K3.
Record s2k := mkS2k {
  s2k_kind : s2k_class; s2k_type : N; s2k_hash : N; s2k_salt : bytes; s2k_count : N }.

(** S2K::read 24-28, S2K0::read 82-84, S2K1::read 137-141 (set_salt 160-166 throws unless
    8 octets), S2K3::read 210-214. *)
Definition s2k_read (k : s2k_class) (data : bytes) (pos : N) : result (s2k * N) :=
  t <- at_ data pos ;;
  h <- at_ data (pos + 1) ;;
  match k with
  | S2K0 => Ok (mkS2k S2K0 t h [] 0, pos + 2)
  | S2K1 =>
    salt <- substr data (pos + 2) 8 ;;
    if len salt =? 8 then Ok (mkS2k S2K1 t h salt 0, pos + 10) else Throw ERuntime
  | S2K3 =>
    salt <- substr data (pos + 2) 8 ;;
    if len salt =? 8 then
      c <- at_ data (pos + 10) ;; Ok (mkS2k S2K3 t h salt c, pos + 11)
    else Throw ERuntime
  end.

(** S2K0::raw 86-88, S2K1::raw 143-145, S2K3::raw 216-218; S2K::write 41-43. *)
Definition s2k_raw (s : s2k) : bytes :=
  match s2k_kind s with
  | S2K0 => [s2k_type s; s2k_hash s]
  | S2K1 => s2k_type s :: s2k_hash s :: s2k_salt s
  | S2K3 => s2k_type s :: s2k_hash s :: s2k_salt s ++ be 1 (s2k_count s)
  end.

(** The class's own type number, S2K::ID in include/Misc/s2k.h. *)
Definition s2k_id (k : s2k_class) : N := match k with S2K0 => 0 | S2K1 => 1 | S2K3 => 3 end.

(** S2K0::valid 99-109, S2K1::valid 168-182, S2K3::valid 254-268. *)
Definition s2k_valid (s : s2k) : status :=
  check (s2k_type s =? s2k_id (s2k_kind s)) WRONG_S2K_TYPE
  (check (hash_valid (s2k_hash s)) INVALID_HASH_ALGORITHM
  (match s2k_kind s with
   | S2K0 => SUCCESS
   | _ => check (len (s2k_salt s) =? 8) INVALID_LENGTH SUCCESS
   end)).
