(** Identifier tables and the Status codes.  Only the keys of the NAME tables matter to
    the code modelled here, so the display names are left out.  Built without
    GPG_COMPATIBLE (CMakeLists.txt 28). *)
From Verif Require Export Model.Base.

(** Status, include/common/Status.h 30-55. *)
Inductive status :=
| SUCCESS | INVALID | INVALID_COMPRESSION_ALGORITHM | INVALID_CONTENTS
| INVALID_FINGERPRINT | INVALID_FLAG | INVALID_HASH_ALGORITHM | INVALID_LEFT16_BITS
| INVALID_LENGTH | INVALID_LITERAL_DATA_FORMAT | INVALID_MPI_COUNT
| INVALID_PUBLIC_KEY_ALGORITHM | INVALID_REASON_FOR_REVOCATION | INVALID_SHA1_HASH
| INVALID_SIGNATURE_TYPE | INVALID_SYMMETRIC_ENCRYPTION_ALGORITHM | INVALID_TAG
| INVALID_VERSION | MISSING_S2K | PKA_CANNOT_BE_USED | REGEX_ERROR | RESERVED
| SHOULD_NOT_BE_EMITTED | WRONG_S2K_TYPE.

Definition success (s : status) : bool := match s with SUCCESS => true | _ => false end.

(** A validity check in the code's style: the first failing condition gives the result. *)
Definition check (b : bool) (e s : status) : status := if b then s else e.

Definition mem (l : list N) (x : N) : bool := existsb (N.eqb x) l.

(** The private/experimental identifiers 100..110 common to the tables. *)
Definition private_ids : list N := [100;101;102;103;104;105;106;107;108;109;110].

(** PKA::NAME, include/PKA/PKAs.h 68-106. *)
Definition pka_ids : list N := [1;2;3;16;17;18;19;20;21] ++ private_ids.
(** PKA::valid, can_encrypt, can_sign, is_RSA, src/PKA/PKAs.cpp 6-37. *)
Definition pka_valid (a : N) : bool := mem pka_ids a.
Definition can_encrypt (a : N) : bool := mem [1;2;16] a.
Definition can_sign (a : N) : bool := mem [1;3;17] a.
Definition is_RSA (a : N) : bool := mem [1;2;3] a.

(** Hash::NAME, include/Hashes/Hashes.h 75-98; Hash::valid, src/Hashes/Hashes.cpp 6-8. *)
Definition hash_ids : list N := [1;2;3;4;5;6;7;8;9;10;11] ++ private_ids.
Definition hash_valid (a : N) : bool := mem hash_ids a.
(** Hash::LENGTH (bits), include/Hashes/Hashes.h 121-129. *)
Definition hash_length : list (N * N) :=
  [(1,128);(2,160);(3,160);(8,256);(9,384);(10,512);(11,224)].

(** Sym::NAME, include/Encryptions/Encryptions.h 85-111; Sym::valid, Encryptions.cpp 6-8. *)
Definition sym_ids : list N := [0;1;2;3;4;5;6;7;8;9;10;11;12;13] ++ private_ids.
Definition sym_valid (a : N) : bool := mem sym_ids a.
(** Sym::BLOCK_LENGTH and KEY_LENGTH (bits), include/Encryptions/Encryptions.h 128-156. *)
Definition block_length : list (N * N) :=
  [(1,64);(2,64);(3,64);(4,64);(7,128);(8,128);(9,128);(10,128);(11,128);(12,128);(13,128)].
Definition key_length : list (N * N) :=
  [(1,128);(2,192);(3,128);(4,128);(7,128);(8,192);(9,256);(10,256);(11,128);(12,192);(13,256)].

(** Compression::NAME, include/Compress/Compress.h 58-74; valid, Compress.cpp 8-10. *)
Definition comp_ids : list N := [0;1;2;3] ++ private_ids.
Definition comp_valid (a : N) : bool := mem comp_ids a.

(** Signature_Type::NAME, include/Misc/sigtypes.h 142-177. *)
Definition sigtype_ids : list N := [0;1;2;16;17;18;19;24;25;31;32;40;48;64;80].
Definition sigtype_valid (t : N) : bool := mem sigtype_ids t.

(** Notation::NAME (Sub20.h 81-86), Key_Server_Preferences::NAME (Sub23.h 50-56),
    Key_Flags::NAME (Sub27.h 82-100), Features_Flags::NAME (Sub30.h 62-68),
    Revoke::NAME (Sub29.h 35-58), Literal::NAME (Tag11.h 78-88). *)
Definition notation_ids : list N := [0;128].
Definition ksp_ids : list N := [0;128].
Definition key_flag_ids : list N := [1;2;4;8;16;32;128].
Definition feature_ids : list N := [1].
Definition revoke_ids : list N := [0;1;2;3;32] ++ private_ids.
Definition literal_ids : list N := [98;116;117].
