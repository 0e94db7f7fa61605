(** Properties C01-C05: hexadecimal, fixed-width integers, radix-64, CRC-24, MPIs. *)
From Verif Require Import Proofs.Lib Model.Includes Model.Mpi Model.Radix64 Model.Crc24
  Spec.Poly Proofs.IncludesP Proofs.Radix64P Proofs.CrcP Proofs.MpiP.

(** ** C01 *)
Theorem C01_hex_roundtrip : forall caps s, octets s -> unhexlify (hexlify_c caps s) = Ok s.
Proof. exact hex_roundtrip. Qed.

Theorem C01_unhexlify_domain : forall s,
  (exists t, unhexlify s = Ok t) <-> (Nat.Even (length s) /\ Forall is_hex s).
Proof. exact unhexlify_ok_iff. Qed.

Theorem C01_unhexlify_throws : forall s,
  ~ (Nat.Even (length s) /\ Forall is_hex s) -> unhexlify s = Throw ERuntime.
Proof. exact unhexlify_else_throws. Qed.

(** Decoding is faithful: re-encoding gives the text back up to letter case. *)
Theorem C01_unhexlify_faithful : forall s t, unhexlify s = Ok t ->
  octets t /\ hexlify t = map lower s.
Proof. exact unhexlify_inverse. Qed.

Example C01_ex1 : unhexlify (str "00fFaB") = Ok [0; 255; 171]. Proof. reflexivity. Qed.
Example C01_ex2 : unhexlify (str "0g") = Throw ERuntime. Proof. reflexivity. Qed.
Example C01_ex3 : hexlify [0; 255; 171] = str "00ffab". Proof. reflexivity. Qed.

(** ** C02 *)
Theorem C02_makehex_big_endian : forall n v, unhexlify (makehex v (2 * n)) = Ok (be n v).
Proof. exact unhexlify_makehex. Qed.

Theorem C02_toint_inverse : forall n v, (n <= 8)%nat ->
  toint256 (be n v) = v mod 256 ^ N.of_nat n.
Proof. exact toint256_be. Qed.

(** [toint] gives back v exactly when v fits the field. *)
Theorem C02_toint_exact : forall n v, (n <= 8)%nat ->
  (exists s, unhexlify (makehex v (2 * n)) = Ok s /\ toint256 s = v) <-> v < 2 ^ (8 * N.of_nat n).
Proof.
  intros n v Hn. rewrite unhexlify_makehex, <- pow256. split.
  - intros (s & [= <-] & H). rewrite toint256_be in H by auto. rewrite <- H.
    apply N.mod_lt, N.pow_nonzero. lia.
  - intros H. exists (be n v). split; auto. now apply toint256_be_small.
Qed.

(** Any octet string of at most 8 octets is the encoding of its [toint] value. *)
Theorem C02_toint_reads_big_endian : forall s, octets s -> len s <= 8 -> toint256 s = be_val s.
Proof. exact toint256_be_val. Qed.

Example C02_ex : unhexlify (makehex 66051 8) = Ok [0; 1; 2; 3] /\ toint256 [0;1;2;3] = 66051.
Proof. split; reflexivity. Qed.

(** ** C03 *)
Theorem C03_radix64_roundtrip : forall s, octets s -> s <> [] -> len s < two64 ->
  radix642ascii (ascii2radix64 s) = Ok s.
Proof. intros. apply radix64_roundtrip; auto using good62_default. Qed.

Theorem C03_radix64_alphabet : forall s, octets s ->
  exists body p, ascii2radix64 s = body ++ repeat 61 p /\ (p <= 2)%nat /\
    Forall (fun c => (65 <= c <= 90) \/ (97 <= c <= 122) \/ (48 <= c <= 57) \/ c = 43 \/ c = 47) body /\
    len (ascii2radix64 s) = 4 * ((len s + 2) / 3).
Proof. exact (radix64_shape 43 47). Qed.

(** With any two extra letters that are not alphanumeric, not '=' and different. *)
Theorem C03_radix64_roundtrip_any_letters : forall c62 c63, good62 c62 c63 ->
  forall s, octets s -> s <> [] -> len s < two64 ->
  radix642ascii_c (ascii2radix64_c s c62 c63) c62 c63 = Ok s.
Proof. intros. now apply radix64_roundtrip. Qed.

(** Decoding any text returns octets, throws, or is undefined. *)
Theorem C03_decode_outcomes : forall s,
  (exists t, radix642ascii s = Ok t /\ octets t) \/ radix642ascii s = Throw ERuntime \/ radix642ascii s = UB.
Proof. exact (decode_cases 43 47). Qed.

(** ... undefined exactly for the empty text and texts of 4k '=' signs (finding F1). *)
Theorem C03_decode_undefined_iff : forall s,
  radix642ascii s = UB <-> (len s mod 4 = 0 /\ Forall (eq 61) s).
Proof. exact (decode_UB_iff 43 47). Qed.

Example C03_ex1 : ascii2radix64 (str "Ma") = str "TWE=" /\ radix642ascii (str "TWE=") = Ok (str "Ma").
Proof. split; reflexivity. Qed.
Example C03_ex2 : radix642ascii (str "====") = UB /\ radix642ascii [] = UB.
Proof. split; reflexivity. Qed.
Example C03_ex3 : radix642ascii (str "AA-A") = Throw ERuntime. Proof. reflexivity. Qed.

(** ** C04 *)
(** The generator in the code is the RFC's polynomial and initial value. *)
Theorem C04_constants : CRC24_POLY = rfc4880_poly /\ CRC24_INIT = rfc4880_init.
Proof. split; reflexivity. Qed.

(** The checksum is the remainder of message * x^24 (with the initial value xored into
    the first three octets' place) modulo the generator. *)
Theorem C04_crc_is_remainder : forall s, octets s ->
  is_poly_rem 24 (N.lxor (be_val s * 2 ^ 24) (rfc4880_init * 2 ^ (8 * len s))) rfc4880_poly (crc24 s).
Proof. exact crc24_remainder. Qed.

(** Any burst error of at most 24 bits, at any bit position, changes the checksum. *)
Theorem C04_burst_detection : forall s s' d k, octets s -> octets s' -> len s = len s' ->
  N.lxor (be_val s) (be_val s') = d * 2 ^ k -> 0 < d < 2 ^ 24 -> crc24 s <> crc24 s'.
Proof. exact crc24_burst. Qed.

(** In terms of octets: changing up to three consecutive octets changes the checksum. *)
Theorem C04_three_octets : forall pre w w' post,
  octets (pre ++ w ++ post) -> octets w' -> len w = len w' -> len w <= 3 -> w <> w' ->
  crc24 (pre ++ w ++ post) <> crc24 (pre ++ w' ++ post).
Proof. exact crc24_three_octets. Qed.

Example C04_ex : crc24 (str "hello") = 4715914 /\ crc24 (str "hallo") <> crc24 (str "hello").
Proof. split; vm_compute; [reflexivity | discriminate]. Qed.

(** ** C05 *)
Theorem C05_mpi_roundtrip : forall pre x post, bitsize x <= 65528 ->
  read_MPI (pre ++ write_MPI x ++ post) (len pre) = Ok (x, len pre + len (write_MPI x)).
Proof. intros. now apply read_write_MPI. Qed.

(** [bitsize x <= 65528] says exactly x < 2^65528. *)
Theorem C05_bitsize : forall x n, 1 <= n -> (bitsize x <= n <-> x < 2 ^ n).
Proof. exact bitsize_le. Qed.

(** Beyond that the length field is rounded up with wrap-around and reading fails (F2). *)
Theorem C05_mpi_65529_to_65535_bits_unreadable : forall pre x post, 65529 <= bitsize x <= 65535 ->
  read_MPI (pre ++ write_MPI x ++ post) (len pre) = Throw EInvalidArgument.
Proof. intros. now apply read_MPI_too_long. Qed.

Example C05_ex : write_MPI 511 = [0; 9; 1; 255] /\ read_MPI [7; 0; 9; 1; 255; 8] 1 = Ok (511, 5)
  /\ bitsize 511 <= 65528.
Proof. split; [|split]; vm_compute; [reflexivity | reflexivity | discriminate]. Qed.
Example C05_ex_zero : write_MPI 0 = [0; 1; 0] /\ read_MPI [0; 1; 0] 0 = Ok (0, 3).
Proof. split; reflexivity. Qed.

Print Assumptions C01_hex_roundtrip.
Print Assumptions C01_unhexlify_domain.
Print Assumptions C01_unhexlify_throws.
Print Assumptions C01_unhexlify_faithful.
Print Assumptions C02_makehex_big_endian.
Print Assumptions C02_toint_inverse.
Print Assumptions C02_toint_exact.
Print Assumptions C02_toint_reads_big_endian.
Print Assumptions C03_radix64_roundtrip.
Print Assumptions C03_radix64_alphabet.
Print Assumptions C03_radix64_roundtrip_any_letters.
Print Assumptions C03_decode_outcomes.
Print Assumptions C03_decode_undefined_iff.
Print Assumptions C04_constants.
Print Assumptions C04_crc_is_remainder.
Print Assumptions C04_burst_detection.
Print Assumptions C04_three_octets.
Print Assumptions C05_mpi_roundtrip.
Print Assumptions C05_bitsize.
Print Assumptions C05_mpi_65529_to_65535_bits_unreadable.
