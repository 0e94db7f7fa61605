(** What a user of key packets relies on. *)
From Verif Require Export Model.KeyOps Spec.Fields Spec.Cipher Spec.Hash.

(** Hash algorithms the library offers. *)
Definition hashes : list N := [1; 2; 3; 8; 9; 10; 11].

(** A protection the secret key format allows (RFC 4880 section 5.5.3): none; a cipher with a
    string-to-key specifier, with SHA-1 or a sum as check; or a bare cipher number, with the
    MD5 digest of the passphrase as key (so not Triple-DES, whose key is longer).  The
    initialisation vector has the size of a block.  [hash] is the condition on the
    specifier's hash when the check is SHA-1. *)
Definition protection (hash : N -> Prop) (s : secret) : Prop :=
  sk_con s <> 0 -> In (sk_sym s) offered /\ length (sk_iv s) = block_octets (sk_sym s) /\
  (if (sk_con s =? 254) || (sk_con s =? 255)
   then exists x, sk_s2k s = Some x /\ s2k_fits x /\ In (s2k_hash x) hashes /\
                  (sk_con s = 254 -> hash (s2k_hash x))
   else sk_sym s <> 2).

(** The octets of the public fields of a version 4 key that the fingerprint covers, section
    12.2: 0x99, two octets of length, version, time, algorithm, integers. *)
Definition v4_body (k : key) : bytes :=
  [4] ++ be 4 (k_time k) ++ [k_pka k] ++ concat (map write_MPI (k_mpi k)).
Definition v4_fingerprint_input (k : key) : bytes :=
  [153] ++ be 2 (len (v4_body k)) ++ v4_body k.
(** Those of an older key: the integers without their lengths. *)
Definition v3_fingerprint_input (k : key) : bytes := concat (map mpitoraw (k_mpi k)).

(** Same public fields, apart from the validity period of an old key. *)
Definition same_public (a b : key) : Prop :=
  k_version a = k_version b /\ k_time a = k_time b /\ k_pka a = k_pka b /\ k_mpi a = k_mpi b.
