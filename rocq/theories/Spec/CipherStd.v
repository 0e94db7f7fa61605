(** The block cipher of each algorithm number (RFC 4880 section 9.2, RFC 5581): key and block
    to the enciphered block, by the standard that defines it. *)
From Verif Require Spec.Aes Spec.Des Spec.Idea Spec.Blowfish Spec.Camellia Spec.Cast Spec.Twofish.
From Verif Require Export Model.Base Spec.Bytes.
From Coq Require Export NArith List.
Local Open Scope N_scope.

(** Triple DES takes its three keys one after the other. *)
Definition tdea (key block : bytes) : bytes :=
  Des.tdea_encipher (firstn 8 key) (firstn 8 (skipn 8 key)) (skipn 16 key) block.
Definition standard_cipher (alg : N) : option (bytes -> bytes -> bytes) :=
  match alg with
  | 1 => Some Idea.idea_cipher
  | 2 => Some tdea
  | 3 => Some Cast.cast128_cipher
  | 4 => Some Blowfish.blowfish_cipher
  | 7 | 8 | 9 => Some Aes.aes_cipher
  | 10 => Some Twofish.twofish_cipher
  | 11 | 12 | 13 => Some Camellia.camellia_cipher
  | _ => None
  end.
