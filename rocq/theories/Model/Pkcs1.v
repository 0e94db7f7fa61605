(** PKCS #1 v1.5 block encodings: src/Misc/PKCS1.cpp. *)
From Verif Require Export Model.Includes Model.Tables.

(** Hash::ASN1_DER, include/Hashes/Hashes.h 111-119. *)
Definition asn1_der : list (N * bytes) :=
  [(1, str "3020300C06082A864886F70D020505000410"); (3, str "3021300906052B2403020105000414");
   (2, str "3021300906052B0E03021A05000414"); (11, str "302D300d06096086480165030402040500041C");
   (8, str "3031300d060960864801650304020105000420"); (9, str "3041300d060960864801650304020205000430");
   (10, str "3051300d060960864801650304020305000440")].

(** The padding loop of EME_PKCS1v1_5_ENCODE, PKCS1.cpp 16-20.  [rnd] is what successive calls
    of RNG::RNG().rand_bytes(1) return; the loop waits for more when it runs out ([Diverge]).
    Also gives the octets not yet drawn. *)
Fixpoint eme_pad (rnd EM : bytes) (size : N) : result (bytes * bytes) :=
  if len EM <? size then
    match rnd with
    | [] => Diverge
    | c :: rnd' => eme_pad rnd' (if c =? 0 then EM else EM ++ [c]) size
    end
  else Ok (EM, rnd).

(** EME_PKCS1v1_5_ENCODE, PKCS1.cpp 9-23: k is an unsigned int, so k - 11 wraps at 32 bits
    and k - m.size() - 1 at 64 bits. *)
Definition eme_encode (rnd m : bytes) (k : N) : result (bytes * bytes) :=
  if u32 (k + (two32 - 11)) <? len m then Ok ([], rnd)
  else
    ' (EM, rnd') <- eme_pad rnd [0; 2] (sub64 (sub64 k (len m)) 1) ;;
    Ok (EM ++ [0] ++ m, rnd').

(** The scan of EME_PKCS1v1_5_DECODE, PKCS1.cpp 30-32: first zero octet at or after x. *)
Fixpoint eme_scan (s : bytes) (x : N) : N :=
  match s with
  | c :: s' => if c =? 0 then x else eme_scan s' (x + 1)
  | [] => x
  end.

(** EME_PKCS1v1_5_DECODE, PKCS1.cpp 25-39. *)
Definition eme_decode (m : bytes) : result bytes :=
  if 11 <? len m then
    c0 <- at_ m 0 ;;
    if c0 =? 0 then
      c1 <- at_ m 1 ;;
      if c1 =? 2 then
        let x := eme_scan (skipn 2 m) 2 in
        substr m (x + 1) (sub64 (sub64 (len m) x) 1)
      else Ok []
    else Ok []
  else Ok [].

(** EMSA_PKCS1_v1_5, PKCS1.cpp 41-43.  A padding count that wrapped below zero exceeds the
    maximal string size: std::length_error, a logic_error. *)
Definition emsa_encode (hash : N) (digest : bytes) (keylength : N) : result bytes :=
  der <- map_at asn1_der hash ;;
  bits <- map_at hash_length hash ;;
  let n := sub64 (sub64 (sub64 keylength (N.shiftr (len der) 1)) 3) (N.shiftr bits 3) in
  if n <? two64 / 2 then
    t <- unhexlify der ;;
    Ok ([0; 1] ++ repeat 255 (N.to_nat n) ++ [0] ++ t ++ digest)
  else Throw ELogic.
