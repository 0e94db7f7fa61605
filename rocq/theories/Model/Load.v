(** The constructors that read their argument: Key, PublicKey, SecretKey, DetachedSignature,
    RevocationCertificate and CleartextSignature from a string (those from a stream are the same
    text and PGP::read(string) reads a stream made of it).  Message's are in MessageIO. *)
From Verif Require Export Model.Key Model.Cleartext Model.Verify.

(** The block type of binary data, Key.cpp 31-45: UNKNOWN is 0. *)
Definition key_type (g : pgp) : result N :=
  if g_type g =? 0 then
    match g_packets g with
    | p :: _ :: _ => if p_tag p =? 6 then Ok 2 else if p_tag p =? 5 then Ok 3 else Throw ERuntime
    | _ => Throw ERuntime
    end
  else Ok (g_type g).
(** Key(data), Key.cpp 27-51. *)
Definition key_load (data : bytes) : result pgp :=
  g <- pgp_read pgp_new data ;;
  t <- key_type g ;;
  let g := mkPgp (g_armored g) t (g_keys g) (g_packets g) in
  m <- meaningful g ;;
  if m : bool then Ok g else Throw ERuntime.
(** PublicKey(data), 556-558, and SecretKey(data), 610-612.  The virtual call meaningful() runs
    while the base class is under construction and so is Key::meaningful. *)
Definition public_load (data : bytes) : result pgp := key_load data.
Definition secret_load (data : bytes) : result pgp := key_load data.
(** DetachedSignature(data), DetachedSignature.cpp 21-30: the type found is overwritten. *)
Definition detached_load (data : bytes) : result pgp :=
  g <- pgp_read pgp_new data ;;
  let g := mkPgp (g_armored g) 6 (g_keys g) (g_packets g) in
  if detached_meaningful g then Ok g else Throw ERuntime.
(** RevocationCertificate(data), RevocationCertificate.cpp 19-28: as above. *)
Definition certificate_load (data : bytes) : result pgp :=
  g <- pgp_read pgp_new data ;;
  let g := mkPgp (g_armored g) 2 (g_keys g) (g_packets g) in
  m <- revocation_meaningful g ;;
  if m : bool then Ok g else Throw ERuntime.
(** CleartextSignature(data), CleartextSignature.cpp 26-35, and meaningful, 265-267; the member
    sig is made by DetachedSignature(). *)
Definition cleartext_load (data : bytes) : result cleartext :=
  c <- cs_read [] (mkPgp true 6 [] []) data ;;
  if detached_meaningful (cs_sig c) then Ok c else Throw ERuntime.
(** get_revoke_type, RevocationCertificate.cpp 43-49. *)
Definition get_revoke_type (g : pgp) : result N :=
  m <- revocation_meaningful g ;;
  if m : bool then p <- vec_at (g_packets g) 0 ;; s <- as_sig p ;; Ok (t2_type s) else Throw ERuntime.
