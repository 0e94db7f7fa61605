(** Verification: src/verify.cpp.  true, false and -1 as Z. *)
From Verif Require Export Model.Key Model.MessageIO Model.Cleartext Model.Pkcs1.

Definition of_bool (b : bool) : Z := if b then 1%Z else 0%Z.
(** with_pka, verify.cpp 6-23: [signer] and [signee] are the integers of the key and of the
    signature. *)
Definition verify_with_pka (digest : bytes) (hash pka : N) (signer signee : list N) : result Z :=
  if (pka =? 1) || (pka =? 3) then
    n <- vec_at signer 0 ;;
    em <- emsa_encode hash digest (N.shiftr (bitsize n) 3) ;;
    b <- rsa_verify_raw em signee signer ;; Ok (of_bool b)
  else if pka =? 17 then b <- dsa_verify_raw digest signee signer ;; Ok (of_bool b)
  else Ok (-1)%Z.
Definition verify_key (digest : bytes) (signer : key) (s : tag2) : result Z :=
  verify_with_pka digest (t2_hash s) (t2_pka s) (k_mpi signer) (t2_mpi s).

(** DetachedSignature::meaningful, DetachedSignature.cpp 43-65: the packet's tag is not
    tested.  SIGNATURE is armor type 6. *)
Definition detached_meaningful (g : pgp) : bool := (g_type g =? 6) && (length (g_packets g) =? 1)%nat.

(** What detached_signature 25-66, cleartext_signature 208-254 and timestamp 409-450 have in
    common; [input] computes the digest, [mismatch] is returned when its first two octets are
    not those of the signature. *)
Definition verify_document (mismatch : Z) (g : pgp) (sig : pgp) (input : tag2 -> result bytes) : result Z :=
  m <- meaningful g ;;
  if negb m then Ok (-1)%Z
  else if negb (detached_meaningful sig) then Ok (-1)%Z
  else
    p <- vec_at (g_packets sig) 0 ;;
    s <- as_sig p ;;
    id <- sig_keyid s ;;
    if len id =? 0 then Ok (-1)%Z
    else
      id' <- keyid g ;;
      if negb (beq id' id) then Ok 0%Z
      else
        digest <- input s ;;
        if negb (beq (prefix digest 2) (t2_left16 s)) then Ok mismatch
        else
          o <- find_signing_key g ;;
          match o with
          | None => Ok (-1)%Z
          | Some p => k <- as_key p ;; verify_key digest k s
          end.
Definition verify_detached (g : pgp) (data : bytes) (sig : pgp) : result Z :=
  verify_document 0 g sig (to_sign_00 data).
Definition verify_cleartext (g : pgp) (c : cleartext) : result Z :=
  verify_document (-1) g (cs_sig c) (to_sign_01 (data_to_text (cs_message c))).
Definition verify_timestamp (g : pgp) (sig : pgp) : result Z :=
  verify_document 0 g sig to_sign_40.

(** binary, 69-205. *)
Definition as_one_pass (p : packet) : result bytes :=
  match p_body p with POnePass _ _ _ _ id _ => Ok id | _ => UB end.
Definition as_literal (p : packet) : result bytes :=
  match p_body p with PLiteral _ _ _ d => Ok d | _ => UB end.
(** One-pass signature packets at the front, 119-123. *)
Fixpoint one_pass_count (ps : list packet) : nat :=
  match ps with p :: r => if p_tag p =? 4 then S (one_pass_count r) else O | [] => O end.
(** The signed data, 146-156: packets msg to SP - 1. *)
Fixpoint signed_data (ps : list packet) : result bytes :=
  match ps with
  | [] => Ok []
  | p :: r =>
    d <- (if p_tag p =? 11 then as_literal p else raw (p_body p)) ;;
    t <- signed_data r ;; Ok (d ++ t)
  end.
(** The loop over the signatures, 143-173; OPSP wraps below 0 only after the last round.
    [n] counts the rounds left, size - SP. *)
Fixpoint one_pass_loop (n : nat) (k : key) (ps : list packet) (msg opsp sp : nat) : result Z :=
  match n with
  | O => Ok 0%Z
  | S n' =>
    let next := one_pass_loop n' k ps msg (pred opsp) (S sp) in
    p <- vec_at ps opsp ;;
    id <- as_one_pass p ;;
    id' <- get_keyid k ;;
    if beq id id' then
      data <- signed_data (firstn (sp - msg) (skipn msg ps)) ;;
      q <- vec_at ps sp ;;
      s <- as_sig q ;;
      digest <- to_sign_00 data s ;;
      rc <- verify_key digest k s ;;
      if (rc =? 0)%Z then next else Ok rc
    else next
  end.
Definition verify_one_pass (g : pgp) (ps : list packet) : result Z :=
  o <- find_signing_key g ;;
  match o with
  | None => Ok (-1)%Z
  | Some p =>
    k <- as_key p ;;
    let n := one_pass_count ps in
    if (n =? length ps)%nat then Ok (-1)%Z
    else
      let sp := (length ps - n)%nat in
      if (sp <? pred n)%nat then Ok (-1)%Z
      else one_pass_loop (length ps - sp) k ps n (pred n) sp
  end.
(** 102-180: front and back; the message is not empty. *)
Definition verify_signed (g : pgp) (ps : list packet) : result Z :=
  front <- vec_at ps 0 ;;
  back <- vec_at ps (pred (length ps)) ;;
  if (2 <? length ps)%nat && (p_tag front =? 4) && (p_tag back =? 2) then verify_one_pass g ps
  else Ok (-1)%Z.
(** The message's type and packets; the recursion of 184-187 is on decompressed data. *)
Fixpoint verify_binary (fuel : nat) (unzip : N -> bytes -> option bytes) (g : pgp) (m : pgp) : result Z :=
  match fuel with
  | O => Diverge
  | S f =>
    let is tok := message_match false (g_type m) (map p_tag (g_packets m)) tok in
    b <- meaningful g ;;
    if negb b then Ok (-1)%Z
    else
      b <- is OPENM ;;
      if negb b then Ok (-1)%Z
      else
        b <- is ENCM ;;
        if b : bool then Ok (-1)%Z
        else
          b <- is SIGM ;;
          if b : bool then verify_signed g (g_packets m)
          else
            b <- is COMM ;;
            if b : bool then
              p <- vec_at (g_packets m) 0 ;;
              ' (alg, d) <- as_compressed p ;;
              data <- codec unzip alg d ;;
              m' <- message_read unzip f data ;;
              verify_binary f unzip g (m_pgp m')
            else
              b <- is LITM ;;
              if b : bool then Ok 1%Z else Ok (-1)%Z
  end.

(** primary_key, 262-270.  [id] is the last user packet (None is a null pointer, for which
    to_sign_cert throws). *)
Definition verify_certification (signer signee : key) (id : option packet) (s : tag2) : result Z :=
  a <- get_keyid signer ;;
  b <- sig_keyid s ;;
  if negb (beq a b) then Ok 0%Z
  else
    digest <- (match id with
               | None => Throw ERuntime
               | Some u => to_sign_cert (t2_type s) signee (p_tag u) (p_body u) s
               end) ;;
    verify_key digest signer s.
(** primary_key over a whole key, 272-328; a signature before any key packet would dereference
    a null pointer. *)
Fixpoint certification_loop (signer : key) (ps : list packet) (k : option key) (id : option packet) : result Z :=
  match ps with
  | [] => Ok 0%Z
  | p :: r =>
    if is_primary_key (p_tag p) then
      k' <- as_key p ;; certification_loop signer r (Some k') None
    else if is_user (p_tag p) then certification_loop signer r k (Some p)
    else if p_tag p =? 2 then
      s <- as_sig p ;;
      rc <- match k with None => UB | Some k => verify_certification signer k id s end ;;
      if (rc =? 0)%Z then certification_loop signer r k id else Ok rc
    else certification_loop signer r k id
  end.
Definition verify_primary_key (signer signee : pgp) : result Z :=
  m <- meaningful signer ;;
  if negb m then Ok (-1)%Z
  else
    m <- meaningful signee ;;
    if negb m then Ok (-1)%Z
    else
      id <- keyid signer ;;
      if len id =? 0 then Ok (-1)%Z
      else
        o <- find_signing_key signer ;;
        match o with
        | None => Ok (-1)%Z
        | Some p => k <- as_key p ;; certification_loop k (g_packets signee) None None
        end.

(** RevocationCertificate::meaningful, RevocationCertificate.cpp 51-73; PUBLIC_KEY_BLOCK. *)
Definition revocation_meaningful (g : pgp) : result bool :=
  if negb (g_type g =? 2) then Ok false
  else match g_packets g with
       | [p] => if negb (p_tag p =? 2) then Ok false
                else s <- as_sig p ;; Ok (mem [32; 40; 48] (t2_type s))
       | _ => Ok false
       end.
(** revoke, 339-406: the first packet chosen by [which] whose digest is signed. *)
Fixpoint any_verifies (which : N -> bool) (digest : packet -> result bytes) (k : key) (s : tag2) (ps : list packet) : result Z :=
  match ps with
  | [] => Ok 0%Z
  | p :: r =>
    if which (p_tag p) then
      d <- digest p ;;
      rc <- verify_key d k s ;;
      if (rc =? 0)%Z then any_verifies which digest k s r else Ok rc
    else any_verifies which digest k s r
  end.
Definition verify_revoke (g cert : pgp) : result Z :=
  m <- meaningful g ;;
  if negb m then Ok (-1)%Z
  else
    m <- revocation_meaningful cert ;;
    if negb m then Ok (-1)%Z
    else
      p <- vec_at (g_packets cert) 0 ;;
      s <- as_sig p ;;
      a <- keyid g ;;
      b <- sig_keyid s ;;
      if negb (beq a b) then Ok 0%Z
      else
        o <- find_signing_key g ;;
        match o with
        | None => Ok (-1)%Z
        | Some p =>
          k <- as_key p ;;
          if t2_type s =? 32 then
            q <- vec_at (g_packets g) 0 ;;
            k0 <- as_key q ;;
            d <- hashed_with s (addtrailer (overkey k0) s) ;;
            verify_key d k s
          else if t2_type s =? 40 then
            any_verifies is_subkey (fun p => k' <- as_key p ;; to_sign_28 (p_tag p) k' s) k s (g_packets g)
          else if t2_type s =? 48 then
            any_verifies is_user (fun p => to_sign_30 k (p_tag p) (p_body p) s) k s (g_packets g)
          else Ok (-1)%Z
        end.
