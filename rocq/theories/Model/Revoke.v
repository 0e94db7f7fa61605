(** Revocation: src/revoke.cpp and include/revoke.h ([revoke_check] is in Model/Key.v).
    [now] and [draws] as in Model/Sign.v. *)
From Verif Require Export Model.Sign.

(** Args and Args::valid, revoke.h 51-106; the codes of Revoke::NAME, Sub29.h 39-56. *)
Record rev_args := mkRev {
  r_signer : pgp; r_pass : bytes; r_target : pgp; r_code : N; r_reason : bytes; r_version : N; r_hash : N }.
Definition revocation_codes : list N := [0; 1; 2; 3; 32; 100; 101; 102; 103; 104; 105; 106; 107; 108; 109; 110].
Definition rev_valid (a : rev_args) : result bool :=
  m <- secret_meaningful (r_signer a) ;;
  if negb m then Ok false
  else
    m <- meaningful (r_target a) ;;
    Ok (m && mem revocation_codes (r_code a) && ((r_version a =? 3) || (r_version a =? 4)) && hash_valid (r_hash a)).

(** The subpacket with the reason, revoke.cpp 111-117 and 236-242. *)
Definition with_reason (code : N) (reason : bytes) (s : tag2) : tag2 :=
  let 'mkTag2 v ty p h m l ti k hs us := s in mkTag2 v ty p h m l ti k (hs ++ [(false, Sub29 code reason)]) us.

(** sig, revoke.cpp 46-89: [tag] and [target] are the packet revoked; None is a null pointer. *)
Definition revocation_sig (k : key) (sec : secret) (pass : bytes) (tag : N) (target : key) (s : tag2) (draws : list N)
  : result (option tag2 * list N) :=
  if t2_type s =? 32 then d <- to_sign_20 tag target s ;; finish s d k sec pass (t2_hash s) draws
  else if t2_type s =? 40 then d <- to_sign_28 tag target s ;; finish s d k sec pass (t2_hash s) draws
  else Ok (None, draws).

(** key_sig, 91-121: the packet revoked is the signing key itself. *)
Definition key_sig (a : rev_args) (now : N) (draws : list N) : result (option tag2 * list N) :=
  v <- rev_valid a ;;
  if negb v then Ok (None, draws)
  else
    o <- find_signing_key (r_signer a) ;;
    match o with
    | None => Ok (None, draws)
    | Some p =>
      ' (k, sec) <- as_secret p ;;
      id <- get_keyid k ;;
      let s := with_reason (r_code a) (r_reason a) (create_sig (r_version a) 32 (k_pka k) (r_hash a) id now) in
      revocation_sig k sec (r_pass a) (p_tag p) k s draws
    end.

(** The subkey revoked, 137-147: the first secret subkey of the target whose key ID contains
    [keyid]. *)
Fixpoint find_subkey (keyid : bytes) (ps : list packet) : result (option key) :=
  match ps with
  | [] => Ok None
  | p :: r =>
    if p_tag p =? 7 then
      k <- as_key p ;;
      id <- get_keyid k ;;
      if occurs keyid id then Ok (Some k) else find_subkey keyid r
    else find_subkey keyid r
  end.
(** subkey_sig, 123-161: no reason is recorded. *)
Definition subkey_sig (a : rev_args) (keyid : bytes) (now : N) (draws : list N) : result (option tag2 * list N) :=
  v <- rev_valid a ;;
  if negb v then Ok (None, draws)
  else
    o <- find_signing_key (r_signer a) ;;
    match o with
    | None => Ok (None, draws)
    | Some p =>
      ' (k, sec) <- as_secret p ;;
      o <- find_subkey keyid (g_packets (r_target a)) ;;
      match o with
      | None => Ok (None, draws)
      | Some t =>
        id <- get_keyid k ;;
        revocation_sig k sec (r_pass a) 7 t (create_sig (r_version a) 40 (k_pka k) (r_hash a) id now) draws
      end
    end.

(** uid_sig, 199-246, and the function on packets, 163-197: the key in the signed octets is
    the signing key.  [find_user] as in Sign::primary_key. *)
Definition uid_sig (a : rev_args) (ID : bytes) (now : N) (draws : list N) : result (option tag2 * list N) :=
  v <- rev_valid a ;;
  if negb v then Ok (None, draws)
  else
    o <- find_signing_key (r_signer a) ;;
    match o with
    | None => Ok (None, draws)
    | Some p =>
      ' (k, sec) <- as_secret p ;;
      o <- find_user ID (g_packets (r_target a)) ;;
      match o with
      | None => Ok (None, draws)
      | Some (_, u, _) =>
        id <- get_keyid k ;;
        let s := with_reason (r_code a) (r_reason a) (create_sig (r_version a) 48 (k_pka k) (r_hash a) id now) in
        d <- to_sign_30 k (p_tag u) (p_body u) s ;;
        finish s d k sec (r_pass a) (t2_hash s) draws
      end
    end.

(** key_cert, subkey_cert and uid_cert, 248-289: RevocationCertificate() is a public key
    block. *)
Definition cert_of (r : option tag2 * list N) : pgp * list N :=
  (match fst r with
   | None => mkPgp true 2 [] []
   | Some s => mkPgp true 2 [(str "Version", str "cc"); (str "Comment", str "Revocation Certificate")] [new_packet 2 (PSig s)]
   end, snd r).
Definition key_cert (a : rev_args) (now : N) (draws : list N) : result (pgp * list N) :=
  r <- key_sig a now draws ;; Ok (cert_of r).
Definition subkey_cert (a : rev_args) (keyid : bytes) (now : N) (draws : list N) : result (pgp * list N) :=
  r <- subkey_sig a keyid now draws ;; Ok (cert_of r).
Definition uid_cert (a : rev_args) (ID : bytes) (now : N) (draws : list N) : result (pgp * list N) :=
  r <- uid_sig a ID now draws ;; Ok (cert_of r).

(** The public primary key in front of the new key, for instance 326-331: nothing is pushed
    for any other packet. *)
Definition public_primary (p : packet) : result (list packet) :=
  if p_tag p =? 6 then Ok [p]
  else if p_tag p =? 5 then q <- public_packet 6 p ;; Ok [q]
  else Ok [].
(** The copy loops of key, 428-439: secret subkeys are made public. *)
Definition public_other (p : packet) : result packet := if p_tag p =? 7 then public_packet 14 p else Ok p.
(** PublicKey revoked with the keys of the target, 444-448. *)
Definition revoked_key (target : pgp) (ps : list packet) : pgp := mkPgp true 2 (g_keys target) ps.

(** key, 405-449. *)
Definition revoke_key (a : rev_args) (now : N) (draws : list N) : result (pgp * list N) :=
  v <- rev_valid a ;;
  if negb v then Ok (public_new, draws)
  else
    ' (o, draws) <- key_sig a now draws ;;
    match o with
    | None => Ok (public_new, draws)
    | Some s =>
      p0 <- vec_at (g_packets (r_target a)) 0 ;;
      first <- public_primary p0 ;;
      rest <- mapM public_other (skipn 1 (g_packets (r_target a))) ;;
      Ok (revoked_key (r_target a) (first ++ new_packet 2 (PSig s) :: rest), draws)
    end.

(** The packets from the first subkey on, 478-507: after every subkey whose ID matches comes
    the packet that followed it (old_packets[++i], which may not exist) and the revocation. *)
Fixpoint revoke_subkeys (keyid : bytes) (sig : packet) (ps : list packet) : result (list packet) :=
  match ps with
  | [] => Ok []
  | p :: r =>
    if is_subkey (p_tag p) then
      q <- public_other p ;;
      k <- as_key p ;;
      id <- get_keyid k ;;
      if occurs keyid id then
        match r with
        | [] => UB
        | n :: r' => t <- revoke_subkeys keyid sig r' ;; Ok (q :: n :: sig :: t)
        end
      else t <- revoke_subkeys keyid sig r ;; Ok (q :: t)
    else t <- revoke_subkeys keyid sig r ;; Ok (p :: t)
  end.
(** The packets up to the first subkey and those from it on, 472-475. *)
Fixpoint before_subkeys (ps : list packet) : list packet * list packet :=
  match ps with
  | [] => ([], [])
  | p :: r => if is_subkey (p_tag p) then ([], ps) else let (a, b) := before_subkeys r in (p :: a, b)
  end.
(** subkey, 451-514. *)
Definition revoke_subkey (a : rev_args) (keyid : bytes) (now : N) (draws : list N) : result (pgp * list N) :=
  v <- rev_valid a ;;
  if negb v then Ok (public_new, draws)
  else
    ' (o, draws) <- subkey_sig a keyid now draws ;;
    match o with
    | None => Ok (public_new, draws)
    | Some s =>
      p0 <- vec_at (g_packets (r_target a)) 0 ;;
      first <- public_primary p0 ;;
      let (x, y) := before_subkeys (skipn 1 (g_packets (r_target a))) in
      rest <- revoke_subkeys keyid (new_packet 2 (PSig s)) y ;;
      Ok (revoked_key (r_target a) (first ++ x ++ rest), draws)
    end.

(** The loop of uid, 541-564: user IDs that do not match are left out. *)
Fixpoint revoke_users (ID : bytes) (sig : packet) (ps : list packet) : result (list packet) :=
  match ps with
  | [] => Ok []
  | p :: r =>
    here <- (if p_tag p =? 7 then q <- public_packet 14 p ;; Ok [q]
             else if p_tag p =? 13 then d <- as_user_id p ;; Ok (if occurs ID d then [p; sig] else [])
             else Ok [p]) ;;
    t <- revoke_users ID sig r ;; Ok (here ++ t)
  end.
(** uid, 516-571. *)
Definition revoke_uid (a : rev_args) (ID : bytes) (now : N) (draws : list N) : result (pgp * list N) :=
  v <- rev_valid a ;;
  if negb v then Ok (public_new, draws)
  else
    x <- keyid (r_signer a) ;;
    y <- keyid (r_target a) ;;
    if negb (beq x y) then Ok (public_new, draws)
    else
      ' (o, draws) <- uid_sig a ID now draws ;;
      match o with
      | None => Ok (public_new, draws)
      | Some s =>
        p0 <- vec_at (g_packets (r_target a)) 0 ;;
        first <- public_primary p0 ;;
        rest <- revoke_users ID (new_packet 2 (PSig s)) (skipn 1 (g_packets (r_target a))) ;;
        Ok (revoked_key (r_target a) (first ++ rest), draws)
      end.

(** The search of with_cert for the user revoked, 341-370: the packets before the first user
    are passed over without being copied.  When the first user is not the one revoked the loop
    never moves on; when it is, the packet after it is passed over.  None is the return of an
    empty key. *)
Fixpoint skip_to_user (ps : list packet) : list packet :=
  match ps with [] => [] | p :: r => if is_user (p_tag p) then ps else skip_to_user r end.
Definition cert_users (k : key) (s : tag2) (sig : packet) (ps : list packet) : result (option (list packet * list packet)) :=
  match skip_to_user ps with
  | [] => Ok (Some ([], []))
  | p :: r =>
    d <- to_sign_30 k (p_tag p) (p_body p) s ;;
    rc <- verify_key d k s ;;
    if (rc =? 1)%Z then Ok (Some ([p; sig], skipn 1 r))
    else if (rc =? -1)%Z then Ok None
    else Diverge
  end.
(** with_cert, 292-402.  Without a subkey old_packets[i] does not exist (382-387). *)
Definition revoke_with_cert (g cert : pgp) : result pgp :=
  m <- meaningful g ;;
  if negb m then Ok public_new
  else
    m <- revocation_meaningful cert ;;
    if negb m then Ok public_new
    else
      rc <- verify_revoke g cert ;;
      if (rc =? 0)%Z || (rc =? -1)%Z then Ok public_new
      else
        c0 <- vec_at (g_packets cert) 0 ;;
        s <- as_sig c0 ;;
        p0 <- vec_at (g_packets g) 0 ;;
        first <- public_primary p0 ;;
        k <- as_key p0 ;;
        o <- (if t2_type s =? 48 then cert_users k s c0 (skipn 1 (g_packets g)) else Ok (Some ([], skipn 1 (g_packets g)))) ;;
        match o with
        | None => Ok public_new
        | Some (users, r) =>
          let (x, y) := before_subkeys r in
          match y with
          | [] => UB
          | sub :: r =>
            q <- public_other sub ;;
            tail <- (if t2_type s =? 40 then match r with [] => UB | n :: r' => Ok (n :: c0 :: r') end else Ok r) ;;
            Ok (revoked_key g (first ++ (if t2_type s =? 32 then [c0] else []) ++ users ++ x ++ q :: tail))
          end
        end.
