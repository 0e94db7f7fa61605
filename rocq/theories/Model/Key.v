(** Transferable keys: src/Key.cpp (composition, public extraction, signing key) and
    Revoke::check of src/revoke.cpp. *)
From Verif Require Export Model.Pgp Model.KeyOps Model.Sigcalc Model.Pka.

(** The static_pointer_cast of a packet to the class its tag stands for: using a packet of
    another class as one is undefined behaviour.  Tag5, Tag6, Tag7 and Tag14 are all
    Packet::Key. *)
Definition as_key (p : packet) : result key :=
  match p_body p with PKey k => Ok k | PSecret k _ => Ok k | _ => UB end.
Definition as_secret (p : packet) : result (key * secret) :=
  match p_body p with PSecret k s => Ok (k, s) | _ => UB end.
Definition as_sig (p : packet) : result tag2 :=
  match p_body p with PSig s => Ok s | _ => UB end.

(** Packet.cpp 11-38. *)
Definition is_primary_key (t : N) : bool := mem [5; 6] t.
Definition is_subkey (t : N) : bool := mem [7; 14] t.
Definition is_key_packet (t : N) : bool := is_primary_key t || is_subkey t.
Definition is_user (t : N) : bool := mem [13; 17] t.
(** Signature_Type::is_certification, sigtypes.cpp 11-16. *)
Definition is_certification (t : N) : bool := mem [16; 17; 18; 19] t.

(** Key::meaningful, Key.cpp 246-412, on the packets from index [i] on.  None stands for
    "return false".
    Zero or more key revocations, 282-294. *)
Fixpoint revocations (ps : list packet) : result (option (list packet)) :=
  match ps with
  | p :: r =>
    if p_tag p =? 2 then s <- as_sig p ;; if t2_type s =? 32 then revocations r else Ok None
    else Ok (Some ps)
  | [] => Ok (Some [])
  end.
(** The loop over users, 313-366, after its first packet: [uid] is whether the current user is
    a user ID, [seen] whether user_id is set. *)
Fixpoint users (uid seen : bool) (ps : list packet) : result (option (bool * list packet)) :=
  match ps with
  | p :: r =>
    if p_tag p =? 2 then
      s <- as_sig p ;;
      if is_certification (t2_type s) || (uid && (t2_type s =? 48)) then users uid seen r else Ok None
    else if is_user (p_tag p) then users (p_tag p =? 13) (seen || (p_tag p =? 13)) r
    else Ok (Some (seen, ps))
  | [] => Ok (Some (seen, []))
  end.
(** The loop over subkeys, 374-409: [cur] is None between subkeys, otherwise whether the
    current subkey has had a binding signature. *)
Fixpoint subkeys (sub : N) (v3 : bool) (cur : option bool) (ps : list packet) : result bool :=
  let next p r :=
    match cur with
    | Some false => Ok false
    | _ => if negb (p_tag p =? sub) then Ok false else if v3 then Ok false else subkeys sub v3 (Some false) r
    end in
  match ps with
  | p :: r =>
    match cur with
    | Some b => if p_tag p =? 2 then s <- as_sig p ;; subkeys sub v3 (Some (b || (t2_type s =? 24))) r else next p r
    | None => next p r
    end
  | [] => match cur with Some false => Ok false | _ => Ok true end
  end.
(** Types 2 and 3 are PUBLIC_KEY_BLOCK and PRIVATE_KEY_BLOCK.  The do-loop reads packets[i]
    without a test: undefined behaviour when the revocations reach the end. *)
Definition key_meaningful (type : N) (ps : list packet) : result bool :=
  let go primary sub :=
    match ps with
    | p0 :: ((_ :: _) as rest) =>
      if negb (p_tag p0 =? primary) then Ok false
      else
        k <- as_key p0 ;;
        o <- revocations rest ;;
        match o with
        | None => Ok false
        | Some [] => UB
        | Some (p :: r) =>
          if negb (is_user (p_tag p)) then Ok false
          else
            o <- users (p_tag p =? 13) (p_tag p =? 13) r ;;
            match o with
            | None => Ok false
            | Some (seen, r) => if negb seen then Ok false else subkeys sub (k_version k =? 3) None r
            end
        end
    | _ => Ok false
    end in
  match type with
  | 2 => go 6 14
  | 3 => go 5 7
  | _ => Ok false
  end.
Definition meaningful (g : pgp) : result bool := key_meaningful (g_type g) (g_packets g).
(** PublicKey::meaningful 572-579 and SecretKey::meaningful 644-651. *)
Definition public_meaningful (g : pgp) : result bool := if g_type g =? 2 then meaningful g else Ok false.
Definition secret_meaningful (g : pgp) : result bool := if g_type g =? 3 then meaningful g else Ok false.

(** Key::keyid, fingerprint and version, Key.cpp 81-103. *)
Definition primary (g : pgp) : result key :=
  m <- meaningful g ;;
  if m then p <- vec_at (g_packets g) 0 ;; as_key p else Throw ERuntime.
Definition keyid (g : pgp) : result bytes := k <- primary g ;; get_keyid k.
Definition fingerprint (g : pgp) : result bytes := k <- primary g ;; get_fingerprint k.
Definition version (g : pgp) : result N := k <- primary g ;; Ok (k_version k).

(** Tag5::get_public_ptr and Tag7::get_public_ptr as packets, Tag5.cpp 268-279 and Tag7.cpp
    70-78: a new object of tag 6 or 14 (new format, not partial: the defaults of
    Tag::Tag(tag)). *)
Definition public_packet (tag : N) (p : packet) : result packet :=
  ' (k, s) <- as_secret p ;;
  k' <- get_public k s ;;
  Ok (mkPacket tag NEW NOT_PARTIAL (PKey k')).
(** One packet of SecretKey::get_public, Key.cpp 627-637. *)
Definition to_public (p : packet) : result packet :=
  if p_tag p =? 5 then public_packet 6 p
  else if p_tag p =? 7 then public_packet 14 p
  else Ok p.
Fixpoint mapM {A B} (f : A -> result B) (l : list A) : result (list B) :=
  match l with [] => Ok [] | a :: l => b <- f a ;; r <- mapM f l ;; Ok (b :: r) end.
(** SecretKey::get_public, Key.cpp 619-642. *)
Definition get_public_key (g : pgp) : result pgp :=
  ps <- mapM to_public (g_packets g) ;; Ok (mkPgp (g_armored g) 2 (g_keys g) ps).

(** find_signing_key, Key.cpp 662-680; None is a null pointer. *)
Fixpoint find_signing (ps : list packet) : result (option packet) :=
  match ps with
  | [] => Ok None
  | p :: r =>
    if is_key_packet (p_tag p) then
      k <- as_key p ;; if can_sign (k_pka k) then Ok (Some p) else find_signing r
    else find_signing r
  end.
Definition find_signing_key (g : pgp) : result (option packet) :=
  m <- meaningful g ;; if m then find_signing (g_packets g) else Ok None.

(** Revoke::check, revoke.cpp 7-43: -1, true and false as Z. *)
Fixpoint any_revocation (ps : list packet) : result Z :=
  match ps with
  | [] => Ok 0%Z
  | p :: r =>
    if p_tag p =? 2 then
      s <- as_sig p ;; if (t2_type s =? 40) || (t2_type s =? 48) then Ok 1%Z else any_revocation r
    else any_revocation r
  end.
Definition revoke_check (g : pgp) : result Z :=
  m <- meaningful g ;;
  if m then
    p <- vec_at (g_packets g) 1 ;;
    if p_tag p =? 2 then
      s <- as_sig p ;; if t2_type s =? 32 then Ok 1%Z else Ok (-1)%Z
    else any_revocation (g_packets g)
  else Ok (-1)%Z.
