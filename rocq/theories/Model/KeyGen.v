(** Key generation: include/keygen.h and src/keygen.cpp.  [nextprime], [prime_test], [fuel] and
    [draws] as in Model/Pka.v, [rnd] the octets rand_bytes returns (Model/Encrypt.v), [time]
    what the clock returned. *)
From Verif Require Export Model.Encrypt Model.Revoke.

(** Config, keygen.h 46-77; names, comments and addresses are octet strings. *)
Record uid_conf := mkUid { u_user : bytes; u_comment : bytes; u_email : bytes; u_sig : N; u_expire : N }.
Record sub_conf := mkSub { b_pka : N; b_bits : N; b_sym : N; b_hash : N; b_sig : N; b_expire : N }.
Record config := mkConfig {
  c_pass : bytes; c_pka : N; c_bits : N; c_sym : N; c_hash : N; c_uids : list uid_conf; c_subkeys : list sub_conf }.

(** "DSA needs a 256 bit or larger hash", 149-152 and 211-214: LENGTH.at throws for the hashes
    without one. *)
Definition dsa_hash_short (pka hash : N) : result bool :=
  if pka =? 17 then n <- map_at hash_length hash ;; Ok (n <? 256) else Ok false.
(** The loops of Config::valid, 143-153 and 155-215 (without GPG_COMPATIBLE). *)
Fixpoint uids_valid (pka : N) (l : list uid_conf) : result bool :=
  match l with
  | [] => Ok true
  | u :: r =>
    if negb (hash_valid (u_sig u)) then Ok false
    else short <- dsa_hash_short pka (u_sig u) ;; if short : bool then Ok false else uids_valid pka r
  end.
Fixpoint subs_valid (l : list sub_conf) : result bool :=
  match l with
  | [] => Ok true
  | b :: r =>
    if negb (pka_valid (b_pka b)) then Ok false
    else if negb (sym_valid (b_sym b)) then Ok false
    else if negb (hash_valid (b_hash b)) then Ok false
    else if negb (hash_valid (b_sig b)) then Ok false
    else short <- dsa_hash_short (b_pka b) (b_sig b) ;; if short : bool then Ok false else subs_valid r
  end.
(** Config::valid, 79-217. *)
Definition config_valid (c : config) : result bool :=
  if negb (pka_valid (c_pka c)) then Ok false
  else if negb (can_sign (c_pka c)) then Ok false
  else if negb (sym_valid (c_sym c)) then Ok false
  else if negb (hash_valid (c_hash c)) then Ok false
  else match c_uids c with
       | [] => Ok false
       | _ => ok <- uids_valid (c_pka c) (c_uids c) ;; if ok : bool then subs_valid (c_subkeys c) else Ok false
       end.

(** Tag13::set_info, Tag13.cpp 45-60. *)
Definition put_space (s : bytes) : bytes := match s with [] => [] | _ => s ++ str " " end.
Definition user_text (name comment email : bytes) : bytes :=
  let t := match comment with [] => name | _ => put_space name ++ str "(" ++ comment ++ str ")" end in
  match email with [] => t | _ => put_space t ++ str "<" ++ email ++ str ">" end.

(** The secret part of a packet with its random octets, keygen.cpp 109-142 and 216-244: the
    salt is drawn first; the sizes of the cipher are looked up before the vector is drawn. *)
Definition keygen_secret (twice : bool) (pass : bytes) (sym hash : N) (pri : list N) (rnd : bytes)
  : result (secret * bytes) :=
  match pass with
  | [] => s <- generated_secret twice pass sym hash [] [] pri ;; Ok (s, rnd)
  | _ =>
    ' (salt, rnd) <- rand_bytes 8 rnd ;;
    _ <- map_at key_length sym ;;
    bits <- map_at block_length sym ;;
    ' (iv, rnd) <- rand_bytes (N.shiftr bits 3) rnd ;;
    s <- generated_secret twice pass sym hash salt iv pri ;; Ok (s, rnd)
  end.

(** SecretKey(), Key.cpp 596-600; PRIVATE_KEY_BLOCK is 3. *)
Definition secret_key_new : pgp := mkPgp true 3 [] [].

Section Generate.
  Variables (fuel : nat) (nextprime : N -> N) (prime_test : N -> bool).

  (** generate_keypair(pka, generate_params(pka, bits >> 1), ...), 94 and 189; None on failure. *)
  Definition keygen_pair (pka bits : N) (draws : list N) : result (option (list N * list N) * list N) :=
    ' (a, pri, pub, draws) <- generate_keypair fuel nextprime prime_test pka (generate_params pka (N.shiftr bits 1)) draws ;;
    Ok (if a =? 0 then None else Some (pri, pub), draws).

  (** The user IDs and their certifications, 151-184; [k] with secret part [sec] is the primary
      key and [id] its key ID.  None: the empty key is returned. *)
  Fixpoint generate_uids (pass : bytes) (k : key) (sec : secret) (id : bytes) (time : N) (l : list uid_conf) (draws : list N)
    : result (option (list packet) * list N) :=
    match l with
    | [] => Ok (Some [], draws)
    | u :: r =>
      let uid := new_packet 13 (PRaw (user_text (u_user u) (u_comment u) (u_email u))) in
      let s := create_sig 4 19 (k_pka k) (u_sig u) id time in
      ' (o, draws) <- sign_certification k sec pass (new_packet 5 (PSecret k sec)) uid s draws ;;
      match o with
      | None => Ok (None, draws)
      | Some s =>
        ' (o, draws) <- generate_uids pass k sec id time r draws ;;
        Ok (match o with None => None | Some ps => Some (uid :: new_packet 2 (PSig s) :: ps) end, draws)
      end
    end.
  (** The subkeys and their bindings, 187-272; the binding names the algorithm of the primary
      key. *)
  Fixpoint generate_subkeys (pass : bytes) (k : key) (sec : secret) (id : bytes) (time : N) (l : list sub_conf) (rnd : bytes) (draws : list N)
    : result (option (list packet) * bytes * list N) :=
    match l with
    | [] => Ok (Some [], rnd, draws)
    | b :: r =>
      ' (o, draws) <- keygen_pair (b_pka b) (b_bits b) draws ;;
      match o with
      | None => Ok (None, rnd, draws)
      | Some (pri, pub) =>
        ' (x, rnd) <- keygen_secret true pass (b_sym b) (b_hash b) pri rnd ;;
        let sub := mkKey 4 time (b_pka b) pub 0 in
        let s := create_sig 4 24 (k_pka k) (b_sig b) id time in
        ' (o, draws) <- sign_subkey_binding k sec pass sub s draws ;;
        match o with
        | None => Ok (None, rnd, draws)
        | Some s =>
          ' (o, rnd, draws) <- generate_subkeys pass k sec id time r rnd draws ;;
          Ok (match o with None => None | Some ps => Some (new_packet 7 (PSecret sub x) :: new_packet 2 (PSig s) :: ps) end, rnd, draws)
        end
      end
    end.

  (** generate_key, 78-288; also what is left of the random octets and numbers. *)
  Definition generate_key (c : config) (time : N) (rnd : bytes) (draws : list N) : result (pgp * bytes * list N) :=
    v <- config_valid c ;;
    if negb v then Ok (secret_key_new, rnd, draws)
    else
      ' (o, draws) <- keygen_pair (c_pka c) (c_bits c) draws ;;
      match o with
      | None => Ok (secret_key_new, rnd, draws)
      | Some (pri, pub) =>
        ' (sec, rnd) <- keygen_secret false (c_pass c) (c_sym c) (c_hash c) pri rnd ;;
        let k := mkKey 4 time (c_pka c) pub 0 in
        id <- get_keyid k ;;
        ' (o, draws) <- generate_uids (c_pass c) k sec id time (c_uids c) draws ;;
        match o with
        | None => Ok (secret_key_new, rnd, draws)
        | Some us =>
          ' (o, rnd, draws) <- generate_subkeys (c_pass c) k sec id time (c_subkeys c) rnd draws ;;
          match o with
          | None => Ok (secret_key_new, rnd, draws)
          | Some subs => Ok (mkPgp true 3 version_cc (new_packet 5 (PSecret k sec) :: us ++ subs), rnd, draws)
          end
        end
      end.
End Generate.

(** A signature packet changed in place by Sign::primary_key, Sign::subkey_binding, Revoke::sig
    or Revoke::uid_sig (sign.cpp 218-226, 359-368, revoke.cpp 79-86, 187-194): the first octets of
    the digest are set before it is known whether signing worked; fill_key_sigs does not look at
    what they return. *)
Definition fill_sig (s : tag2) (digest : bytes) (k : key) (sec : secret) (pass : bytes) (draws : list N)
  : result (tag2 * list N) :=
  pri <- decrypt_secret_keys sec pass ;;
  ' (vals, draws) <- sign_with_pka digest (k_pka k) pri (k_mpi k) (t2_hash s) draws ;;
  Ok (with_values s (prefix digest 2) (match vals with [] => t2_mpi s | _ => vals end), draws).
(** One signature by the primary key [k], keygen.cpp 33-66: [key] is the last key packet, [user]
    the last user packet after it.  None is "return false".  A null [user] changes nothing. *)
Definition fill_one (k : key) (sec : secret) (pass : bytes) (key : packet) (user : option packet) (s : tag2) (draws : list N)
  : result (option tag2 * list N) :=
  let fill digest := d <- digest ;; ' (s, draws) <- fill_sig s d k sec pass draws ;; Ok (Some s, draws) in
  if is_certification (t2_type s) then
    if p_tag key =? 5 then
      match user with
      | None => Ok (Some s, draws)
      | Some u => fill (kk <- as_key key ;; to_sign_cert (t2_type s) kk (p_tag u) (p_body u) s)
      end
    else Ok (None, draws)
  else if t2_type s =? 24 then
    if p_tag key =? 7 then fill (kk <- as_key key ;; to_sign_18 k kk s) else Ok (None, draws)
  else if t2_type s =? 32 then fill (to_sign_20 5 k s)
  else if t2_type s =? 40 then fill (kk <- as_key key ;; to_sign_28 (p_tag key) kk s)
  else if t2_type s =? 48 then
    match user with
    | None => Ok (Some s, draws)
    | Some u => fill (to_sign_30 k (p_tag u) (p_body u) s)
    end
  else Ok (None, draws).
(** The loop, 19-72; a signature before any key packet would use a null pointer. *)
Fixpoint fill_loop (k : key) (sec : secret) (pass id : bytes) (key : option packet) (user : option packet) (ps : list packet) (draws : list N)
  : result (option (list packet) * list N) :=
  match ps with
  | [] => Ok (Some [], draws)
  | p :: r =>
    let next key user p draws :=
      ' (o, draws) <- fill_loop k sec pass id key user r draws ;;
      Ok (match o with None => None | Some r => Some (p :: r) end, draws) in
    if is_key_packet (p_tag p) then next (Some p) None p draws
    else if is_user (p_tag p) then next key (Some p) p draws
    else if p_tag p =? 2 then
      s <- as_sig p ;;
      i <- sig_keyid s ;;
      if beq i id then
        match key with
        | None => UB
        | Some kp =>
          ' (o, draws) <- fill_one k sec pass kp user s draws ;;
          match o with
          | None => Ok (None, draws)
          | Some s => next key user (mkPacket (p_tag p) (p_format p) (p_partial p) (PSig s)) draws
          end
        end
      else next key user p draws
    else Ok (None, draws)
  end.
(** fill_key_sigs, keygen.cpp 6-76: whether it worked, and the key afterwards. *)
Definition fill_key_sigs (g : pgp) (pass : bytes) (draws : list N) : result (bool * pgp * list N) :=
  m <- secret_meaningful g ;;
  if negb m then Ok (false, g, draws)
  else
    id <- keyid g ;;
    p <- vec_at (g_packets g) 0 ;;
    ' (k, sec) <- as_secret p ;;
    ' (o, draws) <- fill_loop k sec pass id None None (g_packets g) draws ;;
    Ok (match o with
        | None => (false, g)
        | Some ps => (true, mkPgp (g_armored g) (g_type g) (g_keys g) ps)
        end, draws).
