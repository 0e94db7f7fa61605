(** Signing: src/sign.cpp and include/sign.h.  [now] is what the clock returned, [draws] the
    random numbers drawn by DSA (see Model/Pka.v); what is left of them is returned too. *)
From Verif Require Export Model.Verify.

(** with_pka, sign.cpp 8-21. *)
Definition sign_with_pka (digest : bytes) (pka : N) (pri pub : list N) (hash : N) (draws : list N)
  : result (list N * list N) :=
  if (pka =? 1) || (pka =? 2) then
    n <- vec_at pub 0 ;;
    em <- emsa_encode hash digest (N.shiftr (bitsize n) 3) ;;
    s <- rsa_sign_raw em pri pub ;; Ok ([s], draws)
  else if pka =? 17 then dsa_sign_raw digest pri pub 0 draws
  else Ok ([], draws).

(** create_sig_packet, 23-42: Tag2's other fields keep their defaults, also in version 3. *)
Definition create_sig (version type pka hash : N) (id : bytes) (now : N) : tag2 :=
  mkTag2 version type pka hash [] [] 0 [] [(false, Sub2 now)] [(false, Sub16 id)].
(** set_left16 and set_mpi. *)
Definition with_values (s : tag2) (left16 : bytes) (mpi : list N) : tag2 :=
  let 'mkTag2 v ty p h _ _ ti k hs us := s in mkTag2 v ty p h mpi left16 ti k hs us.
(** The end of every signing function, for instance 67-76: digest, secret values, signature;
    None when with_pka returned no values. *)
Definition finish (s : tag2) (digest : bytes) (k : key) (sec : secret) (pass : bytes) (hash : N) (draws : list N)
  : result (option tag2 * list N) :=
  pri <- decrypt_secret_keys sec pass ;;
  ' (vals, draws) <- sign_with_pka digest (k_pka k) pri (k_mpi k) hash draws ;;
  match vals with
  | [] => Ok (None, draws)
  | _ => Ok (Some (with_values s (prefix digest 2) vals), draws)
  end.

(** Args and Args::valid, sign.h 58-95. *)
Record sign_args := mkArgs { a_pri : pgp; a_pass : bytes; a_version : N; a_hash : N }.
Definition args_valid (a : sign_args) : result bool :=
  m <- secret_meaningful (a_pri a) ;;
  Ok (m && ((a_version a =? 3) || (a_version a =? 4)) && hash_valid (a_hash a)).

Definition new_packet (tag : N) (c : contents) : packet := mkPacket tag NEW NOT_PARTIAL c.
Definition version_cc : list (bytes * bytes) := [(str "Version", str "cc")].
(** DetachedSignature(), and the object holding one signature. *)
Definition detached_new : pgp := mkPgp true 6 [] [].
Definition detached_of (s : tag2) : pgp := mkPgp true 6 version_cc [new_packet 2 (PSig s)].

(** detached_signature, 44-83. *)
Definition sign_detached (a : sign_args) (now : N) (data : bytes) (draws : list N) : result (pgp * list N) :=
  v <- args_valid a ;;
  if negb v then Ok (detached_new, draws)
  else
    o <- find_signing_key (a_pri a) ;;
    match o with
    | None => Ok (detached_new, draws)
    | Some p =>
      rc <- revoke_check (a_pri a) ;;
      if negb (rc =? 0)%Z then Ok (detached_new, draws)
      else
        ' (k, sec) <- as_secret p ;;
        id <- get_keyid k ;;
        let s := create_sig (a_version a) 0 (k_pka k) (a_hash a) id now in
        digest <- to_sign_00 data s ;;
        ' (r, draws) <- finish s digest k sec (a_pass a) (a_hash a) draws ;;
        Ok (match r with None => detached_new | Some s => detached_of s end, draws)
    end.

(** binary, 86-140: [now] is the time in the literal packet, [now'] in the signature.
    get_keyid returns eight octets, so Tag4::set_keyid does not throw. *)
Definition sign_binary (zip unzip : N -> bytes -> option bytes) (fuel : nat) (a : sign_args) (filename data : bytes)
  (compress now now' : N) (draws : list N) : result (message * list N) :=
  v <- args_valid a ;;
  if negb v then Ok (message_new, draws)
  else
    o <- find_signing_key (a_pri a) ;;
    match o with
    | None => Ok (message_new, draws)
    | Some p =>
      ' (k, sec) <- as_secret p ;;
      id <- get_keyid k ;;
      let tag4 := new_packet 4 (POnePass 3 0 (a_hash a) (k_pka k) id 1) in
      let tag11 := new_packet 11 (PLiteral 98 filename now data) in
      let s := create_sig (a_version a) 0 (k_pka k) (a_hash a) id now' in
      digest <- to_sign_00 data s ;;
      ' (r, draws) <- finish s digest k sec (a_pass a) (a_hash a) draws ;;
      match r with
      | None => Ok (message_new, draws)
      | Some s =>
        let signature := mkMessage (mkPgp true 1 version_cc [tag4; tag11; new_packet 2 (PSig s)]) None in
        if compress =? 0 then Ok (signature, draws)
        else
          d <- message_raw zip signature ;;
          w <- compressed_packet zip (NEW, NOT_PARTIAL, compress) d ;;
          m <- message_read unzip fuel w ;; Ok (m, draws)
      end
    end.

(** Hash::NAME, Hashes.h 75-98. *)
Definition hash_name (h : N) : result bytes :=
  match h with
  | 1 => Ok (str "MD5") | 2 => Ok (str "SHA1") | 3 => Ok (str "RIPEMD160")
  | 4 | 5 | 6 | 7 => Ok (str "Reserved")
  | 8 => Ok (str "SHA256") | 9 => Ok (str "SHA384") | 10 => Ok (str "SHA512") | 11 => Ok (str "SHA224")
  | _ => if mem private_ids h then Ok (str "Private/Experimental algorithm") else Throw EOutOfRange
  end.
(** cleartext_signature, 143-179. *)
Definition cleartext_new : cleartext := mkCleartext [] [] detached_new.
Definition sign_cleartext (a : sign_args) (now : N) (text : bytes) (draws : list N) : result (cleartext * list N) :=
  v <- args_valid a ;;
  if negb v then Ok (cleartext_new, draws)
  else
    o <- find_signing_key (a_pri a) ;;
    match o with
    | None => Ok (cleartext_new, draws)
    | Some p =>
      ' (k, sec) <- as_secret p ;;
      id <- get_keyid k ;;
      let s := create_sig (a_version a) 1 (k_pka k) (a_hash a) id now in
      digest <- to_sign_01 (data_to_text text) s ;;
      ' (r, draws) <- finish s digest k sec (a_pass a) (a_hash a) draws ;;
      match r with
      | None => Ok (cleartext_new, draws)
      | Some s =>
        name <- hash_name (a_hash a) ;;
        Ok (mkCleartext [(str "Hash", name)] text (detached_of s), draws)
      end
    end.

(** primary_key on packets, 187-228: [k] with secret part [sec] certifies user [u] of
    [signee]; None is a null pointer. *)
Definition sign_certification (k : key) (sec : secret) (pass : bytes) (signee u : packet) (s : tag2) (draws : list N)
  : result (option tag2 * list N) :=
  if negb (is_primary_key (p_tag signee)) then Ok (None, draws)
  else if negb (is_certification (t2_type s)) then Ok (None, draws)
  else
    k' <- as_key signee ;;
    digest <- to_sign_cert (t2_type s) k' (p_tag u) (p_body u) s ;;
    finish s digest k sec pass (t2_hash s) draws.

(** The user ID with [user] in its text, 267-291: the packets before it, the packet and those
    after it.  std::string::find. *)
Fixpoint occurs (h s : bytes) : bool :=
  starts_with h s || match s with [] => false | _ :: s' => occurs h s' end.
Definition as_user_id (p : packet) : result bytes := match p_body p with PRaw d => Ok d | _ => UB end.
Fixpoint find_user (user : bytes) (ps : list packet) : result (option (list packet * packet * list packet)) :=
  match ps with
  | [] => Ok None
  | p :: r =>
    b <- (if p_tag p =? 13 then d <- as_user_id p ;; Ok (occurs user d) else Ok false) ;;
    if b : bool then Ok (Some ([], p, r))
    else o <- find_user user r ;;
         Ok (match o with Some (a, u, c) => Some (p :: a, u, c) | None => None end)
  end.
(** The signatures already there, 297-311: their verdict when one is not "no" (with the
    packets after them otherwise). *)
Fixpoint already (k k' : key) (u : packet) (ps : list packet) : result (Z * list packet * list packet) :=
  match ps with
  | [] => Ok (0%Z, [], [])
  | p :: r =>
    if p_tag p =? 2 then
      s <- as_sig p ;;
      rc <- verify_certification k k' (Some u) s ;;
      if (rc =? 0)%Z then ' (x, a, b) <- already k k' u r ;; Ok (x, p :: a, b)
      else Ok (rc, [], ps)
    else Ok (0%Z, [], ps)
  end.
(** primary_key, 230-342.  PublicKey() has armor type 2; out is a copy of signee. *)
Definition public_new : pgp := mkPgp true 2 [] [].
Definition sign_primary_key (a : sign_args) (now : N) (signee : pgp) (user : bytes) (cert : N) (draws : list N)
  : result (pgp * list N) :=
  v <- args_valid a ;;
  if negb v then Ok (public_new, draws)
  else
    rc <- revoke_check (a_pri a) ;;
    if negb (rc =? 0)%Z then Ok (public_new, draws)
    else
      m <- public_meaningful signee ;;
      if negb m then Ok (public_new, draws)
      else
        rc <- revoke_check signee ;;
        if negb (rc =? 0)%Z then Ok (public_new, draws)
        else if negb (is_certification cert) then Ok (public_new, draws)
        else
          o <- find_signing_key (a_pri a) ;;
          match o with
          | None => Ok (public_new, draws)
          | Some p =>
            ' (k, sec) <- as_secret p ;;
            q <- vec_at (g_packets signee) 0 ;;
            k' <- as_key q ;;
            o <- find_user user (skipn 1 (g_packets signee)) ;;
            match o with
            | None => Ok (public_new, draws)
            | Some (before, u, after) =>
              ' (rc, sigs, rest) <- already k k' u after ;;
              if (rc =? -1)%Z then Ok (public_new, draws)
              else if (rc =? 1)%Z then Ok (signee, draws)
              else
                id <- get_keyid k ;;
                let s := create_sig (a_version a) cert (k_pka k) (a_hash a) id now in
                ' (r, draws) <- sign_certification k sec (a_pass a) q u s draws ;;
                match r with
                | None => Ok (public_new, draws)
                | Some s =>
                  Ok (mkPgp (g_armored signee) (g_type signee) (g_keys signee)
                        (q :: before ++ u :: sigs ++ new_packet 2 (PSig s) :: rest), draws)
                end
            end
          end.

(** subkey_binding, 345-371. *)
Definition sign_subkey_binding (k : key) (sec : secret) (pass : bytes) (sub : key) (s : tag2) (draws : list N)
  : result (option tag2 * list N) :=
  digest <- to_sign_18 k sub s ;; finish s digest k sec pass (t2_hash s) draws.

(** primary_key_binding, 374-433: the subkey is looked for as a public subkey (tag 14) in the
    secret key. *)
Definition sign_primary_key_binding (a : sign_args) (now : N) (signee : pgp) (draws : list N)
  : result (option tag2 * list N) :=
  v <- args_valid a ;;
  if negb v then Ok (None, draws)
  else
    o <- find_signing_key (a_pri a) ;;
    match o with
    | None => Ok (None, draws)
    | Some p =>
      ' (k, sec) <- as_secret p ;;
      match find (fun q => p_tag q =? 6) (g_packets signee) with
      | None => Ok (None, draws)
      | Some q =>
        match find (fun q => p_tag q =? 14) (g_packets (a_pri a)) with
        | None => Ok (None, draws)
        | Some _ =>
          k' <- as_key q ;;
          id <- get_keyid k ;;
          let s := create_sig (a_version a) 25 (k_pka k) (a_hash a) id now in
          digest <- to_sign_18 k' k s ;;
          finish s digest k sec (a_pass a) (a_hash a) draws
        end
      end
    end.

(** timestamp, 435-471: the clock is read as well, but the given time replaces it. *)
Definition sign_timestamp (a : sign_args) (time : N) (draws : list N) : result (pgp * list N) :=
  v <- args_valid a ;;
  if negb v then Ok (detached_new, draws)
  else
    o <- find_signing_key (a_pri a) ;;
    match o with
    | None => Ok (detached_new, draws)
    | Some p =>
      ' (k, sec) <- as_secret p ;;
      id <- get_keyid k ;;
      let s := create_sig (a_version a) 64 (k_pka k) (a_hash a) id time in
      digest <- to_sign_40 s ;;
      ' (r, draws) <- finish s digest k sec (a_pass a) (a_hash a) draws ;;
      Ok (match r with None => detached_new | Some s => detached_of s end, draws)
    end.
