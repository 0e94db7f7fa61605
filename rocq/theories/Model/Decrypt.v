(** Decryption: src/decrypt.cpp.  Message() is returned for every failure noticed. *)
From Verif Require Export Model.Encrypt.

(** The static_pointer_casts to Tag9 and Tag18, Tag1, Tag3. *)
Definition as_encrypted (p : packet) : result bytes := match p_body p with PRaw d => Ok d | _ => UB end.
Definition as_protected (p : packet) : result bytes := match p_body p with PProtected _ d => Ok d | _ => UB end.
Definition as_session (p : packet) : result (bytes * N * list N) :=
  match p_body p with PSession _ id pka mpi => Ok (id, pka, mpi) | _ => UB end.
Definition as_sym_session (p : packet) : result (N * option s2k * option bytes) :=
  match p_body p with PSymSession _ sym s esk => Ok (sym, s, esk) | _ => UB end.

(** data, 13-75, after the encrypted data has been found: [tag] is 9 or 18. *)
Definition decrypt_octets (unzip : N -> bytes -> option bytes) (fuel : nat) (sym tag : N) (data session_key : bytes) : result message :=
  if len data =? 0 then Ok message_new
  else
    data <- use_ocfb_decrypt sym tag data session_key ;;
    bits <- map_at block_length sym ;;
    let BS := N.shiftr bits 3 in
    o <- (if tag =? 18 then
            checksum <- substr data (sub64 (len data) 20) 20 ;;
            data <- substr data 0 (sub64 (len data) 20) ;;
            h <- hash_use 2 data ;;
            if beq h checksum then data <- substr data 0 (sub64 (len data) 2) ;; Ok (Some data) else Ok None
          else Ok (Some data)) ;;
    match o with
    | None => Ok message_new
    | Some data =>
      data <- substr data (BS + 2) (sub64 (sub64 (len data) BS) 2) ;;
      ' (ps, c) <- message_read_raw unzip fuel data ;;
      Ok (mkMessage (mkPgp false 1 [] ps) c)
    end.
Definition decrypt_data (unzip : N -> bytes -> option bytes) (fuel : nat) (sym : N) (m : message) (session_key : bytes) : result message :=
  ok <- message_meaningful false (m_pgp m) ;;
  if negb ok then Ok message_new
  else
    match find (fun p => (p_tag p =? 9) || (p_tag p =? 18)) (g_packets (m_pgp m)) with
    | None => Ok message_new
    | Some p =>
      data <- (if p_tag p =? 9 then as_encrypted p else as_protected p) ;;
      decrypt_octets unzip fuel sym (p_tag p) data session_key
    end.

(** Packet.cpp 30-33. *)
Definition is_secret (t : N) : bool := (t =? 5) || (t =? 7).

(** The search for the secret key, 107-125: a secret key packet at the very end of the list
    is kept even if its key ID differs or it cannot decrypt. *)
Fixpoint find_decrypting (ps : list packet) (id : bytes) (last : option (key * secret)) : result (option (key * secret)) :=
  match ps with
  | [] => Ok last
  | p :: r =>
    if is_secret (p_tag p) then
      ' (k, sec) <- as_secret p ;;
      kid <- get_keyid k ;;
      if beq kid id && can_encrypt (k_pka k) then Ok (Some (k, sec)) else find_decrypting r id (Some (k, sec))
    else find_decrypting r id None
  end.

(** The decoded session key, 150-170: algorithm, key and checksum.  None when the sum differs. *)
Definition open_session (symkey : bytes) : result (option (N * bytes)) :=
  sym <- at_ symkey 0 ;;
  checksum <- substr symkey (sub64 (len symkey) 2) 2 ;;
  key <- substr symkey 1 (sub64 (len symkey) 3) ;;
  if beq (sum16 key) checksum then Ok (Some (sym, key)) else Ok None.

(** pka, 77-173.  PKA::Values::operator[] on a packet without integers is undefined. *)
Definition decrypt_pka (unzip : N -> bytes -> option bytes) (fuel : nat) (pri : pgp) (pass : bytes) (m : message) : result message :=
  ok <- secret_meaningful pri ;;
  if negb ok then Ok message_new
  else
    ok <- message_meaningful false (m_pgp m) ;;
    if negb ok then Ok message_new
    else
      match find (fun p => p_tag p =? 1) (g_packets (m_pgp m)) with
      | None => Ok message_new
      | Some p =>
        ' (id, pka, mpi) <- as_session p ;;
        if negb (can_encrypt pka) then Ok message_new
        else
          o <- find_decrypting (g_packets pri) id None ;;
          match o with
          | None => Ok message_new
          | Some (k, sec) =>
            secret_keys <- decrypt_secret_keys sec pass ;;
            match secret_keys with
            | [] => Ok message_new
            | _ =>
              symkey <- (if (pka =? 1) || (pka =? 2) then
                           c <- vec_at mpi 0 ;; v <- rsa_decrypt c secret_keys (k_mpi k) ;; Ok (mpitoraw v)
                         else elgamal_decrypt mpi secret_keys (k_mpi k)) ;;
              symkey <- eme_decode (0 :: symkey) ;;
              if len symkey =? 0 then Ok message_new
              else
                o <- open_session symkey ;;
                match o with
                | None => Ok message_new
                | Some (sym, key) => decrypt_data unzip fuel sym m key
                end
            end
          end
      end.

(** sym, 175-199. *)
Definition decrypt_sym (unzip : N -> bytes -> option bytes) (fuel : nat) (m : message) (pass : bytes) : result message :=
  ok <- message_meaningful false (m_pgp m) ;;
  if negb ok then Ok message_new
  else
    match find (fun p => p_tag p =? 3) (g_packets (m_pgp m)) with
    | None => Ok message_new
    | Some p =>
      ' (sym, s, esk) <- as_sym_session p ;;
      symkey <- get_session_key sym s esk pass ;;
      alg <- at_ symkey 0 ;;
      key <- substr symkey 1 (sub64 (len symkey) 1) ;;
      decrypt_data unzip fuel alg m key
    end.
