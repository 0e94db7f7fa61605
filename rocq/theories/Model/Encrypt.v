(** Encryption: src/encrypt.cpp.  [rnd] holds the octets successive calls of
    RNG::RNG().rand_bytes return, [draws] the numbers drawn by the public key algorithms;
    when one runs out the function waits ([Diverge]). *)
From Verif Require Export Model.Sign Model.Pkcs1 Model.Pka.

(** Encrypt::Args and valid, include/encrypt.h 44-93. *)
Record enc_args := mkEnc {
  e_filename : bytes; e_data : bytes; e_sym : N; e_comp : N; e_mdc : bool;
  e_signer : option pgp; e_pass : bytes; e_hash : N }.
Definition enc_valid (a : enc_args) : bool := sym_valid (e_sym a) && comp_valid (e_comp a) && hash_valid (e_hash a).

Definition rand_bytes (n : N) (rnd : bytes) : result (bytes * bytes) :=
  if len rnd <? n then Diverge else Ok (firstn (N.to_nat n) rnd, skipn (N.to_nat n) rnd).

(** What is encrypted, encrypt.cpp 14-47; None when signing failed.  [zip], [unzip] and
    [fuel] as in Model.MessageIO, [now] and [now'] as in Model.Sign. *)
Definition to_encrypt (zip unzip : N -> bytes -> option bytes) (fuel : nat) (a : enc_args) (now now' : N) (draws : list N)
  : result (option bytes * list N) :=
  match e_signer a with
  | Some pri =>
    ' (m, draws) <- sign_binary zip unzip fuel (mkArgs pri (e_pass a) 4 (e_hash a)) (e_filename a) (e_data a) (e_comp a) now now' draws ;;
    ok <- message_meaningful false (m_pgp m) ;;
    if ok : bool then w <- message_raw zip m ;; Ok (Some w, draws) else Ok (None, draws)
  | None =>
    w <- write (new_packet 11 (PLiteral 98 (e_filename a) 0 (e_data a))) ;;
    if e_comp a =? 0 then Ok (Some w, draws)
    else w <- compressed_packet zip (NEW, NOT_PARTIAL, e_comp a) w ;; Ok (Some w, draws)
  end.

(** data, 6-73; None is a null pointer. *)
Definition encrypt_data (zip unzip : N -> bytes -> option bytes) (fuel : nat) (a : enc_args) (session_key : bytes)
  (now now' : N) (rnd : bytes) (draws : list N) : result (option packet) :=
  if negb (enc_valid a) then Ok None
  else
    ' (o, _) <- to_encrypt zip unzip fuel a now now' draws ;;
    match o with
    | None => Ok None
    | Some w =>
      bits <- map_at block_length (e_sym a) ;;
      ' (prefix, _) <- rand_bytes (N.shiftr bits 3) rnd ;;
      rep <- substr prefix (sub64 (len prefix) 2) 2 ;;
      let prefix := prefix ++ rep in
      if negb (e_mdc a) then
        c <- use_ocfb_encrypt (e_sym a) 9 w session_key prefix ;;
        Ok (Some (new_packet 9 (PRaw c)))
      else
        h <- hash_use 2 (prefix ++ w ++ [211; 20]) ;;
        mdc <- write (new_packet 19 (PRaw h)) ;;
        c <- use_ocfb_encrypt (e_sym a) 18 (w ++ mdc) session_key prefix ;;
        Ok (Some (new_packet 18 (PProtected 1 c)))
    end.

(** The search for an encrypting key in pka, 98-113: a key packet at the very end of the list
    is kept even if it cannot encrypt. *)
Fixpoint find_encrypting (ps : list packet) (last : option key) : result (option key) :=
  match ps with
  | [] => Ok last
  | p :: r =>
    if is_key_packet (p_tag p) then
      k <- as_key p ;; if can_encrypt (k_pka k) then Ok (Some k) else find_encrypting r (Some k)
    else find_encrypting r None
  end.

(** pka, 75-158.  The sum of lines 126-134 is [sum16] (Model.KeyOps).  The number of octets of the modulus is the number of nibbles mpitohex
    gives, an even number, halved. *)
Definition encrypt_pka (zip unzip : N -> bytes -> option bytes) (fuel : nat) (a : enc_args) (pub : pgp)
  (now now' : N) (rnd : bytes) (draws : list N) : result message :=
  if negb (enc_valid a) then Ok message_new
  else
    m <- meaningful pub ;;
    if negb m then Ok message_new
    else
      rc <- revoke_check pub ;;
      if negb (rc =? 0)%Z then Ok message_new
      else
        o <- find_encrypting (g_packets pub) None ;;
        match o with
        | None => Ok message_new
        | Some k =>
          id <- get_keyid k ;;
          bits <- map_at key_length (e_sym a) ;;
          ' (session, rnd) <- rand_bytes (N.shiftr bits 3) rnd ;;
          n <- vec_at (k_mpi k) 0 ;;
          ' (em, rnd) <- eme_encode rnd (e_sym a :: session ++ sum16 session) (len (mpitoraw n)) ;;
          m <- rawtompi em ;;
          ' (mpi, draws) <- (if (k_pka k =? 1) || (k_pka k =? 2) then c <- rsa_encrypt m (k_mpi k) ;; Ok ([c], draws)
                             else if k_pka k =? 16 then elgamal_encrypt m (k_mpi k) draws
                             else Ok ([], draws)) ;;
          e <- encrypt_data zip unzip fuel a session now now' rnd draws ;;
          match e with
          | None => Ok message_new
          | Some p => Ok (mkMessage (mkPgp true 1 version_cc [new_packet 1 (PSession 3 id (k_pka k) mpi); p]) None)
          end
        end.

(** Tag3::get_session_key, Tag3.cpp 112-121; a null s2k is dereferenced. *)
Definition get_session_key (sym : N) (s : option s2k) (esk : option bytes) (pass : bytes) : result bytes :=
  match s with
  | None => UB
  | Some x =>
    kbits <- map_at key_length sym ;;
    out <- s2k_run x pass (N.shiftr kbits 3) ;;
    match esk with
    | Some e => bbits <- map_at block_length sym ;; use_ncfb_decrypt sym e out (repeat 0 (N.to_nat (N.shiftr bbits 3)))
    | None => Ok (sym :: out)
    end
  end.

(** sym, 160-197. *)
Definition encrypt_sym (zip unzip : N -> bytes -> option bytes) (fuel : nat) (a : enc_args) (pass : bytes) (key_hash : N)
  (now now' : N) (rnd : bytes) (draws : list N) : result message :=
  if negb (enc_valid a) then Ok message_new
  else
    ' (salt, rnd) <- rand_bytes 8 rnd ;;
    let s := mkS2k S2K3 3 key_hash salt 96 in
    key <- get_session_key (e_sym a) (Some s) None pass ;;
    session <- substr key 1 (sub64 (len key) 1) ;;
    e <- encrypt_data zip unzip fuel a session now now' rnd draws ;;
    match e with
    | None => Ok message_new
    | Some p => Ok (mkMessage (mkPgp true 1 version_cc [new_packet 3 (PSymSession 4 (e_sym a) (Some s) None); p]) None)
    end.
