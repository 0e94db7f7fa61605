(** Key packets as used by the rest of the library: fingerprints, key IDs, the public part of
    a secret key, and the protection of secret values (src/Packets/Key.cpp, Tag5.cpp, Tag7.cpp,
    keygen.cpp). *)
From Verif Require Export Model.Packets Model.S2kRun Model.Ciphers.

(** Key::get_fingerprint, Key.cpp 227-244.  makehex(size, 4) keeps the low 16 bits.
    Hash::MD5 and Hash::SHA1 are hash_use 1 and 2. *)
Definition get_fingerprint (k : key) : result bytes :=
  if k_version k <? 4 then
    hash_use 1 (concat (map (fun m => skipn 2 (write_MPI m)) (k_mpi k)))
  else if k_version k =? 4 then
    hash_use 2 (153 :: be 2 (len (key_raw k)) ++ key_raw k)
  else Throw ERuntime.

(** Key::get_keyid, Key.cpp 246-258: mpi[0] of an empty vector is undefined behaviour;
    data.size() - 8 wraps. *)
Definition get_keyid (k : key) : result bytes :=
  if k_version k <? 4 then
    n <- vec_at (k_mpi k) 0 ;;
    substr (write_MPI n) (sub64 (len (write_MPI n)) 8) 8
  else if k_version k =? 4 then
    fp <- get_fingerprint k ;; substr fp 12 8
  else Throw ERuntime.

(** Tag5::get_public_obj and get_public_ptr, Tag5.cpp 268-279; Tag7::get_public_obj and
    get_public_ptr, Tag7.cpp: the whole secret packet is read as a public key, without
    checking that the reader stopped at the end.  The tag is 6 for Tag5 and 14 for Tag7. *)
Definition get_public (k : key) (s : secret) : result key :=
  w <- secret_raw k s ;;
  if len w =? 0 then Ok key_new else ' (k', _) <- key_read w 0 ;; Ok k'.

(** Tag5::calculate_key, Tag5.cpp 350-368. *)
Definition calculate_key (s : secret) (pass : bytes) : result bytes :=
  if sk_con s =? 0 then Ok []
  else if (sk_con s =? 254) || (sk_con s =? 255) then
    match sk_s2k s with
    | None => Throw ERuntime
    | Some x => bits <- map_at key_length (sk_sym s) ;; s2k_run x pass (N.shiftr bits 3)
    end
  else hash_use 1 pass.

(** The two-octet sum, Tag5.cpp 383-388 and 425-431, keygen.cpp 136-141. *)
Definition sum16 (d : bytes) : bytes := be 2 (fold_left (fun a c => u16 (a + c)) d 0).

(** Tag5::encrypt_secret_keys, Tag5.cpp 370-400, giving the new value of the secret member.
    A null s2k is dereferenced when s2k_con is 254: undefined behaviour. *)
Definition encrypt_secret_keys (s : secret) (pass : bytes) (keys : list N) : result bytes :=
  let data := concat (map write_MPI keys) in
  check <- (if sk_con s =? 254 then
              match sk_s2k s with Some x => hash_use (s2k_hash x) data | None => UB end
            else Ok (sum16 data)) ;;
  if sk_con s =? 0 then Ok (data ++ check)
  else
    key <- calculate_key s pass ;;
    use_ncfb_encrypt (sk_sym s) (data ++ check) key (sk_iv s).

(** Tag5::decrypt_secret_keys, Tag5.cpp 402-450: an empty list when the checksum is wrong. *)
Definition decrypt_secret_keys (s : secret) (pass : bytes) : result (list N) :=
  keys <- (if sk_con s =? 0 then Ok (sk_secret s)
           else key <- calculate_key s pass ;;
                use_ncfb_decrypt (sk_sym s) (sk_secret s) key (sk_iv s)) ;;
  let hash_size := if sk_con s =? 254 then 20 else 2 in
  given <- substr keys (sub64 (len keys) hash_size) hash_size ;;
  let data := prefix keys (sub64 (len keys) hash_size) in
  calculated <- (if sk_con s =? 254 then hash_use 2 data else Ok (sum16 data)) ;;
  if beq calculated given then
    ' (out, _) <- read_mpis_until (S (length data)) data 0 (len data) ;; Ok out
  else Ok [].

Definition with_secret (s : secret) (d : bytes) : secret :=
  mkSecret (sk_con s) (sk_sym s) (sk_s2k s) (sk_iv s) d.

(** The secret part of a generated packet, keygen.cpp: primary key 92-144 ([twice] false) and
    subkey 199-247 ([twice] true: the checksum is appended to a string that already ends with
    one).  [salt] and [iv] are what rand_bytes returned. *)
Definition generated_secret (twice : bool) (pass : bytes) (sym hash : N) (salt iv : bytes) (pri : list N) : result secret :=
  let data := concat (map write_MPI pri) in
  match pass with
  | [] => Ok (mkSecret 0 0 None [] (data ++ sum16 data))
  | _ =>
    let x := mkS2k S2K3 3 hash salt 96 in
    bits <- map_at key_length sym ;;
    key <- s2k_run x pass (N.shiftr bits 3) ;;
    h <- hash_use 2 data ;;
    let data := data ++ h in
    data <- (if twice then h2 <- hash_use 2 data ;; Ok (data ++ h2) else Ok data) ;;
    _ <- map_at block_length sym ;;
    enc <- use_ncfb_encrypt sym data key iv ;;
    Ok (mkSecret 254 sym (Some x) iv enc)
  end.
