(** The functions behind the commands, cli/modules/*.h, and the whole program; show and
    show-cleartext-signature are in Show, generate-keypair in Keypair (here an argument).  Not modelled: what is written to std::cerr. *)
From Verif Require Export Model.Cli Model.Load Model.Decrypt Model.Revoke Model.Listing.

(** What a command sees: the files it can open and their contents, the time (twice), the random
    octets and numbers it gets, zlib and bzip2 (Model.MessageIO), operator>> of a string into an
    unsigned integer of so many bits, the number mpz_class makes of a hexadecimal text (None: it
    throws), gmtime, the help texts and the functions not modelled. *)
Definition answer : Type := result (Z * bytes).
Record machine := mkMachine {
  w_files : bytes -> option bytes; w_now : N; w_now' : N; w_rnd : bytes; w_draws : list N;
  w_zip : N -> bytes -> option bytes; w_unzip : N -> bytes -> option bytes; w_fuel : nat;
  w_scan : N -> bytes -> option N; w_hex : bytes -> option N; w_gmtime : Z -> option tm;
  w_help : module -> bytes; w_other : bytes -> parsed -> answer }.

(** Compression::NUMBER, Compress.h 76-81; Sym::NUMBER, Encryptions.h 113-126; Hash::NUMBER,
    Hashes.h 100-108. *)
Definition compression_number : list (bytes * N) := [(str "UNCOMPRESSED", 0); (str "ZIP", 1); (str "ZLIB", 2); (str "BZip2", 3)].
Definition sym_number : list (bytes * N) :=
  [(str "PLAINTEXT", 0); (str "IDEA", 1); (str "TRIPLEDES", 2); (str "CAST5", 3); (str "BLOWFISH", 4); (str "AES128", 7); (str "AES192", 8);
   (str "AES256", 9); (str "TWOFISH256", 10); (str "CAMELLIA128", 11); (str "CAMELLIA192", 12); (str "CAMELLIA256", 13)].
Definition hash_number : list (bytes * N) :=
  [(str "MD5", 1); (str "SHA1", 2); (str "RIPEMD160", 3); (str "SHA256", 8); (str "SHA384", 9); (str "SHA512", 10); (str "SHA224", 11)].

(** return -1, before anything is printed to [out]. *)
Definition fail : answer := Ok ((-1)%Z, []).
(** out << text << std::endl; return code. *)
Definition print (code : Z) (text : bytes) : answer := Ok (code, text ++ [10]).
Definition arg (p : parsed) (name : string) : result bytes := key_at (fst p) (str name).
(** Opening a file, e.g. encrypt_sym.h 65-69, and looking up an algorithm, 71-74. *)
Definition with_file (w : machine) (p : parsed) (name : string) (k : bytes -> answer) : answer :=
  n <- arg p name ;; match w_files w n with None => fail | Some d => k d end.
Definition with_number (t : list (bytes * N)) (p : parsed) (name : string) (k : N -> answer) : answer :=
  n <- arg p name ;; match find_key t n with None => fail | Some x => k x end.
(** A key that may be left out, encrypt_sym.h 91-105, decrypt_sym.h 65-79. *)
Definition with_signer (w : machine) (load : bytes -> result pgp) (ok : pgp -> result bool) (p : parsed) (name : string) (k : option pgp -> answer) : answer :=
  n <- arg p name ;;
  match n with
  | [] => k None
  | _ => match w_files w n with None => fail | Some d => g <- load d ;; m <- ok g ;; if m : bool then k (Some g) else fail end
  end.
(** flags.at("-a") ? YES : NO. *)
Definition armored_arg (p : parsed) : result armored := a <- key_at (snd p) (str "-a") ;; Ok (if a : bool then ArmorYes else ArmorNo).
(** A result that is printed if it is meaningful, e.g. sign_detached_signature.h 84-90. *)
Definition print_if (m : result bool) (text : result bytes) : answer := b <- m ;; if b : bool then t <- text ;; print 0 t else fail.

(** encrypt_sym.h 65-118. *)
Definition run_encrypt_sym (w : machine) (p : parsed) : answer :=
  with_file w p "file" (fun data =>
  with_number compression_number p "-c" (fun comp =>
  with_number sym_number p "--sym" (fun sym =>
  with_number hash_number p "--khash" (fun khash =>
  with_number hash_number p "--shash" (fun shash =>
  with_signer w secret_load secret_meaningful p "--sign" (fun signer =>
    name <- arg p "file" ;; mdc <- key_at (snd p) (str "--mdc") ;; sp <- arg p "-p" ;; pass <- arg p "passphrase" ;; a <- armored_arg p ;;
    m <- encrypt_sym (w_zip w) (w_unzip w) (w_fuel w) (mkEnc name data sym comp mdc signer sp shash) pass khash (w_now w) (w_now' w) (w_rnd w) (w_draws w) ;;
    t <- message_write (w_zip w) m a ;; print 0 t)))))).
(** encrypt_pka.h 64-125. *)
Definition run_encrypt_pka (w : machine) (p : parsed) : answer :=
  with_file w p "public-key" (fun key =>
  with_file w p "file" (fun data =>
  with_number hash_number p "-h" (fun hash =>
  with_number compression_number p "-c" (fun comp =>
  with_number sym_number p "--sym" (fun sym =>
  with_signer w secret_load secret_meaningful p "--sign" (fun signer =>
    name <- arg p "file" ;; mdc <- key_at (snd p) (str "--mdc") ;; sp <- arg p "-p" ;; a <- armored_arg p ;;
    pub <- public_load key ;;
    m <- encrypt_pka (w_zip w) (w_unzip w) (w_fuel w) (mkEnc name data sym comp mdc signer sp hash) pub (w_now w) (w_now' w) (w_rnd w) (w_draws w) ;;
    print_if (message_meaningful false (m_pgp m)) (message_write (w_zip w) m a))))))).

(** Tag11::out(false), Tag11.cpp 93-117, of every literal packet, with what is put behind each. *)
Fixpoint literals (sep : bytes) (ps : list packet) : result bytes :=
  match ps with
  | [] => Ok []
  | p :: r => if p_tag p =? 11 then d <- as_literal p ;; t <- literals sep r ;; Ok (d ++ sep ++ t) else literals sep r
  end.
(** decrypt_sym.h 112-116. *)
Fixpoint signature_lines (ps : list packet) : result bytes :=
  match ps with
  | [] => Ok []
  | p :: r =>
    if p_tag p =? 2 then
      s <- as_sig p ;; id <- sig_keyid s ;; t <- signature_lines r ;; Ok (str "Unverified signature from " ++ hexlify id ++ str " found." ++ [10] ++ t)
    else signature_lines r
  end.
(** The name of a file and the ID of the key in it, as the commands write them. *)
Definition quoted (s : bytes) : bytes := [34] ++ s ++ [34].
Definition signed_by (was : bytes) (name id : bytes) : bytes := was ++ str " signed by " ++ quoted name ++ str " (" ++ hexlify id ++ str ").".
Definition maybe_not (verified : Z) : bytes := if (verified =? 1)%Z then [] else str " not".
(** decrypt_sym.h 88-118, decrypt_pka.h 97-131. *)
Definition show_decrypted (w : machine) (p : parsed) (sep last : bytes) (signer : option pgp) (m : message) : answer :=
  ok <- message_meaningful false (m_pgp m) ;;
  if negb ok then fail
  else
    t <- literals sep (g_packets (m_pgp m)) ;;
    match signer with
    | Some g =>
      v <- verify_binary (w_fuel w) (w_unzip w) g (m_pgp m) ;;
      name <- arg p "-s" ;; id <- keyid g ;;
      print 0 (t ++ last ++ signed_by (str "Message was" ++ maybe_not v) name id ++ [10])
    | None => s <- signature_lines (g_packets (m_pgp m)) ;; print 0 (t ++ last ++ s)
    end.
(** decrypt_sym.h 59-119; the key is a PublicKey. *)
Definition run_decrypt_sym (w : machine) (p : parsed) : answer :=
  with_file w p "file" (fun msg =>
  with_signer w public_load public_meaningful p "-s" (fun signer =>
    message <- message_read (w_unzip w) (w_fuel w) msg ;;
    pass <- arg p "passphrase" ;;
    m <- decrypt_sym (w_unzip w) (w_fuel w) message pass ;;
    show_decrypted w p [] [10; 10] signer m)).
(** decrypt_pka.h 60-132; the key is a Key. *)
Definition run_decrypt_pka (w : machine) (p : parsed) : answer :=
  with_file w p "private-key" (fun key =>
  with_file w p "file" (fun msg =>
  with_signer w key_load meaningful p "-s" (fun signer =>
    pri <- secret_load key ;;
    message <- message_read (w_unzip w) (w_fuel w) msg ;;
    pass <- arg p "passphrase" ;;
    m <- decrypt_pka (w_unzip w) (w_fuel w) pri pass message ;;
    show_decrypted w p [10] [] signer m))).

(** extract_public.h 33-47. *)
Definition run_extract_public (w : machine) (p : parsed) : answer :=
  with_file w p "private-key" (fun key =>
    pri <- secret_load key ;; a <- armored_arg p ;;
    print_if (secret_meaningful pri) (g <- get_public_key pri ;; pgp_write g a)).
(** fingerprint.h 59-104: [fp_groups] is the loop, 88-90. *)
Fixpoint fp_groups (fuel : nat) (fp sep : bytes) (split i : N) : result bytes :=
  match fuel with
  | O => Diverge
  | S f =>
    if u64 (i + split) <? len fp then h <- substr fp i split ;; t <- fp_groups f fp sep split (u64 (i + split)) ;; Ok (hexlify h ++ sep ++ t)
    else Ok []
  end.
Definition separated (fp sep : bytes) (split : N) : result bytes :=
  if split =? 0 then Ok (hexlify fp)
  else
    a <- fp_groups (S (length fp)) fp sep split 0 ;;
    let rem := len fp mod split in
    let rem := if (rem =? 0) || (split =? 1) then split else rem in
    b <- substr fp (sub64 (len fp) rem) rem ;;
    Ok (a ++ hexlify b).
Definition run_fingerprint (w : machine) (p : parsed) : answer :=
  with_file w p "key-file" (fun f =>
    g <- arg p "-g" ;;
    match w_scan w 64 g with
    | None => fail
    | Some split => key <- key_load f ;; sep <- arg p "-s" ;; print_if (meaningful key) (fp <- fingerprint key ;; separated fp sep split)
    end).
(** list.h 58-73: nothing behind the listing. *)
Definition run_list (w : machine) (p : parsed) : answer :=
  with_file w p "key-file" (fun f => key <- key_load f ;; t <- list_keys (w_gmtime w) 0 4 key ;; Ok (0%Z, t)).

(** Sign::Args, sign_file.h 81-84. *)
Definition sign_arg (p : parsed) (pri : pgp) (hash : N) : result sign_args := pass <- arg p "passphrase" ;; Ok (mkArgs pri pass 4 hash).
(** sign_file.h 61-97. *)
Definition run_sign_file (w : machine) (p : parsed) : answer :=
  with_file w p "private-key" (fun key =>
  with_file w p "file" (fun data =>
  with_number compression_number p "-c" (fun comp =>
  with_number hash_number p "-h" (fun hash =>
    pri <- secret_load key ;; s <- sign_arg p pri hash ;; name <- arg p "file" ;; a <- armored_arg p ;;
    ' (m, _) <- sign_binary (w_zip w) (w_unzip w) (w_fuel w) s name data comp (w_now w) (w_now' w) (w_draws w) ;;
    print_if (message_meaningful false (m_pgp m)) (message_write (w_zip w) m a))))).
(** sign_detached_signature.h 60-91. *)
Definition run_sign_detached (w : machine) (p : parsed) : answer :=
  with_file w p "private-key" (fun key =>
  with_file w p "file" (fun data =>
  with_number hash_number p "-h" (fun hash =>
    pri <- secret_load key ;; s <- sign_arg p pri hash ;; a <- armored_arg p ;;
    ' (g, _) <- sign_detached s (w_now w) data (w_draws w) ;;
    print_if (Ok (detached_meaningful g)) (pgp_write g a)))).
(** sign_cleartext_signature.h 60-91. *)
Definition run_sign_cleartext (w : machine) (p : parsed) : answer :=
  with_file w p "private-key" (fun key =>
  with_file w p "file" (fun data =>
  with_number hash_number p "-h" (fun hash =>
    pri <- secret_load key ;; s <- sign_arg p pri hash ;;
    ' (c, _) <- sign_cleartext s (w_now w) data (w_draws w) ;;
    print_if (Ok (detached_meaningful (cs_sig c))) (cs_write c)))).
(** sign_timestamp.h 60-92. *)
Definition run_sign_timestamp (w : machine) (p : parsed) : answer :=
  with_file w p "signer-key" (fun key =>
    t <- arg p "seconds-since-epoch" ;;
    match w_scan w 32 t with
    | None => fail
    | Some time =>
      with_number hash_number p "-h" (fun hash =>
        pri <- secret_load key ;; s <- sign_arg p pri hash ;; a <- armored_arg p ;;
        ' (g, _) <- sign_timestamp s time (w_draws w) ;;
        print_if (Ok (detached_meaningful g)) (pgp_write g a))
    end).
(** sign_primary_key.h 62-93. *)
Definition run_sign_primary_key (w : machine) (p : parsed) : answer :=
  with_file w p "signer-key" (fun key =>
  with_file w p "signee-key" (fun other =>
  with_number hash_number p "-h" (fun hash =>
    pri <- secret_load key ;; s <- sign_arg p pri hash ;; signee <- public_load other ;; u <- arg p "-u" ;; c <- arg p "-c" ;; a <- armored_arg p ;;
    match w_hex w c with
    | None => Throw EInvalidArgument
    | Some cert => ' (g, _) <- sign_primary_key s (w_now w) signee u (u8 cert) (w_draws w) ;; print_if (public_meaningful g) (pgp_write g a)
    end))).
(** sign_subkey.h 63-96: not finished, -1 in any case. *)
Definition run_sign_subkey (w : machine) (p : parsed) : answer :=
  with_file w p "signer-key" (fun key =>
  with_file w p "signee-key" (fun _ =>
  with_number hash_number p "-h" (fun hash => pri <- secret_load key ;; _ <- sign_arg p pri hash ;; fail))).

(** The end of the verify commands, verify_file.h 74-82: [return !verified]. *)
Definition verdict (v : Z) (text : bytes) : answer :=
  if (v =? -1)%Z then fail else print (if (v =? 0)%Z then 1 else 0)%Z text.
(** verify_file.h 59-83. *)
Definition run_verify_file (w : machine) (p : parsed) : answer :=
  with_file w p "key" (fun key =>
  with_file w p "message" (fun msg =>
    g <- key_load key ;; m <- message_read (w_unzip w) (w_fuel w) msg ;;
    v <- verify_binary (w_fuel w) (w_unzip w) g (m_pgp m) ;;
    n <- arg p "message" ;; k <- arg p "key" ;; id <- keyid g ;;
    verdict v (signed_by (str "The data in " ++ quoted n ++ str " was" ++ maybe_not v) k id))).
(** verify_detached_signature.h 60-90. *)
Definition run_verify_detached (w : machine) (p : parsed) : answer :=
  with_file w p "key" (fun key =>
  with_file w p "file" (fun data =>
  with_file w p "signature" (fun sig =>
    g <- key_load key ;; s <- detached_load sig ;;
    v <- verify_detached g data s ;;
    n <- arg p "file" ;; k <- arg p "key" ;; id <- keyid g ;;
    verdict v (signed_by (str "File " ++ quoted n ++ str " was" ++ maybe_not v) k id)))).
(** verify_cleartext_signature.h 59-83. *)
Definition run_verify_cleartext (w : machine) (p : parsed) : answer :=
  with_file w p "key" (fun key =>
  with_file w p "signature" (fun sig =>
    g <- key_load key ;; c <- cleartext_load sig ;;
    v <- verify_cleartext g c ;;
    k <- arg p "key" ;; id <- keyid g ;;
    verdict v (signed_by (str "This message was" ++ maybe_not v) k id))).
(** verify_timestamp.h 59-83. *)
Definition run_verify_timestamp (w : machine) (p : parsed) : answer :=
  with_file w p "key" (fun key =>
  with_file w p "signature" (fun sig =>
    g <- key_load key ;; s <- detached_load sig ;;
    v <- verify_timestamp g s ;;
    n <- arg p "signature" ;; k <- arg p "key" ;; id <- keyid g ;;
    verdict v (signed_by (str "Timestamp signature in " ++ quoted n ++ str " was" ++ maybe_not v) k id))).
(** verify_primary_key.h 59-82. *)
Definition run_verify_primary_key (w : machine) (p : parsed) : answer :=
  with_file w p "signer-key" (fun signer =>
  with_file w p "signee-key" (fun signee =>
    g <- key_load signer ;; h <- key_load signee ;;
    v <- verify_primary_key g h ;;
    n <- arg p "signee-key" ;; k <- arg p "signer-key" ;; hid <- keyid h ;; id <- keyid g ;;
    verdict v (str "Key in " ++ quoted n ++ str " (" ++ hexlify hid ++ str ") was" ++ maybe_not v ++ str " signed by key in " ++ quoted k ++ str " (" ++ hexlify id ++ str ")."))).
(** verify_revoke.h 59-83. *)
Definition run_verify_revoke (w : machine) (p : parsed) : answer :=
  with_file w p "key" (fun key =>
  with_file w p "revocation-certificate" (fun cert =>
    g <- key_load key ;; c <- certificate_load cert ;;
    v <- verify_revoke g c ;;
    n <- arg p "revocation-certificate" ;; k <- arg p "key" ;; id <- keyid g ;;
    verdict v (str "The certificate in " ++ quoted n ++ str " " ++ (if (v =? 1)%Z then str "revokes" else str "does not revoke") ++ str " key in " ++ quoted k ++ str " (" ++ hexlify id ++ str ")."))).

(** revoke_with_cert.h 59-83. *)
Definition run_revoke_with_cert (w : machine) (p : parsed) : answer :=
  with_file w p "target" (fun target =>
  with_file w p "revocation-certificate" (fun cert =>
    g <- key_load target ;; c <- certificate_load cert ;; a <- armored_arg p ;;
    r <- revoke_with_cert g c ;; print_if (public_meaningful r) (pgp_write r a))).
(** A revocation code, revoke_primary_key.h 67-72: is_key_revocation takes an octet, Sub29.cpp 28-30. *)
Definition with_code (w : machine) (p : parsed) (k : N -> answer) : answer :=
  c <- arg p "-c" ;; match w_scan w 32 c with None => fail | Some code => if u8 code <=? 3 then k (u8 code) else fail end.
(** Revoke::Args, revoke_primary_key.h 79-86. *)
Definition rev_arg (p : parsed) (pri : pgp) (code hash : N) : result rev_args :=
  pass <- arg p "passphrase" ;; r <- arg p "-r" ;; Ok (mkRev pri pass pri code r 4 hash).
(** revoke_primary_key.h 61-97, revoke_subkey.h 62-98, revoke_uid.h 62-98: [f] is Revoke::key,
    subkey or uid. *)
Definition run_revoke (w : machine) (p : parsed) (f : rev_args -> result (pgp * list N)) : answer :=
  with_file w p "private-key" (fun key =>
  with_code w p (fun code =>
  with_number hash_number p "-h" (fun hash =>
    pri <- secret_load key ;; r <- rev_arg p pri code hash ;; a <- armored_arg p ;;
    ' (g, _) <- f r ;; print_if (public_meaningful g) (pgp_write g a)))).
Definition run_revoke_primary_key (w : machine) (p : parsed) : answer := run_revoke w p (fun r => revoke_key r (w_now w) (w_draws w)).
Definition run_revoke_subkey (w : machine) (p : parsed) : answer := run_revoke w p (fun r => k <- arg p "-k" ;; revoke_subkey r k (w_now w) (w_draws w)).
Definition run_revoke_uid (w : machine) (p : parsed) : answer := run_revoke w p (fun r => u <- arg p "-u" ;; revoke_uid r u (w_now w) (w_draws w)).
(** generate_revoke_key_cert.h 61-97: the test is not negated. *)
Definition run_revoke_key_cert (w : machine) (p : parsed) : answer :=
  with_file w p "private-key" (fun key =>
  with_code w p (fun code =>
  with_number hash_number p "-h" (fun hash =>
    pri <- secret_load key ;; r <- rev_arg p pri code hash ;; a <- armored_arg p ;;
    ' (g, _) <- key_cert r (w_now w) (w_draws w) ;;
    print_if (m <- revocation_meaningful g ;; Ok (negb m)) (pgp_write g a)))).
(** generate_revoke_subkey_cert.h 62-98. *)
Definition run_revoke_subkey_cert (w : machine) (p : parsed) : answer :=
  with_file w p "private-key" (fun key =>
  with_code w p (fun code =>
  with_number hash_number p "-h" (fun hash =>
    pri <- secret_load key ;; r <- rev_arg p pri code hash ;; k <- arg p "-k" ;; a <- armored_arg p ;;
    ' (g, _) <- subkey_cert r k (w_now w) (w_draws w) ;;
    print_if (revocation_meaningful g) (pgp_write g a)))).
(** generate_revoke_uid_cert.h 61-90: the code is USER_ID_INFORMATION_IS_NO_LONGER_VALID. *)
Definition run_revoke_uid_cert (w : machine) (p : parsed) : answer :=
  with_file w p "private-key" (fun key =>
  with_number hash_number p "-h" (fun hash =>
    pri <- secret_load key ;; r <- rev_arg p pri 32 hash ;; u <- arg p "-u" ;; a <- armored_arg p ;;
    ' (g, _) <- uid_cert r u (w_now w) (w_draws w) ;;
    print_if (revocation_meaningful g) (pgp_write g a))).

(** The function of a module, by its name. *)
Definition functions : list (bytes * (machine -> parsed -> answer)) :=
  [(str "list", run_list); (str "fingerprint", run_fingerprint); (str "extract-public", run_extract_public);
   (str "encrypt-pka", run_encrypt_pka); (str "encrypt-sym", run_encrypt_sym); (str "decrypt-pka", run_decrypt_pka); (str "decrypt-sym", run_decrypt_sym);
   (str "generate-revoke-key-cert", run_revoke_key_cert); (str "generate-revoke-subkey-cert", run_revoke_subkey_cert);
   (str "generate-revoke-uid-cert", run_revoke_uid_cert); (str "revoke-with-cert", run_revoke_with_cert); (str "revoke-primary-key", run_revoke_primary_key);
   (str "revoke-subkey", run_revoke_subkey); (str "revoke-uid", run_revoke_uid); (str "sign-cleartext-signature", run_sign_cleartext);
   (str "sign-detached-signature", run_sign_detached); (str "sign-file", run_sign_file); (str "sign-primary-key", run_sign_primary_key);
   (str "sign-subkey", run_sign_subkey); (str "sign-timestamp", run_sign_timestamp); (str "verify-cleartext-signature", run_verify_cleartext);
   (str "verify-detached-signature", run_verify_detached); (str "verify-file", run_verify_file); (str "verify-primary-key", run_verify_primary_key);
   (str "verify-revoke", run_verify_revoke); (str "verify-timestamp", run_verify_timestamp)].
Definition function_of (w : machine) (m : module) : parsed -> answer :=
  match find_key functions (m_name m) with Some f => f w | None => w_other w (m_name m) end.
(** Module::operator(), module.cpp 173-193, with what is written to [out]: after a failure the
    help text. *)
Definition execute (w : machine) (m : module) (argv : list bytes) : answer :=
  match parse_loop m false (m_pos m) argv (defaults m) with
  | (Some _, _) => Ok ((-1)%Z, w_help w m ++ [10])
  | (None, p) => ' (r, out) <- function_of w m p ;; Ok (if (r =? -1)%Z then ((-1)%Z, out ++ w_help w m ++ [10]) else (0%Z, out))
  end.
(** main, cli/main.cpp 57-106, for a command that is there; None for help and unknown names. *)
Definition program (w : machine) (argv : list bytes) : option answer :=
  match cli_main argv with Call m _ rest => Some (execute w m rest) | _ => None end.
