(** The command line: cli/modules/module.h, module.cpp and the modules' declarations, cli/main.cpp. *)
From Verif Require Export Model.Base.

(** A module, module.h 57-61; std::map as a list of pairs of which the first one with a key
    counts (as for the initialisers).  The explanations and the function are left out. *)
Record module := mkModule { m_name : bytes; m_pos : list bytes; m_opts : list (bytes * bytes); m_flags : list (bytes * bool) }.

(** std::map::find and operator[]. *)
Fixpoint find_key {A} (m : list (bytes * A)) (k : bytes) : option A :=
  match m with [] => None | (k', v) :: r => if beq k' k then Some v else find_key r k end.
Definition has_key {A} (m : list (bytes * A)) (k : bytes) : bool := match find_key m k with Some _ => true | None => false end.
Definition put_key {A} (m : list (bytes * A)) (k : bytes) (v : A) : list (bytes * A) := (k, v) :: m.
(** std::map::at. *)
Definition key_at {A} (m : list (bytes * A)) (k : bytes) : result A := match find_key m k with Some v => Ok v | None => Throw EOutOfRange end.

(** std::isspace in the "C" locale. *)
Definition isspace (c : N) : bool := (c =? 32) || ((9 <=? c) && (c <=? 13)).
(** check_names_ws, module.cpp 5-36. *)
Definition check_names_ws (m : module) : result unit :=
  match m_name m with
  | [] => Throw ERuntime
  | _ =>
    if existsb isspace (m_name m) then Throw ERuntime
    else if existsb (fun o => existsb isspace (fst o)) (m_opts m) then Throw ERuntime
    else if existsb (fun f => existsb isspace (fst f)) (m_flags m) then Throw ERuntime
    else Ok tt
  end.

(** std::string::operator<: the first octet that differs decides, a prefix is smaller. *)
Fixpoint blt (a b : bytes) : bool :=
  match a, b with
  | _, [] => false
  | [], _ :: _ => true
  | x :: a', y :: b' => if x =? y then blt a' b' else x <? y
  end.
(** std::sort of strings. *)
Fixpoint insert_sorted (x : bytes) (l : list bytes) : list bytes :=
  match l with [] => [x] | y :: r => if blt y x then y :: insert_sorted x r else x :: l end.
Definition sort_strings (l : list bytes) : list bytes := fold_right insert_sorted [] l.
(** 42-46. *)
Fixpoint neighbours_equal (l : list bytes) : bool :=
  match l with
  | x :: (y :: _) as r => beq x y || neighbours_equal r
  | _ => false
  end.
(** check_duplicate, 38-68. *)
Definition check_duplicate (m : module) : result unit :=
  if neighbours_equal (sort_strings (m_pos m)) then Throw ERuntime
  else if existsb (has_key (m_opts m)) (m_pos m) then Throw ERuntime
  else if existsb (has_key (m_flags m)) (m_pos m) then Throw ERuntime
  else if existsb (fun f => has_key (m_opts m) (fst f)) (m_flags m) then Throw ERuntime
  else Ok tt.
(** Module::Module, 116-130. *)
Definition module_new (m : module) : result module :=
  _ <- check_names_ws m ;; _ <- check_duplicate m ;; Ok m.

(** The parsed arguments and flags, and what parse returns: None for the null pointer. *)
Definition parsed : Type := list (bytes * bytes) * list (bytes * bool).
(** The loop of parse, 76-107, with what follows it, 109-113: [pos] the positional arguments
    not yet filled.  An option without a value ends the loop. *)
Fixpoint parse_loop (m : module) (is_positional : bool) (pos : list bytes) (argv : list bytes) (p : parsed) : option bytes * parsed :=
  match argv with
  | [] => (match pos with [] => None | x :: _ => Some x end, p)
  | a :: r =>
    if beq a (str "--") then parse_loop m true pos r p
    else
      let positional_case :=
        match pos with
        | [] => parse_loop m is_positional [] r p
        | x :: pos' => parse_loop m is_positional pos' r (put_key (fst p) x a, snd p)
        end in
      if is_positional then positional_case
      else if has_key (m_opts m) a then
        match r with
        | [] => (Some a, p)
        | v :: r' => parse_loop m is_positional pos r' (put_key (fst p) a v, snd p)
        end
      else match find_key (m_flags m) a with
           | Some d => parse_loop m is_positional pos r (fst p, put_key (snd p) a (negb d))
           | None => positional_case
           end
  end.
(** The default values, 180-191: the maps are filled in order, so that the first default counts. *)
Definition defaults (m : module) : parsed := (m_opts m, m_flags m).
(** operator(), 178-200: None when the help text is printed and -1 returned; [run] is the
    module's function. *)
Definition invoke (m : module) (run : parsed -> result Z) (argv : list bytes) : result Z :=
  match parse_loop m false (m_pos m) argv (defaults m) with
  | (Some _, _) => Ok (-1)%Z
  | (None, p) => r <- run p ;; Ok (if (r =? -1)%Z then (-1)%Z else 0%Z)
  end.

(** modules/list.h 34-53; the names the function looks up, 54-74. *)
Definition cli_list : module := mkModule (str "list")
  [str "key-file"]
  []
  [].
Definition uses_list : list bytes * list bytes := ([str "key-file"], []).
(** modules/fingerprint.h 34-54; the names the function looks up, 55-105. *)
Definition cli_fingerprint : module := mkModule (str "fingerprint")
  [str "key-file"]
  [(str "-s", str ":"); (str "-g", str "1")]
  [].
Definition uses_fingerprint : list bytes * list bytes := ([str "key-file"; str "-g"; str "-s"], []).
(** modules/show.h 34-53; the names the function looks up, 54-67. *)
Definition cli_show : module := mkModule (str "show")
  [str "file"]
  []
  [].
Definition uses_show : list bytes * list bytes := ([str "file"], []).
(** modules/show_cleartext_signature.h 34-53; the names the function looks up, 54-68. *)
Definition cli_show_cleartext_signature : module := mkModule (str "show-cleartext-signature")
  [str "file"]
  []
  [].
Definition uses_show_cleartext_signature : list bytes * list bytes := ([str "file"; str "filename"], []).
(** modules/extract_public.h 9-28; the names the function looks up, 29-48. *)
Definition cli_extract_public : module := mkModule (str "extract-public")
  [str "private-key"]
  []
  [(str "-a", true)].
Definition uses_extract_public : list bytes * list bytes := ([str "private-key"], [str "-a"]).
(** modules/encrypt_pka.h 34-59; the names the function looks up, 60-126. *)
Definition cli_encrypt_pka : module := mkModule (str "encrypt-pka")
  [str "public-key"; str "file"]
  [(str "-c", str "ZLIB"); (str "-p", str ""); (str "--sign", str ""); (str "--sym", str "AES256"); (str "-h", str "SHA1")]
  [(str "-a", true); (str "--mdc", true)].
Definition uses_encrypt_pka : list bytes * list bytes := ([str "public-key"; str "file"; str "-h"; str "-c"; str "--sym"; str "--sign"; str "-p"], [str "--mdc"; str "-a"]).
(** modules/encrypt_sym.h 34-60; the names the function looks up, 61-119. *)
Definition cli_encrypt_sym : module := mkModule (str "encrypt-sym")
  [str "file"; str "passphrase"]
  [(str "-c", str "ZLIB"); (str "-p", str ""); (str "--sym", str "AES256"); (str "--khash", str "SHA1"); (str "--sign", str ""); (str "--shash", str "SHA1")]
  [(str "-a", true); (str "--mdc", true)].
Definition uses_encrypt_sym : list bytes * list bytes := ([str "file"; str "-c"; str "--sym"; str "--khash"; str "--shash"; str "--sign"; str "-p"; str "passphrase"], [str "--mdc"; str "-a"]).
(** modules/decrypt_pka.h 34-55; the names the function looks up, 56-133. *)
Definition cli_decrypt_pka : module := mkModule (str "decrypt-pka")
  [str "private-key"; str "passphrase"; str "file"]
  [(str "-s", str "")]
  [].
Definition uses_decrypt_pka : list bytes * list bytes := ([str "private-key"; str "file"; str "-s"; str "passphrase"], []).
(** modules/decrypt_sym.h 34-54; the names the function looks up, 55-120. *)
Definition cli_decrypt_sym : module := mkModule (str "decrypt-sym")
  [str "file"; str "passphrase"]
  [(str "-s", str "")]
  [].
Definition uses_decrypt_sym : list bytes * list bytes := ([str "file"; str "-s"; str "passphrase"], []).
(** modules/generate_keypair.h 37-72; the names the function looks up, 73-169. *)
Definition cli_generate_keypair : module := mkModule (str "generate-keypair")
  []
  [(str "-o", str "key"); (str "-p", str ""); (str "-u", str ""); (str "-c", str ""); (str "-e", str ""); (str "--ppka", str "RSA_ENCRYPT_OR_SIGN"); (str "--pkeysize", str "2048"); (str "--psym", str "AES256"); (str "--phash", str "SHA1"); (str "--psig", str "SHA1"); (str "--spka", str "RSA_ENCRYPT_OR_SIGN"); (str "--skeysize", str "2048"); (str "--ssym", str "AES256"); (str "--shash", str "SHA1"); (str "--ssig", str "SHA1")]
  [(str "-a", true)].
Definition uses_generate_keypair : list bytes * list bytes := ([str "--ppka"; str "--pka"; str "--psym"; str "--phash"; str "--psig"; str "--spka"; str "--ska"; str "--ssym"; str "--shash"; str "--ssig"; str "-p"; str "--pkeysize"; str "-u"; str "-c"; str "-e"; str "--skeysize"; str "-o"], [str "-a"]).
(** modules/generate_revoke_key_cert.h 34-56; the names the function looks up, 57-98. *)
Definition cli_generate_revoke_key_cert : module := mkModule (str "generate-revoke-key-cert")
  [str "private-key"; str "passphrase"]
  [(str "-c", str "0"); (str "-r", str ""); (str "-h", str "SHA1")]
  [(str "-a", true)].
Definition uses_generate_revoke_key_cert : list bytes * list bytes := ([str "private-key"; str "-c"; str "-h"; str "passphrase"; str "-r"], [str "-a"]).
(** modules/generate_revoke_subkey_cert.h 34-57; the names the function looks up, 58-99. *)
Definition cli_generate_revoke_subkey_cert : module := mkModule (str "generate-revoke-subkey-cert")
  [str "private-key"; str "passphrase"]
  [(str "-c", str "0"); (str "-r", str ""); (str "-h", str "SHA1"); (str "-k", str "")]
  [(str "-a", true)].
Definition uses_generate_revoke_subkey_cert : list bytes * list bytes := ([str "private-key"; str "-c"; str "-h"; str "passphrase"; str "-r"; str "-k"], [str "-a"]).
(** modules/generate_revoke_uid_cert.h 34-56; the names the function looks up, 57-91. *)
Definition cli_generate_revoke_uid_cert : module := mkModule (str "generate-revoke-uid-cert")
  [str "private-key"; str "passphrase"]
  [(str "-r", str ""); (str "-h", str "SHA1"); (str "-u", str "")]
  [(str "-a", true)].
Definition uses_generate_revoke_uid_cert : list bytes * list bytes := ([str "private-key"; str "-h"; str "passphrase"; str "-r"; str "-u"], [str "-a"]).
(** modules/revoke_with_cert.h 34-54; the names the function looks up, 55-84. *)
Definition cli_revoke_with_cert : module := mkModule (str "revoke-with-cert")
  [str "target"; str "revocation-certificate"]
  []
  [(str "-a", true)].
Definition uses_revoke_with_cert : list bytes * list bytes := ([str "target"; str "revocation-certificate"], [str "-a"]).
(** modules/revoke_primary_key.h 34-56; the names the function looks up, 57-98. *)
Definition cli_revoke_primary_key : module := mkModule (str "revoke-primary-key")
  [str "private-key"; str "passphrase"]
  [(str "-c", str "0"); (str "-r", str ""); (str "-h", str "SHA1")]
  [(str "-a", true)].
Definition uses_revoke_primary_key : list bytes * list bytes := ([str "private-key"; str "-c"; str "-h"; str "passphrase"; str "-r"], [str "-a"]).
(** modules/revoke_subkey.h 34-57; the names the function looks up, 58-99. *)
Definition cli_revoke_subkey : module := mkModule (str "revoke-subkey")
  [str "private-key"; str "passphrase"]
  [(str "-c", str "0"); (str "-r", str ""); (str "-h", str "SHA1"); (str "-k", str "")]
  [(str "-a", true)].
Definition uses_revoke_subkey : list bytes * list bytes := ([str "private-key"; str "-c"; str "-h"; str "passphrase"; str "-r"; str "-k"], [str "-a"]).
(** modules/revoke_uid.h 34-57; the names the function looks up, 58-99. *)
Definition cli_revoke_uid : module := mkModule (str "revoke-uid")
  [str "private-key"; str "passphrase"]
  [(str "-c", str "0"); (str "-r", str ""); (str "-h", str "SHA1"); (str "-u", str "")]
  [(str "-a", true)].
Definition uses_revoke_uid : list bytes * list bytes := ([str "private-key"; str "-c"; str "-h"; str "passphrase"; str "-r"; str "-u"], [str "-a"]).
(** modules/sign_cleartext_signature.h 34-55; the names the function looks up, 56-92. *)
Definition cli_sign_cleartext_signature : module := mkModule (str "sign-cleartext-signature")
  [str "private-key"; str "passphrase"; str "file"]
  [(str "-h", str "SHA1")]
  [].
Definition uses_sign_cleartext_signature : list bytes * list bytes := ([str "private-key"; str "file"; str "-h"; str "passphrase"], []).
(** modules/sign_detached_signature.h 34-55; the names the function looks up, 56-92. *)
Definition cli_sign_detached_signature : module := mkModule (str "sign-detached-signature")
  [str "private-key"; str "passphrase"; str "file"]
  [(str "-h", str "SHA1")]
  [(str "-a", true)].
Definition uses_sign_detached_signature : list bytes * list bytes := ([str "private-key"; str "file"; str "-h"; str "passphrase"], [str "-a"]).
(** modules/sign_file.h 34-56; the names the function looks up, 57-98. *)
Definition cli_sign_file : module := mkModule (str "sign-file")
  [str "private-key"; str "passphrase"; str "file"]
  [(str "-c", str "ZLIB"); (str "-h", str "SHA1")]
  [(str "-a", true)].
Definition uses_sign_file : list bytes * list bytes := ([str "private-key"; str "file"; str "-c"; str "-h"; str "passphrase"], [str "-a"]).
(** modules/sign_primary_key.h 34-57; the names the function looks up, 58-94. *)
Definition cli_sign_primary_key : module := mkModule (str "sign-primary-key")
  [str "signer-key"; str "passphrase"; str "signee-key"]
  [(str "-c", str "13"); (str "-h", str "SHA1"); (str "-u", str "")]
  [(str "-a", true)].
Definition uses_sign_primary_key : list bytes * list bytes := ([str "signer-key"; str "signee-key"; str "-h"; str "passphrase"; str "-u"; str "-c"], [str "-a"]).
(** modules/sign_subkey.h 34-58; the names the function looks up, 59-97. *)
Definition cli_sign_subkey : module := mkModule (str "sign-subkey")
  [str "signer-key"; str "passphrase"; str "signee-key"]
  [(str "-c", str "13"); (str "-h", str "SHA1"); (str "-u", str ""); (str "-v", str "")]
  [(str "-a", true)].
Definition uses_sign_subkey : list bytes * list bytes := ([str "signer-key"; str "signee-key"; str "-h"; str "passphrase"; str "-c"], [str "-a"]).
(** modules/sign_timestamp.h 34-55; the names the function looks up, 56-93. *)
Definition cli_sign_timestamp : module := mkModule (str "sign-timestamp")
  [str "signer-key"; str "passphrase"; str "seconds-since-epoch"]
  [(str "-h", str "SHA1")]
  [(str "-a", true)].
Definition uses_sign_timestamp : list bytes * list bytes := ([str "signer-key"; str "seconds-since-epoch"; str "-h"; str "passphrase"], [str "-a"]).
(** modules/verify_cleartext_signature.h 34-54; the names the function looks up, 55-84. *)
Definition cli_verify_cleartext_signature : module := mkModule (str "verify-cleartext-signature")
  [str "key"; str "signature"]
  []
  [].
Definition uses_verify_cleartext_signature : list bytes * list bytes := ([str "key"; str "signature"], []).
(** modules/verify_detached_signature.h 34-55; the names the function looks up, 56-91. *)
Definition cli_verify_detached_signature : module := mkModule (str "verify-detached-signature")
  [str "key"; str "file"; str "signature"]
  []
  [].
Definition uses_verify_detached_signature : list bytes * list bytes := ([str "key"; str "file"; str "signature"], []).
(** modules/verify_file.h 34-54; the names the function looks up, 55-84. *)
Definition cli_verify_file : module := mkModule (str "verify-file")
  [str "key"; str "message"]
  []
  [].
Definition uses_verify_file : list bytes * list bytes := ([str "key"; str "message"], []).
(** modules/verify_primary_key.h 34-54; the names the function looks up, 55-83. *)
Definition cli_verify_primary_key : module := mkModule (str "verify-primary-key")
  [str "signer-key"; str "signee-key"]
  []
  [].
Definition uses_verify_primary_key : list bytes * list bytes := ([str "signer-key"; str "signee-key"], []).
(** modules/verify_revoke.h 34-54; the names the function looks up, 55-84. *)
Definition cli_verify_revoke : module := mkModule (str "verify-revoke")
  [str "key"; str "revocation-certificate"]
  []
  [].
Definition uses_verify_revoke : list bytes * list bytes := ([str "key"; str "revocation-certificate"], []).
(** modules/verify_timestamp.h 34-54; the names the function looks up, 55-84. *)
Definition cli_verify_timestamp : module := mkModule (str "verify-timestamp")
  [str "key"; str "signature"]
  []
  [].
Definition uses_verify_timestamp : list bytes * list bytes := ([str "key"; str "signature"], []).
(** modules/modules.h 65-95. *)
Definition ordered : list (module * (list bytes * list bytes)) :=
  [(cli_list, uses_list);
   (cli_fingerprint, uses_fingerprint);
   (cli_show, uses_show);
   (cli_show_cleartext_signature, uses_show_cleartext_signature);
   (cli_extract_public, uses_extract_public);
   (cli_encrypt_pka, uses_encrypt_pka);
   (cli_encrypt_sym, uses_encrypt_sym);
   (cli_decrypt_pka, uses_decrypt_pka);
   (cli_decrypt_sym, uses_decrypt_sym);
   (cli_generate_keypair, uses_generate_keypair);
   (cli_generate_revoke_key_cert, uses_generate_revoke_key_cert);
   (cli_generate_revoke_subkey_cert, uses_generate_revoke_subkey_cert);
   (cli_generate_revoke_uid_cert, uses_generate_revoke_uid_cert);
   (cli_revoke_with_cert, uses_revoke_with_cert);
   (cli_revoke_primary_key, uses_revoke_primary_key);
   (cli_revoke_subkey, uses_revoke_subkey);
   (cli_revoke_uid, uses_revoke_uid);
   (cli_sign_cleartext_signature, uses_sign_cleartext_signature);
   (cli_sign_detached_signature, uses_sign_detached_signature);
   (cli_sign_file, uses_sign_file);
   (cli_sign_primary_key, uses_sign_primary_key);
   (cli_sign_subkey, uses_sign_subkey);
   (cli_sign_timestamp, uses_sign_timestamp);
   (cli_verify_cleartext_signature, uses_verify_cleartext_signature);
   (cli_verify_detached_signature, uses_verify_detached_signature);
   (cli_verify_file, uses_verify_file);
   (cli_verify_primary_key, uses_verify_primary_key);
   (cli_verify_revoke, uses_verify_revoke);
   (cli_verify_timestamp, uses_verify_timestamp)].

(** main, cli/main.cpp 57-106, for the arguments behind the program's name: help (any first
    argument that begins with "help"), a module, or -1.  The mapping is filled in order, the last
    module of a name counts.  The texts printed are left out, std::regex with them. *)
Inductive action := Help | Unknown | Call (m : module) (uses : list bytes * list bytes) (argv : list bytes).
Fixpoint find_module (l : list (module * (list bytes * list bytes))) (name : bytes) : option (module * (list bytes * list bytes)) :=
  match l with
  | [] => None
  | x :: r => match find_module r name with Some y => Some y | None => if beq (m_name (fst x)) name then Some x else None end
  end.
Definition cli_main (argv : list bytes) : action :=
  match argv with
  | [] => Help
  | a :: r =>
    if beq (firstn 4 a) (str "help") then Help
    else match find_module ordered a with None => Unknown | Some (m, u) => Call m u r end
  end.
(** The function of generate-keypair up to the key generation, generate_keypair.h 77-117: a name
    of an algorithm that is not known is an error, but the message for the two public key
    algorithms looks up "--pka" and "--ska".  [pkas], [syms], [hashes]: the NUMBER maps. *)
Definition keypair_checks (pkas syms hashes : list (bytes * N)) (p : parsed) : result bool :=
  a <- key_at (fst p) (str "--ppka") ;;
  if negb (has_key pkas a) then _ <- key_at (fst p) (str "--pka") ;; Ok false
  else
    a <- key_at (fst p) (str "--psym") ;;
    if negb (has_key syms a) then Ok false else
    a <- key_at (fst p) (str "--phash") ;;
    if negb (has_key hashes a) then Ok false else
    a <- key_at (fst p) (str "--psig") ;;
    if negb (has_key hashes a) then Ok false else
    a <- key_at (fst p) (str "--spka") ;;
    if negb (has_key pkas a) then _ <- key_at (fst p) (str "--ska") ;; Ok false
    else
      a <- key_at (fst p) (str "--ssym") ;;
      if negb (has_key syms a) then Ok false else
      a <- key_at (fst p) (str "--shash") ;;
      if negb (has_key hashes a) then Ok false else
      a <- key_at (fst p) (str "--ssig") ;;
      if negb (has_key hashes a) then Ok false else Ok true.
(** The function of show-cleartext-signature, show_cleartext_signature.h 53-66: [opened] the
    file's octets; the message for a file that is not there looks up "filename". *)
Definition show_cleartext (opened : option bytes) (show : bytes -> result Z) (p : parsed) : result Z :=
  _ <- key_at (fst p) (str "file") ;;
  match opened with
  | None => _ <- key_at (fst p) (str "filename") ;; Ok (-1)%Z
  | Some text => _ <- show text ;; Ok 0%Z
  end.
