(** The help texts: cli/modules/module.cpp 138-192, the explanations of cli/modules/*.h, and
    cli/main.cpp 34-106. *)
From Verif Require Export Model.Cli Model.Times.

(** The explanations of the options and flags, first members of the pairs in the declarations of
    cli/modules/*.h, for each module that has any. *)
Definition explanations : list (bytes * list (bytes * bytes)) :=
  [(str "fingerprint", [(str "-s", str "separator"); (str "-g", str "group this many octets together")]);
   (str "extract-public", [(str "-a", str "armored")]);
   (str "encrypt-pka", [(str "-c", str "compression (UNCOMPRESSED, ZIP, ZLIB, BZIP2)"); (str "-p", str "passphrase for signing key"); (str "--sign", str "private key file"); (str "--sym", str "symmetric encryption algorithm"); (str "-h", str "hash_algorithm for signing"); (str "-a", str "armored"); (str "--mdc", str "use mdc?")]);
   (str "encrypt-sym", [(str "-c", str "compression (UNCOMPRESSED, ZIP, ZLIB, BZIP2)"); (str "-p", str "passphrase for signing key"); (str "--sym", str "symmetric encryption algorithm"); (str "--khash", str "hash algorithm for key generation"); (str "--sign", str "private key file"); (str "--shash", str "hash algorithm for signing"); (str "-a", str "armored"); (str "--mdc", str "use mdc?")]);
   (str "decrypt-pka", [(str "-s", str "signing public key")]);
   (str "decrypt-sym", [(str "-s", str "signing public key")]);
   (str "generate-keypair", [(str "-o", str "prefix of output files"); (str "-p", str "passphase"); (str "-u", str "username"); (str "-c", str "comment"); (str "-e", str "email"); (str "--ppka", str "Primary Key PKA"); (str "--pkeysize", str "Primary PKA Key size in bits"); (str "--psym", str "Primary Key S2K Symmetric Key Algorithm"); (str "--phash", str "Primary Key S2K Hash Algorithm"); (str "--psig", str "Primary Key Signature Hash Algorithm"); (str "--spka", str "Subkey PKA"); (str "--skeysize", str "Subkey PKA size in bits"); (str "--ssym", str "Subkey S2K Symmetric Key Algorithm"); (str "--shash", str "Subkey S2K Hash Algorithm"); (str "--ssig", str "Subkey Signature Hash Algorithm"); (str "-a", str "armored")]);
   (str "generate-revoke-key-cert", [(str "-c", str "code (0-3)"); (str "-r", str "reason"); (str "-h", str "hash_algorithm"); (str "-a", str "armored")]);
   (str "generate-revoke-subkey-cert", [(str "-c", str "code (0-3)"); (str "-r", str "reason"); (str "-h", str "hash_algorithm"); (str "-k", str "subkey ID to match"); (str "-a", str "armored")]);
   (str "generate-revoke-uid-cert", [(str "-r", str "reason"); (str "-h", str "hash_algorithm"); (str "-u", str "User ID to match"); (str "-a", str "armored")]);
   (str "revoke-with-cert", [(str "-a", str "armored")]);
   (str "revoke-primary-key", [(str "-c", str "code (0-3)"); (str "-r", str "reason"); (str "-h", str "hash_algorithm"); (str "-a", str "armored")]);
   (str "revoke-subkey", [(str "-c", str "code (0-3)"); (str "-r", str "reason"); (str "-h", str "hash_algorithm"); (str "-k", str "subkey ID to match"); (str "-a", str "armored")]);
   (str "revoke-uid", [(str "-c", str "code (0-3)"); (str "-r", str "reason"); (str "-h", str "hash algorithm"); (str "-u", str "user ID to match"); (str "-a", str "armored")]);
   (str "sign-cleartext-signature", [(str "-h", str "hash_algorithm")]);
   (str "sign-detached-signature", [(str "-h", str "hash_algorithm"); (str "-a", str "armored")]);
   (str "sign-file", [(str "-c", str "compression algorithm"); (str "-h", str "hash algorithm"); (str "-a", str "armored")]);
   (str "sign-primary-key", [(str "-c", str "certification level (0x10 - 0x13 without '0x')"); (str "-h", str "hash algorithm"); (str "-u", str "user to certify"); (str "-a", str "armored")]);
   (str "sign-subkey", [(str "-c", str "certification level (0x10 - 0x13 without '0x')"); (str "-h", str "hash algorithm"); (str "-u", str "Signer's User Identifier"); (str "-v", str "Signee's User Identifier"); (str "-a", str "armored")]);
   (str "sign-timestamp", [(str "-h", str "hash algorithm"); (str "-a", str "armored")])].
Definition explain (name opt : bytes) : bytes :=
  match find_key explanations name with Some t => match find_key t opt with Some e => e | None => [] end | None => [] end.

(** The order of std::map: by key; of several initialisers with one key the first counts. *)
Fixpoint insert_key {A} (k : bytes) (v : A) (l : list (bytes * A)) : list (bytes * A) :=
  match l with
  | [] => [(k, v)]
  | (k', v') :: r => if blt k k' then (k, v) :: l else if beq k k' then (k, v) :: r else (k', v') :: insert_key k v r
  end.
Definition in_order {A} (m : list (bytes * A)) : list (bytes * A) := fold_right (fun x l => insert_key (fst x) (snd x) l) [] m.

(** Module::help, module.cpp 138-171. *)
Definition module_help (m : module) (indent : bytes) : bytes :=
  indent ++ m_name m ++ flat_map (fun p => str " " ++ p) (m_pos m) ++
  match m_opts m, m_flags m with
  | [], [] => [10]
  | opts, flags =>
    str " [options]" ++ [10] ++
    match opts with
    | [] => []
    | _ => indent ++ str "    Optional Arguments:" ++ [10] ++
           flat_map (fun o => indent ++ str "        " ++ fst o ++ str " " ++ explain (m_name m) (fst o) ++ str "; default value: """ ++ snd o ++ str """" ++ [10]) (in_order opts)
    end ++
    match flags with
    | [] => []
    | _ => [10] ++ indent ++ str "    Optional Flags:" ++ [10] ++
           flat_map (fun o => indent ++ str "        " ++ fst o ++ str " " ++ explain (m_name m) (fst o) ++ str "; default value: " ++ (if snd o : bool then str "true" else str "false") ++ [10]) (in_order flags)
    end
  end.
(** Module::operator(), module.cpp 173-193, with what is printed on out: [run] gives what the module's
    function prints and returns. *)
Definition module_call (m : module) (run : parsed -> result (bytes * Z)) (argv : list bytes) : result (bytes * Z) :=
  match parse_loop m false (m_pos m) argv (defaults m) with
  | (Some _, _) => Ok (module_help m [] ++ [10], (-1)%Z)
  | (None, p) => ' (out, r) <- run p ;; Ok (if (r =? -1)%Z then (out ++ module_help m [] ++ [10], (-1)%Z) else (out, 0%Z))
  end.

(** std::regex(text) and std::regex_search with it: None where the constructor throws std::regex_error.
    Exceptions of regex_search itself are left out. *)
Definition regex_engine : Type := bytes -> option (bytes -> bool).
(** show_header, main.cpp 34-40. *)
Definition header_text : bytes :=
  str "An OpenPGP implementation (RFC 4880)" ++ [10] ++ str "by Jason Lee @ calccrypto at gmail.com" ++ [10; 10] ++
  str "    help [module name] - print all modules with matching name" ++ [10; 10].
(** help, main.cpp 42-55: what is printed and how many there are. *)
Fixpoint help_loop (f : bytes -> bool) (indent : bytes) (l : list module) : bytes * N :=
  match l with
  | [] => ([], 0)
  | m :: r => let '(s, k) := help_loop f indent r in if f (m_name m) then (module_help m indent ++ [10] ++ s, k + 1) else (s, k)
  end.
Definition help (engine : regex_engine) (pattern indent : bytes) : result (bytes * N) :=
  match engine pattern with None => Throw ERuntime | Some f => Ok (help_loop f indent (map fst ordered)) end.

(** What is printed on the two streams, and the status. *)
Record said := mkSaid { sd_out : bytes; sd_err : bytes; sd_status : Z }.
(** main, main.cpp 57-106, with what is printed; None where a module is called. *)
Definition main_says (engine : regex_engine) (argv : list bytes) : result (option said) :=
  let all := ' (s, _) <- help engine [] (str "    ") ;; Ok (Some (mkSaid (header_text ++ s) [] 0)) in
  match argv with
  | [] => all
  | a :: r =>
    if beq (firstn 4 a) (str "help") then
      match r with
      | [] => all
      | b :: _ =>
        ' (s, found) <- help engine b (str "    ") ;;
        Ok (Some (mkSaid (decimal found ++ str " matches for """ ++ b ++ str """" ++ (if found =? 0 then [10] else str ":" ++ [10] ++ s)) [] 0))
      end
    else match find_module ordered a with
         | Some _ => Ok None
         | None =>
           ' (s, found) <- help engine a (str "    ") ;;
           Ok (Some (mkSaid (if found =? 0 then [] else decimal found ++ str " matches:" ++ [10] ++ s) (str "Error: Function """ ++ a ++ str """ not found." ++ [10]) (-1)))
         end
  end.
