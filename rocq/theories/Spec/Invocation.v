(** What a command line gives for an option and a flag, and the two answers of a verify command. *)
From Verif Require Export Spec.CommandLine Model.Commands.

(** The last value given for an option, or its default. *)
Definition given (items : list item) (o d : bytes) : bytes := match last_value items o with Some v => v | None => d end.
(** A flag stands at its default unless it is given. *)
Definition is_flag (f : bytes) (i : item) : bool := match i with Flag g => beq g f | _ => false end.
Definition flag (items : list item) (f : bytes) (d : bool) : bool := if existsb (is_flag f) items then negb d else d.
(** The command [name] with these words and items ends with status 0 and this output. *)
Definition prints (w : machine) (name : bytes) (items : list item) (rest : option (list bytes)) (out : bytes) : Prop :=
  program w (name :: line items rest) = Some (Ok (0%Z, out)).
(** It ends with status -1; what is printed ends with the help text of the command. *)
Definition refuses (w : machine) (name : bytes) (items : list item) (rest : option (list bytes)) : Prop :=
  exists m u out, In (m, u) ordered /\ m_name m = name /\ program w (name :: line items rest) = Some (Ok ((-1)%Z, out ++ w_help w m ++ [10])).
(** It ends with an exception nobody catches. *)
Definition aborts (w : machine) (name : bytes) (items : list item) (rest : option (list bytes)) : Prop :=
  exists e, program w (name :: line items rest) = Some (Throw e).
(** The words a command line has for the positional arguments of a command, and nothing its
    declaration does not allow. *)
Definition calls (m : module) (items : list item) (rest : option (list bytes)) (ws : list bytes) : Prop :=
  Forall (CommandLine.fits m) items /\ length ws = length (m_pos m) /\ exists more, words items rest = ws ++ more.
(** Algorithms by name, with their numbers in RFC 4880 (RFC 5581 for Camellia). *)
Definition cipher_names : list (bytes * N) :=
  [(str "IDEA", 1); (str "TRIPLEDES", 2); (str "CAST5", 3); (str "BLOWFISH", 4); (str "AES128", 7); (str "AES192", 8);
   (str "AES256", 9); (str "TWOFISH256", 10); (str "CAMELLIA128", 11); (str "CAMELLIA192", 12); (str "CAMELLIA256", 13)].
Definition hash_names : list (bytes * N) :=
  [(str "MD5", 1); (str "SHA1", 2); (str "RIPEMD160", 3); (str "SHA256", 8); (str "SHA384", 9); (str "SHA512", 10); (str "SHA224", 11)].
Definition compression_names : list (bytes * N) := [(str "UNCOMPRESSED", 0); (str "ZIP", 1); (str "ZLIB", 2)].
(** What a verify command says of [what], checked with the key in [file] that has this ID. *)
Definition says (what : bytes) (good : bool) (file id : bytes) : bytes :=
  what ++ (if good then str " was signed by " else str " was not signed by ") ++ [34] ++ file ++ [34] ++ str " (" ++ hexlify id ++ str ")." ++ [10].
(** What verify-revoke says of the certificate in [cert] and the key in [file] that has this ID. *)
Definition revokes (cert : bytes) (good : bool) (file id : bytes) : bytes :=
  str "The certificate in " ++ [34] ++ cert ++ [34] ++ (if good then str " revokes" else str " does not revoke") ++ str " key in " ++ [34] ++ file ++ [34] ++ str " (" ++ hexlify id ++ str ")." ++ [10].
(** A fingerprint in groups of [n] octets with [sep] between them: every group is full but the
    last, which is not empty; 0 stands for one group. *)
Definition grouped (n : N) (sep fp out : bytes) : Prop :=
  if n =? 0 then out = hexlify fp
  else exists gs final, fp = concat gs ++ final /\ Forall (fun g => len g = n) gs /\ 0 < len final <= n /\
    out = concat (map (fun g => hexlify g ++ sep) gs) ++ hexlify final.
