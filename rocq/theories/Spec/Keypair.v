(** What a generate-keypair command line asks for. *)
From Verif Require Export Spec.Invocation Spec.KeyGen Spec.KeyUse Model.Keypair.

(** A number in decimal digits. *)
Inductive in_decimal : bytes -> N -> Prop :=
| dec_one d : d < 10 -> in_decimal [48 + d] d
| dec_more s n d : in_decimal s n -> d < 10 -> in_decimal (s ++ [48 + d]) (10 * n + d).
(** Public key algorithms by name, with their numbers in RFC 4880. *)
Definition pka_names : list (bytes * N) :=
  [(str "RSA_ENCRYPT_OR_SIGN", 1); (str "RSA_ENCRYPT_ONLY", 2); (str "RSA_SIGN_ONLY", 3); (str "ELGAMAL", 16); (str "DSA", 17)].
(** The value of an option. *)
Definition value (items : list item) (o d : string) : bytes := given items (str o) (str d).
(** One user ID, one subkey, and everything as the options say. *)
Definition asked (items : list item) (c : config) : Prop :=
  exists pka bits sym hash sig spka sbits ssym shash ssig,
    In (value items "--ppka" "RSA_ENCRYPT_OR_SIGN", pka) pka_names /\ In (value items "--spka" "RSA_ENCRYPT_OR_SIGN", spka) pka_names /\
    in_decimal (value items "--pkeysize" "2048") bits /\ bits < 2 ^ 64 /\ in_decimal (value items "--skeysize" "2048") sbits /\ sbits < 2 ^ 64 /\
    In (value items "--psym" "AES256", sym) cipher_names /\ In (value items "--ssym" "AES256", ssym) cipher_names /\
    In (value items "--phash" "SHA1", hash) hash_names /\ In (value items "--shash" "SHA1", shash) hash_names /\
    In (value items "--psig" "SHA1", sig) hash_names /\ In (value items "--ssig" "SHA1", ssig) hash_names /\
    c = mkConfig (value items "-p" "") pka bits sym hash [mkUid (value items "-u" "") (value items "-c" "") (value items "-e" "") sig 0]
          [mkSub spka sbits ssym shash ssig 0].
(** The names of the two files. *)
Definition public_file (items : list item) : bytes := value items "-o" "key" ++ str ".public".
Definition private_file (items : list item) : bytes := value items "-o" "key" ++ str ".private".
(** The key this machine generates. *)
Definition generates (w : machine) (x : maker) (c : config) (g : pgp) : Prop :=
  exists rnd draws, generate_key (k_fuel x) (k_nextprime x) (k_test x) c (w_now w) (w_rnd w) (w_draws w) = Ok (g, rnd, draws).
(** What is asked of the world so that the key can be written (C76). *)
Definition fair (w : machine) (x : maker) (c : config) (g : pgp) : Prop :=
  sound_primes (k_nextprime x) (k_test x) /\ w_now w < 2 ^ 32 /\ octets (w_rnd w) /\ Forall name_fits (c_uids c) /\ values_small g /\ odd_modulus g.
(** The files the command leaves. *)
Definition leaves (w : machine) (x : maker) (items : list item) (rest : option (list bytes)) (files : list (bytes * bytes)) : Prop :=
  program_files w x (str "generate-keypair" :: line items rest) = files.
