(** The function of generate-keypair, cli/modules/generate_keypair.h 77-167, with the files it
    writes.  Not modelled: what is written to std::cerr, writing that fails after the file was
    opened, two names that are the same file. *)
From Verif Require Export Model.Commands Model.KeyGen.

(** PKA::NUMBER, PKAs.h 139-150, without GPG_COMPATIBLE. *)
Definition pka_number : list (bytes * N) :=
  [(str "RSA_ENCRYPT_OR_SIGN", 1); (str "RSA_ENCRYPT_ONLY", 2); (str "RSA_SIGN_ONLY", 3); (str "ELGAMAL", 16); (str "DSA", 17)].

(** std::strtoul(s, 0, 10) with 64 bits in the "C" locale, used in 122 and 134: white space, a
    sign, digits up to the first other character; a number too large gives ULONG_MAX. *)
Fixpoint strtoul_digits (n : N) (s : bytes) : N :=
  match s with
  | c :: r => if (48 <=? c) && (c <=? 57) then strtoul_digits (10 * n + (c - 48)) r else n
  | [] => n
  end.
Definition strtoul_limit (negative : bool) (n : N) : N :=
  if two64 <=? n then two64 - 1 else if negative then u64 (two64 - n) else n.
Fixpoint strtoul (s : bytes) : N :=
  match s with
  | [] => 0
  | c :: r =>
    if isspace c then strtoul r
    else if c =? 45 then strtoul_limit true (strtoul_digits 0 r)
    else if c =? 43 then strtoul_limit false (strtoul_digits 0 r)
    else strtoul_limit false (strtoul_digits 0 s)
  end.

(** GMP's mpz_nextprime and primality test, a bound on the rounds (Model.KeyGen), and whether a
    file can be opened for writing. *)
Record maker := mkMaker { k_fuel : nat; k_nextprime : N -> N; k_test : N -> bool; k_open : bytes -> bool }.

(** args.at and NUMBER.at. *)
Definition number_arg (t : list (bytes * N)) (p : parsed) (name : string) : result N := a <- arg p name ;; key_at t a.
Definition size_arg (p : parsed) (name : string) : result N := a <- arg p name ;; Ok (strtoul a).
(** The configuration, 119-139; the expirations are left at their default, keygen.h 67 and 78. *)
Definition keypair_config (p : parsed) : result config :=
  pass <- arg p "-p" ;; pka <- number_arg pka_number p "--ppka" ;; bits <- size_arg p "--pkeysize" ;;
  sym <- number_arg sym_number p "--psym" ;; hash <- number_arg hash_number p "--phash" ;;
  user <- arg p "-u" ;; comment <- arg p "-c" ;; email <- arg p "-e" ;; sig <- number_arg hash_number p "--psig" ;;
  spka <- number_arg pka_number p "--spka" ;; sbits <- size_arg p "--skeysize" ;;
  ssym <- number_arg sym_number p "--ssym" ;; shash <- number_arg hash_number p "--shash" ;; ssig <- number_arg hash_number p "--ssig" ;;
  Ok (mkConfig pass pka bits sym hash [mkUid user comment email sig 0] [mkSub spka sbits ssym shash ssig 0]).
(** Up to the two keys, 77-147; None is return -1. *)
Definition keypair_keys (w : machine) (x : maker) (p : parsed) : result (option (pgp * pgp)) :=
  ok <- keypair_checks pka_number sym_number hash_number p ;;
  if negb ok then Ok None
  else
    c <- keypair_config p ;;
    ' (pri, _, _) <- generate_key (k_fuel x) (k_nextprime x) (k_test x) c (w_now w) (w_rnd w) (w_draws w) ;;
    m <- secret_meaningful pri ;;
    if negb m then Ok None else pub <- get_public_key pri ;; Ok (Some (pub, pri)).
(** What is in a file that was opened, after writing a text that may not be there: std::ofstream
    empties it. *)
Definition put_file (name : bytes) (text : result bytes) : bytes * bytes := (name, match text with Ok t => t | _ => [] end).
(** The files written and their contents, and the rest, 149-167. *)
Definition run_generate_keypair (w : machine) (x : maker) (p : parsed) : list (bytes * bytes) * answer :=
  let wrong e := ([], e : answer) in
  match keypair_keys w x p with
  | Throw e => wrong (Throw e) | UB => wrong UB | Diverge => wrong Diverge
  | Ok None => wrong fail
  | Ok (Some (pub, pri)) =>
    match arg p "-o", armored_arg p with
    | Ok o, Ok a =>
      let pub_name := o ++ str ".public" in
      let pri_name := o ++ str ".private" in
      if negb (k_open x pub_name) then wrong fail
      else if negb (k_open x pri_name) then ([put_file pub_name (Ok [])], fail)
      else
        ([put_file pub_name (pgp_write pub a); put_file pri_name (_ <- pgp_write pub a ;; pgp_write pri a)],
         _ <- pgp_write pub a ;; _ <- pgp_write pri a ;;
         print 0 (str "Keys written to '" ++ pub_name ++ str "' and '" ++ pri_name ++ str "'."))
    | Throw e, _ | _, Throw e => wrong (Throw e)
    | UB, _ | _, UB => wrong UB
    | Diverge, _ | _, Diverge => wrong Diverge
    end
  end.
(** The program with this command, main.cpp 57-106 and module.cpp 173-193, and the files it leaves. *)
Definition with_keypair (w : machine) (x : maker) : machine :=
  mkMachine (w_files w) (w_now w) (w_now' w) (w_rnd w) (w_draws w) (w_zip w) (w_unzip w) (w_fuel w) (w_scan w) (w_hex w) (w_gmtime w) (w_help w)
    (fun name p => if beq name (str "generate-keypair") then snd (run_generate_keypair w x p) else w_other w name p).
Definition program_files (w : machine) (x : maker) (argv : list bytes) : list (bytes * bytes) :=
  match cli_main argv with
  | Call m _ rest =>
    if beq (m_name m) (str "generate-keypair") then
      match parse_loop m false (m_pos m) rest (defaults m) with
      | (Some _, _) => []
      | (None, p) => fst (run_generate_keypair w x p)
      end
    else []
  | _ => []
  end.
