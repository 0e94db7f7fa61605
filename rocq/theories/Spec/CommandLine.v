(** Command lines, as a user writes them for a module. *)
From Verif Require Export Model.Cli.

(** An option with its value, a flag, or another word. *)
Inductive item := Value (o v : bytes) | Flag (f : bytes) | Word (w : bytes).
Definition dashes : bytes := str "--".
Definition spell (i : item) : list bytes := match i with Value o v => [o; v] | Flag f => [f] | Word w => [w] end.
Definition fits (m : module) (i : item) : Prop :=
  match i with
  | Value o _ => o <> dashes /\ In o (map fst (m_opts m))
  | Flag f => f <> dashes /\ In f (map fst (m_flags m))
  | Word w => w <> dashes /\ ~ In w (map fst (m_opts m)) /\ ~ In w (map fst (m_flags m))
  end.
(** Items, and possibly "--" with words behind it that are not looked at. *)
Definition line (items : list item) (rest : option (list bytes)) : list bytes :=
  flat_map spell items ++ match rest with None => [] | Some ws => dashes :: ws end.
(** The words of a line, in order. *)
Definition words (items : list item) (rest : option (list bytes)) : list bytes :=
  flat_map (fun i => match i with Word w => [w] | _ => [] end) items ++
  match rest with None => [] | Some ws => filter (fun w => negb (beq w dashes)) ws end.
(** The last value given for an option. *)
Fixpoint last_value (items : list item) (o : bytes) : option bytes :=
  match items with
  | [] => None
  | i :: r => match last_value r o with
              | Some v => Some v
              | None => match i with Value o' v => if beq o' o then Some v else None | _ => None end
              end
  end.
(** What the module's function is to find. *)
Definition meaning (m : module) (items : list item) (rest : option (list bytes)) (p : parsed) : Prop :=
  (forall o d, In (o, d) (m_opts m) -> key_at (fst p) o = Ok (match last_value items o with Some v => v | None => d end)) /\
  (forall f d, In (f, d) (m_flags m) -> (In (Flag f) items -> key_at (snd p) f = Ok (negb d)) /\ (~ In (Flag f) items -> key_at (snd p) f = Ok d)) /\
  (forall i x w, nth_error (m_pos m) i = Some x -> nth_error (words items rest) i = Some w -> key_at (fst p) x = Ok w) /\
  (forall x, ~ In x (map fst (m_opts m)) -> ~ In x (m_pos m) -> key_at (fst p) x = Throw EOutOfRange) /\
  (forall x, ~ In x (map fst (m_flags m)) -> key_at (snd p) x = Throw EOutOfRange).
(** A declaration that makes sense; keys of a map are unique. *)
Definition keys_unique (m : module) : Prop := NoDup (map fst (m_opts m)) /\ NoDup (map fst (m_flags m)).
Definition blank (c : N) : Prop := c = 32 \/ 9 <= c <= 13.
Definition no_blank (s : bytes) : Prop := forall c, In c s -> ~ blank c.
Definition declarable (m : module) : Prop :=
  m_name m <> [] /\ no_blank (m_name m) /\ Forall no_blank (map fst (m_opts m)) /\ Forall no_blank (map fst (m_flags m)) /\
  NoDup (m_pos m) /\ (forall x, In x (m_pos m) -> ~ In x (map fst (m_opts m)) /\ ~ In x (map fst (m_flags m))) /\
  (forall x, In x (map fst (m_flags m)) -> ~ In x (map fst (m_opts m))).
(** A function that looks up every name of a list. *)
Fixpoint touch {A} (l : list bytes) (m : list (bytes * A)) : result unit :=
  match l with [] => Ok tt | x :: r => _ <- key_at m x ;; touch r m end.
(** The commands, in the order in which help lists them. *)
Definition commands : list bytes :=
  [str "list"; str "fingerprint"; str "show"; str "show-cleartext-signature"; str "extract-public";
   str "encrypt-pka"; str "encrypt-sym"; str "decrypt-pka"; str "decrypt-sym";
   str "generate-keypair"; str "generate-revoke-key-cert"; str "generate-revoke-subkey-cert";
   str "generate-revoke-uid-cert"; str "revoke-with-cert"; str "revoke-primary-key";
   str "revoke-subkey"; str "revoke-uid"; str "sign-cleartext-signature";
   str "sign-detached-signature"; str "sign-file"; str "sign-primary-key"; str "sign-subkey";
   str "sign-timestamp"; str "verify-cleartext-signature"; str "verify-detached-signature";
   str "verify-file"; str "verify-primary-key"; str "verify-revoke"; str "verify-timestamp"].
