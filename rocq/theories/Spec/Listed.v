(** What is to be printed about packets. *)
From Verif Require Export Model.Show Spec.Calendar.

(** An outline: a line and the parts below it, each level four (or so many) blanks further in. *)
Inductive tree := Tree (heading : bytes) (parts : list tree).
Definition heading (t : tree) : bytes := match t with Tree h _ => h end.
Fixpoint drawn (size level : nat) (t : tree) : bytes :=
  match t with Tree h l => repeat 32 (size * level) ++ h ++ [10] ++ concat (map (drawn size (S level)) l) end.

(** The kinds of packets, RFC 4880, section 4.3. *)
Definition kinds : list (N * bytes) :=
  [(0, str "Reserved - a packet tag MUST NOT have this value"); (1, str "Public-Key Encrypted Session Key"); (2, str "Signature"); (3, str "Symmetric-Key Encrypted Session Key"); (4, str "One-Pass Signature");
   (5, str "Secret-Key"); (6, str "Public-Key"); (7, str "Secret-Subkey"); (8, str "Compressed Data"); (9, str "Symmetrically (Conventional) Encrypted Data");
   (10, str "Marker Packet (Obsolete Literal Packet)"); (11, str "Literal Data"); (12, str "(Keyring) Trust"); (13, str "User ID");
   (14, str "Public-Subkey (Obsolete Comment Packet)"); (17, str "User Attribute"); (18, str "Sym. Encrypted Integrity Protected Data");
   (19, str "Modification Detection Code"); (60, str "Private or Experimental Values"); (61, str "Private or Experimental Values");
   (62, str "Private or Experimental Values"); (63, str "Private or Experimental Values")].
(** The line that announces a packet: its header format, its kind and its number. *)
Definition announces (line : bytes) (p : packet) : Prop :=
  exists name d, In (p_tag p, name) kinds /\ digits d /\ number d = p_tag p /\
    line = match p_format p with NEW => str "New" | OLD => str "Old" end ++ str ": " ++ name ++ str " (Tag " ++ d ++ str ")" ++
           match p_partial p with PARTIAL => if existsb (N.eqb (p_tag p)) [8; 9; 11; 18] then str " (partial)" else [] | NOT_PARTIAL => [] end.

(** Packets about which everything can be said. *)
Definition time_fits (t : N) : Prop := t < 2 ^ 32.
Inductive sig_complete : tag2 -> Prop :=
| complete_sig version type pka hash mpi left16 time keyid hashed unhashed :
    time_fits time -> (In pka [1; 2; 3] -> (1 <= length mpi)%nat) -> (pka = 17 -> (2 <= length mpi)%nat) ->
    (forall c t, In (c, Sub2 t) (hashed ++ unhashed) -> time_fits t) -> (forall c t, In (c, Sub3 t) (hashed ++ unhashed) -> time_fits t) ->
    (forall c s, In (c, Sub32 (Some s)) (hashed ++ unhashed) -> sig_complete s) ->
    sig_complete (mkTag2 version type pka hash mpi left16 time keyid hashed unhashed).
Definition key_complete (k : key) : Prop :=
  time_fits (k_time k) /\ (k_version k < 4 -> (2 <= length (k_mpi k))%nat) /\
  (k_version k = 4 -> (In (k_pka k) [1; 2; 3] -> (2 <= length (k_mpi k))%nat) /\ (k_pka k = 16 -> (3 <= length (k_mpi k))%nat) /\ (k_pka k = 17 -> (4 <= length (k_mpi k))%nat)).
Definition s2k_known (s : s2k) : Prop := In (s2k_type s) [0; 1; 2; 3].
(** The numbers of a secret key that is not encrypted. *)
Definition in_clear (pka : N) (d : bytes) : Prop :=
  exists l rest, d = concat (map write_MPI l) ++ rest /\ Forall (fun a => bitsize a <= 65528) l /\
    (In pka [1; 2; 3] -> length l = 4%nat) /\ (In pka [16; 17] -> length l = 1%nat).
Definition complete (p : packet) : Prop :=
  (exists name, In (p_tag p, name) kinds) /\
  match p_body p with
  | PSession _ _ pka mpi => (pka <= 3 -> (1 <= length mpi)%nat) /\ (pka = 16 -> (2 <= length mpi)%nat)
  | PSig s => sig_complete s
  | PSymSession _ _ s _ => forall x, s = Some x -> s2k_known x
  | PSecret k s => key_complete k /\ (253 < sk_con s -> exists x, sk_s2k s = Some x /\ s2k_known x) /\ (sk_con s = 0 -> in_clear (k_pka k) (sk_secret s))
  | PKey k => key_complete k
  | PCompressed _ d => d = []
  | PLiteral _ _ t _ => time_fits t
  | _ => True
  end.
(** Packets of a file that are not a session key, a secret key or compressed, and hold a key if
    they should. *)
Definition ordinary (p : packet) : Prop :=
  ~ In (p_tag p) [1; 5; 7; 8] /\ (forall k, p_body p = PKey k -> k_version k <> 0).
(** Images in packets. *)
Definition images (p : packet) : list image := match p_body p with PAttributes l => l | _ => [] end.
Definition not_compressed (p : packet) : Prop := match p_body p with PCompressed _ d => d = [] | _ => True end.
(** The line is somewhere in the outline. *)
Inductive mentions (line : bytes) : tree -> Prop :=
| here l : mentions line (Tree line l)
| inside h l t : In t l -> mentions line t -> mentions line (Tree h l).
