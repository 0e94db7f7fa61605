(** What certifying a user ID of someone's key does to the key. *)
From Verif Require Export Spec.KeyGrammar Model.Verify.

Definition contains (s text : bytes) : Prop := exists a b, text = a ++ s ++ b.
Definition is_signature (p : packet) : Prop := p_tag p = 2.
Definition first_is_no_signature (ps : list packet) : Prop := forall p r, ps = p :: r -> ~ is_signature p.

(** [after] is the key [before] with one more packet, [new], at the end of the signatures of
    user ID [u], the first user ID with [user] in its text.  [k] is the primary key, [bs] what
    precedes the user ID. *)
Definition adds_at (k : packet) (bs : list packet) (u : packet) (sigs rest : list packet)
  (user : bytes) (new : packet) (before after : pgp) : Prop :=
  g_packets before = k :: bs ++ u :: sigs ++ rest /\
  after = mkPgp (g_armored before) (g_type before) (g_keys before) (k :: bs ++ u :: sigs ++ new :: rest) /\
  p_tag u = 13 /\ (exists text, p_body u = PRaw text /\ contains user text) /\
  (forall p text, In p bs -> p_tag p = 13 -> p_body p = PRaw text -> ~ contains user text) /\
  Forall is_signature sigs /\ first_is_no_signature rest.
(** A packet which is not a signature naming key [k] as its issuer. *)
Definition by_another (k : key) (p : packet) : Prop :=
  forall s, p_body p = PSig s -> exists b, sig_keyid s = Ok b /\ get_keyid k <> Ok b.
