(** Which key of a transferable key encrypts and decrypts. *)
From Verif Require Export Spec.Keys Spec.Primes Spec.KeyGrammar Model.KeyOps.

(** Algorithms that encrypt: RSA (1, 2) and ElGamal (16), RFC 4880 section 9.1. *)
Definition encrypting (pka : N) : Prop := In pka [1; 2; 16].
Definition key_of (p : packet) (k : key) : Prop := p_body p = PKey k \/ exists s, p_body p = PSecret k s.

(** [k] is the first encrypting key of [g]. *)
Definition encrypts_with (g : pgp) (k : key) : Prop :=
  exists before p after, g_packets g = before ++ p :: after /\ In (p_tag p) [5; 6; 7; 14] /\ key_of p k /\ encrypting (k_pka k) /\
    Forall (fun q => In (p_tag q) [5; 6; 7; 14] -> exists k', key_of q k' /\ ~ encrypting (k_pka k')) before.
(** [k], with secret part [sec], is the first encrypting secret key of [g] with key ID [id]. *)
Definition decrypts_with (g : pgp) (id : bytes) (k : key) (sec : secret) : Prop :=
  exists before p after, g_packets g = before ++ p :: after /\ In (p_tag p) [5; 7] /\ p_body p = PSecret k sec /\
    get_keyid k = Ok id /\ encrypting (k_pka k) /\
    Forall (fun q => In (p_tag q) [5; 7] -> exists k' s i, p_body q = PSecret k' s /\ get_keyid k' = Ok i /\ (i <> id \/ ~ encrypting (k_pka k'))) before.

(** The secret integers [pri] belong to the public integers [pub]: RSA n, e and d; ElGamal
    p, g, y and x. *)
Definition cipher_pair (pka : N) (pri pub : list N) : Prop :=
  if pka =? 16
  then exists p g y x more more', pub = p :: g :: y :: more /\ pri = x :: more' /\ elgamal_key p g y x
  else exists n e d more more', pub = n :: e :: more /\ pri = d :: more' /\ rsa_key n e d.
