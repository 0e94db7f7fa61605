(** What a generated key is used for: writing it, its public part, names and sizes that can be
    written. *)
From Verif Require Export Spec.KeyGen Model.Encrypt.

(** A user ID of octets whose length the reader understands: new-format lengths of 8128 to 8383
    octets are left out (C06). *)
Definition name_fits (u : uid_conf) : Prop :=
  let n := len (full_name (u_user u) (u_comment u) (u_email u)) in
  octets (u_user u) /\ octets (u_comment u) /\ octets (u_email u) /\ n < 2 ^ 32 /\ ~ (8128 <= n <= 8383).
(** Every public value of every key of [g] is below 2 ^ 8192. *)
Definition values_small (g : pgp) : Prop :=
  forall p k x, In p (g_packets g) -> p_body p = PSecret k x -> Forall (fun v => v < 2 ^ 8192) (k_mpi k).
(** An RSA primary key has an odd modulus (it has unless one of the primes is 2). *)
Definition odd_modulus (g : pgp) : Prop :=
  forall p more k x, g_packets g = p :: more -> p_body p = PSecret k x -> k_pka k <> 17 -> N.odd (hd 0 (k_mpi k)) = true.
(** The packet of the public key that stands for a packet of the secret key: the same public
    values and nothing else, or the packet itself. *)
Definition public_form (p : packet) : packet :=
  match p_body p with
  | PSecret k _ => mkPacket (if p_tag p =? 5 then 6 else 14) NEW NOT_PARTIAL (PKey k)
  | _ => p
  end.
Definition public_part (g : pgp) : pgp := mkPgp (g_armored g) 2 (g_keys g) (map public_form (g_packets g)).
