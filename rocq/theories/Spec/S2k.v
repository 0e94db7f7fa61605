(** String-to-key specifiers (RFC 4880 section 3.7.1). *)
From Verif Require Export Model.S2kRun Spec.Hash.

(** The first [n] octets of the endless repetition of [s]. *)
Definition cycle (s : bytes) (n : N) : bytes := firstn (N.to_nat n) (concat (repeat s (N.to_nat n))).

(** Octet count of RFC 4880 3.7.1.3. *)
Definition octet_count (c : N) : N := (16 + c mod 16) * 2 ^ (c / 16 + 6).

(** What each kind of specifier hashes in every context. *)
Definition s2k_input (s : s2k) (pass : bytes) : bytes :=
  match s2k_kind s with
  | S2K0 => pass
  | S2K1 => s2k_salt s ++ pass
  | S2K3 => cycle (s2k_salt s ++ pass) (N.max (len (s2k_salt s ++ pass)) (octet_count (s2k_count s)))
  end.

(** The key: digests of the input preceded by 0, 1, 2, ... zero octets, cut to size ([klen]
    digests are always enough). *)
Definition s2k_key (H : bytes -> bytes) (input : bytes) (klen : N) : bytes :=
  firstn (N.to_nat klen) (concat (map (fun i => H (repeat 0 i ++ input)) (seq 0 (N.to_nat klen)))).
