(** Packet sequences: which packets a reader of the whole stream can give back. *)
From Verif Require Export Spec.Fields Model.Pgp.

(** A packet's header can carry its tag and a body of [n] octets, and the reader understands
    that header: not partial, four-octet old-format lengths and new-format lengths whose
    first octet is 223 left out (C06, C07). *)
Definition header_ok (p : packet) (n : N) : Prop :=
  p_partial p = NOT_PARTIAL /\
  match p_format p with
  | NEW => p_tag p < 64 /\ n < 2 ^ 32 /\ ~ (8128 <= n <= 8383)
  | OLD => p_tag p < 16 /\ n < 2 ^ 16
  end.

(** Octets of the last of several items. *)
Definition before_last {A} (f : A -> bytes) (l : list A) : N := len (concat (map f (removelast l))).
Definition octets_of {A} (f : A -> bytes) (l : list A) : N := len (concat (map f l)).

(** Offsets at which a body is read back (C58): session keys and user attributes only near
    the start of the data, version 3 signatures only at its very start. *)
Definition placed (off : N) (c : contents) : Prop :=
  match c with
  | PSession _ _ _ ms => ms = [] \/ off + before_last write_MPI ms < octets_of write_MPI ms
  | PAttributes l =>
    let f i := write_subpacket (1 :: image_raw i) in l = [] \/ off + before_last f l < octets_of f l
  | PSig s => t2_version s = 3 -> off = 0
  | _ => True
  end.

(** A sequence of packets, the first at offset [off]: each packet is header then body. *)
Fixpoint sequence (off : N) (ps : list packet) : Prop :=
  match ps with
  | [] => True
  | p :: ps' => exists header body,
      write p = Ok (header ++ body) /\ raw (p_body p) = Ok body /\
      header_ok p (len body) /\ fits days_kept (p_tag p) (p_body p) /\
      placed (off + len header) (p_body p) /\
      sequence (off + len (header ++ body)) ps'
  end.
