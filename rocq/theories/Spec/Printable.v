(** Packets that can be read from what is printed about them. *)
From Verif Require Export Spec.Listed.

Definition single (s : bytes) : Prop := ~ In 10 s.
(** A public key of version 4 with the numbers of its algorithm. *)
Definition full_key (k : key) : Prop :=
  k_version k = 4 /\ k_time k < 2 ^ 32 /\ k_expire k = 0 /\
  (In (k_pka k) [1; 2; 3] /\ length (k_mpi k) = 2%nat \/ k_pka k = 16 /\ length (k_mpi k) = 3%nat \/ k_pka k = 17 /\ length (k_mpi k) = 4%nat).
(** Ways to turn a passphrase into a key, as they are read. *)
Inductive plain_s2k : s2k -> Prop :=
| simple_s2k hash : plain_s2k (mkS2k S2K0 0 hash [] 0)
| salted_s2k hash salt : octets salt -> plain_s2k (mkS2k S2K1 1 hash salt 0)
| iterated_s2k hash salt count : octets salt -> plain_s2k (mkS2k S2K3 3 hash salt count).
(** As many secret numbers as the algorithm has. *)
Definition secret_count (pka : N) (l : list N) : Prop := In pka [1; 2; 3] /\ length l = 4%nat \/ In pka [16; 17] /\ length l = 1%nat.
(** Subpackets of signatures other than embedded signatures.  Left out: flags of more than an octet,
    which are printed bit by bit. *)
Inductive printable_sub : sub tag2 -> Prop :=
| ps_created t : t < 2 ^ 32 -> printable_sub (Sub2 t)
| ps_exportable b : printable_sub (Sub4 b)
| ps_trust l a : printable_sub (Sub5 l a)
| ps_revocable b : printable_sub (Sub7 b)
| ps_ciphers l : octets l -> printable_sub (Sub11 l)
| ps_issuer k : octets k -> printable_sub (Sub16 k)
| ps_hashes l : octets l -> printable_sub (Sub21 l)
| ps_compressions l : octets l -> printable_sub (Sub22 l)
| ps_server d : single d -> printable_sub (Sub24 d)
| ps_primary b : printable_sub (Sub25 b)
| ps_policy d : single d -> printable_sub (Sub26 d)
| ps_signer d : single d -> printable_sub (Sub28 d)
| ps_reason c r : c <> 0 -> single r -> printable_sub (Sub29 c r)
| ps_target p h d : octets d -> printable_sub (Sub31 p h d)
| ps_expires t : t < 2 ^ 32 -> printable_sub (Sub3 t)
| ps_expression r : single r -> printable_sub (Sub6 r)
| ps_placeholder d : single d -> (forall r, d <> 32 :: r) -> printable_sub (Sub10 d)
| ps_revoker c p d : single d -> printable_sub (Sub12 c p d)
| ps_notation l m n : octets l -> single m -> single n -> printable_sub (Sub20 l m n)
| ps_preferences x : x < 256 -> printable_sub (Sub23 [x])
| ps_flags x : x < 256 -> printable_sub (Sub27 [x])
| ps_features x : x < 256 -> printable_sub (Sub30 [x])
| ps_key_expires t : t < 2 ^ 32 -> printable_sub (Sub9 t).
(** Signatures of versions 3 and 4 with the numbers of their algorithm. *)
Definition sig_count (pka : N) (l : list N) : Prop := In pka [1; 2; 3] /\ length l = 1%nat \/ pka = 17 /\ length l = 2%nat.
(** The embedded signatures are such that [E]. *)
Definition sub_with (E : tag2 -> Prop) (s : sub tag2) : Prop := printable_sub s \/ exists e, s = Sub32 (Some e) /\ E e.
Inductive sig_with (E : tag2 -> Prop) : tag2 -> Prop :=
| ps_third type pka hash mpi left16 time keyid : type < 256 -> sig_count pka mpi -> octets left16 -> time < 2 ^ 32 -> octets keyid ->
    sig_with E (mkTag2 3 type pka hash mpi left16 time keyid [] [])
| ps_fourth type pka hash mpi left16 hashed unhashed : type < 256 -> sig_count pka mpi -> octets left16 ->
    Forall (fun c => sub_with E (snd c)) hashed -> Forall (fun c => sub_with E (snd c)) unhashed ->
    sig_with E (mkTag2 4 type pka hash mpi left16 0 [] hashed unhashed).
(** Signatures in signatures, to any depth. *)
Fixpoint nested (depth : nat) : tag2 -> Prop := match depth with O => sig_with (fun _ => False) | S d => sig_with (nested d) end.
Definition printable_sig (s : tag2) : Prop := exists depth, nested depth s.
(** Octets are printed in hexadecimal digits; texts as they are, so that they must not have line ends
    (nor, where nothing stands before them, blanks at the start). *)
Inductive printable : packet -> Prop :=
| p_public tag f k : In tag [6; 14] -> full_key k -> printable (mkPacket tag f NOT_PARTIAL (PKey k))
| p_octets f part d : octets d -> printable (mkPacket 9 f part (PRaw d))
| p_private tag f d : In tag [60; 61; 62; 63] -> octets d -> printable (mkPacket tag f NOT_PARTIAL (PRaw d))
| p_text tag f d : In tag [12; 13; 19] -> single d -> printable (mkPacket tag f NOT_PARTIAL (PRaw d))
| p_marker f d : single d -> (forall r, d <> 32 :: r) -> printable (mkPacket 10 f NOT_PARTIAL (PRaw d))
| p_protected f part version d : octets d -> printable (mkPacket 18 f part (PProtected version d))
| p_onepass f version type hash pka keyid last : octets keyid -> printable (mkPacket 4 f NOT_PARTIAL (POnePass version type hash pka keyid last))
| p_session f version keyid pka mpi : octets keyid -> pka <= 3 /\ length mpi = 1%nat \/ pka = 16 /\ length mpi = 2%nat ->
    printable (mkPacket 1 f NOT_PARTIAL (PSession version keyid pka mpi))
| p_literal f part format name time data : In format [98; 116; 117] -> single name -> single data -> time < 2 ^ 32 ->
    printable (mkPacket 11 f part (PLiteral format name time data))
| p_symmetric f version sym s esk : plain_s2k s -> (forall e, esk = Some e -> octets e) -> printable (mkPacket 3 f NOT_PARTIAL (PSymSession version sym (Some s) esk))
| p_locked tag f k con sym s iv d : In tag [5; 7] -> full_key k -> In con [254; 255] -> plain_s2k s -> s2k_type s <> 0 -> octets iv -> octets d ->
    printable (mkPacket tag f NOT_PARTIAL (PSecret k (mkSecret con sym (Some s) iv d)))
| p_open tag f k l c : In tag [5; 7] -> full_key k -> secret_count (k_pka k) l -> Forall (fun a => bitsize a <= 65528) l -> octets c -> len c = 2 ->
    printable (mkPacket tag f NOT_PARTIAL (PSecret k (mkSecret 0 0 None [] (concat (map write_MPI l) ++ c))))
| p_signature f s : printable_sig s -> printable (mkPacket 2 f NOT_PARTIAL (PSig s)).
(** Outlines of single lines that do not start with a blank. *)
Inductive clean : tree -> Prop :=
| clean_tree h l : single h -> (forall r, h <> 32 :: r) -> Forall clean l -> clean (Tree h l).
