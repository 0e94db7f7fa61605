(** The packet grammars of RFC 4880 section 11, over packet tags: 11.3, OpenPGP messages.
    Symbols are rules of the RFC, each a set of tag sequences. *)
From Coq Require Export NArith List.
Export ListNotations.
#[global] Open Scope N_scope.

Inductive esk : list N -> Prop := esk_public : esk [1] | esk_symmetric : esk [3].
Inductive esk_sequence : list N -> Prop :=
| esks_one a : esk a -> esk_sequence a
| esks_more a b : esk_sequence a -> esk b -> esk_sequence (a ++ b).
Inductive encrypted_data : list N -> Prop := ed_plain : encrypted_data [9] | ed_protected : encrypted_data [18].
Inductive encrypted_message : list N -> Prop :=
| em_data a : encrypted_data a -> encrypted_message a
| em_esks a b : esk_sequence a -> encrypted_data b -> encrypted_message (a ++ b).
Inductive compressed_message : list N -> Prop := cm : compressed_message [8].
Inductive literal_message : list N -> Prop := lm : literal_message [11].
Inductive openpgp_message : list N -> Prop :=
| om_encrypted a : encrypted_message a -> openpgp_message a
| om_signed a : signed_message a -> openpgp_message a
| om_compressed a : compressed_message a -> openpgp_message a
| om_literal a : literal_message a -> openpgp_message a
with signed_message : list N -> Prop :=
| sm_plain a : openpgp_message a -> signed_message ([2] ++ a)
| sm_one_pass a : one_pass_signed_message a -> signed_message a
with one_pass_signed_message : list N -> Prop :=
| opsm a : openpgp_message a -> one_pass_signed_message ([4] ++ a ++ [2]).

Scheme openpgp_message_mind := Minimality for openpgp_message Sort Prop
  with signed_message_mind := Minimality for signed_message Sort Prop
  with one_pass_message_mind := Minimality for one_pass_signed_message Sort Prop.
Combined Scheme message_mutind from openpgp_message_mind, signed_message_mind, one_pass_message_mind.
