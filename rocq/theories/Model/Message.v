(** Message composition: src/Message.cpp 7-113 (reductions) and 277-369 (match). *)
From Verif Require Export Model.Pgp.

(** Message::Token, include/Message.h 71-94. *)
Inductive token :=
| OPENM | ENCM | SIGM | COMM | LITM | ESK | ESKS | ENCD | OPSM
| CDP | LDP | PKESKP | SKESKP | SEDP | SEIPDP | OPSP | SP | NONE.
Definition token_eqb (a b : token) : bool :=
  match a, b with
  | OPENM, OPENM | ENCM, ENCM | SIGM, SIGM | COMM, COMM | LITM, LITM | ESK, ESK | ESKS, ESKS
  | ENCD, ENCD | OPSM, OPSM | CDP, CDP | LDP, LDP | PKESKP, PKESKP | SKESKP, SKESKP | SEDP, SEDP
  | SEIPDP, SEIPDP | OPSP, OPSP | SP, SP | NONE, NONE => true
  | _, _ => false
  end.

(** A rule is given the token at the iterator and the list after it; it returns the list
    from the iterator on after a reduction, or None (false).  Dereferencing end() is undefined
    behaviour. *)
Definition rule := token -> list token -> result (option (list token)).
(** OpenMessage, Message.cpp 8-14. *)
Definition rule_open : rule := fun t r =>
  match t with ENCM | SIGM | COMM | LITM => Ok (Some (OPENM :: r)) | _ => Ok None end.
(** CompressedMessage 17-23, LiteralMessage 26-32, EncryptedSessionKey 35-41. *)
Definition rule_compressed : rule := fun t r => match t with CDP => Ok (Some (COMM :: r)) | _ => Ok None end.
Definition rule_literal : rule := fun t r => match t with LDP => Ok (Some (LITM :: r)) | _ => Ok None end.
Definition rule_esk : rule := fun t r => match t with PKESKP | SKESKP => Ok (Some (ESK :: r)) | _ => Ok None end.
(** ESKSequence, 44-58. *)
Definition rule_esks : rule := fun t r =>
  match t with
  | ESK => Ok (Some (ESKS :: r))
  | ESKS => match r with [] => UB | ESK :: r' => Ok (Some (ESKS :: r')) | _ => Ok None end
  | _ => Ok None
  end.
(** EncryptedData, 61-67. *)
Definition rule_data : rule := fun t r => match t with SEDP | SEIPDP => Ok (Some (ENCD :: r)) | _ => Ok None end.
(** EncryptedMessage, 70-84. *)
Definition rule_encrypted : rule := fun t r =>
  match t with
  | ENCD => Ok (Some (ENCM :: r))
  | ESKS => match r with [] => UB | ENCD :: r' => Ok (Some (ENCM :: r')) | _ => Ok None end
  | _ => Ok None
  end.
(** OnePassSignedMessage, 87-97.  At the last token end() is incremented: undefined in the
    standard ([strict]), harmless in the usual implementations, whose lists are circular. *)
Definition rule_one_pass (strict : bool) : rule := fun t r =>
  match r with
  | [] => if strict then UB else match t with OPSP => UB | _ => Ok None end
  | t2 :: r2 =>
    match t, t2 with
    | OPSP, OPENM => match r2 with [] => UB | SP :: r3 => Ok (Some (OPSM :: r3)) | _ => Ok None end
    | _, _ => Ok None
    end
  end.
(** SignedMessage, 100-113. *)
Definition rule_signed : rule := fun t r =>
  match t with
  | OPSM => Ok (Some (SIGM :: r))
  | SP => match r with [] => UB | OPENM :: r' => Ok (Some (SIGM :: r')) | _ => Ok None end
  | _ => Ok None
  end.

(** The disjunction of rules, 343-351: the first that applies. *)
Definition rules (strict : bool) : list rule :=
  [rule_open; rule_compressed; rule_literal; rule_esk; rule_esks; rule_data; rule_encrypted;
   rule_one_pass strict; rule_signed].
Fixpoint first_rule (rs : list rule) : rule := fun t r =>
  match rs with
  | [] => Ok None
  | f :: rs' => x <- f t r ;; match x with Some l => Ok (Some l) | None => first_rule rs' t r end
  end.
(** One pass over the tokens, 341-355: the list after the first reduction, or None. *)
Fixpoint reduce (strict : bool) (s : list token) : result (option (list token)) :=
  match s with
  | [] => Ok None
  | t :: r =>
    x <- first_rule (rules strict) t r ;;
    match x with
    | Some l => Ok (Some l)
    | None => y <- reduce strict r ;; match y with Some l => Ok (Some (t :: l)) | None => Ok None end
    end
  end.
(** The outer loop, 339-360: every reduction shortens the list or moves a token up the
    grammar, so four steps per packet are enough (proved). *)
Fixpoint match_loop (fuel : nat) (strict : bool) (tok : token) (s : list token) : result bool :=
  if (match s with [t] => token_eqb t tok | _ => false end) then Ok true
  else match fuel with
       | O => Diverge
       | S f => x <- reduce strict s ;;
                match x with Some s' => match_loop f strict tok s' | None => Ok false end
       end.

(** Packet to token, 302-336. *)
Definition tag_token (tag : N) : option token :=
  match tag with
  | 8 => Some CDP | 11 => Some LDP | 1 => Some PKESKP | 3 => Some SKESKP | 9 => Some SEDP
  | 18 => Some SEIPDP | 4 => Some OPSP | 2 => Some SP | _ => None
  end.
Fixpoint tokens (tags : list N) : option (list token) :=
  match tags with
  | [] => Some []
  | t :: r => match tag_token t, tokens r with Some a, Some l => Some (a :: l) | _, _ => None end
  end.

(** Message::match, 277-360; MESSAGE is armor type 1. *)
Definition message_match (strict : bool) (type : N) (tags : list N) (tok : token) : result bool :=
  if negb (type =? 1) then Ok false
  else if len tags =? 0 then Ok false
  else match tok with
       | OPENM | ENCM | SIGM | COMM | LITM =>
         match tokens tags with
         | None => Ok false
         | Some s => match_loop (4 * length s) strict tok s
         end
       | _ => Ok false
       end.
(** Message::meaningful, 366-372. *)
Definition message_meaningful (strict : bool) (g : pgp) : result bool :=
  message_match strict (g_type g) (map p_tag (g_packets g)) OPENM.
