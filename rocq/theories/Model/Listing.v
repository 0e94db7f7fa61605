(** Key::list_keys, src/Key.cpp 106-190. *)
From Verif Require Export Model.Key Model.Times.
From Verif Require Import Model.Sign.

(** A std::stringstream: its text and the width set with std::setw, which the next insertion of
    a string, character or number uses up; the fill character is always a space here. *)
Record ostream := mkStream { o_text : bytes; o_width : N }.
Definition put (o : ostream) (s : bytes) : ostream := mkStream (o_text o ++ padded 32 (o_width o) s) 0.
Definition setw (o : ostream) (w : N) : ostream := mkStream (o_text o) w.
Definition puts (o : ostream) (l : list bytes) : ostream := fold_left put l o.

(** Public_Key_Type, Key.cpp 8-13. *)
Definition public_key_type (t : N) : result bytes :=
  match t with 5 => Ok (str "sec") | 6 => Ok (str "pub") | 7 => Ok (str "ssb") | 14 => Ok (str "sub") | _ => Throw EOutOfRange end.
(** PKA::SHORT, PKAs.h 152-163, without GPG_COMPATIBLE. *)
Definition pka_short (a : N) : result bytes :=
  match a with 1 | 2 | 3 => Ok (str "R") | 16 => Ok (str "g") | 17 => Ok (str "D") | _ => Throw EOutOfRange end.
(** Signature_Type::is_revocation, sigtypes.cpp 18-22. *)
Definition is_revocation (t : N) : bool := mem [32; 40; 48] t.
Definition as_attributes (p : packet) : result (list image) := match p_body p with PAttributes l => Ok l | _ => UB end.

(** 118-129. *)
Definition list_key (gm : Z -> option tm) (indent : bytes) (o : ostream) (p : packet) : result ostream :=
  k <- as_key p ;;
  let o := if is_subkey (p_tag p) then put o [10] else o in
  ty <- public_key_type (p_tag p) ;;
  n <- vec_at (k_mpi k) 0 ;;
  sh <- pka_short (k_pka k) ;;
  id <- get_keyid k ;;
  h <- substr id 4 4 ;;
  d <- show_date gm (Z.of_N (k_time k)) ;;
  let o := puts o [indent; ty; str "  "] in
  let o := put (setw o 4) (decimal (bitsize n)) in
  Ok (puts o [indent; sh; str "/"; indent; hexlify h; str " "; indent; d]).
(** 159-180: a time, or a width that is left for whatever is written next. *)
Definition list_time (gm : Z -> option tm) (o : ostream) (t : N) : result ostream :=
  if t =? 0 then Ok (setw (put o (str " ")) 10)
  else d <- show_date gm (Z.of_N t) ;; Ok (puts o [str " "; d]).
(** 144-181. *)
Definition list_sig (gm : Z -> option tm) (indent : bytes) (o : ostream) (p : packet) : result ostream :=
  s <- as_sig p ;;
  let o := puts o [indent; str "sig "] in
  let o := put o (if is_revocation (t2_type s) then str "revok" else if t2_type s =? 24 then str "sbind" else str " sig ") in
  ' (a, b, c) <- get_times s ;;
  id <- sig_keyid s ;;
  h <- substr id 4 4 ;;
  let o := puts o [str "  "; hexlify h] in
  o <- (if a =? 0 then Ok o else d <- show_date gm (Z.of_N a) ;; Ok (puts o [str " "; d])) ;;
  o <- list_time gm o b ;;
  list_time gm o c.
(** One turn of the loop, 116-186. *)
Definition list_packet (gm : Z -> option tm) (indent : bytes) (o : ostream) (p : packet) : result ostream :=
  o <- (if is_key_packet (p_tag p) then list_key gm indent o p
        else if p_tag p =? 13 then u <- as_user_id p ;; Ok (puts o [[10]; indent; str "uid "; u])
        else if p_tag p =? 17 then
          l <- as_attributes p ;;
          Ok (fold_left (fun o i => puts o [[10]; indent; str "att  att  [jpeg image of size "; decimal (len (im_image i)); str "]"]) l o)
        else if p_tag p =? 2 then list_sig gm indent o p
        else Ok o) ;;
  Ok (put o [10]).
Fixpoint list_packets (gm : Z -> option tm) (indent : bytes) (o : ostream) (ps : list packet) : result ostream :=
  match ps with [] => Ok o | p :: r => o <- list_packet gm indent o p ;; list_packets gm indent o r end.
(** list_keys, 106-190; indents * indent_size is a size_t. *)
Definition list_keys (gm : Z -> option tm) (indents indent_size : N) (g : pgp) : result bytes :=
  m <- meaningful g ;;
  if m then o <- list_packets gm (repeat 32 (N.to_nat (u64 (indents * indent_size)))) (mkStream [] 0) (g_packets g) ;; Ok (o_text o)
  else Ok [].
