(** Cleartext signatures: src/CleartextSignature.cpp. *)
From Verif Require Export Model.Pgp Model.Sigcalc.

Record cleartext := mkCleartext { cs_hash : list (bytes * bytes); cs_message : bytes; cs_sig : pgp }.

(** out.substr(0, out.size() - 1): for an empty string the count wraps and nothing is cut. *)
Definition chop (s : bytes) : bytes := prefix s (sub64 (len s) 1).
(** dash_escape, CleartextSignature.cpp 211-224. *)
Definition escape_line (l : bytes) : bytes := match l with 45 :: _ => 45 :: 32 :: l | _ => l end.
Definition dash_escape (t : bytes) : bytes :=
  chop (concat (map (fun l => escape_line l ++ [10]) (getlines t))).
(** reverse_dash_escape, 226-242. *)
Definition unescape_line (l : bytes) : bytes := match l with 45 :: 32 :: r => r | _ => l end.
Definition reverse_dash_escape (t : bytes) : bytes :=
  chop (concat (map (fun l => unescape_line l ++ [10]) (getlines t))).
(** data_to_text, 248-263: spaces and tabs at the end of each line are removed. *)
Fixpoint drop_blanks (r : bytes) : bytes :=
  match r with c :: r' => if (c =? 32) || (c =? 9) then drop_blanks r' else r | [] => [] end.
Definition strip_line (l : bytes) : bytes := rev (drop_blanks (rev l)).
Definition data_to_text (t : bytes) : bytes :=
  chop (concat (map (fun l => strip_line l ++ [10]) (getlines t))).

(** CleartextSignature::write, 144-160, without a Status pointer. *)
Definition begin_signed : bytes := armor_begin ++ str "SIGNED MESSAGE" ++ dashes.
Definition begin_signature : bytes := armor_begin ++ str "SIGNATURE" ++ dashes.
Definition end_signature : bytes := armor_end ++ str "SIGNATURE" ++ dashes.
Definition cs_write (c : cleartext) : result bytes :=
  s <- pgp_write (cs_sig c) ArmorYes ;;
  Ok (begin_signed ++ [10] ++ flat_map (fun k => fst k ++ str ": " ++ snd k ++ [10]) (cs_hash c) ++ [10] ++
      dash_escape (cs_message c) ++ [10] ++ s).

(** CleartextSignature::read, 51-134, into an object with header keys [hs] and signature [g].
    What getline leaves in [line] when the stream is used up: the sentry fails and [line] keeps
    the last line if that line had no newline; otherwise it is cleared. *)
Definition line_at_eof (data : bytes) : result bytes :=
  match rev data with
  | [] | 10 :: _ => Ok []
  | _ => trim_whitespace (last (getlines data) []) false true
  end.
(** Lines up to the first that starts with [h], without trailing white space: those before it,
    the line itself (or [eof]) and the rest; 58-65, 103-112 and 120-130. *)
Fixpoint lines_until (h eof : bytes) (ls : list bytes) : result (list bytes * bytes * list bytes * bool) :=
  match ls with
  | [] => Ok ([], eof, [], false)
  | l :: r =>
    t <- trim_whitespace l false true ;;
    if starts_with h t then Ok ([], t, r, true)
    else ' (a, x, r, f) <- lines_until h eof r ;; Ok (t :: a, x, r, f)
  end.
(** The header loop, 74-95, is that of PGP::read (armor_keys): other keys than "Hash" only
    print a warning.  DetachedSignature does not override PGP::read. *)
Definition cs_read (hs : list (bytes * bytes)) (g : pgp) (data : bytes) : result cleartext :=
  eof <- line_at_eof data ;;
  ' (_, _, rest, found) <- lines_until begin_signed eof (getlines data) ;;
  if negb found then Throw ERuntime
  else
    ' (ks, rest) <- armor_keys rest ;;
    ' (ls, line, rest, _) <- lines_until begin_signature eof rest ;;
    let message := reverse_dash_escape (chop (concat (map (fun l => l ++ [10]) ls))) in
    ' (body, line2, _, _) <- lines_until end_signature eof rest ;;
    sig <- pgp_read g (line ++ [10] ++ concat (map (fun l => l ++ [10]) body) ++ line2) ;;
    Ok (mkCleartext (hs ++ ks) message sig).
