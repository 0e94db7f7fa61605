(** The other members of Tag3: src/Packets/Tag3.cpp.  The contents are those of Packets. *)
From Verif Require Export Model.Decrypt.

(** set_s2k, Tag3.cpp 127-139. *)
Definition tag3_set_s2k (c : contents) (s : option s2k) : result contents :=
  match c, s with
  | PSymSession _ _ _ _, None => Throw ERuntime
  | PSymSession v sym _ esk, Some x => if negb (s2k_type x =? 1) && negb (s2k_type x =? 3) then Throw ERuntime else Ok (PSymSession v sym (Some x) esk)
  | _, _ => UB
  end.
(** set_session_key, Tag3.cpp 151-157: the old encrypted session key is dropped first. *)
Definition set_session_key (c : contents) (pass sk : bytes) : result contents :=
  match c with
  | PSymSession v sym s _ =>
    match s with
    | Some x =>
      if 1 <? len sk then
        kbits <- map_at key_length sym ;;
        key <- s2k_run x pass (N.shiftr kbits 3) ;;
        bbits <- map_at block_length sym ;;
        e <- use_ncfb_encrypt sym sk key (repeat 0 (N.to_nat (N.shiftr bbits 3))) ;;
        Ok (PSymSession v sym s (Some e))
      else Ok (PSymSession v sym s None)
    | None => Ok (PSymSession v sym s None)
    end
  | _ => UB
  end.
