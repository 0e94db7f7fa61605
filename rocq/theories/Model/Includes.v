(** Model of include/common/includes.h and src/common/includes.cpp. *)
From Verif Require Import Model.Base.

(** The digit tables "0123456789abcdef" / "0123456789ABCDEF" (includes.h 47-50). *)
Definition hexdigit (caps : bool) (d : N) : N :=
  if d <? 10 then 48 + d else if caps then 55 + d else 87 + d.

(** makehex(value, size, caps), includes.h 44-56.  The loop fills from the right and
    stops early when value becomes 0, leaving '0'; filling with the digit of 0 is the
    same, so the early exit is not modelled separately. *)
Fixpoint makehex_c (caps : bool) (v : N) (size : nat) : bytes :=
  match size with
  | O => []
  | S k => makehex_c caps (v / 16) k ++ [hexdigit caps (v mod 16)]
  end.
Definition makehex := makehex_c false.

(** makebin(value, size), includes.h 32-39 (same remark). *)
Fixpoint makebin (v : N) (size : nat) : bytes :=
  match size with
  | O => []
  | S k => makebin (v / 2) k ++ [48 + v mod 2]
  end.

(** hexlify(char, caps), includes.cpp 127-129, and hexlify(string, caps), 115-125. *)
Definition hexlify_char (caps : bool) (c : N) : bytes := makehex_c caps (u8 c) 2.
Definition hexlify_c (caps : bool) (s : bytes) : bytes := flat_map (hexlify_char caps) s.
Definition hexlify := hexlify_c false.

(** One hexadecimal digit, includes.cpp 138-149. *)
Definition unhexdigit (c : N) : result N :=
  if (48 <=? c) && (c <=? 57) then Ok (c - 48)
  else if (97 <=? c) && (c <=? 102) then Ok (c - 97 + 10)
  else if (65 <=? c) && (c <=? 70) then Ok (c - 65 + 10)
  else Throw ERuntime.

(** unhexlify, includes.cpp 131-164.  The pairwise loop; the caller checks even length. *)
Fixpoint unhexlify_pairs (s : bytes) : result bytes :=
  match s with
  | a :: b :: r =>
      x <- unhexdigit a ;;
      y <- unhexdigit b ;;
      t <- unhexlify_pairs r ;;
      Ok (u8 (N.lor (N.shiftl x 4) y) :: t)
  | _ => Ok []
  end.
Definition unhexlify (s : bytes) : result bytes :=
  if N.odd (len s) then Throw ERuntime else unhexlify_pairs s.

(** toint(s, 256), includes.cpp 24-28: uint64_t accumulation. *)
Definition toint256 (s : bytes) : N :=
  fold_left (fun v c => N.lor (u64 (N.shiftl v 8)) (u8 c)) s 0.

(** toint(s, 2), includes.cpp 7-14: stops at the first character other than '0'/'1'. *)
Fixpoint toint2_aux (v : N) (s : bytes) : N :=
  match s with
  | [] => v
  | c :: r => if (c =? 48) || (c =? 49)
              then toint2_aux (u64 (u64 (N.shiftl v 1) + (c - 48))) r else v
  end.
Definition toint2 (s : bytes) : N := toint2_aux 0 s.

(** binify(char), includes.cpp 85-93; binify(string, size), 70-83. *)
Definition binify_char (c : N) : bytes := makebin (u8 c) 8.
Definition binify (s : bytes) (size : N) : bytes :=
  let out := flat_map binify_char s in
  if len out <? size then repeat 48 (N.to_nat (size - len out)) ++ out else out.

(** unbinify, includes.cpp 96-111: anything but '1' counts as 0. *)
Definition bits_to_char (s : bytes) : N :=
  fold_left (fun c b => u8 (u8 (N.shiftl c 1) + (if b =? 49 then 1 else 0))) s 0.
Fixpoint unbinify_chunks (fuel : nat) (s : bytes) : bytes :=
  match fuel with
  | O => []
  | S f => match s with
           | [] => []
           | _ => bits_to_char (firstn 8 s) :: unbinify_chunks f (skipn 8 s)
           end
  end.
Definition unbinify (s : bytes) : result bytes :=
  if negb (N.land (len s) 7 =? 0) then Throw ERuntime
  else Ok (unbinify_chunks (length s) s).

(** pkcs5, includes.cpp 166-171.  [blocksize - data.size()] is size_t arithmetic and
    wraps; [static_cast<char>(pad)] truncates to an octet; [% 0] is undefined. *)
Definition pkcs5 (data : bytes) (blocksize : N) : result bytes :=
  if blocksize =? 0 then UB
  else let pad := (sub64 blocksize (len data) mod blocksize) mod blocksize in
       Ok (data ++ repeat (u8 pad) (N.to_nat pad)).

(** remove_pkcs5, includes.cpp 173-180.  data[size()-1] on an empty string indexes npos. *)
Definition remove_pkcs5 (data : bytes) : result bytes :=
  if len data =? 0 then UB
  else pad <- at_ data (len data - 1) ;;
       if pad <? len data then
         tail <- substr data (len data - pad) pad ;;
         if beq (repeat pad (N.to_nat pad)) tail
         then Ok (prefix data (len data - pad)) else Ok data
       else Ok data.

(** zfill, includes.cpp 183-188. *)
Definition zfill (s : bytes) (n : N) (fill : N) : bytes :=
  if len s <? n then repeat fill (N.to_nat (n - len s)) ++ s else s.

(** and_strings / or_strings / xor_strings, includes.cpp 212-239. *)
Fixpoint zip_strings (f : N -> N -> N) (a b : bytes) : bytes :=
  match a, b with
  | x :: a', y :: b' => f x y :: zip_strings f a' b'
  | _, _ => []
  end.
Definition and_strings := zip_strings N.land.
Definition or_strings := zip_strings N.lor.
Definition xor_strings := zip_strings N.lxor.

(** The constant [whitespace], includes.h 20. *)
Definition whitespace : bytes := [32; 9; 10; 11; 12; 13].
Definition mem_char (c : N) (ws : bytes) : bool := existsb (N.eqb c) ws.

(** std::string::find_first_not_of / find_last_not_of: index or npos (None). *)
Fixpoint find_first_not_of (ws s : bytes) : option N :=
  match s with
  | [] => None
  | c :: r => if mem_char c ws
              then option_map N.succ (find_first_not_of ws r) else Some 0
  end.
Fixpoint find_last_not_of (ws s : bytes) : option N :=
  match s with
  | [] => None
  | c :: r => match find_last_not_of ws r with
              | Some i => Some (N.succ i)
              | None => if mem_char c ws then None else Some 0
              end
  end.

(** trim_whitespace, includes.cpp 242-266; npos = 2^64-1, so [back - front + 1] wraps. *)
Definition trim_whitespace_ws (src : bytes) (trim_front trim_back : bool) (ws : bytes)
  : result bytes :=
  match src with
  | [] => Ok src
  | _ =>
    let go (front : N) :=
      let back := if trim_back
                  then match find_last_not_of ws src with
                       | Some i => i | None => two64 - 1 end
                  else len src in
      substr src front (u64 (sub64 back front + 1)) in
    if trim_front
    then match find_first_not_of ws src with
         | None => Ok []
         | Some f => go f
         end
    else go 0
  end.
Definition trim_whitespace (src : bytes) (trim_front trim_back : bool) : result bytes :=
  trim_whitespace_ws src trim_front trim_back whitespace.

(** ROL(string, bits), includes.cpp 191-209.  Characters are (signed) char; the masks
    make the arithmetic shift equal to the logical one on octets. *)
Fixpoint rol_bits (push : N) (top : N) (s : bytes) : bytes :=
  match s with
  | [] => []
  | [x] => [N.lor (u8 (N.shiftl x push)) top]
  | x :: ((y :: _) as r) =>
      N.lor (u8 (N.shiftl x push))
            (N.land (N.shiftr y (8 - push)) (N.ones push)) :: rol_bits push top r
  end.
Definition ROL_string (s : bytes) (bits : N) : result bytes :=
  match s with
  | [] => Ok []
  | _ => out <- substr (s ++ s) (N.shiftr bits 3) (len s) ;;
         let push := N.land bits 7 in
         if push =? 0 then Ok out
         else x0 <- at_ out 0 ;;
              Ok (rol_bits push (N.land (N.shiftr x0 (8 - push)) (N.ones push)) out)
  end.
