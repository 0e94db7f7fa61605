(** Model of src/Misc/radix64.cpp. *)
From Verif Require Import Model.Base Model.Includes.

(** bin.substr(x, k) for x = 0, k, 2k, ... (radix64.cpp 19-22, 75-77).  The loop counter at
    line 75 is an unsigned int; strings of 2^32 or more binary digits are not modelled. *)
Fixpoint chunks (k : nat) (fuel : nat) (s : bytes) : list bytes :=
  match fuel with
  | O => []
  | S f => match s with [] => [] | _ => firstn k s :: chunks k f (skipn k s) end
  end.

(** The alphabet of radix64.cpp 20, indexed. *)
Definition letter (c62 c63 i : N) : N :=
  if i <? 26 then 65 + i
  else if i <? 52 then 71 + i
  else if i <? 62 then i - 4
  else if i =? 62 then c62 else c63.

(** ascii2radix64, radix64.cpp 7-34. *)
Definition ascii2radix64_c (s : bytes) (c62 c63 : N) : bytes :=
  let padn := ((3 - len s mod 3) mod 3) in
  let bin := flat_map (fun c => makebin c 8) (s ++ repeat 0 (N.to_nat padn)) in
  let out := map (fun b => letter c62 c63 (toint2 b)) (chunks 6 (length bin) bin) in
  firstn (length out - N.to_nat padn) out ++ repeat 61 (N.to_nat padn).

(** The padding-counting loop, radix64.cpp 45-49, on the reversed string.  Reaching the
    empty string indexes str[npos]: undefined behaviour. *)
Fixpoint strip_pad (unpad : N) (r : bytes) : result (bytes * N) :=
  match r with
  | [] => UB
  | c :: r' => if c =? 61 then strip_pad (u8 (unpad + 1)) r' else Ok (r, unpad)
  end.

(** One letter, radix64.cpp 51-70. *)
Definition unletter (c62 c63 c : N) : result bytes :=
  if (65 <=? c) && (c <=? 90) then Ok (makebin (c - 65) 6)
  else if (97 <=? c) && (c <=? 122) then Ok (makebin (c - 71) 6)
  else if (48 <=? c) && (c <=? 57) then Ok (makebin (c + 4) 6)
  else if c =? c62 then Ok [49;49;49;49;49;48]
  else if c =? c63 then Ok [49;49;49;49;49;49]
  else Throw ERuntime.
Fixpoint unletters (c62 c63 : N) (s : bytes) : result bytes :=
  match s with
  | [] => Ok []
  | c :: r => b <- unletter c62 c63 c ;; t <- unletters c62 c63 r ;; Ok (b ++ t)
  end.

(** radix642ascii, radix64.cpp 36-80; [str.size() - unpad] is size_t arithmetic. *)
Definition radix642ascii_c (s : bytes) (c62 c63 : N) : result bytes :=
  if negb (N.land (len s) 3 =? 0) then Ok []
  else
    '(r, unpad) <- strip_pad 0 (rev s) ;;
    b <- unletters c62 c63 (rev r) ;;
    let bin := b ++ repeat 48 (N.to_nat (unpad * 6)) in
    let out := map (fun x => u8 (toint2 x)) (chunks 8 (length bin) bin) in
    Ok (prefix out (sub64 (len out) unpad)).

(** Default arguments '+' and '/' (radix64.h). *)
Definition ascii2radix64 (s : bytes) : bytes := ascii2radix64_c s 43 47.
Definition radix642ascii (s : bytes) : result bytes := radix642ascii_c s 43 47.
