(** src/Misc/pgptime.cpp and the tables of include/Misc/pgptime.h.  now() is an argument
    wherever it is used. *)
From Verif Require Export Model.Base.
From Coq Require Export ZArith.

(** std::to_string and operator<< of an integer. *)
Fixpoint dec_digits (fuel : nat) (n : N) : bytes :=
  match fuel with
  | O => []
  | S f => if n <? 10 then [48 + n] else dec_digits f (n / 10) ++ [48 + n mod 10]
  end.
Definition decimal (n : N) : bytes := dec_digits (S (N.size_nat n)) n.
Definition decimal_z (z : Z) : bytes := if (z <? 0)%Z then 45 :: decimal (Z.to_N (- z)) else decimal (Z.to_N z).
(** std::setfill(c) << std::setw(w) << s. *)
Definition padded (c : N) (w : N) (s : bytes) : bytes := repeat c (N.to_nat (w - len s)) ++ s.

(** struct tm; the year counts from 1900.  The fields that gmtime never makes negative are
    natural numbers. *)
Record tm := mkTm { tm_sec : N; tm_min : N; tm_hour : N; tm_mday : N; tm_mon : N; tm_year : Z; tm_wday : N }.

(** pgptime.h 35, 36. *)
Definition dayofweek : list bytes := map str ["Sun"; "Mon"; "Tues"; "Wed"; "Thur"; "Fri"; "Sat"]%string.
Definition month : list bytes := map str ["Jan"; "Feb"; "Mar"; "Apr"; "May"; "Jun"; "Jul"; "Aug"; "Sept"; "Oct"; "Nov"; "Dec"]%string.
(** An index into an array. *)
Definition entry (l : list bytes) (i : N) : result bytes := match nth_error l (N.to_nat i) with Some x => Ok x | None => UB end.
(** 1900 + gmt -> tm_year, a sum of int. *)
Definition full_year (t : tm) : result Z := if ((-2147483648 <=? 1900 + tm_year t) && (1900 + tm_year t <=? 2147483647))%Z then Ok (1900 + tm_year t)%Z else UB.

(** show_time, pgptime.cpp 16-29; gmtime is an argument, None for the null pointer it returns
    for years that do not fit. *)
Definition show_time (gmtime : Z -> option tm) (time : Z) : result bytes :=
  match gmtime time with
  | None => UB
  | Some g =>
    d <- entry dayofweek (tm_wday g) ;;
    m <- entry month (tm_mon g) ;;
    y <- full_year g ;;
    Ok (d ++ str " " ++ m ++ str " " ++ decimal (tm_mday g) ++ str " " ++
        padded 48 2 (decimal (tm_hour g)) ++ str ":" ++ padded 48 2 (decimal (tm_min g)) ++ str ":" ++ padded 48 2 (decimal (tm_sec g)) ++ str " UTC " ++ decimal_z y)
  end.
(** show_date, 31-38. *)
Definition show_date (gmtime : Z -> option tm) (time : Z) : result bytes :=
  match gmtime time with
  | None => UB
  | Some g =>
    y <- full_year g ;;
    Ok (decimal_z y ++ str "-" ++ padded 48 2 (decimal (tm_mon g + 1)) ++ str "-" ++ padded 48 2 (decimal (tm_mday g)))
  end.

(** One field of show_dt, 61-79. *)
Definition dt_field (out : bytes) (n : N) (unit : bytes) : bytes :=
  if n =? 0 then out
  else out ++ match out with [] => [] | _ => str " " end ++ decimal n ++ str " " ++ unit ++ (if 1 <? n then str "s" else []).
(** show_dt, 40-82: time_t has 64 bits; the negation of the smallest value overflows. *)
Definition show_dt (dt : Z) : result bytes :=
  if (dt =? 0)%Z then Ok (str "now")
  else if (dt =? -9223372036854775808)%Z then UB
  else
    let neg := (dt <? 0)%Z in
    let d := Z.to_N (Z.abs dt) in
    let out := if neg then str "-" else [] in
    let out := dt_field out (d / 31536000) (str "year") in
    let out := dt_field out (d / 86400 mod 365) (str "day") in
    let out := dt_field out (d / 3600 mod 24) (str "hour") in
    let out := dt_field out (d / 60 mod 60) (str "minute") in
    Ok (dt_field out (d mod 60) (str "second")).
