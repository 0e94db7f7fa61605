(** The calendar, and what the texts of times mean. *)
From Verif Require Import Model.Base.
From Verif Require Export Model.Times.

(** The Gregorian calendar; months count from 0. *)
Definition leap (y : N) : bool := (y mod 4 =? 0) && (negb (y mod 100 =? 0) || (y mod 400 =? 0)).
Definition year_days (y : N) : N := if leap y then 366 else 365.
Definition month_days (y m : N) : N := nth (N.to_nat m) [31; if leap y then 29 else 28; 31; 30; 31; 30; 31; 31; 30; 31; 30; 31] 0.
(** Days from the first of January 1970 to that of the year 1970 + k, and from there to a month. *)
Fixpoint days_of_years (k : nat) : N := match k with O => 0 | S j => days_of_years j + year_days (1970 + N.of_nat j) end.
Fixpoint days_of_months (y : N) (m : nat) : N := match m with O => 0 | S j => days_of_months y j + month_days y (N.of_nat j) end.
(** [d] days after the first of January 1970 is the [day] of [m] in [y]. *)
Definition is_date (y m day d : N) : Prop :=
  1970 <= y /\ m < 12 /\ 1 <= day <= month_days y m /\ d = days_of_years (N.to_nat (y - 1970)) + days_of_months y (N.to_nat m) + (day - 1).

(** What gmtime has to deliver for [t] seconds after the start of 1970, a Thursday. *)
Definition is_tm (g : tm) (t : N) : Prop :=
  exists y, tm_year g = (Z.of_N y - 1900)%Z /\ is_date y (tm_mon g) (tm_mday g) (t / 86400) /\ tm_wday g = (t / 86400 + 4) mod 7 /\
    tm_hour g < 24 /\ tm_min g < 60 /\ tm_sec g < 60 /\ t mod 86400 = 3600 * tm_hour g + 60 * tm_min g + tm_sec g.
Definition is_gmtime (gm : Z -> option tm) : Prop := forall t, t < 2 ^ 32 -> exists g, gm (Z.of_N t) = Some g /\ is_tm g t.

(** Reading numbers and durations. *)
Definition number (s : bytes) : N := fold_left (fun a c => 10 * a + (c - 48)) s 0.
Definition digits (s : bytes) : Prop := Forall (fun c => 48 <= c <= 57) s.
(** [s] writes [n] with exactly [k] digits. *)
Definition writes (k : N) (s : bytes) (n : N) : Prop := digits s /\ len s = k /\ number s = n.
Fixpoint words_of (s : bytes) (w : bytes) : list bytes :=
  match s with [] => [w] | c :: r => if c =? 32 then w :: words_of r [] else words_of r (w ++ [c]) end.
Definition unit_of (w : bytes) : option N :=
  if beq w (str "year") || beq w (str "years") then Some (365 * 86400)
  else if beq w (str "day") || beq w (str "days") then Some 86400
  else if beq w (str "hour") || beq w (str "hours") then Some 3600
  else if beq w (str "minute") || beq w (str "minutes") then Some 60
  else if beq w (str "second") || beq w (str "seconds") then Some 1
  else None.
Fixpoint amount (ws : list bytes) : option N :=
  match ws with
  | [] => Some 0
  | n :: u :: r => match unit_of u, amount r with Some x, Some a => Some (number n * x + a) | _, _ => None end
  | _ => None
  end.
Definition duration (s : bytes) : option Z :=
  match words_of s [] with
  | [] => None
  | w :: r => if beq w (str "now") then Some 0%Z else if beq w (str "-") then option_map (fun n => (- Z.of_N n)%Z) (amount r) else option_map Z.of_N (amount (w :: r))
  end.
(** Words with single spaces between them. *)
Fixpoint joined (ws : list bytes) : bytes := match ws with [] => [] | [w] => w | w :: r => w ++ 32 :: joined r end.
(** A number and its unit, in the plural above 1; nothing for 0. *)
Definition field (n : N) (u : bytes) : list bytes := if n =? 0 then [] else [decimal n; u ++ (if 1 <? n then str "s" else [])].
(** What days of the week, from Sunday, and months are called. *)
Definition day_names : list bytes := map str ["Sun"; "Mon"; "Tues"; "Wed"; "Thur"; "Fri"; "Sat"]%string.
Definition month_names : list bytes := map str ["Jan"; "Feb"; "Mar"; "Apr"; "May"; "Jun"; "Jul"; "Aug"; "Sept"; "Oct"; "Nov"; "Dec"]%string.
