(** Specification of dates: the day and minute count of the Gregorian calendar in closed form,
    and the window of years that a two-digit year can express. *)
From Verif Require Import Base Dates.

(** Days before month m of a common year. *)
Definition days_before_month (m : Z) : Z :=
  nth (Z.to_nat (m - 1)) [0; 31; 59; 90; 120; 151; 181; 212; 243; 273; 304; 334] 0.
(** Number of the day, 0001-01-01 being day 1 (Rata Die). *)
Definition day_number (y m d : Z) : Z :=
  365 * (y - 1) + (y - 1) / 4 - (y - 1) / 100 + (y - 1) / 400
  + days_before_month m
  + (if (2 <? m) && (y mod 4 =? 0) && (negb (y mod 100 =? 0) || (y mod 400 =? 0)) then 1 else 0)
  + d.
(** Minutes since the start of day 0. *)
Definition minute_number (t : dtime) : Z :=
  day_number (dt_y t) (dt_mo t) (dt_d t) * 1440 + dt_h t * 60 + dt_mi t.

(** %y expresses the years 1969..2068. *)
Definition in_window (y : Z) : Prop := 1969 <= y <= 2068.

(** A date/time with the seconds dropped. *)
Definition to_minute (t : dtime) : dtime :=
  mk_dt (dt_y t) (dt_mo t) (dt_d t) (dt_h t) (dt_mi t) 0 0.

(** Meaning of the type letter (either case) in YYYYmmddHHMMThhhmm. *)
Definition letter_type (c : Z) : option ftype :=
  if (c =? 65) || (c =? 97) then Some analysis           (* A *)
  else if (c =? 70) || (c =? 102) || (c =? 86) || (c =? 118) then Some forecast   (* F, V *)
  else if (c =? 71) || (c =? 103) then Some guess        (* G *)
  else if (c =? 73) || (c =? 105) then Some initial      (* I *)
  else None.
