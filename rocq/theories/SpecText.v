(** What the parts of a surface report text are. *)
From Verif Require Import Base Strings Dates SpecDates.

(** A time group: two digits each for day, hour and minute, then 'Z'. *)
Definition digits2 (a b v : Z) : Prop := 48 <= a <= 57 /\ 48 <= b <= 57 /\ v = 10 * (a - 48) + (b - 48).
Definition group_at_start (s : str) (day hour minute : Z) : Prop :=
  exists a b c d e f rest, s = [a; b; c; d; e; f; 90] ++ rest /\ digits2 a b day /\ digits2 c d hour /\ digits2 e f minute.
(** The first time group of a text. *)
Definition first_group (s : str) (day hour minute : Z) : Prop :=
  exists before after, s = before ++ after /\ group_at_start after day hour minute /\
    forall before' after' d h m, s = before' ++ after' -> group_at_start after' d h m -> (length before <= length before')%nat.
Definition no_group (s : str) : Prop :=
  forall before after d h m, s = before ++ after -> ~ group_at_start after d h m.

(** The pieces of a text between the occurrences of [sub], found from the left. *)
Inductive pieces (sub : str) : str -> list str -> Prop :=
| pieces_last s : (forall a b, s <> a ++ sub ++ b) -> pieces sub s [s]
| pieces_more p r l : (forall a b, p ++ sub ++ r = a ++ sub ++ b -> (length p <= length a)%nat) ->
    pieces sub r l -> pieces sub (p ++ sub ++ r) (p :: l).

(** The station at the start of a text: a capital letter, three capital letters or digits, white
    space. *)
Definition capital (c : Z) : Prop := 65 <= c <= 90.
Definition alnum (c : Z) : Prop := capital c \/ 48 <= c <= 57.
Definition station_of (s stn : str) : Prop :=
  exists a b c d w rest, stn = [a; b; c; d] /\ s = stn ++ w :: rest /\ capital a /\ alnum b /\ alnum c /\ alnum d /\ is_space w = true.

(** The time a special report should carry: the file's year and month with the first time group
    of its text, or the file's own time when there is no group or it is not a time of that month. *)
Definition special_at (file_date : date) (file_time : time) (rpt : str) (t : dtime) : Prop :=
  (exists d h m, first_group rpt d h m /\ t = mk_dt (da_y file_date) (da_mo file_date) d h m 0 0 /\ valid_dt t = true) \/
  ((no_group rpt \/ exists d h m, first_group rpt d h m /\ valid_dt (mk_dt (da_y file_date) (da_mo file_date) d h m 0 0) = false) /\
   t = mk_dt (da_y file_date) (da_mo file_date) (da_d file_date) (ti_h file_time) (ti_mi file_time) 0 0).
