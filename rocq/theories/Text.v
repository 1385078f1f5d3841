(** Splitting METAR/SPECI text: the regular expressions and string operations of
    decode/gempak.py:2562-2633 [_process_report_text].  Text is ASCII.  Definitions only. *)
From Verif Require Import Base Strings Dates.

(** decode/gempak.py:76: METAR_STATION_RE = ^[A-Z][A-Z0-9]{3}\s+ at the start of the text *)
Definition is_upper (c : Z) : bool := (65 <=? c) && (c <=? 90).
Definition station_re (s : str) : option str :=
  match s with
  | a :: b :: c :: d :: w :: _ =>
      if is_upper a && (is_upper b || is_digit b) && (is_upper c || is_digit c)
         && (is_upper d || is_digit d) && is_space w
      then Some [a; b; c; d] else None
  | _ => None
  end.

(** decode/gempak.py:77: METAR_TIME_RE = \d\d\d\d\d\dZ, the first occurrence ('Z' is 90) *)
Definition num2 (a b : Z) : Z := 10 * (a - 48) + (b - 48).
Definition time_here (s : str) : option (Z * Z * Z) :=
  match s with
  | a :: b :: c :: d :: e :: f :: z :: _ =>
      if forallb is_digit [a; b; c; d; e; f] && (z =? 90)
      then Some (num2 a b, num2 c d, num2 e f) else None
  | _ => None
  end.
Fixpoint time_re (s : str) : option (Z * Z * Z) :=
  match s with
  | [] => None
  | _ :: r => match time_here s with Some x => Some x | None => time_re r end
  end.

(** s.split(sub) for a non-empty sub; s.count(sub) is one less than the number of pieces. *)
Fixpoint strip_prefix (p s : str) : option str :=
  match p, s with
  | [], _ => Some s
  | a :: r, b :: t => if a =? b then strip_prefix r t else None
  | _, [] => None
  end.
Fixpoint split_fuel (fuel : nat) (sub s : str) : list str :=
  match fuel with
  | O => [s]
  | S f => match strip_prefix sub s with
           | Some r => [] :: split_fuel f sub r
           | None => match s with
                     | [] => [[]]
                     | c :: r => match split_fuel f sub r with
                                 | h :: t => (c :: h) :: t
                                 | [] => [[c]]
                                 end
                     end
           end
  end.
Definition split_sub (sub s : str) : list str := split_fuel (S (length s)) sub s.
Definition count_sub (sub s : str) : Z := Zlen (split_sub sub s) - 1.

(** decode/gempak.py:2587-2597: the reports in a text ('----' when no station is found) *)
Definition no_station : str := [45;45;45;45].
Definition text_reports (txt : str) : list str :=
  let stn := match station_re txt with Some s => s | None => no_station end in
  if count_sub stn txt >? 1 then
    map (fun s => strip (stn ++ s)) (filter (fun s => negb (str_eqb s [])) (split_sub stn txt))
  else [strip txt].

(** decode/gempak.py:2599-2623: the time of one special report: the time group of its text on
    the file's month, or the file's own time when there is no group or it is not a time. *)
Definition special_time (d : date) (t : time) (rpt : str) : res dtime :=
  let gem := make_dt (da_y d) (da_mo d) (da_d d) (ti_h t) (ti_mi t) in
  match time_re rpt with
  | None => gem
  | Some (dd, hh, mm) =>
      match make_dt (da_y d) (da_mo d) dd hh mm with
      | Ok x => Ok x
      | Err _ => gem
      end
  end.
