(** Dates and times: the parts of Python's datetime the code uses, the writer's date/time
    encodings and the reader's conversions.  Definitions only. *)
From Verif Require Import Base Strings.

(** datetime.datetime (naive: tzinfo is not modelled). *)
Record dtime := mk_dt { dt_y : Z; dt_mo : Z; dt_d : Z; dt_h : Z; dt_mi : Z; dt_s : Z; dt_us : Z }.
(** datetime.date and datetime.time *)
Record date := mk_date { da_y : Z; da_mo : Z; da_d : Z }.
Record time := mk_time { ti_h : Z; ti_mi : Z; ti_s : Z; ti_us : Z }.

(** dt.date(), dt.time(), datetime.combine(d, t) *)
Definition date_of (t : dtime) : date := mk_date (dt_y t) (dt_mo t) (dt_d t).
Definition time_of (t : dtime) : time := mk_time (dt_h t) (dt_mi t) (dt_s t) (dt_us t).
Definition combine_dt (d : date) (t : time) : dtime :=
  mk_dt (da_y d) (da_mo d) (da_d d) (ti_h t) (ti_mi t) (ti_s t) (ti_us t).

(** Proleptic Gregorian calendar, years 1..9999 (datetime.MINYEAR, MAXYEAR). *)
Definition leap (y : Z) : bool :=
  (y mod 4 =? 0) && (negb (y mod 100 =? 0) || (y mod 400 =? 0)).
Definition days_in_month (y m : Z) : Z :=
  if m =? 2 then (if leap y then 29 else 28)
  else if (m =? 4) || (m =? 6) || (m =? 9) || (m =? 11) then 30 else 31.
Definition valid_date (d : date) : bool :=
  (1 <=? da_y d) && (da_y d <=? 9999) && (1 <=? da_mo d) && (da_mo d <=? 12) &&
  (1 <=? da_d d) && (da_d d <=? days_in_month (da_y d) (da_mo d)).
Definition valid_time (t : time) : bool :=
  (0 <=? ti_h t) && (ti_h t <? 24) && (0 <=? ti_mi t) && (ti_mi t <? 60) &&
  (0 <=? ti_s t) && (ti_s t <? 60) && (0 <=? ti_us t) && (ti_us t <? 1000000).
Definition valid_dt (t : dtime) : bool := valid_date (date_of t) && valid_time (time_of t).

(** datetime(y, mo, d, h, mi): ValueError when out of range. *)
Definition make_dt (y mo d h mi : Z) : res dtime :=
  let t := mk_dt y mo d h mi 0 0 in if valid_dt t then Ok t else Err ValueError.

(** datetime + timedelta(minutes=n): day by day, OverflowError outside years 1..9999. *)
Definition next_day (d : date) : date :=
  if da_d d <? days_in_month (da_y d) (da_mo d) then mk_date (da_y d) (da_mo d) (da_d d + 1)
  else if da_mo d <? 12 then mk_date (da_y d) (da_mo d + 1) 1
  else mk_date (da_y d + 1) 1 1.
Definition prev_day (d : date) : date :=
  if 1 <? da_d d then mk_date (da_y d) (da_mo d) (da_d d - 1)
  else if 1 <? da_mo d then
    mk_date (da_y d) (da_mo d - 1) (days_in_month (da_y d) (da_mo d - 1))
  else mk_date (da_y d - 1) 12 31.
Definition add_days (d : date) (n : Z) : date :=
  match n with
  | Z0 => d
  | Z.pos p => Pos.iter next_day d p
  | Z.neg p => Pos.iter prev_day d p
  end.
Definition add_minutes (t : dtime) (n : Z) : res dtime :=
  let m := dt_h t * 60 + dt_mi t + n in
  let d := add_days (date_of t) (m / 1440) in
  if (1 <=? da_y d) && (da_y d <=? 9999) then
    Ok (mk_dt (da_y d) (da_mo d) (da_d d) (m mod 1440 / 60) (m mod 60) (dt_s t) (dt_us t))
  else Err OverflowError.

(** ** datetime.strptime for the directives %Y %y %m %d %H %M without separators.
    CPython turns the format into one regular expression (_strptime.TimeRE), takes the first
    match in backtracking order at the start of the string, and raises ValueError when there is
    none or when text is left over. *)
Inductive directive := DY | Dy | Dm | Dd | DH | DM.

Definition in_range (a b c : Z) : bool := (a <=? c) && (c <=? b).
Definition two (p q : Z -> bool) (s : str) : list (Z * str) :=
  match s with
  | a :: b :: r => if p a && q b then [(10 * (a - 48) + (b - 48), r)] else []
  | _ => []
  end.
Definition one (p : Z -> bool) (s : str) : list (Z * str) :=
  match s with a :: r => if p a then [(a - 48, r)] else [] | [] => [] end.
(** The alternatives of each directive's regular expression, in order:
    Y \d\d\d\d; y \d\d; m 1[0-2]|0[1-9]|[1-9]; d 3[0-1]|[1-2]\d|0[1-9]|[1-9]| [1-9];
    H 2[0-3]|[0-1]\d|\d; M [0-5]\d|\d.  (Characters: '0' is 48, '9' is 57, ' ' is 32.) *)
Definition alts (d : directive) (s : str) : list (Z * str) :=
  match d with
  | DY => match s with
          | a :: b :: c :: e :: r =>
              if is_digit a && is_digit b && is_digit c && is_digit e
              then [(1000 * (a - 48) + 100 * (b - 48) + 10 * (c - 48) + (e - 48), r)] else []
          | _ => []
          end
  | Dy => two is_digit is_digit s
  | Dm => two (Z.eqb 49) (in_range 48 50) s ++ two (Z.eqb 48) (in_range 49 57) s
          ++ one (in_range 49 57) s
  | Dd => two (Z.eqb 51) (in_range 48 49) s ++ two (in_range 49 50) is_digit s
          ++ two (Z.eqb 48) (in_range 49 57) s ++ one (in_range 49 57) s
          ++ match s with 32 :: r => one (in_range 49 57) r | _ => [] end
  | DH => two (Z.eqb 50) (in_range 48 51) s ++ two (in_range 48 49) is_digit s ++ one is_digit s
  | DM => two (in_range 48 53) is_digit s ++ one is_digit s
  end.

Fixpoint find_map {A B} (f : A -> option B) (l : list A) : option B :=
  match l with
  | [] => None
  | x :: r => match f x with Some y => Some y | None => find_map f r end
  end.

Fixpoint match_fmt (ds : list directive) (s : str) : option (list Z * str) :=
  match ds with
  | [] => Some ([], s)
  | d :: r => find_map (fun '(v, rest) =>
                match match_fmt r rest with
                | Some (vs, tl) => Some (v :: vs, tl)
                | None => None
                end) (alts d s)
  end.

(** Assign the parsed numbers; %y: 69..99 -> 19xx, 0..68 -> 20xx. *)
Definition set_field (t : dtime) (dv : directive * Z) : dtime :=
  let '(mk_dt y mo d h mi s us) := t in
  match dv with
  | (DY, v) => mk_dt v mo d h mi s us
  | (Dy, v) => mk_dt (if v <=? 68 then 2000 + v else 1900 + v) mo d h mi s us
  | (Dm, v) => mk_dt y v d h mi s us
  | (Dd, v) => mk_dt y mo v h mi s us
  | (DH, v) => mk_dt y mo d v mi s us
  | (DM, v) => mk_dt y mo d h v s us
  end.
Definition strptime (ds : list directive) (s : str) : res dtime :=
  match match_fmt ds s with
  | Some (vs, []) =>
      let t := fold_left set_field (combine ds vs) (mk_dt 1900 1 1 0 0 0 0) in
      if valid_dt t then Ok t else Err ValueError
  | _ => Err ValueError
  end.

(** The three formats used: '%y%m%d', '%m%d%y%H%M', '%Y%m%d%H%M', '%H%M'. *)
Definition fmt_ymd := [Dy; Dm; Dd].
Definition fmt_mdyHM := [Dm; Dd; Dy; DH; DM].
Definition fmt_YmdHM := [DY; Dm; Dd; DH; DM].
Definition fmt_HM := [DH; DM].

(** dt.strftime(fmt) for the same directives. *)
Definition strf1 (t : dtime) (d : directive) : str :=
  match d with
  | DY => fmt_d 4 (dt_y t)
  | Dy => fmt_d 2 (dt_y t mod 100)
  | Dm => fmt_d 2 (dt_mo t)
  | Dd => fmt_d 2 (dt_d t)
  | DH => fmt_d 2 (dt_h t)
  | DM => fmt_d 2 (dt_mi t)
  end.
Definition strftime (ds : list directive) (t : dtime) : str := concat (map (strf1 t) ds).

(** ** Writer side *)
(** encode/gempak.py:973-982: the GDT1/GDT2 integer of an (itype, dattim) pair. *)
Definition enc_gdt (itype : Z) (dattim : dtime) : res Z :=
  if itype =? 0 then py_int (strftime fmt_ymd dattim)
  else py_int (strftime fmt_mdyHM dattim).
(** encode/gempak.py:984-990: the GTM1/GTM2 integer of (itype, ihr, imin). *)
Definition enc_gtm (itype ihr imin : Z) : res Z :=
  if itype =? 0 then py_int (fmt_d 2 ihr ++ fmt_d 2 imin)
  else v <- py_int (fmt_d 3 ihr ++ fmt_d 2 imin) ;; Ok (itype * 100000 + v).
(** encode/gempak.py:1274-1279, 1535-1540: DATE and TIME integers of a row. *)
Definition enc_date (d : date) : res Z :=
  py_int (strftime fmt_ymd (combine_dt d (mk_time 0 0 0 0))).
Definition enc_time (t : time) : res Z :=
  py_int (strftime fmt_HM (combine_dt (mk_date 1900 1 1) t)).

(** ** Reader side *)
(** decode/gempak.py:478-493 [_convert_dattim] *)
Definition convert_dattim (dattim : Z) : res (option dtime) :=
  if negb (dattim =? 0) then
    if dattim <? 100000000 then t <- strptime fmt_ymd (fmt_d 6 dattim) ;; Ok (Some t)
    else t <- strptime fmt_mdyHM (fmt_d 10 dattim) ;; Ok (Some t)
  else Ok None.

(** common.py:92-98 ForecastType *)
Inductive ftype := analysis | forecast | guess | initial.
Definition forecast_type (z : Z) : res ftype :=
  if z =? 0 then Ok analysis else if z =? 1 then Ok forecast
  else if z =? 2 then Ok guess else if z =? 3 then Ok initial else Err ValueError.

(** decode/gempak.py:495-511 [_convert_ftime]; a timedelta is a number of minutes. *)
Definition convert_ftime (ftime : Z) : res (option (ftype * Z)) :=
  if ftime >=? 0 then
    let n := ftime / 100000 in
    iftype <- forecast_type n ;;
    let iftime := ftime - n * 100000 in
    let hours := iftime / 100 in
    let minutes := iftime - hours * 100 in
    Ok (Some (iftype, hours * 60 + minutes))
  else Ok None.

(** decode/gempak.py:546-549 [_make_date]: None has no date() -> AttributeError *)
Definition dec_date (dattim : Z) : res date :=
  t <- convert_dattim dattim ;;
  match t with Some t => Ok (date_of t) | None => Err AttributeError end.
(** decode/gempak.py:551-555 [_make_time] *)
Definition dec_time (t : Z) : res time :=
  d <- strptime fmt_HM (fmt_d 4 t) ;; Ok (time_of d).

(** ** add_grid's date_time argument *)
Inductive dtarg := ADStr (s : str) | ADDt (t : dtime) | ADOther.

(** re.split('([AFVIG])', ...) : A 65, F 70, G 71, I 73, V 86 *)
Definition is_type_letter (c : Z) : bool :=
  (c =? 65) || (c =? 70) || (c =? 86) || (c =? 73) || (c =? 71).
(** {'A': 0, 'F': 1, 'V': 1, 'G': 2, 'I': 3}.get(gtype) *)
Definition type_code (c : Z) : Z :=
  if c =? 65 then 0 else if c =? 70 then 1 else if c =? 86 then 1
  else if c =? 71 then 2 else 3.

(** encode/gempak.py:847-866 and 886-907 (the same code for date_time and date_time2):
    (grid_type, init_date, forecast_hour, forecast_minute, has_letter) of an upper-cased
    string.  int(init_date.strftime('%H')) is the hour itself. *)
Definition parse_dattim (s : str) : res (Z * dtime * Z * Z * bool) :=
  match split_on is_type_letter s with
  | ([_], []) =>
      init <- strptime fmt_YmdHM s ;; Ok (0, init, dt_h init, dt_mi init, false)
  | ([init; fhr], [g]) =>
      d <- strptime fmt_YmdHM init ;;
      if 3 <? Zlen fhr then
        h <- py_int (firstn 3 fhr) ;; m <- py_int (skipn 3 fhr) ;; Ok (type_code g, d, h, m, true)
      else if (length fhr =? 0)%nat then Ok (type_code g, d, 0, 0, true)
      else h <- py_int fhr ;; Ok (type_code g, d, h, 0, true)
  | _ => Err ValueError
  end.

(** encode/gempak.py:840-873: (grid_type, init_date, forecast_hour, forecast_minute) *)
Definition parse_date_time (a : dtarg) : res (Z * dtime * Z * Z) :=
  match a with
  | ADStr s =>
      if Zlen s <? 12 then Err ValueError
      else ' (g, d, h, m, _) <- parse_dattim (upper s) ;; Ok (g, d, h, m)
  | ADDt t => Ok (0, t, dt_h t, dt_mi t)
  | ADOther => Err TypeError
  end.

(** encode/gempak.py:881-917: the same for date_time2; None when it is absent.  The length
    check is made on date_time, not date_time2 (line 885); a datetime has no len(). *)
Definition parse_date_time2 (a1 : dtarg) (grid_type : Z) (a : option dtarg)
  : res (option (Z * dtime * Z * Z)) :=
  match a with
  | None => Ok None
  | Some (ADStr s) =>
      do (match a1 with
          | ADStr s1 => if Zlen s1 <? 12 then Err ValueError else Ok tt
          | _ => Err TypeError
          end) ;;
      ' (g, d, h, m, letter) <- parse_dattim (upper s) ;;
      if letter && negb (grid_type =? g) then Err ValueError
      else Ok (Some (g, d, h, m))
  | Some (ADDt t) => Ok (Some (0, t, dt_h t, dt_mi t))
  | Some ADOther => Err TypeError
  end.
