(** Selecting what to read: gdxarray (decode/gempak.py:956-1150), snxarray (2011-2180), sfjson
    (2751-2892), nearest_time (2635-2749).  Definitions only.
    Simplifications: list arguments are Python lists (other argument objects, such as tuples and
    iterators, are in Args.v); text is ASCII; station numbers are integers; a
    bounding box has four finite numbers, compared exactly.  Not modelled: the xarray objects
    themselves and the log messages. *)
From Coq Require Import QArith.
From Verif Require Import Base Floats Strings Dates Headers Order DmFile Station StationRead Grid GridRead.
Open Scope Z_scope.

(** A single value or a list of values. *)
Inductive some_of (A : Type) := One (x : A) | Many (l : list A).
Arguments One {A} x. Arguments Many {A} l.
(** not isinstance(x, Iterable) or isinstance(x, str): [x] *)
Definition listed {A} (s : some_of A) : list A := match s with One x => [x] | Many l => l end.
(** [p.upper() for p in parameter] *)
Definition uppers (s : some_of str) : list str := map upper (listed s).

(** A time: a datetime or a string YYYYmmddHHMM. *)
Inductive titem := TDt (t : dtime) | TStr (s : str).
Definition parse_item (i : titem) : res dtime :=
  match i with TDt t => Ok t | TStr s => strptime fmt_YmdHM s end.
(** What the date_time argument becomes: decode/gempak.py:1019-1028, 2067-2075, 2803-2811. *)
Inductive tsel := SelFirst | SelLast | SelTimes (l : list dtime).
Definition w_first : str := [102;105;114;115;116].
Definition w_FIRST : str := [70;73;82;83;84].
Definition w_last : str := [108;97;115;116].
Definition w_LAST : str := [76;65;83;84].
Definition parse_times (a : some_of titem) : res tsel :=
  match a with
  | One (TStr s) =>
      if str_eqb s w_last || str_eqb s w_LAST then Ok SelLast
      else if str_eqb s w_first || str_eqb s w_FIRST then Ok SelFirst
      else t <- strptime fmt_YmdHM s ;; Ok (SelTimes [t])
  | One (TDt t) => Ok (SelTimes [t])
  | Many l => ts <- mapM parse_item l ;; Ok (SelTimes ts)
  end.
Definition option_res {A B} (f : A -> res B) (o : option A) : res (option B) :=
  match o with None => Ok None | Some x => y <- f x ;; Ok (Some y) end.

(** datetime comparison; max and min of a non-empty sequence keep the first extreme value. *)
Definition later (a b : dtime) : dtime := match dtime_cmp b a with Gt => b | _ => a end.
Definition earlier (a b : dtime) : dtime := match dtime_cmp b a with Lt => b | _ => a end.
Definition max_time (l : list dtime) : res dtime :=
  match l with [] => Err ValueError | x :: r => Ok (fold_left later r x) end.
Definition min_time (l : list dtime) : res dtime :=
  match l with [] => Err ValueError | x :: r => Ok (fold_left earlier r x) end.
(** decode/gempak.py:1058-1061, 2094-2097, 2831-2834 *)
Definition resolve (times : list dtime) (s : tsel) : res (list dtime) :=
  match s with
  | SelLast => t <- max_time times ;; Ok [t]
  | SelFirst => t <- min_time times ;; Ok [t]
  | SelTimes l => Ok l
  end.
(** decode/gempak.py:1063-1066: DATTIM2 may be None, which cannot be compared; a single None is
    its own extreme. *)
Fixpoint all_some {A} (l : list (option A)) : option (list A) :=
  match l with
  | [] => Some []
  | Some x :: r => match all_some r with Some s => Some (x :: s) | None => None end
  | None :: _ => None
  end.
Definition resolve2 (times : list (option dtime)) (s : tsel) : res (list (option dtime)) :=
  match s with
  | SelTimes l => Ok (map Some l)
  | _ => match all_some times with
         | Some l => ts <- resolve l s ;; Ok (map Some ts)
         | None => match times with [None] => Ok [None] | _ => Err TypeError end
         end
  end.

(** x in list *)
Definition dtime_eqb (a b : dtime) : bool := is_eq (dtime_cmp a b).
Definition odt_eqb (a b : option dtime) : bool :=
  match a, b with Some x, Some y => dtime_eqb x y | None, None => true | _, _ => false end.
(** an integer level (or None) equal to a number *)
Definition level_eqb (l : option Z) (n : pynum) : bool :=
  match l, n with
  | Some z, PInt w => z =? w
  | Some z, PFloat f => finite f && Qeq_bool (q_of f) (inject_Z z)
  | None, _ => false
  end.
(** if arg is not None: matched = filter(lambda ..., matched) *)
Definition narrow {A B} (arg : option B) (p : B -> A -> bool) (l : list A) : list A :=
  match arg with None => l | Some b => filter (p b) l end.

(** ** Grids: decode/gempak.py:1011-1088 *)
Record gdargs := mk_gda {
  a_parameter : option (some_of str); a_time : option (some_of titem);
  a_coordinate : option (some_of str); a_level : option (some_of pynum);
  a_time2 : option (some_of titem); a_level2 : option (some_of pynum)
}.
Definition gd_select (info : list glisting) (a : gdargs) : res (list glisting) :=
  s1 <- option_res parse_times (a_time a) ;;
  s2 <- option_res parse_times (a_time2 a) ;;
  t1 <- option_res (resolve (map gl_time1 info)) s1 ;;
  t2 <- option_res (resolve2 (map gl_time2 info)) s2 ;;
  let m := narrow (a_parameter a) (fun s g => existsb (str_eqb (gl_parm g)) (uppers s)) info in
  let m := narrow t1 (fun l g => existsb (dtime_eqb (gl_time1 g)) l) m in
  let m := narrow (a_coordinate a) (fun s g => existsb (str_eqb (gl_coord g)) (uppers s)) m in
  let m := narrow (a_level a) (fun s g => existsb (level_eqb (gl_level1 g)) (listed s)) m in
  let m := narrow t2 (fun l g => existsb (odt_eqb (gl_time2 g)) l) m in
  let m := narrow (a_level2 a) (fun s g => existsb (level_eqb (gl_level2 g)) (listed s)) m in
  match m with [] => Err KeyError | _ => Ok m end.

(** decode/gempak.py:1087-1150: one array per part of every selected grid; what the header puts
    on it (PRES, HGHT and THTA are renamed) *)
Record gout := mk_go {
  go_name : str; go_time : dtime; go_coord : str; go_level : option Z; go_type : ftype; go_cells : gcells
}.
Definition var_name (n : str) : str :=
  if str_eqb n [80;82;69;83] then [112]
  else if str_eqb n [72;71;72;84] then [122]
  else if str_eqb n [84;72;84;65] then [116;104;101;116;97]
  else lower n.
Definition gdxarray (f : rgrid) (a : gdargs) : res (list gout) :=
  sel <- gd_select (rg_info f) a ;;
  rs <- mapM (fun g => cs <- read_grid f (gl_no g) ;;
                       Ok (map (mk_go (var_name (gl_parm g)) (gl_time1 g) (lower (gl_coord g)) (gl_level1 g) (gl_type g)) cs)) sel ;;
  Ok (concat rs).

(** ** Stations: decode/gempak.py:2055-2125, 2793-2862 *)
Definition bbox := (Q * Q * Q * Q)%type.   (* left, right, bottom, top *)
(** decode/gempak.py:126-136 [_bbox_filter] *)
Definition bbox_filter (b : bbox) (lat lon : flt) : bool :=
  let '(b_left, b_right, b_bottom, b_top) := b in
  Qle_bool b_left (q_of lon) && Qle_bool (q_of lon) b_right && Qle_bool b_bottom (q_of lat) && Qle_bool (q_of lat) b_top.
Record stargs := mk_sta {
  a_id : option (some_of str); a_number : option (some_of Z); a_when : option (some_of titem);
  a_state : option (some_of str); a_country : option (some_of str); a_bbox : option bbox
}.
(** The state and country lists: upper-cased by sfjson (2813-2821), by snxarray only when a
    single string is given (2077-2085). *)
Definition area_names (k : kind) (s : some_of str) : list str :=
  match k with
  | KSurface => uppers s
  | KSounding => match s with One x => [upper x] | Many l => l end
  end.
Definition st_select (k : kind) (info : list listing) (a : stargs) : res (list listing) :=
  s <- option_res parse_times (a_when a) ;;
  t <- option_res (resolve (map ls_time info)) s ;;
  let m := narrow (a_country a) (fun s x => existsb (str_eqb (ls_country x)) (area_names k s)) info in
  let m := narrow (a_state a) (fun s x => existsb (str_eqb (ls_state x)) (area_names k s)) m in
  let m := narrow (a_bbox a) (fun b x => bbox_filter b (ls_lat x) (ls_lon x)) m in
  let m := narrow t (fun l x => existsb (dtime_eqb (ls_time x)) l) m in
  let m := narrow (a_id a) (fun s x => existsb (str_eqb (ls_id x)) (uppers s)) m in
  let m := narrow (a_number a) (fun s x => existsb (Z.eqb (ls_number x)) (listed s)) m in
  match m with [] => Err KeyError | _ => Ok m end.

(** The records of the selected entries, before they become xarray or JSON objects (snxarray
    2123-2130 for merged files, sfjson 2864-2870). *)
Definition select_records (k : kind) (f : rfile) (a : stargs) : res (list record) :=
  l <- info f ;; sel <- st_select k l a ;; unpack f (map (fun x => (ls_row x, ls_col x)) sel).

(** ** sfjson: decode/gempak.py:2872-2892 *)
Record sfobj := mk_obj {
  ob_time : dtime; ob_id : str; ob_number : dval; ob_lon : dval; ob_lat : dval; ob_elev : dval;
  ob_state : dval; ob_country : dval; ob_priority : dval; ob_values : record
}.
Definition need_key (k : str) (r : record) : res dval :=
  match get k r with Some v => Ok v | None => Err KeyError end.
Definition head_keys : list str :=
  [k_DATE; k_TIME; k_STID; k_STD2; k_STNM; k_SLON; k_SLAT; k_SELV; k_STAT; k_COUN; k_SPRI].
Definition is_head (k : str) : bool := existsb (str_eqb k) head_keys.
(** The pops take out the header entries; what is left, with lower-case names, are the values. *)
Definition json_of (r : record) : res sfobj :=
  d <- need_key k_DATE r ;; t <- need_key k_TIME r ;;
  dt <- match d, t with DHead (HDate d), DHead (HTime t) => Ok (combine_dt d t) | _, _ => Err TypeError end ;;
  i1 <- need_key k_STID r ;; i2 <- need_key k_STD2 r ;;
  id <- match i1, i2 with DHead (HText a), DHead (HText b) => Ok (a ++ b) | _, _ => Err TypeError end ;;
  nm <- need_key k_STNM r ;; lon <- need_key k_SLON r ;; lat <- need_key k_SLAT r ;; el <- need_key k_SELV r ;;
  st <- need_key k_STAT r ;; co <- need_key k_COUN r ;; pr <- need_key k_SPRI r ;;
  Ok (mk_obj dt id nm lon lat el st co pr
        (fold_left (fun acc '(k, v) => put (lower k) v acc) (filter (fun '(k, _) => negb (is_head k)) r) [])).
Definition has (k : str) (r : record) : bool := match get k r with Some _ => true | None => false end.
Definition sfjson (f : rfile) (a : stargs) (include_special : bool) : res (list sfobj) :=
  rs <- select_records KSurface f a ;;
  mapM json_of (filter (fun r => negb (match r with [] => true | _ => false end)
                                 && (include_special || negb (has k_SPCL r))) rs).

(** ** nearest_time *)
(** datetime subtraction: date.toordinal and microseconds *)
Definition days_before_year (y : Z) : Z := (y - 1) * 365 + (y - 1) / 4 - (y - 1) / 100 + (y - 1) / 400.
Definition month_start (y m : Z) : Z := fold_right Z.add 0 (map (days_in_month y) (map (fun k => k + 1) (zrange (m - 1)))).
Definition toordinal (y m d : Z) : Z := days_before_year y + month_start y m + d.
Definition microseconds (t : dtime) : Z :=
  ((toordinal (dt_y t) (dt_mo t) (dt_d t) * 24 + dt_h t) * 60 + dt_mi t) * 60000000 + dt_s t * 1000000 + dt_us t.
Definition apart (a b : dtime) : Z := Z.abs (microseconds a - microseconds b).
(** min(matched, key=...): the first of the smallest *)
Definition nearer (when : dtime) (a b : sfobj) : sfobj :=
  if apart (ob_time b) when <? apart (ob_time a) when then b else a.
Definition nearest (when : dtime) (l : list sfobj) : res sfobj :=
  match l with [] => Err ValueError | x :: r => Ok (fold_left (nearer when) r x) end.
(** decode/gempak.py:2684: bool(arg) *)
Definition truthy {A} (p : A -> bool) (o : option (some_of A)) : bool :=
  match o with
  | None => false
  | Some (One x) => p x
  | Some (Many l) => negb (match l with [] => true | _ => false end)
  end.
Definition nonempty (s : str) : bool := negb (str_eqb s []).
Record ntargs := mk_nta {
  n_id : option (some_of str); n_number : option (some_of Z); n_state : option (some_of str);
  n_country : option (some_of str); n_bbox : option bbox
}.
Definition b2z (b : bool) : Z := if b then 1 else 0.
Definition given_filters (a : ntargs) : Z :=
  b2z (truthy nonempty (n_id a)) + b2z (truthy (fun z => negb (z =? 0)) (n_number a))
  + b2z (truthy nonempty (n_state a)) + b2z (truthy nonempty (n_country a))
  + b2z (match n_bbox a with Some _ => true | None => false end).
(** A Python set of strings: its members once each; [order] is the order it is iterated in. *)
Definition id_set (l : list str) : list str := fold_left (fun s x => set_add str_cmp x s) l [].
(** decode/gempak.py:2692-2727: the ids that are looked up; each step replaces the ones before *)
Definition lookup_ids (order : list str -> list str) (info : list listing) (a : ntargs) : list str :=
  let ids := match n_id a with Some s => uppers s | None => [] end in
  let ids := match n_bbox a with
             | Some b => order (id_set (map ls_id (filter (fun x => bbox_filter b (ls_lat x) (ls_lon x)) info)))
             | None => ids
             end in
  let area f s := order (id_set (map ls_id (flat_map (fun c => filter (fun x => str_eqb c (f x)) info) (uppers s)))) in
  let ids := match n_country a with
             | Some s => if match uppers s with [] => true | _ => false end then ids else area ls_country s
             | None => ids
             end in
  match n_state a with
  | Some s => if match uppers s with [] => true | _ => false end then ids else area ls_state s
  | None => ids
  end.
Definition by_id (s : str) : stargs := mk_sta (Some (One s)) None None None None None.
Definition by_number (n : Z) : stargs := mk_sta None (Some (One n)) None None None None.
Definition nearest_time (order : list str -> list str) (f : rfile) (when : titem) (a : ntargs) (special : bool)
  : res (list sfobj) :=
  t <- parse_item when ;;
  if given_filters a =? 0 then Err ValueError
  else if given_filters a >? 1 then Err NotImplementedError
  else
    l <- info f ;;
    r1 <- mapM (fun s => m <- sfjson f (by_id s) special ;; nearest t m) (lookup_ids order l a) ;;
    r2 <- mapM (fun n => m <- sfjson f (by_number n) special ;; nearest t m)
            (match n_number a with Some s => listed s | None => [] end) ;;
    Ok (r1 ++ r2).
