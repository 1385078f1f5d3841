(** The argument objects of a query: what gdxarray (decode/gempak.py:1011-1088), snxarray (2053-2117) and sfjson (2799-2862) do with
    lists, tuples and iterators of the caller.  Definitions only.
    Query models the selection for plain lists; here the objects are followed: lists of time strings are changed in place, and an
    iterator can be walked through only once. *)
From Coq Require Import QArith.
From Verif Require Import Base Floats Strings Dates Headers Order DmFile Station StationRead Grid GridRead Query.
Open Scope Z_scope.

(** An argument: a single value, a list, a tuple, or an iterator (a generator, map, filter, ...) with the items it has still to give.
    Simplification: sets, dicts and arrays are not modelled. *)
Inductive arg (A : Type) := AOne (x : A) | AList (l : list A) | ATuple (l : list A) | AIter (l : list A).
Arguments AOne {A} x. Arguments AList {A} l. Arguments ATuple {A} l. Arguments AIter {A} l.

(** x in obj: an iterator is walked through up to the item found *)
Fixpoint consume {A} (p : A -> bool) (l : list A) : bool * list A :=
  match l with
  | [] => (false, [])
  | x :: r => if p x then (true, r) else consume p r
  end.
Definition isin {A} (p : A -> bool) (o : arg A) : bool * arg A :=
  match o with
  | AOne x => (p x, o)
  | AList l | ATuple l => (existsb p l, o)
  | AIter l => let '(b, r) := consume p l in (b, AIter r)
  end.
(** [... for x in obj]: the items, and the object afterwards *)
Definition items {A} (o : arg A) : list A := match o with AOne x => [x] | AList l | ATuple l | AIter l => l end.
Definition walked {A} (o : arg A) : arg A := match o with AIter _ => AIter [] | _ => o end.
Definition upper_items (o : option (arg str)) : option (list str) := option_map (fun a => map upper (items a)) o.

(** ** Times: 1017-1025, 1036-1044, 2064-2072, 2809-2817 *)
(** the loop on a list: each string is replaced by its datetime; a bad string raises and the rest stays *)
Fixpoint parse_in_place (l : list titem) : list titem * res (list dtime) :=
  match l with
  | [] => ([], Ok [])
  | TDt t :: r => let '(r', x) := parse_in_place r in (TDt t :: r', ts <- x ;; Ok (t :: ts))
  | TStr s :: r =>
      match strptime fmt_YmdHM s with
      | Err e => (TStr s :: r, Err e)
      | Ok t => let '(r', x) := parse_in_place r in (TDt t :: r', ts <- x ;; Ok (t :: ts))
      end
  end.
(** on a tuple or an iterator the assignment of the datetime raises TypeError; the items not yet given *)
Fixpoint parse_fixed (l : list titem) : list titem * res (list dtime) :=
  match l with
  | [] => ([], Ok [])
  | TDt t :: r => let '(r', x) := parse_fixed r in (r', ts <- x ;; Ok (t :: ts))
  | TStr s :: r => (r, match strptime fmt_YmdHM s with Err e => Err e | Ok _ => Err TypeError end)
  end.
Inductive tobj := TFirst | TLast | TObj (o : arg dtime).
(** the object afterwards and what the filters use *)
Definition parse_obj (o : arg titem) : arg titem * res tobj :=
  match o with
  | AOne (TStr s) =>
      (o, if str_eqb s w_first || str_eqb s w_FIRST then Ok TFirst
          else if str_eqb s w_last || str_eqb s w_LAST then Ok TLast
          else t <- strptime fmt_YmdHM s ;; Ok (TObj (AList [t])))
  | AOne (TDt t) => (o, Ok (TObj (AList [t])))
  | AList l => let '(l', x) := parse_in_place l in (AList l', ts <- x ;; Ok (TObj (AList ts)))
  | ATuple l => (o, ts <- snd (parse_fixed l) ;; Ok (TObj (ATuple ts)))
  | AIter l => let '(r, x) := parse_fixed l in (AIter r, ts <- x ;; Ok (TObj (AIter [])))
  end.
Definition parse_opt (o : option (arg titem)) : option (arg titem) * res (option tobj) :=
  match o with
  | None => (None, Ok None)
  | Some a => let '(a', x) := parse_obj a in (Some a', t <- x ;; Ok (Some t))
  end.
(** 1058-1061, 2091-2094, 2836-2839 *)
Definition resolve_obj (times : list dtime) (t : tobj) : res (arg dtime) :=
  match t with
  | TLast => x <- max_time times ;; Ok (AList [x])
  | TFirst => x <- min_time times ;; Ok (AList [x])
  | TObj o => Ok o
  end.
Definition map_arg {A B} (f : A -> B) (o : arg A) : arg B :=
  match o with AOne x => AOne (f x) | AList l => AList (map f l) | ATuple l => ATuple (map f l) | AIter l => AIter (map f l) end.
(** 1063-1066 *)
Definition resolve2_obj (times : list (option dtime)) (t : tobj) : res (arg (option dtime)) :=
  match t with
  | TObj o => Ok (map_arg Some o)
  | TFirst => l <- resolve2 times SelFirst ;; Ok (AList l)
  | TLast => l <- resolve2 times SelLast ;; Ok (AList l)
  end.

(** ** Filters *)
(** if arg is not None: matched = filter(lambda g: ... in arg, matched), for one entry *)
Definition test {A} (p : A -> bool) (o : option (arg A)) : bool * option (arg A) :=
  match o with None => (true, None) | Some a => let '(b, a') := isin p a in (b, Some a') end.
Definition among (eqb : str -> str -> bool) (x : str) (o : option (list str)) : bool :=
  match o with None => true | Some l => existsb (eqb x) l end.
(** list(filter(...)): the filters are lazy, so each entry goes through all of them before the next *)
Fixpoint filter_obj {A T} (f : T -> A -> bool * T) (l : list A) (s : T) : list A * T :=
  match l with
  | [] => ([], s)
  | x :: r => let '(b, s1) := f s x in let '(m, s2) := filter_obj f r s1 in ((if b then [x] else []) ++ m, s2)
  end.
(** what is left of the object of the caller: only an iterator has changed *)
Definition left {A} (o o' : option (arg A)) : option (arg A) := match o with Some (AIter _) => o' | _ => o end.

(** ** Grids: 1011-1088 *)
Record gdobj := mk_gdo {
  o_parameter : option (arg str); o_time : option (arg titem); o_coordinate : option (arg str); o_level : option (arg pynum);
  o_time2 : option (arg titem); o_level2 : option (arg pynum)
}.
Definition gstate : Type := option (arg dtime) * option (arg pynum) * option (arg (option dtime)) * option (arg pynum).
(** 1068-1084: parameter, date_time, coordinate, level, date_time2, level2 *)
Definition gd_test (names coords : option (list str)) (s : gstate) (g : glisting) : bool * gstate :=
  let '(t1, lv, t2, lv2) := s in
  if negb (among str_eqb (gl_parm g) names) then (false, s)
  else
    let '(b, t1) := test (dtime_eqb (gl_time1 g)) t1 in
    if negb b then (false, (t1, lv, t2, lv2))
    else if negb (among str_eqb (gl_coord g) coords) then (false, (t1, lv, t2, lv2))
    else
      let '(b, lv) := test (level_eqb (gl_level1 g)) lv in
      if negb b then (false, (t1, lv, t2, lv2))
      else
        let '(b, t2) := test (odt_eqb (gl_time2 g)) t2 in
        if negb b then (false, (t1, lv, t2, lv2))
        else let '(b, lv2) := test (level_eqb (gl_level2 g)) lv2 in (b, (t1, lv, t2, lv2)).
Definition gd_call (info : list glisting) (o : gdobj) : gdobj * res (list glisting) :=
  let par := option_map walked (o_parameter o) in
  let '(t1, s1) := parse_opt (o_time o) in
  match s1 with
  | Err e => (mk_gdo par t1 (o_coordinate o) (o_level o) (o_time2 o) (o_level2 o), Err e)
  | Ok s1 =>
      let co := option_map walked (o_coordinate o) in
      let '(t2, s2) := parse_opt (o_time2 o) in
      match (s2 <- s2 ;; r1 <- option_res (resolve_obj (map gl_time1 info)) s1 ;; r2 <- option_res (resolve2_obj (map gl_time2 info)) s2 ;; Ok (r1, r2)) with
      | Err e => (mk_gdo par t1 co (o_level o) t2 (o_level2 o), Err e)
      | Ok (r1, r2) =>
          let '(m, (_, lv, _, lv2)) := filter_obj (gd_test (upper_items (o_parameter o)) (upper_items (o_coordinate o))) info (r1, o_level o, r2, o_level2 o) in
          (mk_gdo par t1 co (left (o_level o) lv) t2 (left (o_level2 o) lv2), match m with [] => Err KeyError | _ => Ok m end)
      end
  end.

(** ** Stations: 2053-2117, 2799-2862 *)
Record stobj := mk_sto {
  o_id : option (arg str); o_number : option (arg Z); o_when : option (arg titem); o_state : option (arg str); o_country : option (arg str);
  o_bbox : option bbox
}.
(** 2819-2827: sfjson makes new lists; 2074-2082: snxarray uses the object of the caller, except for a single string *)
Definition area_obj (k : kind) (o : option (arg str)) : option (arg str) :=
  match k, o with
  | _, None => None
  | KSurface, Some a => Some (AList (map upper (items a)))
  | KSounding, Some (AOne x) => Some (AList [upper x])
  | KSounding, Some a => Some a
  end.
Definition area_left (k : kind) (o o' : option (arg str)) : option (arg str) :=
  match k with KSurface => option_map walked o | KSounding => left o o' end.
Definition sstate : Type := option (arg str) * option (arg str) * option (arg dtime).
(** 2096-2112, 2841-2857: country, state, bbox, date_time, station_id, station_number *)
Definition st_test (box : option bbox) (ids : option (list str)) (numbers : option (list Z)) (s : sstate) (x : listing) : bool * sstate :=
  let '(co, st, tm) := s in
  let '(b, co) := test (str_eqb (ls_country x)) co in
  if negb b then (false, (co, st, tm))
  else
    let '(b, st) := test (str_eqb (ls_state x)) st in
    if negb b then (false, (co, st, tm))
    else if negb (match box with None => true | Some q => bbox_filter q (ls_lat x) (ls_lon x) end) then (false, (co, st, tm))
    else
      let '(b, tm) := test (dtime_eqb (ls_time x)) tm in
      (b && among str_eqb (ls_id x) ids && match numbers with None => true | Some l => existsb (Z.eqb (ls_number x)) l end, (co, st, tm)).
Definition st_call (k : kind) (info : list listing) (o : stobj) : stobj * res (list listing) :=
  let ids := option_map walked (o_id o) in
  let nums := option_map walked (o_number o) in
  let '(tm, s) := parse_opt (o_when o) in
  match s with
  | Err e => (mk_sto ids nums tm (o_state o) (o_country o) (o_bbox o), Err e)
  | Ok s =>
      match option_res (resolve_obj (map ls_time info)) s with
      | Err e => (mk_sto ids nums tm (area_left k (o_state o) (o_state o)) (area_left k (o_country o) (o_country o)) (o_bbox o), Err e)
      | Ok r =>
          let '(m, (co, st, _)) := filter_obj (st_test (o_bbox o) (upper_items (o_id o)) (option_map items (o_number o))) info
                                     (area_obj k (o_country o), area_obj k (o_state o), r) in
          (mk_sto ids nums tm (area_left k (o_state o) st) (area_left k (o_country o) co) (o_bbox o), match m with [] => Err KeyError | _ => Ok m end)
      end
  end.
