(** The JSON text of the elements of a vector graphics file.  Source:
    /repo/src/gempakio/decode/vgf.py:3244-3258 ([VectorGraphicFile.to_json]) and 2865-2872
    ([NumpyEncoder]), with json.dumps of the Python standard library as it is called there.
    Definitions only.

    Simplifications: the only keyword argument considered is [cls]; the others take the defaults of
    json.dumps (ensure_ascii, separators ", " and ": ", NaN allowed).  repr of a finite float is a
    parameter.  The order of the attributes in an object is the one of [elem_dict], not that of
    the constructor. *)
From Coq Require Import String.
From Verif Require Import Base Floats Strings Structs VgfBase VgfTables VgfRead Tca.
From Coq Require Import List.
Import ListNotations.
Open Scope string_scope.
Open Scope list_scope.
Open Scope Z_scope.

(** ** The values of attributes *)

(** Python values; [PArray] is a one-dimensional numpy array of numbers, [POther] a value
    json.dumps does not know (bytes, an instance of a class). *)
Inductive pobj :=
| PInt (z : Z) | PFloat (x : flt) | PText (s : str)
| PList (l : list pobj) | PDict (m : list (str * pobj)) | PArray (l : list pyval) | POther.

(** decode/vgf.py:106-118, values 0 to 9 *)
Definition LineType_names : list string :=
  ["dotted"; "solid"; "short_dashed"; "medium_dashed"; "long_dash_short_dash"; "long_dash";
   "long_dash_three_short_dash"; "long_dash_dot"; "long_dash_three_dot"; "extra_long_dash_two_dot"].
(** decode/vgf.py:121-149, values 1 to 26 *)
Definition SpecialLineType_names : list string :=
  ["ball_chain"; "zigzag"; "scallop"; "pointed_arrow"; "alt_angle_ticks"; "filled_arrow";
   "box_circles"; "two_x"; "filled_circles"; "line_fill_circle_line"; "tick_marks"; "line_x_line";
   "fancy_arrow"; "fill_circle_x"; "box_x"; "line_circle_line"; "line_caret_line1";
   "line_caret_line2"; "sine_curve"; "arrow_dashed"; "fill_arrow_dash"; "streamline"; "double_line";
   "kink_line1"; "kink_line2"; "z_line"].
(** decode/vgf.py:152-179, values 0 to 24 *)
Definition MarkerType_names : list string :=
  ["none"; "plus_sign"; "octagon"; "triangle"; "box"; "small_x"; "diamond"; "up_arrow"; "x_bar";
   "z_bar"; "y"; "box_diagonals"; "asterisk"; "hourglass"; "star"; "dot"; "large_x"; "filled_octagon";
   "filled_triangle"; "filled_box"; "filled_diamond"; "filled_star"; "minus_sign"; "tropical_storm";
   "hurricane"].
(** decode/vgf.py:182-189, values 1 to 5 *)
Definition ListType_names : list string :=
  ["county"; "zone"; "wfo"; "state"; "marine_county"].
(** decode/vgf.py:192-204, values 0 to 9 *)
Definition FrontType_names : list string :=
  ["stationary"; "stationary_aloft"; "warm"; "warm_aloft"; "cold"; "cold_aloft"; "occluded";
   "dryline"; "intertropical"; "convergence"].
(** decode/vgf.py:207-219, values 0 to 9 *)
Definition FrontIntensity_names : list string :=
  ["unspecified"; "weak_decreasing"; "weak"; "weak_increasing"; "moderate_decreasing"; "moderate";
   "moderate_increasing"; "strong_decreasing"; "strong"; "strong_increasing"].
(** decode/vgf.py:222-234, values 0 to 9 *)
Definition FrontCharacter_names : list string :=
  ["unspecified"; "frontal_decreasing"; "little_change"; "area_increasing"; "intertropical";
   "forming_suspected"; "quasi_stationary"; "with_waves"; "diffuse"; "position_doubtful"].

(** Attributes that hold the name of a member of an enumeration: [_set_properties] of 833-837,
    1069-1074, 1190-1194, 1249-1252, 1623-1625 and 2798-2800.  The decoders of [VgfRead] give the
    number of the member. *)
Definition enumeration (kind attr : string) : option (Z * list string) :=
  if String.eqb attr "line_style" then
    Some (if String.eqb kind "SpecialLineElement" then (1, SpecialLineType_names) else (0, LineType_names))
  else if String.eqb attr "front_type" then Some (0, FrontType_names)
  else if String.eqb attr "front_intensity" then Some (0, FrontIntensity_names)
  else if String.eqb attr "front_character" then Some (0, FrontCharacter_names)
  else if String.eqb attr "list_type_name" then Some (1, ListType_names)
  else if String.eqb attr "marker_name" then Some (0, MarkerType_names)
  else None.

Definition plain (v : pyval) : pobj :=
  match v with VInt z => PInt z | VFloat x => PFloat x | VText s => PText s | _ => POther end.
Definition attr_value (kind attr : string) (v : pyval) : pobj :=
  match enumeration kind attr, v with
  | Some (lo, names), VInt z => PText (codes (nth (Z.to_nat (z - lo)) names ""))
  | _, _ => plain v
  end.

(** 604-626: the attributes every element takes from the header of its record *)
Definition header_dict (h : vhdr) : list (string * pobj) :=
  [("delete", PInt (vh_delete h)); ("vg_type", PInt (vh_type h)); ("vg_class", PInt (vh_class h));
   ("filled", PInt (vh_filled h)); ("closed", PInt (vh_closed h)); ("smooth", PInt (vh_smooth h));
   ("version", PInt (vh_version h)); ("group_type", PInt (vh_group_type h));
   ("group_number", PInt (vh_group_number h)); ("major_color", PInt (vh_major_color h));
   ("minor_color", PInt (vh_minor_color h)); ("record_size", PInt (vh_record_size h));
   ("min_lat", PFloat (vh_min_lat h)); ("min_lon", PFloat (vh_min_lon h));
   ("max_lat", PFloat (vh_max_lat h)); ("max_lon", PFloat (vh_max_lon h))].

(** lat and lon: an array, the integer -9999 of 5204-5205, or among the other attributes *)
Definition coord_dict (name : string) (c : coords) : list (string * pobj) :=
  match c with
  | CoArr l => [(name, PArray (map VFloat l))]
  | CoMissing => [(name, PInt (-9999))]
  | CoNone => []
  end.

(** The sub-records with one value each, as a list of these values *)
Definition first_values (subs : list (string * env)) : list pobj :=
  map (fun s => match snd s with (_, v) :: _ => plain v | [] => POther end) subs.
Definition keyed (l : list (string * pobj)) : list (str * pobj) := map (fun p => (codes (fst p), snd p)) l.
Definition env_dict (e : env) : list (string * pobj) := map (fun p => (fst p, plain (snd p))) e.
(** 4250-4258: the watches of an advisory, from the sub-records of [Tca.watch]: break points still
    without a watch, and watches *)
Fixpoint watch_dicts (subs : list (string * env)) : list pobj * list pobj :=
  match subs with
  | [] => ([], [])
  | (n, e) :: r =>
      let '(points, ws) := watch_dicts r in
      if String.eqb n "ww"
      then ([], PDict (keyed (env_dict e ++ [("break_points", PList points)])) :: ws)
      else (PList (map (fun p => plain (snd p)) e) :: points, ws)
  end.

(** The attributes that hold lists: 1100, 1243, 1953, 2082; those of a jet (1134-1138) hold
    instances of the attribute classes *)
Definition list_dict (kind : string) (subs : list (string * env)) : list (string * pobj) :=
  if String.eqb kind "ListElement" then [("list_items", PList (first_values subs))]
  else if String.eqb kind "TrackElement" then [("times", PList (first_values subs))]
  else if String.eqb kind "GraphicalForecastAreaElement" then [("blocks", PList (first_values subs))]
  else if String.eqb kind "TropicalCycloneAdvisoryElement" then [("ww", PList (snd (watch_dicts subs)))]
  else if String.eqb kind "JetElement" then
    [("line_attribute", POther);
     ("barb_attributes", PList (map (fun _ => POther) (filter (fun s => String.eqb (fst s) "barb_attributes") subs)));
     ("hash_attributes", PList (map (fun _ => POther) (filter (fun s => String.eqb (fst s) "hash_attributes") subs)))]
  else [].
(** 2789-2792: the county arrays of a watch box *)
Definition array_dict (kind : string) (arrs : list (string * list pyval)) : list (string * pobj) :=
  if String.eqb kind "JetElement" then [] else map (fun a => (fst a, PArray (snd a))) arrs.

(** e.__dict__ (3256) *)
Definition elem_dict (e : velem) : pobj :=
  PDict (keyed
    (header_dict (ve_hdr e) ++ map (fun p => (fst p, attr_value (ve_kind e) (fst p) (snd p))) (ve_attrs e) ++
     list_dict (ve_kind e) (ve_subs e) ++ array_dict (ve_kind e) (ve_arrs e) ++
     coord_dict "lat" (ve_lat e) ++ coord_dict "lon" (ve_lon e))).

(** ** json.dumps *)

(** str of an int *)
Definition int_text (z : Z) : str := if z <? 0 then 45 :: dec (- z) else dec z.

Definition hex_digit (d : Z) : Z := if d <? 10 then 48 + d else 87 + d.
(** a backslash, u and four hexadecimal digits *)
Definition u_escape (c : Z) : str :=
  [92; 117; hex_digit (c / 4096 mod 16); hex_digit (c / 256 mod 16); hex_digit (c / 16 mod 16); hex_digit (c mod 16)].
(** json.encoder.py_encode_basestring_ascii, one character *)
Definition escape (c : Z) : str :=
  if c =? 34 then [92; 34]
  else if c =? 92 then [92; 92]
  else if c =? 10 then [92; 110]
  else if c =? 13 then [92; 114]
  else if c =? 9 then [92; 116]
  else if c =? 12 then [92; 102]
  else if c =? 8 then [92; 98]
  else if between 32 126 c then [c]
  else if c <? 65536 then u_escape c
  else let n := c - 65536 in u_escape (55296 + n / 1024) ++ u_escape (56320 + n mod 1024).
Definition quoted (s : str) : str := 34 :: concat (map escape s) ++ [34].

(** ', '.join *)
Fixpoint joined (l : list str) : str :=
  match l with
  | [] => []
  | [x] => x
  | x :: r => x ++ [44; 32] ++ joined r
  end.

Section Dumps.
(** float.__repr__ of finite floats *)
Variable repr : flt -> str.
(** json.encoder, floatstr *)
Definition float_text (x : flt) : str :=
  match x with
  | S754_nan => codes "NaN"
  | S754_infinity s => codes (if s then "-Infinity" else "Infinity")
  | _ => repr x
  end.
(** 2870-2871: float(f'{x:6.2f}') is the float nearest to x rounded to two decimals *)
Definition array_item (v : pyval) : res flt :=
  match v with VFloat x => Ok (py_round 2 x) | VInt z => Ok (of_Z z) | _ => Err TypeError end.

Fixpoint dumps (o : pobj) : res str :=
  match o with
  | PInt z => Ok (int_text z)
  | PFloat x => Ok (float_text x)
  | PText s => Ok (quoted s)
  | PList l =>
      ts <- (fix go l := match l with [] => Ok [] | x :: r => t <- dumps x ;; ts <- go r ;; Ok (t :: ts) end) l ;;
      Ok (91 :: joined ts ++ [93])
  | PDict m =>
      ts <- (fix go m := match m with
                         | [] => Ok []
                         | (k, x) :: r => t <- dumps x ;; ts <- go r ;; Ok ((quoted k ++ [58; 32] ++ t) :: ts)
                         end) m ;;
      Ok (123 :: joined ts ++ [125])
  | PArray l =>
      xs <- mapM array_item l ;;
      Ok (91 :: joined (map float_text xs) ++ [93])
  | POther => Err TypeError
  end.

(** decode/vgf.py:3244-3258.  [cls] says that the argument is given: it is then passed to
    json.dumps twice, a TypeError. *)
Definition to_json (cls : bool) (l : list velem) : res str :=
  if cls then Err TypeError else dumps (PList (map elem_dict l)).
End Dumps.
