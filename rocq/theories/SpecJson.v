(** Specification side of to_json: the JSON grammar (RFC 8259) as json.loads reads it, and what the
    object of an element holds. *)
From Coq Require Import List ZArith String SpecFloat.
From Verif Require Import Base Floats Strings Structs VgfBase VgfRead Tca Json.
From Coq Require Import List.
Import ListNotations.
Open Scope string_scope.
Open Scope list_scope.
Open Scope Z_scope.

(** ** Reading JSON *)
Inductive jvalue :=
| JInt (z : Z) | JFloat (x : flt) | JText (s : str) | JList (l : list jvalue) | JObject (m : list (str * jvalue))
| JTrue | JFalse | JNull.

Fixpoint skip_space (s : str) : str :=
  match s with
  | c :: r => if (c =? 32) || (c =? 9) || (c =? 10) || (c =? 13) then skip_space r else s
  | [] => []
  end.

(** Numbers: -? (0 | [1-9][0-9]* ) (. [0-9]+)? ([eE] [+-]? [0-9]+)?  Result: whether it is an
    integer, the number, the rest. *)
Fixpoint digits (s : str) : str * str :=
  match s with
  | c :: r => if is_digit c then let '(d, u) := digits r in (c :: d, u) else ([], s)
  | [] => ([], [])
  end.
Definition optional (c : Z -> bool) (s : str) : str * str :=
  match s with x :: r => if c x then ([x], r) else ([], s) | [] => ([], []) end.
Definition fraction (s : str) : str * str :=
  match s with
  | c :: r => if c =? 46 then match digits r with ([], _) => ([], s) | (d, u) => (c :: d, u) end else ([], s)
  | [] => ([], [])
  end.
Definition exponent_part (s : str) : str * str :=
  match s with
  | c :: r =>
      if (c =? 101) || (c =? 69) then
        let '(sg, r') := optional (fun x => (x =? 45) || (x =? 43)) r in
        match digits r' with ([], _) => ([], s) | (d, u) => (c :: sg ++ d, u) end
      else ([], s)
  | [] => ([], [])
  end.
Definition scan_number (s : str) : option (bool * str * str) :=
  let '(sg, s1) := optional (Z.eqb 45) s in
  let '(ip, s2) := digits s1 in
  match ip with
  | [] => None
  | c :: t =>
      if (c =? 48) && negb (match t with [] => true | _ => false end) then None
      else
        let '(fr, s3) := fraction s2 in
        let '(ex, s4) := exponent_part s3 in
        Some (match fr ++ ex with [] => true | _ => false end, sg ++ ip ++ fr ++ ex, s4)
  end.

(** Strings, after the opening quote: UTF-16 code units for escapes, other characters as they are *)
Definition hex_value (c : Z) : option Z :=
  if between 48 57 c then Some (c - 48) else if between 97 102 c then Some (c - 87)
  else if between 65 70 c then Some (c - 55) else None.
Fixpoint string_units (s : str) : option (str * str) :=
  match s with
  | [] => None
  | c :: r =>
      if c =? 34 then Some ([], r)
      else if c =? 92 then
        match r with
        | e :: r1 =>
            let simple x := option_map (fun p => (x :: fst p, snd p)) (string_units r1) in
            if (e =? 34) || (e =? 92) || (e =? 47) then simple e
            else if e =? 98 then simple 8 else if e =? 102 then simple 12 else if e =? 110 then simple 10
            else if e =? 114 then simple 13 else if e =? 116 then simple 9
            else if e =? 117 then
              match r1 with
              | a :: b :: c' :: d :: r2 =>
                  match hex_value a, hex_value b, hex_value c', hex_value d with
                  | Some a, Some b, Some c', Some d =>
                      option_map (fun p => (a * 4096 + b * 256 + c' * 16 + d :: fst p, snd p)) (string_units r2)
                  | _, _, _, _ => None
                  end
              | _ => None
              end
            else None
        | [] => None
        end
      else if c <? 32 then None
      else option_map (fun p => (c :: fst p, snd p)) (string_units r)
  end.
(** Surrogate pairs are one character *)
Fixpoint pair_up (l : str) : str :=
  match l with
  | a :: r =>
      match r with
      | b :: t => if between 55296 56319 a && between 56320 57343 b
                  then 65536 + (a - 55296) * 1024 + (b - 56320) :: pair_up t
                  else a :: pair_up r
      | [] => [a]
      end
  | [] => []
  end.
Definition read_string (s : str) : option (str * str) :=
  option_map (fun p => (pair_up (fst p), snd p)) (string_units s).

(** Values; [n] bounds the depth of the recursion *)
Fixpoint value (n : nat) (s : str) {struct n} : option (jvalue * str) :=
  match n with
  | O => None
  | S k =>
      match skip_space s with
      | [] => None
      | c :: r =>
          if c =? 34 then option_map (fun p => (JText (fst p), snd p)) (read_string r)
          else if c =? 91 then
            match skip_space r with
            | d :: r' => if d =? 93 then Some (JList [], r')
                         else option_map (fun p => (JList (fst p), snd p)) (items k r)
            | [] => None
            end
          else if c =? 123 then
            match skip_space r with
            | d :: r' => if d =? 125 then Some (JObject [], r')
                         else option_map (fun p => (JObject (fst p), snd p)) (members k r)
            | [] => None
            end
          else
            match after_prefix (codes "true") (c :: r), after_prefix (codes "false") (c :: r), after_prefix (codes "null") (c :: r) with
            | Some r', _, _ => Some (JTrue, r')
            | _, Some r', _ => Some (JFalse, r')
            | _, _, Some r' => Some (JNull, r')
            | _, _, _ =>
                match scan_number (c :: r) with
                | Some (true, t, r') => match py_int t with Ok z => Some (JInt z, r') | Err _ => None end
                | Some (false, t, r') => match py_float t with Ok x => Some (JFloat x, r') | Err _ => None end
                | None => None
                end
            end
      end
  end
with items (n : nat) (s : str) {struct n} : option (list jvalue * str) :=
  match n with
  | O => None
  | S k =>
      match value k s with
      | None => None
      | Some (v, r) =>
          match skip_space r with
          | d :: r' => if d =? 44 then option_map (fun p => (v :: fst p, snd p)) (items k r')
                       else if d =? 93 then Some ([v], r') else None
          | [] => None
          end
      end
  end
with members (n : nat) (s : str) {struct n} : option (list (str * jvalue) * str) :=
  match n with
  | O => None
  | S k =>
      match skip_space s with
      | c :: r =>
          if negb (c =? 34) then None
          else match read_string r with
          | None => None
          | Some (key, r1) =>
              match skip_space r1 with
              | d :: r2 =>
                  if negb (d =? 58) then None
                  else match value k r2 with
                  | None => None
                  | Some (v, r3) =>
                      match skip_space r3 with
                      | d :: r' => if d =? 44 then option_map (fun p => ((key, v) :: fst p, snd p)) (members k r')
                                   else if d =? 125 then Some ([(key, v)], r') else None
                      | [] => None
                      end
                  end
              | [] => None
              end
          end
      | [] => None
      end
  end.
(** json.loads(s): [None] for a text that is not JSON *)
Definition loads (s : str) : option jvalue :=
  match value (2 * length s + 2) s with
  | Some (v, r) => match skip_space r with [] => Some v | _ => None end
  | None => None
  end.

(** repr of this float is a JSON number, not an integer, and float() reads it back *)
Definition reads_back (repr : flt -> str) (x : flt) : Prop :=
  scan_number (repr x) = Some (false, repr x, []) /\ py_float (repr x) = Ok x.
Definition finite (x : flt) : Prop := match x with S754_zero _ | S754_finite _ _ _ => True | _ => False end.

(** ** What an object says about an element *)
(** A value on its own *)
Definition said (v : pyval) (j : jvalue) : Prop :=
  match v with VInt z => j = JInt z | VFloat x => j = JFloat x | VText s => j = JText s | _ => False end.
(** The members of the enumerations, by number (decode/vgf.py:106-234) *)
Definition line_styles : list (Z * string) :=
  [(0, "dotted"); (1, "solid"); (2, "short_dashed"); (3, "medium_dashed"); (4, "long_dash_short_dash");
   (5, "long_dash"); (6, "long_dash_three_short_dash"); (7, "long_dash_dot"); (8, "long_dash_three_dot");
   (9, "extra_long_dash_two_dot")].
Definition special_line_styles : list (Z * string) :=
  [(1, "ball_chain"); (2, "zigzag"); (3, "scallop"); (4, "pointed_arrow"); (5, "alt_angle_ticks");
   (6, "filled_arrow"); (7, "box_circles"); (8, "two_x"); (9, "filled_circles");
   (10, "line_fill_circle_line"); (11, "tick_marks"); (12, "line_x_line"); (13, "fancy_arrow");
   (14, "fill_circle_x"); (15, "box_x"); (16, "line_circle_line"); (17, "line_caret_line1");
   (18, "line_caret_line2"); (19, "sine_curve"); (20, "arrow_dashed"); (21, "fill_arrow_dash");
   (22, "streamline"); (23, "double_line"); (24, "kink_line1"); (25, "kink_line2"); (26, "z_line")].
Definition markers : list (Z * string) :=
  [(0, "none"); (1, "plus_sign"); (2, "octagon"); (3, "triangle"); (4, "box"); (5, "small_x");
   (6, "diamond"); (7, "up_arrow"); (8, "x_bar"); (9, "z_bar"); (10, "y"); (11, "box_diagonals");
   (12, "asterisk"); (13, "hourglass"); (14, "star"); (15, "dot"); (16, "large_x"); (17, "filled_octagon");
   (18, "filled_triangle"); (19, "filled_box"); (20, "filled_diamond"); (21, "filled_star");
   (22, "minus_sign"); (23, "tropical_storm"); (24, "hurricane")].
Definition list_types : list (Z * string) :=
  [(1, "county"); (2, "zone"); (3, "wfo"); (4, "state"); (5, "marine_county")].
Definition front_types : list (Z * string) :=
  [(0, "stationary"); (1, "stationary_aloft"); (2, "warm"); (3, "warm_aloft"); (4, "cold");
   (5, "cold_aloft"); (6, "occluded"); (7, "dryline"); (8, "intertropical"); (9, "convergence")].
Definition front_intensities : list (Z * string) :=
  [(0, "unspecified"); (1, "weak_decreasing"); (2, "weak"); (3, "weak_increasing");
   (4, "moderate_decreasing"); (5, "moderate"); (6, "moderate_increasing"); (7, "strong_decreasing");
   (8, "strong"); (9, "strong_increasing")].
Definition front_characters : list (Z * string) :=
  [(0, "unspecified"); (1, "frontal_decreasing"); (2, "little_change"); (3, "area_increasing");
   (4, "intertropical"); (5, "forming_suspected"); (6, "quasi_stationary"); (7, "with_waves");
   (8, "diffuse"); (9, "position_doubtful")].
Definition members_of (kind name : string) : option (list (Z * string)) :=
  option_map snd (find (fun x => String.eqb name (fst x))
    [("line_style", if String.eqb kind "SpecialLineElement" then special_line_styles else line_styles);
     ("front_type", front_types); ("front_intensity", front_intensities); ("front_character", front_characters);
     ("list_type_name", list_types); ("marker_name", markers)]).
(** An attribute: its value, or the name of its member if it is one of an enumeration *)
Definition attr_said (kind name : string) (v : pyval) (j : jvalue) : Prop :=
  match members_of kind name with
  | None => said v j
  | Some table => exists z s, v = VInt z /\ In (z, s) table /\ j = JText (codes s)
  end.
(** A number of an array, to two decimals *)
Definition two_decimals (v : pyval) : flt :=
  match v with VFloat x => py_round 2 x | VInt z => of_Z z | _ => S754_nan end.
Definition array_said (l : list pyval) : jvalue := JList (map (fun v => JFloat (two_decimals v)) l).
Definition coords_said (name : string) (c : coords) : list (string * jvalue) :=
  match c with CoArr l => [(name, array_said (map VFloat l))] | CoMissing => [(name, JInt (-9999))] | CoNone => [] end.
Definition header_said (h : vhdr) : list (string * jvalue) :=
  [("delete", JInt (vh_delete h)); ("vg_type", JInt (vh_type h)); ("vg_class", JInt (vh_class h));
   ("filled", JInt (vh_filled h)); ("closed", JInt (vh_closed h)); ("smooth", JInt (vh_smooth h));
   ("version", JInt (vh_version h)); ("group_type", JInt (vh_group_type h));
   ("group_number", JInt (vh_group_number h)); ("major_color", JInt (vh_major_color h));
   ("minor_color", JInt (vh_minor_color h)); ("record_size", JInt (vh_record_size h));
   ("min_lat", JFloat (vh_min_lat h)); ("min_lon", JFloat (vh_min_lon h));
   ("max_lat", JFloat (vh_max_lat h)); ("max_lon", JFloat (vh_max_lon h))].

(** Attributes that are lists: texts, and the watches of an advisory with their break points *)
Definition text_list (kind : string) : option string :=
  if String.eqb kind "ListElement" then Some "list_items" else if String.eqb kind "TrackElement" then Some "times"
  else if String.eqb kind "GraphicalForecastAreaElement" then Some "blocks" else None.
Definition watch_records (ws : list (env * list env)) : list (string * env) :=
  concat (map (fun w => ("ww", fst w) :: map (fun b => ("break_point", b)) (snd w)) ws).
Definition watch_said (w : env * list env) (j : jvalue) : Prop :=
  exists m ps, j = JObject (m ++ [(codes "break_points", JList ps)]) /\
    Forall2 (fun a x => fst x = codes (fst a) /\ said (snd a) (snd x)) (fst w) m /\
    Forall2 (fun b p => exists l, p = JList l /\ Forall2 (fun a x => said (snd a) x) b l) (snd w) ps.
Definition lists_said (e : velem) (m : list (str * jvalue)) : Prop :=
  match text_list (ve_kind e) with
  | Some name => exists l, In (codes name, JList (map JText l)) m /\
                           Forall2 (fun s t => exists k, s = (name, [(k, VText t)])) (ve_subs e) l
  | None => if String.eqb (ve_kind e) "TropicalCycloneAdvisoryElement"
            then exists ws js, ve_subs e = watch_records ws /\ In (codes "ww", JList js) m /\ Forall2 watch_said ws js
            else ve_subs e = []
  end.
(** The names an object of the element has *)
Definition list_names (e : velem) : list string :=
  match text_list (ve_kind e) with
  | Some name => [name]
  | None => if String.eqb (ve_kind e) "TropicalCycloneAdvisoryElement" then ["ww"] else []
  end.
Definition names_of (e : velem) : list string :=
  map fst (header_said (ve_hdr e)) ++ map fst (ve_attrs e) ++ list_names e ++ map fst (ve_arrs e) ++
  map fst (coords_said "lat" (ve_lat e)) ++ map fst (coords_said "lon" (ve_lon e)).

(** The object has exactly the attributes of the element, each once, with their values *)
Definition says (e : velem) (o : jvalue) : Prop :=
  exists m, o = JObject m /\ map fst m = map codes (names_of e) /\ NoDup (map fst m) /\
    (forall n j, In (n, j) (header_said (ve_hdr e)) -> In (codes n, j) m) /\
    (forall n v, In (n, v) (ve_attrs e) -> exists j, In (codes n, j) m /\ attr_said (ve_kind e) n v j) /\
    (forall n l, In (n, l) (ve_arrs e) -> In (codes n, array_said l) m) /\
    (forall n j, In (n, j) (coords_said "lat" (ve_lat e) ++ coords_said "lon" (ve_lon e)) -> In (codes n, j) m) /\
    lists_said e m.

(** The floats among the attributes of an element *)
Inductive float_of (e : velem) (x : flt) : Prop :=
| Fl_header : In x [vh_min_lat (ve_hdr e); vh_min_lon (ve_hdr e); vh_max_lat (ve_hdr e); vh_max_lon (ve_hdr e)] -> float_of e x
| Fl_attr n : In (n, VFloat x) (ve_attrs e) -> float_of e x
| Fl_sub n s k : In (n, s) (ve_subs e) -> In (k, VFloat x) s -> float_of e x
| Fl_array n l v : In (n, l) (ve_arrs e) -> In v l -> x = two_decimals v -> float_of e x
| Fl_coord l y : ve_lat e = CoArr l \/ ve_lon e = CoArr l -> In y l -> x = two_decimals (VFloat y) -> float_of e x.
