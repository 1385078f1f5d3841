(** Specification side of the vector graphics round trip: which attribute of a written element
    is found under which name in the element read back, and how the value is converted. *)
From Verif Require Import Base Floats Structs VgfBase VgfRead Vgf.
From Coq Require Import List.
Import ListNotations.
Open Scope string_scope.
Open Scope list_scope.
Open Scope Z_scope.

(** The number given for a float attribute, ints and floats alike *)
Definition number (v : pyval) : option flt :=
  match v with VInt z => Some (of_Z z) | VFloat f => Some f | _ => None end.

(** How a value comes back: the same integer; a float rounded to 32 bits and then to [d]
    decimals; the label; text size in units of 14 points; text. *)
Inductive how := Same | Rounded (d : Z) | Code | Label | Points14 | Cleaned.
Definition read_as (h : how) (v w : pyval) : Prop :=
  match h with
  | Same => exists z, v = VInt z /\ w = VInt z
  | Rounded d => exists x, number v = Some x /\ w = VFloat (py_round d (np32 x))
  | Code => exists x z, number v = Some x /\ int_of_float (np32 x) = Ok z /\ w = VInt z
  | Label => exists s, v = VBytes s /\ w = VText s
  | Points14 => exists x, number v = Some x /\ w = VFloat (py_round 3 (np32 (fdiv x (of_Z 14))))
  | Cleaned => exists s, v = VText (s ++ [0]) /\ w = VText (clean_text (before_nul s))
  end.

(** Attribute written, attribute read, conversion *)
Definition fields_of (k : ekind) : list (string * string * how) :=
  match k with
  | KLine => [("number_points", "number_points", Same); ("line_type", "line_type", Same);
              ("line_type_hardware", "line_type_hardware", Same); ("width", "width", Same);
              ("line_width_hardware", "line_width_hardware", Same)]
  | KFront => [("number_points", "number_points", Same); ("front_code", "front_code", Same);
               ("pip_size", "pip_size", Same); ("pip_stroke", "pip_stroke", Same);
               ("pip_direction", "pip_direction", Same); ("width", "width", Same); ("label", "label", Label)]
  | KSpecialLine => [("number_points", "number_points", Same); ("line_type", "line_type", Same);
                     ("stroke", "stroke", Same); ("direction", "direction", Same);
                     ("size", "size", Rounded 1); ("width", "width", Same)]
  | KSpecialSymbol | KMarker =>
      [("number_symbols", "number_symbols", Same); ("width", "width", Same); ("size", "size", Rounded 1);
       ("symbol_type", "symbol_type", Same); ("symbol_code", "symbol_code", Code);
       ("lat", "lat", Rounded 2); ("lon", "lon", Rounded 2); ("offset_x", "offset_x", Same);
       ("offset_y", "offset_y", Same)]
  | KSpecialText =>
      [("rotation", "rotation", Rounded 1); ("size", "size", Points14); ("text_type", "text_type", Same);
       ("turbulence_symbol", "turbulence_symbol", Same); ("font", "font", Same); ("text_flag", "text_flag", Same);
       ("width", "width", Same); ("text_color", "text_color", Same); ("edgecolor", "line_color", Same);
       ("facecolor", "fill_color", Same); ("align", "align", Same); ("lat", "lat", Rounded 2);
       ("lon", "lon", Rounded 2); ("offset_x", "offset_x", Same); ("offset_y", "offset_y", Same);
       ("text", "text", Cleaned)]
  | KFileHeader => []
  end.
Definition class_name (k : ekind) : string :=
  match k with
  | KFileHeader => "FileHeaderElement" | KLine => "LineElement" | KFront => "FrontElement"
  | KSpecialLine => "SpecialLineElement" | KSpecialText => "SpecialTextElement"
  | KSpecialSymbol | KMarker => "SymbolElement"
  end.

(** The header of the record *)
Definition same_header (o : obj) (h : vhdr) : Prop :=
  Forall (fun '(k, z) => o_get o k = VInt z)
    [("delete", vh_delete h); ("vg_type", vh_type h); ("vg_class", vh_class h); ("filled", vh_filled h);
     ("closed", vh_closed h); ("smooth", vh_smooth h); ("version", vh_version h);
     ("group_type", vh_group_type h); ("group_number", vh_group_number h);
     ("major_color", vh_major_color h); ("minor_color", vh_minor_color h); ("record_size", vh_record_size h)] /\
  Forall (fun '(k, f) => read_as (Rounded 2) (o_get o k) (VFloat f))
    [("min_lat", vh_min_lat h); ("min_lon", vh_min_lon h); ("max_lat", vh_max_lat h); ("max_lon", vh_max_lon h)].

(** The points: each rounded to 32 bits and then to two decimals; closed lines of more than two
    points end with their first point; special lines of direction -1 are reversed; symbols and
    text have no point list. *)
Definition closing (l : list flt) : list flt :=
  match l with a :: _ :: _ :: _ => l ++ [a] | _ => l end.
Definition points_read (o : obj) (pts : list flt) : coords :=
  let l := map (fun x => around2 (np32 x)) pts in
  let closed := match o_get o "closed" with VInt 0 => l | _ => closing l end in
  match o_kind o with
  | KFront => CoArr l
  | KLine => CoArr closed
  | KSpecialLine => CoArr (match o_get o "direction" with VInt (-1) => rev closed | _ => closed end)
  | _ => CoNone
  end.

(** [e] is the written element [o] as read back. *)
Record same_element (o : obj) (e : velem) : Prop := {
  se_class : ve_kind e = class_name (o_kind o);
  se_header : same_header o (ve_hdr e);
  se_fields : Forall (fun '(a, b, h) => exists w, lookup b (ve_attrs e) = Some w /\ read_as h (o_get o a) w)
                (fields_of (o_kind o));
  se_lat : ve_lat e = points_read o (o_lat o);
  se_lon : ve_lon e = points_read o (o_lon o) }.

(** Elements a reader can read: text of ASCII characters, and symbol codes that are not infinite or NaN *)
Definition readable (o : obj) : Prop :=
  (forall s, o_get o "text" = VText s -> Forall (fun c => 0 <= c < 128) s) /\
  (forall x, number (o_get o "symbol_code") = Some x -> exists z, int_of_float (np32 x) = Ok z).
