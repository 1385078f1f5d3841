(** encode/vgf.py: drawing elements and writing a vector graphics file.  Definitions only.

    An element object is its class, its instance attributes by name (without the leading
    underscore) and its coordinate arrays.  Attribute values and arguments are [pyval]s, so a
    caller may pass integers, floats, text or None where the code accepts or rejects them.
    Simplifications: coordinate sequences are lists of Python floats; bool arguments are not
    distinguished from 0 and 1; assigning to an attribute a class does not define as a settable
    property is not modelled. *)
From Coq Require Export String.
From Verif Require Import Base Floats Strings Structs VgfBase.
Open Scope string_scope.
Open Scope list_scope.
Open Scope Z_scope.

(** ** Python comparisons used by the setters *)

(** The integer a float equals, if any *)
Definition float_int (f : flt) : option Z :=
  match f with
  | S754_zero _ => Some 0
  | S754_finite s m e => if integral m e then Some (let t := trunc_mag m e in if s then - t else t) else None
  | _ => None
  end.
(** The integer a value compares equal to, if any (3.0 == 3) *)
Definition as_int (v : pyval) : option Z :=
  match v with VInt z => Some z | VFloat f => float_int f | _ => None end.
(** value in range(lo, hi) *)
Definition in_range (v : pyval) (lo hi : Z) : bool :=
  match as_int v with Some z => (lo <=? z) && (z <? hi) | None => false end.
(** value in [a, b, ...] *)
Definition in_list (v : pyval) (l : list Z) : bool :=
  match as_int v with Some z => existsb (Z.eqb z) l | None => false end.
(** The double nearest to 0.1 *)
Definition one_tenth : flt := S754_finite false 7205759403792794 (-56).
(** value < n and value > n for an integer n; TypeError when not a number *)
Definition v_lt (v : pyval) (n : Z) : res bool :=
  match v with
  | VInt z => Ok (z <? n)
  | VFloat f => Ok (SFltb f (of_Z n))
  | _ => Err TypeError
  end.
Definition v_gt (v : pyval) (n : Z) : res bool :=
  match v with
  | VInt z => Ok (n <? z)
  | VFloat f => Ok (SFltb (of_Z n) f)
  | _ => Err TypeError
  end.
(** value < 0.1 *)
Definition v_lt_tenth (v : pyval) : res bool :=
  match v with
  | VInt z => Ok (z <? 1)
  | VFloat f => Ok (SFltb f one_tenth)
  | _ => Err TypeError
  end.
(** a or b, with b evaluated only when a is false *)
Definition or_else (a : res bool) (b : res bool) : res bool :=
  x <- a ;; if x then Ok true else b.

(** ** Objects *)
Inductive ekind := KFileHeader | KLine | KFront | KSpecialLine | KSpecialText | KSpecialSymbol | KMarker.
Record obj := mk_obj { o_kind : ekind; o_get : string -> pyval; o_lat : list flt; o_lon : list flt }.

Definition set (o : obj) (k : string) (v : pyval) : obj :=
  mk_obj (o_kind o) (fun x => if String.eqb x k then v else o_get o x) (o_lat o) (o_lon o).
Definition o_int (o : obj) (k : string) : Z := match o_get o k with VInt z => z | _ => 0 end.

(** A method call: the object afterwards and the exception raised, if any. *)
Definition outcome : Type := obj * option exn.
Definition done (o : obj) : outcome := (o, None).
Definition fail (o : obj) (x : exn) : outcome := (o, Some x).
(** if <bad>: raise ValueError; self._k = v *)
Definition checked (o : obj) (k : string) (v : pyval) (ok : bool) : outcome :=
  if ok then done (set o k v) else fail o ValueError.
Definition compared (o : obj) (k : string) (v : pyval) (bad : res bool) : outcome :=
  match bad with
  | Ok true => fail o ValueError
  | Ok false => done (set o k v)
  | Err x => fail o x
  end.

(** Digits of a front code (f'{code:03d}'): ValueError for a float (format code 'd'). *)
Definition code_digits (v : pyval) : res (Z * Z * Z) :=
  match v with
  | VInt z =>
      let s := fmt_d 3 z in
      match s with
      | a :: b :: c :: _ => x <- py_int [a] ;; y <- py_int [b] ;; w <- py_int [c] ;; Ok (x, y, w)
      | _ => Err IndexError
      end
  | VFloat _ => Err ValueError
  | _ => Err ValueError
  end.

(** encode/vgf.py:976-993 [Front.front_code]: the code is stored before its digits are taken *)
Definition set_front_code (o : obj) (v : pyval) : outcome :=
  if in_range v 0 1000 then
    let o1 := set o "front_code" v in
    match code_digits v with
    | Err x => fail o1 x
    | Ok (a, b, c) =>
        done (set (set (set (set o1 "front_type" (VInt a)) "front_intensity" (VInt b))
                       "front_character" (VInt c)) "width" (VInt b))
    end
  else fail o ValueError.

(** encode/vgf.py:945-965 [Front.width]: the width is stored before the code is rebuilt.
    int(f'{type}{value}{character}') is a ValueError for a float value ('43.00'). *)
Definition set_front_width (o : obj) (v : pyval) : outcome :=
  if in_range v 1 9 then
    let o1 := set o "width" v in
    match code_digits (o_get o "front_code") with
    | Err x => fail o1 x
    | Ok (a, _, c) =>
        let o2 := set (set (set o1 "front_type" (VInt a)) "front_intensity" v) "front_character" (VInt c) in
        match v with
        | VInt w => match py_int (dec a ++ dec w ++ dec c) with
                    | Ok n => done (set o2 "front_code" (VInt n))
                    | Err x => fail o2 x
                    end
        | _ => fail o2 ValueError
        end
    end
  else fail o ValueError.

(** The settable properties *)
Inductive prop :=
| PClosed | PFilled | PSmooth | PGroupType | PGroupNumber | PMajorColor | PMinorColor
| PWidth | PLineType | PFrontCode | PPipSize | PPipStroke | PPipDirection
| PDirection | PSize | PTextColor | PFont | PAlign | PRotation | POffsetX | POffsetY
| PTextFlag | PTextType | PEdgecolor | PFacecolor | PTurbulence | PSymbolCode.

Definition is_line (k : ekind) : bool := match k with KLine | KSpecialLine => true | _ => false end.
Definition is_symbol (k : ekind) : bool := match k with KSpecialSymbol | KMarker => true | _ => false end.
Definition is_text (k : ekind) : bool := match k with KSpecialText => true | _ => false end.

(** Which properties a class has *)
Definition has_prop (k : ekind) (p : prop) : bool :=
  match p with
  | PClosed | PFilled | PSmooth | PGroupType | PGroupNumber | PMajorColor | PMinorColor => true
  | PWidth => match k with KFileHeader => false | _ => true end
  | PLineType => is_line k
  | PFrontCode | PPipSize | PPipStroke | PPipDirection => match k with KFront => true | _ => false end
  | PDirection => match k with KSpecialLine => true | _ => false end
  | PSize => match k with KSpecialLine | KSpecialText | KSpecialSymbol | KMarker => true | _ => false end
  | POffsetX | POffsetY => is_text k || is_symbol k
  | PTextColor | PFont | PAlign | PRotation | PTextFlag | PTextType | PEdgecolor | PFacecolor
  | PTurbulence => is_text k
  | PSymbolCode => is_symbol k
  end.

(** encode/vgf.py:1563-1565, 1624-1627, 1666-1669 [_validate_symbol_code] *)
Definition set_symbol_code (o : obj) (v : pyval) : outcome :=
  match v with
  | VInt z =>
      let most := match o_kind o with KMarker => 24 | _ => 41 end in
      if (z <? 1) || (most <? z) then fail o ValueError else done (set o "symbol_code" v)
  | _ => fail o TypeError
  end.

(** Assignment to a property: the setters at the lines given *)
Definition assign (o : obj) (p : prop) (v : pyval) : outcome :=
  match p with
  | PClosed => checked o "closed" v (in_list v [0; 1])                       (* 333-338 *)
  | PFilled => checked o "filled" v (in_range v 0 9)                         (* 365-370 *)
  | PSmooth => checked o "smooth" v (in_range v 0 3)                         (* 377-382 *)
  | PGroupType => compared o "group_type" v (v_lt v 0)                       (* 389-394 *)
  | PGroupNumber => compared o "group_number" v (v_lt v 0)                   (* 401-406 *)
  | PMajorColor => checked o "major_color" v (in_range v 0 33)               (* 413-418 *)
  | PMinorColor => checked o "minor_color" v (in_range v 0 33)               (* 425-430 *)
  | PWidth =>
      match o_kind o with
      | KFront => set_front_width o v
      | KSpecialText => done (set o "width" v)                               (* 619-622 *)
      | _ => compared o "width" v (or_else (v_lt v 1) (v_gt v 10))           (* 517-522, 1513-1518 *)
      end
  | PLineType =>
      match o_kind o with
      | KSpecialLine => checked o "line_type" v (in_range v 1 27)            (* 1183-1188 *)
      | _ => compared o "line_type" v (or_else (v_lt v 0) (v_gt v 99))       (* 772-777 *)
      end
  | PFrontCode => set_front_code o v
  | PPipSize => checked o "pip_size" v (in_range v 40 501)                   (* 1000-1005 *)
  | PPipStroke => compared o "pip_stroke" v                                  (* 1012-1017 *)
                    (match v with
                     | VInt z => Ok (z <=? 0)
                     | VFloat f => Ok (SFleb f (of_Z 0))
                     | _ => Err TypeError
                     end)
  | PPipDirection => checked o "pip_direction" v (in_list v [-1; 1])         (* 1024-1029 *)
  | PDirection => checked o "direction" v (in_list v [1; -1])                (* 1195-1199 *)
  | PSize =>
      match o_kind o with
      | KSpecialText => checked o "size" v (in_list v [10; 12; 14; 18; 24; 34])   (* 590-595 *)
      | _ => compared o "size" v (or_else (v_lt_tenth v) (v_gt v 10))        (* 1210-1215, 1525-1530 *)
      end
  | PTextColor => checked o "text_color" v (in_range v 0 33)                 (* 578-583 *)
  | PFont =>                                                                 (* 607-612 *)
      checked o "font" v
        (negb (in_list (o_get o "text_flag") [2]) ||
         in_list v [1; 2; 3; 11; 12; 13; 21; 22; 23; 31; 32; 33])
  | PAlign => checked o "align" v (in_list v [-1; 0; 1])                     (* 629-634 *)
  | PRotation => done (set o "rotation" v)                                   (* 641-644 *)
  | POffsetX => done (set o "offset_x" v)                                    (* 651-654, 1548-1551 *)
  | POffsetY => done (set o "offset_y" v)                                    (* 661-664, 1558-1561 *)
  | PTextFlag => checked o "text_flag" v (in_list v [1; 2])                  (* 671-676 *)
  | PTextType =>                                                             (* 1393-1404 *)
      if in_range v 0 17 then done (set (set o "text_type" v) "turbulence_symbol" (VInt 0))
      else fail o ValueError
  | PEdgecolor => checked o "edgecolor" v (in_range v 0 33)                  (* 1411-1416 *)
  | PFacecolor => checked o "facecolor" v (in_range v 0 33)                  (* 1423-1428 *)
  | PTurbulence =>                                                           (* 1435-1442 *)
      checked o "turbulence_symbol" v
        (if in_list (o_get o "text_type") [7; 9] && negb (in_range v 0 9) then false
         else if in_list (o_get o "text_type") [12] && negb (in_range v 0 11) then false
         else true)
  | PSymbolCode => set_symbol_code o v
  end.

(** x *= -1 *)
Definition negate (v : pyval) : pyval :=
  match v with VInt z => VInt (- z) | VFloat f => VFloat (SFopp f) | _ => v end.
(** encode/vgf.py:967-969 [Front.flip], 1201-1203 [SpecialLine.flip] *)
Definition flip (o : obj) : obj :=
  match o_kind o with
  | KFront => set o "pip_direction" (negate (o_get o "pip_direction"))
  | KSpecialLine => set o "direction" (negate (o_get o "direction"))
  | _ => o
  end.

(** ** Constructors.  An exception means that no object exists. *)
Definition assign_ok (o : obj) (p : prop) (v : pyval) : res obj :=
  match assign o p v with (o', None) => Ok o' | (_, Some x) => Err x end.

(** encode/vgf.py:295-311 [Element.__init__] *)
Definition base (k : ekind) (lat lon : list flt) : obj :=
  mk_obj k
    (fun n => if existsb (String.eqb n) ["min_lat"; "min_lon"; "max_lat"; "max_lon"]
              then VFloat (S754_zero false)
              else if existsb (String.eqb n)
                        ["delete"; "vg_type"; "vg_class"; "filled"; "closed"; "smooth"; "version";
                         "group_type"; "group_number"; "major_color"; "minor_color"; "record_size"]
              then VInt 0
              else VNone) lat lon.

(** min(l), max(l) of a non-empty sequence: the first of the smallest, by < *)
Definition py_min (l : list flt) : flt :=
  match l with [] => S754_nan | a :: r => fold_left (fun m x => if SFltb x m then x else m) r a end.
Definition py_max (l : list flt) : flt :=
  match l with [] => S754_nan | a :: r => fold_left (fun m x => if SFltb m x then x else m) r a end.

(** len() *)
Definition vMAX_POINTS : Z := 500.    (* common.py:39 *)
(** The common beginning of LineBase and Front (488-504, 900-918) *)
Definition with_points (k : ekind) (lon lat : list flt) : res obj :=
  if negb (Zlen lon =? Zlen lat) then Err ValueError
  else if vMAX_POINTS <? Zlen lon then Err ValueError
  else if Zlen lon <? 2 then Err ValueError
  else
    let o := base k (map np32 lat) (map np32 lon) in
    Ok (set (set (set (set (set o "number_points" (VInt (Zlen lon)))
          "min_lon" (VFloat (py_min lon))) "min_lat" (VFloat (py_min lat)))
          "max_lon" (VFloat (py_max lon))) "max_lat" (VFloat (py_max lat))).

(** encode/vgf.py:487-510 [LineBase.__init__] *)
Definition line_base (k : ekind) (lon lat : list flt) (color width closed filled smooth : pyval) : res obj :=
  o <- with_points k lon lat ;;
  o <- assign_ok o PMajorColor color ;;
  o <- assign_ok o PMinorColor color ;;
  o <- assign_ok o PWidth width ;;
  o <- assign_ok o PClosed closed ;;
  o <- assign_ok o PFilled filled ;;
  assign_ok o PSmooth smooth.

Definition header_fmt : list fmtc :=
  [FUByte; FUByte; FUByte; FSByte; FUByte; FUByte; FUByte; FUByte; FInt; FInt; FInt; FInt;
   FFloat; FFloat; FFloat; FFloat].                                          (* 272-293 *)
Definition line_fmt : list fmtc := [FInt; FInt; FInt; FInt; FInt].           (* 682-692 *)
Definition front_fmt : list fmtc := [FInt; FInt; FInt; FInt; FInt; FInt; FStr 4].   (* 799-811 *)
Definition special_line_fmt : list fmtc := [FInt; FInt; FInt; FInt; FFloat; FInt].  (* 1053-1064 *)
Definition special_text_fmt : list fmtc :=
  [FFloat; FFloat; FInt; FInt; FInt; FInt; FInt; FInt; FInt; FInt; FInt; FFloat; FFloat; FInt; FInt]. (* 1238-1258 *)
Definition symbol_fmt : list fmtc :=
  [FInt; FInt; FFloat; FInt; FFloat; FFloat; FFloat; FInt; FInt].            (* 1474-1488 *)
Definition file_header_fmt : list fmtc := [FStr 128; FStr 256].              (* 465-467 *)
Definition points_fmt (n : Z) : list fmtc := repeat FFloat (Z.to_nat (n * 2)).  (* f'>{2n}f' *)
Definition size_of (f : list fmtc) : Z := Z.of_nat (calcsize f).

(** encode/vgf.py:694-765 [Line.__init__] *)
Definition new_line (lon lat : list flt) (color line_type closed filled smooth width : pyval) : res obj :=
  o <- line_base KLine lon lat color width closed filled smooth ;;
  let o := set (set (set (set o "line_type_hardware" (VInt 0)) "line_width_hardware" (VInt 0))
                 "vg_class" (VInt 3)) "vg_type" (VInt 1) in
  o <- assign_ok o PLineType line_type ;;
  Ok (set o "record_size" (VInt (size_of header_fmt + size_of line_fmt + size_of (points_fmt (Zlen lon))))).

(** encode/vgf.py:813-938 [Front.__init__] *)
Definition new_front (lon lat : list flt) (front_code major_color minor_color smooth pip_size pip_stroke
                      pip_direction : pyval) : res obj :=
  o <- with_points KFront lon lat ;;
  let o := set (set o "vg_class" (VInt 1)) "vg_type" (VInt 2) in
  o <- assign_ok o PMajorColor major_color ;;
  o <- assign_ok o PMinorColor (match minor_color with VNone => major_color | _ => minor_color end) ;;
  o <- assign_ok o PClosed (VInt 0) ;;
  o <- assign_ok o PFilled (VInt 0) ;;
  let o := set o "label" (VBytes [83; 80; 67]) in
  o <- assign_ok o PFrontCode front_code ;;
  o <- assign_ok o PPipSize pip_size ;;
  o <- assign_ok o PPipStroke pip_stroke ;;
  o <- assign_ok o PPipDirection pip_direction ;;
  o <- assign_ok o PSmooth smooth ;;
  let o := set o "record_size" (VInt (size_of header_fmt + size_of front_fmt + size_of (points_fmt (Zlen lon)))) in
  '(a, b, c) <- code_digits (o_get o "front_code") ;;
  Ok (set (set (set (set o "front_type" (VInt a)) "front_intensity" (VInt b))
           "front_character" (VInt c)) "width" (VInt b)).

(** encode/vgf.py:1066-1176 [SpecialLine.__init__] *)
Definition new_special_line (lon lat : list flt) (color line_type closed filled stroke width smooth size
                             direction : pyval) : res obj :=
  o <- line_base KSpecialLine lon lat color width closed filled smooth ;;
  o <- assign_ok o PLineType line_type ;;
  o <- assign_ok o PDirection direction ;;
  o <- assign_ok o PSize size ;;
  let o := set (set o "vg_class" (VInt 3)) "vg_type" (VInt 20) in
  let o := set o "record_size"
             (VInt (size_of header_fmt + size_of special_line_fmt + size_of (points_fmt (Zlen lon)))) in
  if in_list (o_get o "line_type") [24; 25] then
    (if in_range stroke 25 76 then Ok (set o "stroke" stroke) else Err ValueError)
  else Ok (set o "stroke" (VInt 1)).

(** encode/vgf.py:1260-1386 [SpecialText.__init__] with 528-566 [TextBase.__init__] *)
Definition new_special_text (lon lat text text_color size text_type font align edgecolor facecolor rotation
                             offset_x offset_y turbulence_symbol : pyval) : res obj :=
  let o := base KSpecialText [] [] in
  let o := set (set (set (set (set (set o "lat" lat) "lon" lon) "min_lon" lon) "min_lat" lat)
             "max_lon" lon) "max_lat" lat in
  o <- assign_ok o PSize size ;;
  o <- assign_ok o PTextColor text_color ;;
  o <- assign_ok o PMajorColor text_color ;;
  o <- assign_ok o PMinorColor text_color ;;
  o <- assign_ok o PTextFlag (VInt 2) ;;
  o <- assign_ok o PFont font ;;
  let o := set o "width" (VInt 1) in
  o <- assign_ok o PAlign align ;;
  let o := set (set (set o "rotation" rotation) "offset_x" offset_x) "offset_y" offset_y in
  match text with
  | VText s =>
      if 255 <? Zlen (s ++ [0]) then Err ValueError
      else
        let o := set o "text" (VText (s ++ [0])) in
        let o := set (set o "vg_class" (VInt 5)) "vg_type" (VInt 21) in
        o <- assign_ok o PTextType text_type ;;
        o <- assign_ok o PEdgecolor (match edgecolor with VNone => text_color | _ => edgecolor end) ;;
        o <- assign_ok o PFacecolor (match facecolor with VNone => text_color | _ => facecolor end) ;;
        o <- assign_ok o PTurbulence turbulence_symbol ;;
        Ok (set o "record_size" (VInt (size_of header_fmt + size_of special_text_fmt + Zlen (s ++ [0]))))
  | _ => Err TypeError
  end.

(** encode/vgf.py:1490-1506 [SymbolBase.__init__], 1589-1622 [SpecialSymbol], 1633-1664 [Marker]:
    width, size and code are stored without the checks of their setters *)
Definition new_symbol (marker : bool) (lon lat symbol_code color width size offset_x offset_y : pyval) : res obj :=
  let o := base (if marker then KMarker else KSpecialSymbol) [] [] in
  let o := set (set (set (set (set o "number_symbols" (VInt 1)) "width" width) "size" size)
             "symbol_type" (VInt 0)) "symbol_code" symbol_code in
  let o := set (set (set (set o "lat" lat) "lon" lon) "offset_x" offset_x) "offset_y" offset_y in
  let o := set (set (set (set o "min_lon" lon) "min_lat" lat) "max_lon" lon) "max_lat" lat in
  o <- assign_ok o PMajorColor color ;;
  o <- assign_ok o PMinorColor color ;;
  let o := set (set o "vg_class" (VInt 4)) "vg_type" (VInt (if marker then 19 else 15)) in
  Ok (set o "record_size" (VInt (size_of header_fmt + size_of symbol_fmt))).

(** encode/vgf.py:469-474 [FileHeader.__init__]: b'Version 7.19.0', b'NAWIPS Vector Graphic Format ' *)
Definition version_bytes : bytes := [86;101;114;115;105;111;110;32;55;46;49;57;46;48].
Definition notes_bytes : bytes :=
  [78;65;87;73;80;83;32;86;101;99;116;111;114;32;71;114;97;112;104;105;99;32;70;111;114;109;97;116;32].
Definition file_header : obj :=
  set (set (set (set (base KFileHeader [] []) "gempak_version" (VBytes version_bytes))
    "notes" (VBytes notes_bytes)) "vg_type" (VInt 22))
    "record_size" (VInt (size_of header_fmt + size_of file_header_fmt)).

(** ** Encoding *)
Definition attrs (o : obj) (ks : list string) : list pyval := map (o_get o) ks.

(** encode/vgf.py:432-452 *)
Definition header_keys : list string :=
  ["delete"; "vg_type"; "vg_class"; "filled"; "closed"; "smooth"; "version"; "group_type";
   "group_number"; "major_color"; "minor_color"; "record_size"; "min_lat"; "min_lon"; "max_lat"; "max_lon"].
Definition encode_header (o : obj) : res bytes := struct_pack BE header_fmt (attrs o header_keys).

(** points / 14 (568-571): a float for int and float points *)
Definition points_to_size (v : pyval) : res pyval :=
  match v with
  | VInt z => Ok (VFloat (fdiv (of_Z z) (of_Z 14)))
  | VFloat f => Ok (VFloat (fdiv f (of_Z 14)))
  | _ => Err TypeError
  end.

(** The class-specific struct: 783-789, 1035-1043, 1221-1228, 1571-1581, 479 *)
Definition info_keys (k : ekind) : list string :=
  match k with
  | KLine => ["number_points"; "line_type"; "line_type_hardware"; "width"; "line_width_hardware"]
  | KFront => ["number_points"; "front_code"; "pip_size"; "pip_stroke"; "pip_direction"; "width"; "label"]
  | KSpecialLine => ["number_points"; "line_type"; "stroke"; "direction"; "size"; "width"]
  | KSpecialSymbol | KMarker =>
      ["number_symbols"; "width"; "size"; "symbol_type"; "symbol_code"; "lat"; "lon"; "offset_x"; "offset_y"]
  | KFileHeader => ["gempak_version"; "notes"]
  | KSpecialText =>       (* after rotation and text_size *)
      ["text_type"; "turbulence_symbol"; "font"; "text_flag"; "width"; "text_color"; "edgecolor"; "facecolor";
       "align"; "lat"; "lon"; "offset_x"; "offset_y"]
  end.
Definition info_fmt (k : ekind) : list fmtc :=
  match k with
  | KLine => line_fmt | KFront => front_fmt | KSpecialLine => special_line_fmt
  | KSpecialSymbol | KMarker => symbol_fmt | KFileHeader => file_header_fmt
  | KSpecialText => special_text_fmt
  end.
Definition info_values (o : obj) : res (list pyval) :=
  match o_kind o with
  | KSpecialText =>
      z <- points_to_size (o_get o "size") ;;
      Ok (o_get o "rotation" :: z :: attrs o (info_keys KSpecialText))
  | k => Ok (attrs o (info_keys k))
  end.

(** What follows the struct: the points (791, 1045, 1230), latitudes then longitudes, or the
    text (1466), struct.pack(f'{len(text)}s', text.encode()) *)
Definition encode_tail (o : obj) : res bytes :=
  match o_kind o with
  | KLine | KFront | KSpecialLine =>
      struct_pack BE (points_fmt (o_int o "number_points")) (map VFloat (o_lat o) ++ map VFloat (o_lon o))
  | KSpecialText =>
      match o_get o "text" with
      | VText s => b <- utf8_encode s ;; Ok (fit (length s) b)
      | _ => Err AttributeError
      end
  | _ => Ok []
  end.

(** encode/vgf.py:476-481, 779-793, 1031-1047, 1217-1232, 1444-1468, 1567-1583 *)
Definition encode (o : obj) : res bytes :=
  h <- encode_header o ;;
  vals <- info_values o ;;
  i <- struct_pack BE (info_fmt (o_kind o)) vals ;;
  t <- encode_tail o ;;
  Ok (h ++ i ++ t).

(** encode/vgf.py:1672-1702 [VGFile]: the file header is the first element.  What is in the
    file after [to_vgf], and the exception raised if an element cannot be encoded: the elements
    before it have been written. *)
Definition vgfile (l : list obj) : list obj := file_header :: l.
Fixpoint write_all (l : list obj) : bytes * option exn :=
  match l with
  | [] => ([], None)
  | o :: r => match encode o with
              | Err x => ([], Some x)
              | Ok b => let '(bs, x) := write_all r in (b ++ bs, x)
              end
  end.
Definition to_vgf (l : list obj) : bytes * option exn := write_all (vgfile l).

(** ** Histories: what a program can do with an element after building it *)
Inductive action := AAssign (p : prop) (v : pyval) | AFlip.
Definition act (o : obj) (a : action) : obj :=
  match a with AAssign p v => fst (assign o p v) | AFlip => flip o end.
(** Only properties the class has are assigned, and only fronts and special lines flipped. *)
Definition allowed (k : ekind) (a : action) : bool :=
  match a with
  | AAssign p _ => has_prop k p
  | AFlip => match k with KFront | KSpecialLine => true | _ => false end
  end.
(** Elements a program can have: built by a constructor, then changed by any actions. *)
Inductive built : obj -> Prop :=
| b_line : forall lon lat a b c d e f o, new_line lon lat a b c d e f = Ok o -> built o
| b_front : forall lon lat a b c d e f g o, new_front lon lat a b c d e f g = Ok o -> built o
| b_special_line : forall lon lat a b c d e f g h i o,
    new_special_line lon lat a b c d e f g h i = Ok o -> built o
| b_special_text : forall a b c d e f g h i j k l m n o,
    new_special_text a b c d e f g h i j k l m n = Ok o -> built o
| b_symbol : forall mk a b c d e f g h o, new_symbol mk a b c d e f g h = Ok o -> built o
| b_act : forall o a, built o -> allowed (o_kind o) a = true -> built (act o a).
