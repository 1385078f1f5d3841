(** decode/vgf.py: reading a vector graphics file.  Definitions only.

    Modelled: the element loop, the header and its validation, every decoder of the class except
    the text parsing inside [_decode_tca], which is the parameter [tca] below (given in Tca.v); the
    selectors, groups and bounds.  to_json is in Json.v.  Not modelled: repr, logging.  The host is little-endian
    (sys.byteorder == 'little', so prefmt is '>', 2888-2891). *)
From Verif Require Import Base Floats Strings Structs Tools VgfBase VgfTables.

(** An operation on the buffer that may raise. *)
Definition rd (A : Type) : Type := iobuf -> res (A * iobuf).
Definition retR {A} (a : A) : rd A := fun b => Ok (a, b).
Definition errR {A} (x : exn) : rd A := fun _ => Err x.
Definition bindR {A B} (m : rd A) (f : A -> rd B) : rd B :=
  fun b => match m b with Ok (a, b') => f a b' | Err x => Err x end.
Definition liftR {A} (r : res A) : rd A := fun b => match r with Ok a => Ok (a, b) | Err x => Err x end.
Declare Scope rd_scope.
Delimit Scope rd_scope with rd.
Notation "x <~ m ;; k" := (bindR m (fun x => k))
  (at level 61, m at next level, right associativity) : rd_scope.
Notation "' p <~ m ;; k" := (bindR m (fun p => k))
  (at level 61, p pattern, m at next level, right associativity) : rd_scope.
Open Scope rd_scope.

(** for _ in range(n): results.append(m()) *)
Fixpoint repeatR {A} (n : nat) (m : rd A) : rd (list A) :=
  match n with
  | O => retR []
  | S k => x <~ m ;; r <~ repeatR k m ;; retR (x :: r)
  end.

(** ** The buffer operations used (tools.py:71-196) *)
Definition r_read (n : Z) : rd bytes := fun b => let '(l, b') := io_read (Some n) b in Ok (l, b').
Definition r_skip (n : Z) : rd unit := fun b => Ok (tt, io_skip (Some n) b).
Definition r_struct (e : endian) (fmt : list fmtc) : rd (list pyval) :=
  fun b => match io_read_struct e fmt b with
           | (b', Ok v) => Ok (v, b')
           | (_, Err x) => Err x
           end.
Definition r_array {A} (conv : bytes -> A) (n : Z) : rd (list A) :=
  fun b => match io_read_array conv n b with
           | (b', Ok v) => Ok (v, b')
           | (_, Err x) => Err x
           end.
Definition r_mark : rd Z := fun b => let '(m, b') := io_set_mark b in Ok (m, b').
Definition r_jump (m : Z) : rd unit :=
  fun b => match io_jump_to m 0 b with Ok b' => Ok (tt, b') | Err x => Err x end.
Definition r_uint (size : Z) : rd Z := fun b => let '(v, b') := io_read_int size BE false b in Ok (v, b').

(** ** Named structs (tools.py:14-66) *)

(** Converter applied to an unpacked value. *)
Definition convert (c : vconv) (v : pyval) : res pyval :=
  match c, v with
  | CNone, _ => Ok v
  | CRound n, VFloat f => Ok (VFloat (py_round n f))
  | CTrunc, VFloat f => z <- int_of_float f ;; Ok (VInt z)
  | CText, VBytes l => Ok (VText (decode_strip_null l))
  | CSwap, VInt z => y <- swap32 z ;; Ok (VInt y)
  | _, _ => Err TypeError
  end.

Definition field_fmt (f : field) : fmtc := snd (fst f).
Definition formats (t : list field) : list fmtc := map field_fmt t.
(** Named fields only: padding yields no value. *)
Definition is_pad (c : fmtc) : bool := match c with FPad _ => true | _ => false end.
Definition named (t : list field) : list field := filter (fun f => negb (is_pad (field_fmt f))) t.

(** The namedtuple as an association list 'variable.field' -> value. *)
Definition env : Type := list (string * pyval).
Fixpoint create (var : string) (fs : list field) (vals : list pyval) : res env :=
  match fs, vals with
  | (n, _, c) :: r, v :: vs =>
      x <- convert c v ;; e <- create var r vs ;; Ok (((var ++ "." ++ n)%string, x) :: e)
  | _, _ => Ok []
  end.
(** [self._buffer.read_struct(NamedStruct(table, prefix, ...))] assigned to [var].  The
    converters run inside unpack_from, before the offset moves (tools.py:54-56, 114-118). *)
Definition r_named (e : endian) (var : string) (t : list field) : rd env :=
  vals <~ r_struct e (formats t) ;; liftR (create var (named t) vals).

Fixpoint lookup (k : string) (e : env) : option pyval :=
  match e with
  | [] => None
  | (n, v) :: r => if String.eqb n k then Some v else lookup k r
  end.
(** An int field (0 for anything else: only asked for 'i' fields) *)
Definition geti (e : env) (k : string) : Z := match lookup k e with Some (VInt z) => z | _ => 0 end.

(** ** Elements *)

(** decode/vgf.py:5209-5235: the record header *)
Record vhdr := mk_vhdr {
  vh_delete : Z; vh_type : Z; vh_class : Z; vh_filled : Z; vh_closed : Z; vh_smooth : Z;
  vh_version : Z; vh_group_type : Z; vh_group_number : Z; vh_major_color : Z; vh_minor_color : Z;
  vh_record_size : Z; vh_min_lat : flt; vh_min_lon : flt; vh_max_lat : flt; vh_max_lon : flt }.

Definition getf (e : env) (k : string) : flt :=
  match lookup k e with Some (VFloat f) => f | _ => S754_nan end.
Definition header_of (e : env) : vhdr :=
  mk_vhdr (geti e "header.delete") (geti e "header.vg_type") (geti e "header.vg_class")
    (geti e "header.filled") (geti e "header.closed") (geti e "header.smooth")
    (geti e "header.version") (geti e "header.group_type") (geti e "header.group_number")
    (geti e "header.major_color") (geti e "header.minor_color") (geti e "header.record_size")
    (getf e "header.min_lat") (getf e "header.min_lon") (getf e "header.max_lat")
    (getf e "header.max_lon").
Definition read_header : rd vhdr :=
  e <~ r_named BE "header" vgf_header_info ;; retR (header_of e).

(** Coordinates of an element: an array, or the integer -9999 of [_get_latlon] *)
Inductive coords := CoArr (l : list flt) | CoMissing | CoNone.

(** A decoded element: its Python class, its header attributes (601-631), its other attributes
    by name, the lists of sub-records it holds (list items, jet barbs, ...), further arrays, and
    lat and lon when they are arrays. *)
Record velem := mk_velem {
  ve_kind : string; ve_hdr : vhdr; ve_attrs : env; ve_subs : list (string * env);
  ve_arrs : list (string * list pyval); ve_lat : coords; ve_lon : coords }.

(** Arguments of a constructor call: AttributeError when a namedtuple lacks the field. *)
Fixpoint select (s : list (string * source)) (e : env) : res env :=
  match s with
  | [] => Ok []
  | (n, src) :: r =>
      v <- match src with
           | Key k => match lookup k e with Some v => Ok v | None => Err AttributeError end
           | KeyOr k d => Ok (match lookup k e with Some v => v | None => d end)
           end ;;
      t <- select r e ;; Ok ((n, v) :: t)
  end.

(** ** Constants (common.py:34-52) *)
Definition MAX_POINTS : Z := 500.
Definition LIST_MEMBER_SIZE : Z := 9.
Definition MAX_TRACKS : Z := 50.
Definition TRACK_DT_SIZE : Z := 18.
Definition MAX_SIGMET : Z := 100.
Definition MAX_ASH : Z := 50.
Definition MAX_JET_POINTS : Z := 50.
Definition MAX_SGWX_POINTS : Z := 256.
Definition MAX_COUNTIES : Z := 400.
Definition MAX_COUNTIES_LEGACY : Z := 200.
Definition VGF_HEADER_SIZE : Z := 40.

(** ** Coordinates *)

(** decode/vgf.py:5184-5207 [_get_latlon] *)
Definition get_latlon (points : Z) : rd (coords * coords) :=
  if MAX_POINTS <? points then errR ValueError
  else if 1 <=? points then
    lat <~ r_array (unpack_f32 BE) points ;;
    lon <~ r_array (unpack_f32 BE) points ;;
    retR (CoArr (map around2 lat), CoArr (map around2 lon))
  else retR (CoMissing, CoMissing).

(** decode/vgf.py:5237-5260 [close_coordinates], of one array: the first point appended
    (IndexError when empty). *)
Definition close_list {A} (x : list A) : res (list A) :=
  match x with [] => Err IndexError | a :: _ => Ok (x ++ [a]) end.
Definition close_coords (c : coords) : res coords :=
  match c with CoArr l => l' <- close_list l ;; Ok (CoArr l') | _ => Err TypeError end.
(** decode/vgf.py:5262-5284 [flip_coordinates], of one array *)
Definition flip_list {A} (x : list A) : list A := rev x.
Definition flip_coords (c : coords) : res coords :=
  match c with CoArr l => Ok (CoArr (flip_list l)) | _ => Err TypeError end.

Definition raw_array (n : Z) : rd coords := l <~ r_array (unpack_f32 BE) n ;; retR (CoArr l).
Definition coord_vals (c : coords) : list pyval :=
  match c with CoArr l => map VFloat l | _ => [] end.

(** ** Derived properties (the [_set_properties] methods).  The names of enumeration members are
    modelled by their numbers; a number without a member raises ValueError. *)
Definition enum (lo hi z : Z) : res pyval := if between lo hi z then Ok (VInt z) else Err ValueError.
Definition digit_at (s : str) (i : nat) : res Z :=
  match nth_error s i with Some c => py_int [c] | None => Err IndexError end.

(** 833-837 and 1190-1194 *)
Definition line_properties (line_type : Z) : res env :=
  let code := fmt_d 2 line_type in
  m <- digit_at code 0 ;; d <- digit_at code 1 ;; st <- enum 0 9 d ;;
  Ok [("line_modifier", VInt m); ("line_style", st)].
(** 1069-1074 *)
Definition front_properties (front_code : Z) : res env :=
  let code := fmt_d 3 front_code in
  a <- digit_at code 0 ;; ft <- enum 0 9 a ;;
  b <- digit_at code 1 ;; fi <- enum 0 9 b ;;
  c <- digit_at code 2 ;; fc <- enum 0 9 c ;;
  Ok [("front_type", ft); ("front_intensity", fi); ("front_character", fc)].
(** 1249-1252 *)
Definition list_properties (list_type marker_type : Z) : res env :=
  a <- enum 1 5 list_type ;; b <- enum 0 24 marker_type ;;
  Ok [("list_type_name", a); ("marker_name", b)].
(** 1623-1625 *)
Definition special_line_properties (line_type : Z) : res env :=
  a <- enum 1 26 line_type ;; Ok [("line_style", a)].
(** 2798-2800 *)
Definition watch_properties (marker_type : Z) : res env :=
  a <- enum 0 24 marker_type ;; Ok [("marker_name", a)].

(** ** Decoders.  Each returns the elements it appends. *)

(** decode/vgf.py:3260-3267 [_decode_file_header]: sets [_header], appends nothing *)
Definition dec_file_header (h : vhdr) : rd velem :=
  v <~ r_read 128 ;;
  n <~ r_read (vh_record_size h - VGF_HEADER_SIZE - 128) ;;
  a <~ liftR (select FileHeaderElement_sel
                [("version", VText (decode_strip_null v)); ("notes", VText (decode_strip_null n))]) ;;
  retR (mk_velem "FileHeaderElement" h a [] [] CoNone CoNone).

(** decode/vgf.py:3269-3297 *)
Definition dec_fronts (h : vhdr) : rd (list velem) :=
  e <~ r_named BE "front" front_info ;;
  '(lat, lon) <~ get_latlon (geti e "front.number_points") ;;
  a <~ liftR (select FrontElement_sel e) ;;
  p <~ liftR (front_properties (geti e "front.front_code")) ;;
  retR [mk_velem "FrontElement" h (a ++ p) [] [] lat lon].

(** decode/vgf.py:3299-3327 *)
Definition dec_symbols (h : vhdr) : rd (list velem) :=
  e <~ r_named BE "symbol" symbol_info ;;
  a <~ liftR (select SymbolElement_sel e) ;;
  retR [mk_velem "SymbolElement" h a [] [] CoNone CoNone].

(** decode/vgf.py:3329-3354 *)
Definition dec_circles (h : vhdr) : rd (list velem) :=
  e <~ r_named BE "line" line_info ;;
  '(lat, lon) <~ get_latlon (geti e "line.number_points") ;;
  a <~ liftR (select CircleElement_sel e) ;;
  p <~ liftR (line_properties (geti e "line.line_type")) ;;
  retR [mk_velem "CircleElement" h (a ++ p) [] [] lat lon].

(** decode/vgf.py:3356-3385: an element without points is dropped *)
Definition dec_lines (h : vhdr) : rd (list velem) :=
  e <~ r_named BE "line" line_info ;;
  let n := geti e "line.number_points" in
  '(lat, lon) <~ get_latlon n ;;
  match lat with
  | CoMissing => retR []
  | _ =>
      '(lat, lon) <~
        (if negb (vh_closed h =? 0) && (2 <? n)
         then x <~ liftR (close_coords lat) ;; y <~ liftR (close_coords lon) ;; retR (x, y)
         else retR (lat, lon)) ;;
      a <~ liftR (select LineElement_sel e) ;;
      p <~ liftR (line_properties (geti e "line.line_type")) ;;
      retR [mk_velem "LineElement" h (a ++ p) [] [] lat lon]
  end.

(** decode/vgf.py:3387-3423 *)
Definition dec_special_lines (h : vhdr) : rd (list velem) :=
  e <~ r_named BE "special_line" special_line_info ;;
  let n := geti e "special_line.number_points" in
  '(lat, lon) <~ get_latlon n ;;
  match lat with
  | CoMissing => retR []
  | _ =>
      '(lat, lon) <~
        (if negb (vh_closed h =? 0) && (2 <? n)
         then x <~ liftR (close_coords lat) ;; y <~ liftR (close_coords lon) ;; retR (x, y)
         else retR (lat, lon)) ;;
      '(lat, lon) <~
        (if geti e "special_line.direction" =? -1
         then x <~ liftR (flip_coords lat) ;; y <~ liftR (flip_coords lon) ;; retR (x, y)
         else retR (lat, lon)) ;;
      a <~ liftR (select SpecialLineElement_sel e) ;;
      p <~ liftR (special_line_properties (geti e "special_line.line_type")) ;;
      retR [mk_velem "SpecialLineElement" h (a ++ p) [] [] lat lon]
  end.

(** self._buffer.read(n).split(b'\x00')[0].decode() *)
Definition read_text (n : Z) : rd str := l <~ r_read n ;; liftR (decode_strict (before_nul l)).
Definition items (name : string) (l : list str) : list (string * env) :=
  map (fun s => (name, [("value", VText s)])) l.

(** decode/vgf.py:3425-3461 *)
Definition dec_lists (h : vhdr) : rd (list velem) :=
  e <~ r_named BE "list_meta" list_info ;;
  let n := geti e "list_meta.number_items" in
  l <~ repeatR (Z.to_nat n) (read_text LIST_MEMBER_SIZE) ;;
  _ <~ r_skip ((MAX_POINTS - n) * LIST_MEMBER_SIZE) ;;
  lat <~ raw_array n ;;
  _ <~ r_skip (4 * (MAX_POINTS - n)) ;;
  lon <~ raw_array n ;;
  _ <~ r_skip (4 * (MAX_POINTS - n)) ;;
  a <~ liftR (select ListElement_sel e) ;;
  p <~ liftR (list_properties (geti e "list_meta.list_type") (geti e "list_meta.marker_type")) ;;
  retR [mk_velem "ListElement" h (a ++ p) (items "list_items" l) [] lat lon].

Definition clean_text (s : str) : str := ustrip (replace_dollars s).

(** decode/vgf.py:3463-3499 *)
Definition dec_text (h : vhdr) : rd (list velem) :=
  e <~ r_named BE "text" text_info ;;
  s <~ read_text (vh_record_size h - VGF_HEADER_SIZE - Z.of_nat (calcsize (formats text_info))) ;;
  a <~ liftR (select TextElement_sel (e ++ [("clean_text", VText (clean_text s))])) ;;
  retR [mk_velem "TextElement" h a [] [] CoNone CoNone].

(** decode/vgf.py:3501-3547 *)
Definition dec_special_text (h : vhdr) : rd (list velem) :=
  e <~ r_named BE "text" special_text_info ;;
  s <~ read_text (vh_record_size h - VGF_HEADER_SIZE - Z.of_nat (calcsize (formats special_text_info))) ;;
  a <~ liftR (select SpecialTextElement_sel (e ++ [("clean_text", VText (clean_text s))])) ;;
  retR [mk_velem "SpecialTextElement" h a [] [] CoNone CoNone].

(** decode/vgf.py:3549-3657: three layouts, tried by plausibility *)
Definition dec_tracks (h : vhdr) : rd (list velem) :=
  mark <~ r_mark ;;
  e0 <~ r_named BE "track" track_info_full ;;
  sz <~ r_named LE "size" [("value", FFloat, CRound 1)] ;;
  let sk := geti e0 "track.skip" in
  let fo := geti e0 "track.font" in
  '(e, size) <~
    (if (sk <? -3) || (4 <? sk) then
       _ <~ r_jump mark ;; e1 <~ r_named BE "track" track_info_old ;; retR (e1, VFloat (of_Z 1))
     else if (fo <? 0) || (33 <? fo) then
       _ <~ r_jump mark ;; e2 <~ r_named BE "track" track_info_skip ;; retR (e2, VFloat (of_Z 1))
     else retR (e0, VFloat (getf sz "size.value"))) ;;
  let n := geti e "track.total_points" in
  times <~ repeatR (Z.to_nat n) (read_text TRACK_DT_SIZE) ;;
  _ <~ r_skip ((MAX_TRACKS - n) * TRACK_DT_SIZE) ;;
  '(lat, lon) <~ get_latlon n ;;
  _ <~ r_skip (8 * (MAX_TRACKS - n)) ;;
  a <~ liftR (select TrackElement_sel (e ++ [("track_font_size", size)])) ;;
  retR [mk_velem "TrackElement" h a (items "times" times) [] lat lon].

(** decode/vgf.py:3659-3769: versions other than 0 and 1 leave [sigmet_info] unbound *)
Definition dec_sigmet (h : vhdr) : rd (list velem) :=
  e <~ (if vh_version h =? 0 then r_named BE "sigmet" sigmet_info_0
        else if vh_version h =? 1 then r_named BE "sigmet" sigmet_info_1
        else errR UnboundLocal) ;;
  lat <~ raw_array (geti e "sigmet.number_points") ;;
  lon <~ raw_array (geti e "sigmet.number_points") ;;
  a <~ liftR (select SigmetElement_sel e) ;;
  retR [mk_velem "SigmetElement" h a [] [] lat lon].

(** decode/vgf.py:3771-3877.  The second struct has no prefix: native order, little-endian. *)
Definition dec_ccf (h : vhdr) : rd (list velem) :=
  e1 <~ r_named BE "ccf" ccf_info ;;
  e2 <~ r_named LE "ccf_noswap" ccf_info_noswap ;;
  e3 <~ r_named BE "ccf_text" ccf_text_info ;;
  s <~ read_text 256 ;;
  let n := geti e1 "ccf.number_points" in
  '(lat, lon) <~ get_latlon n ;;
  a <~ liftR (select CollaborativeConvectiveForecastElement_sel
                (e1 ++ e2 ++ e3 ++ [("text_layout", VText s)])) ;;
  _ <~ r_skip ((MAX_SIGMET - n) * 8) ;;
  retR [mk_velem "CollaborativeConvectiveForecastElement" h a [] [] lat lon].

(** decode/vgf.py:3879-3957 *)
Definition dec_volcanoes (h : vhdr) : rd (list velem) :=
  e <~ r_named BE "volcano" volcano_info ;;
  a <~ liftR (select VolcanoElement_sel e) ;;
  retR [mk_velem "VolcanoElement" h a [] [] CoNone CoNone].

(** decode/vgf.py:3959-4032 *)
Definition dec_ash_clouds (h : vhdr) : rd (list velem) :=
  e1 <~ r_named BE "ash" ash_info ;;
  e2 <~ r_named BE "text" special_text_info ;;
  s <~ read_text 255 ;;
  _ <~ r_skip 1 ;;
  let n := geti e1 "ash.number_points" in
  '(lat, lon) <~ get_latlon n ;;
  _ <~ r_skip ((MAX_ASH - n) * 8) ;;
  a <~ liftR (select AshCloudElement_sel (e1 ++ e2 ++ [("text_string", VText s)])) ;;
  retR [mk_velem "AshCloudElement" h a [] [] lat lon].

(** decode/vgf.py:4034-4055 *)
Definition dec_gfa (h : vhdr) : rd (list velem) :=
  e <~ r_named BE "gfa" gfa_info ;;
  blocks <~ repeatR (Z.to_nat (geti e "gfa.number_blocks"))
              (r_named LE "block" [("value", FStr 1024, CText)]) ;;
  '(lat, lon) <~ get_latlon (geti e "gfa.number_points") ;;
  a <~ liftR (select GraphicalForecastAreaElement_sel e) ;;
  retR [mk_velem "GraphicalForecastAreaElement" h a (map (fun x => ("blocks", x)) blocks) [] lat lon].

(** decode/vgf.py:4057-4188 *)
Definition dec_jet (h : vhdr) : rd (list velem) :=
  e <~ r_named BE "jet_line" jet_line_info ;;
  let n := geti e "jet_line.number_points" in
  '(lat, lon) <~ get_latlon n ;;
  la <~ liftR (select LineAttribute_sel e) ;;
  _ <~ r_skip ((MAX_POINTS - n) * 8) ;;
  nb <~ r_uint 4 ;;
  barbs <~ repeatR (Z.to_nat nb)
             (x <~ r_named BE "jet_barb" jet_barb_info ;; liftR (select BarbAttribute_sel x)) ;;
  _ <~ r_skip ((MAX_JET_POINTS - nb) * Z.of_nat (calcsize (formats jet_barb_info))) ;;
  nh <~ r_uint 4 ;;
  hashes <~ repeatR (Z.to_nat nh)
             (x <~ r_named BE "jet_hash" jet_hash_info ;; liftR (select HashAttribute_sel x)) ;;
  _ <~ r_skip ((MAX_JET_POINTS - nh) * Z.of_nat (calcsize (formats jet_hash_info))) ;;
  a <~ liftR (select JetElement_sel [("number_barbs", VInt nb); ("number_hash", VInt nh)]) ;;
  retR [mk_velem "JetElement" h a
          (("line_attribute", la) :: map (fun x => ("barb_attributes", x)) barbs ++
           map (fun x => ("hash_attributes", x)) hashes)
          [("line_attribute.lat", coord_vals lat); ("line_attribute.lon", coord_vals lon)] CoNone CoNone].

(** decode/vgf.py:4276-4325 with 1996-2007: [Basin(basin)] is called with the text of the field
    and no text is a member of an IntEnum, so building the element raises ValueError. *)
Definition dec_tc_error (h : vhdr) : rd (list velem) :=
  _ <~ r_named BE "tc" tc_info ;;
  c <~ r_named BE "cone" cone_info ;;
  _ <~ get_latlon (geti c "cone.number_points") ;;
  errR ValueError.
(** decode/vgf.py:4327-4409 *)
Definition dec_tc_track (h : vhdr) : rd (list velem) :=
  _ <~ r_named BE "tc" tc_info ;;
  c <~ r_named BE "track" tc_track_track_info ;;
  _ <~ repeatR (Z.to_nat (geti c "track.number_points"))
         (x <~ r_named BE "pt" track_point_info ;; liftR (select TrackAttribute_sel x)) ;;
  errR ValueError.
(** decode/vgf.py:4411-4466: the buffer object is called (4434), a TypeError *)
Definition dec_tc_break_point (h : vhdr) : rd (list velem) :=
  _ <~ r_named BE "tc" tc_info ;; errR TypeError.
(** decode/vgf.py:4468-4548: the struct has no text_width, text_align or text field *)
Definition dec_sgwx (h : vhdr) : rd (list velem) :=
  e1 <~ r_named BE "sgwx" sgwx_info ;;
  e2 <~ r_named BE "text" special_text_info ;;
  let n := geti e1 "sgwx.number_points" in
  '(lat, lon) <~ get_latlon n ;;
  a <~ liftR (select SignificantWeatherElement_sel (e1 ++ e2)) ;;
  _ <~ r_skip ((MAX_SGWX_POINTS - n) * 4) ;;
  retR [mk_velem "SignificantWeatherElement" h a [] [] lat lon].

(** decode/vgf.py:4550-5008.  Versions above 6 leave [watch] unbound. *)
Definition watch_info (v : Z) : option (list field) :=
  if v =? 0 then Some watch_info_0 else if v =? 1 then Some watch_info_1
  else if v =? 2 then Some watch_info_2 else if v =? 3 then Some watch_info_3
  else if v =? 4 then Some watch_info_4 else if v =? 5 then Some watch_info_5
  else if v =? 6 then Some watch_info_6 else None.
Definition int_array (n : Z) : rd (list pyval) := r_array (fun l => VInt (unpack_i32 BE l)) n.
(** The county arrays of each version: read [n] items, then skip the unused places. *)
Definition watch_counties (v n : Z) : rd (list (string * list pyval)) :=
  let most := if v <=? 4 then MAX_COUNTIES_LEGACY else MAX_COUNTIES in
  if v <=? 1 then
    retR [("county_fips", []); ("county_status", []); ("county_lat", []); ("county_lon", [])]
  else
    st <~ (if v <=? 4 then x <~ int_array n ;; _ <~ r_skip (4 * (most - n)) ;; retR x else retR []) ;;
    fips <~ (if 4 <=? v then x <~ int_array n ;; _ <~ r_skip (4 * (most - n)) ;; retR x else retR []) ;;
    la <~ raw_array n ;;
    lo <~ raw_array n ;;
    _ <~ r_skip (8 * (most - n)) ;;
    retR [("county_fips", fips); ("county_status", st);
          ("county_lat", coord_vals la); ("county_lon", coord_vals lo)].
Definition dec_watches (h : vhdr) : rd (list velem) :=
  match watch_info (vh_version h) with
  | None => errR UnboundLocal
  | Some t =>
      e <~ r_named BE "watch" t ;;
      counties <~ watch_counties (vh_version h) (geti e "watch.number_counties") ;;
      let n := geti e "watch.number_points" in
      lat <~ raw_array n ;;
      lon <~ raw_array n ;;
      '(lat, lon) <~
        (if 2 <? n then x <~ liftR (close_coords lat) ;; y <~ liftR (close_coords lon) ;; retR (x, y)
         else retR (lat, lon)) ;;
      a <~ liftR (select WatchBoxElement_sel e) ;;
      p <~ liftR (watch_properties (geti a "marker_type")) ;;
      retR [mk_velem "WatchBoxElement" h (a ++ p) [] counties lat lon]
  end.

(** decode/vgf.py:5010-5038 *)
Definition dec_winds (h : vhdr) : rd (list velem) :=
  e <~ r_named BE "wind" wind_info ;;
  a <~ liftR (select WindElement_sel e) ;;
  retR [mk_velem "WindElement" h a [] [] CoNone CoNone].

(** ** The element loop *)

(** decode/vgf.py:5161-5182: true means "not valid" *)
Definition known_type (t : Z) : bool := (t =? 1) || (t =? 2) || between 4 43 t.
Definition known_class (c : Z) : bool := between 0 16 c.
Definition invalid_header (h : vhdr) (size : Z) : bool :=
  (vh_delete h <? 0) || (1 <? vh_delete h) || (vh_type h <? 0) ||
  negb (known_type (vh_type h)) || negb (known_class (vh_class h)) ||
  (vh_major_color h <? 0) || (32 <? vh_major_color h) ||
  (vh_minor_color h <? 0) || (32 <? vh_minor_color h) || (size <? vh_record_size h).

(** What a record adds: elements, or the file header. *)
Inductive decoded := DElems (l : list velem) | DHeader (x : velem).
Definition elems (m : rd (list velem)) : rd decoded := l <~ m ;; retR (DElems l).

Section Tca.
(** [_decode_tca] (4199-4278): the record's text is read; the elements made of it by regular
    expressions are the parameter. *)
Variable tca : vhdr -> str -> res (list velem).

Definition dec_tca (h : vhdr) : rd (list velem) :=
  s <~ read_text (vh_record_size h - VGF_HEADER_SIZE) ;; liftR (tca h s).

(** decode/vgf.py:5066-5159 *)
Definition dispatch (h : vhdr) : rd decoded :=
  let c := vh_class h in
  let t := vh_type h in
  let skip := _ <~ r_skip (vh_record_size h - VGF_HEADER_SIZE) ;; retR (DElems []) in
  if (c =? 0) && (t =? 22) then x <~ dec_file_header h ;; retR (DHeader x)
  else if c =? 1 then elems (dec_fronts h)
  else if c =? 4 then elems (dec_symbols h)
  else if c =? 12 then (if t =? 4 then elems (dec_circles h) else skip)
  else if c =? 3 then
    (if t =? 1 then elems (dec_lines h) else if t =? 20 then elems (dec_special_lines h) else skip)
  else if c =? 14 then elems (dec_lists h)
  else if c =? 5 then
    (if (t =? 17) || (t =? 18) then elems (dec_text h)
     else if t =? 21 then elems (dec_special_text h) else skip)
  else if c =? 10 then elems (dec_tracks h)
  else if c =? 11 then
    (if between 27 31 t then elems (dec_sigmet h)
     else if t =? 32 then elems (dec_ccf h)
     else if t =? 35 then elems (dec_volcanoes h)
     else if t =? 36 then elems (dec_ash_clouds h) else skip)
  else if c =? 15 then
    (if t =? 38 then elems (dec_gfa h)
     else if t =? 37 then elems (dec_jet h)
     else if t =? 39 then elems (dec_tca h)
     else if t =? 40 then elems (dec_tc_error h)
     else if t =? 41 then elems (dec_tc_track h)
     else if t =? 42 then elems (dec_tc_break_point h)
     else if t =? 43 then elems (dec_sgwx h) else skip)
  else if c =? 2 then elems (dec_watches h)
  else if c =? 6 then elems (dec_winds h)
  else skip.

(** The object under construction: elements, group types, file header and buffer. *)
Record vstate := mk_vstate {
  vs_elements : list velem; vs_groups : list Z; vs_header : option velem; vs_buf : iobuf }.

(** 5060-5064 *)
Definition note_group (h : vhdr) (g : list Z) : list Z :=
  let gi := vh_group_type h in
  if negb (existsb (Z.eqb gi) g) && negb (gi =? 0) && negb (vh_class h =? 0) then g ++ [gi] else g.

(** One round of the loop 5044-5159: [Ok (inl _)] goes on, [Ok (inr _)] has left the loop. *)
Definition vstep (s : vstate) : res (vstate + vstate) :=
  let b := vs_buf s in
  if io_at_end b then Ok (inr s)
  else
    match read_header b with
    | Err x => Err x
    | Ok (h, b1) =>
        if invalid_header h (io_len b1) then Ok (inr (mk_vstate (vs_elements s) (vs_groups s) (vs_header s) b1))
        else
          let g := note_group h (vs_groups s) in
          match dispatch h b1 with
          | Err x => Err x
          | Ok (DElems l, b2) => Ok (inl (mk_vstate (vs_elements s ++ l) g (vs_header s) b2))
          | Ok (DHeader x, b2) => Ok (inl (mk_vstate (vs_elements s) g (Some x) b2))
          end
    end.

(** At most [n] rounds; [None] when the loop is still running. *)
Fixpoint vrun (n : nat) (s : vstate) : option (res vstate) :=
  match n with
  | O => None
  | S k => match vstep s with
           | Err x => Some (Err x)
           | Ok (inr s') => Some (Ok s')
           | Ok (inl s') => vrun k s'
           end
  end.

(** decode/vgf.py:2878-2896: opening a file with these contents *)
Definition vgf_start (data : bytes) : vstate := mk_vstate [] [] None (io_init data).
(** Opening ends (after some number of rounds) with this result. *)
Definition opens (data : bytes) (r : res vstate) : Prop := exists n, vrun n (vgf_start data) = Some r.
Definition vgf_open (n : nat) (data : bytes) : option (res vstate) := vrun n (vgf_start data).

End Tca.

(** ** Queries on the decoded elements *)

(** decode/vgf.py:3197-3242 [filter_elements]: None when nothing matches; nothing matches when
    neither filter is given; operation must be 'and' or 'or' *)
Inductive fop := OpAnd | OpOr | OpOther.
Definition filter_elements (l : list velem) (c t : option Z) (op : fop) : res (option (list velem)) :=
  let out (f : list velem) := match f with [] => None | _ => Some f end in
  match op with
  | OpOther => Err ValueError
  | _ =>
      Ok (out match c, t with
              | Some c, None => filter (fun e => vh_class (ve_hdr e) =? c) l
              | None, Some t => filter (fun e => vh_type (ve_hdr e) =? t) l
              | Some c, Some t =>
                  filter (fun e => match op with
                                   | OpOr => (vh_class (ve_hdr e) =? c) || (vh_type (ve_hdr e) =? t)
                                   | _ => (vh_class (ve_hdr e) =? c) && (vh_type (ve_hdr e) =? t)
                                   end) l
              | None, None => []
              end)
  end.
(** bool(self.filter_elements(...)) and the get_* pattern "if has: return filter else None" *)
Definition has (l : list velem) (c : Z) (t : option Z) : bool :=
  match filter_elements l (Some c) t OpAnd with Ok (Some _) => true | _ => false end.
Definition get_if (g : bool) (l : list velem) (c : Z) (t : option Z) : option (list velem) :=
  if g then match filter_elements l (Some c) t OpAnd with Ok r => r | Err _ => None end else None.

(** decode/vgf.py:2936-3159, in the order of the code *)
Definition has_fronts l := has l 1 None.
Definition has_text l := has l 5 (Some 17).
Definition has_special_text l := has l 5 (Some 21).
Definition has_symbols l := has l 4 None.
Definition has_special_symbols l := has l 4 (Some 15).
Definition has_markers l := has l 4 (Some 19).
Definition has_special_lines l := has l 3 (Some 20).
Definition has_lines l := has l 3 (Some 1).
Definition has_winds l := has l 6 None.
Definition has_tracks l := has l 10 None.
Definition has_watch_box l := has l 2 None.
Definition has_sigmet l := has l 11 None.
Definition has_met l := has l 15 None.
Definition get_fronts l := get_if (has_fronts l) l 1 None.
Definition get_text l := get_if (has_text l) l 5 None.
Definition get_special_text l := get_if (has_special_text l) l 5 (Some 21).
Definition get_symbols l := get_if (has_symbols l) l 4 None.
Definition get_special_symbols l := get_if (has_special_symbols l) l 4 (Some 15).
Definition get_markers l := get_if (has_markers l) l 4 (Some 19).
Definition get_special_lines l := get_if (has_special_lines l) l 3 (Some 20).
Definition get_lines l := get_if (has_lines l) l 3 (Some 1).
Definition get_tracks l := get_if (has_tracks l) l 10 None.
Definition get_winds l := get_if (has_winds l) l 6 None.
Definition get_watch_box l := get_if (has_watch_box l) l 2 None.
Definition get_sigmet l := get_if (has_sigmet l) l 11 None.
(** 3149-3159: the guard is has_sigmet *)
Definition get_met l := get_if (has_sigmet l) l 15 None.

(** [Group] (2803-2862) *)
Record group := mk_group { gr_elements : list velem; gr_type : option Z; gr_number : option Z; gr_size : Z }.
Definition new_group : group := mk_group [] None None 0.
(** 2840-2862 *)
Definition group_add (g : group) (e : velem) : res group :=
  t <- match gr_type g with
       | None => Ok (vh_group_type (ve_hdr e))
       | Some t => if t =? vh_group_type (ve_hdr e) then Ok t else Err ValueError
       end ;;
  n <- match gr_number g with
       | None => Ok (vh_group_number (ve_hdr e))
       | Some n => if n =? vh_group_number (ve_hdr e) then Ok n else Err ValueError
       end ;;
  Ok (mk_group (gr_elements g ++ [e]) (Some t) (Some n) (gr_size g + 1)).

(** sorted() of integers *)
Fixpoint insert_z (x : Z) (l : list Z) : list Z :=
  match l with [] => [x] | y :: r => if x <=? y then x :: l else y :: insert_z x r end.
Definition sort_z (l : list Z) : list Z := fold_right insert_z [] l.

(** decode/vgf.py:3161-3195 [get_group]; None when there is no group *)
Definition get_group (l : list velem) (gt : Z) : res (option (list group)) :=
  let of_type := filter (fun e => vh_group_type (ve_hdr e) =? gt) l in
  let numbers := fold_left (fun ns e => let n := vh_group_number (ve_hdr e) in
                                        if existsb (Z.eqb n) ns then ns else ns ++ [n]) of_type [] in
  gs <- mapM (fun gn => foldM (fun g e => if vh_group_number (ve_hdr e) =? gn then group_add g e else Ok g)
                              of_type new_group) (sort_z numbers) ;;
  let grouped := filter (fun g => negb (gr_size g =? 0)) gs in
  Ok match grouped with [] => None | _ => Some grouped end.

(** decode/vgf.py:2914-2934 [bounds]: (ymin, xmin, ymax, xmax), starting from (9999, 9999,
    -9999, -9999); an element with a header coordinate equal to 0 is passed over.  The int
    start values are modelled as floats. *)
Definition is_zero (f : flt) : bool := SFeqb f (S754_zero false).
Definition bounds_step (b : flt * flt * flt * flt) (h : vhdr) : flt * flt * flt * flt :=
  let '(ymin, xmin, ymax, xmax) := b in
  if is_zero (vh_max_lat h) || is_zero (vh_max_lon h) || is_zero (vh_min_lat h) || is_zero (vh_min_lon h)
  then b
  else
    (if SFltb (vh_min_lat h) ymin then vh_min_lat h else ymin,
     if SFltb (vh_min_lon h) xmin then vh_min_lon h else xmin,
     if SFltb ymax (vh_max_lat h) then vh_max_lat h else ymax,
     if SFltb xmax (vh_max_lon h) then vh_max_lon h else xmax).
Definition bounds (l : list velem) : flt * flt * flt * flt :=
  fold_left (fun b e => bounds_step b (ve_hdr e)) l
    (of_Z 9999, of_Z 9999, of_Z (-9999), of_Z (-9999)).
