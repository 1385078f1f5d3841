(** Grid files, reading: decode/gempak.py:612-954, 956-1150 [GempakGrid].  Definitions only.
    Not modelled: the coordinate reference system and the coordinates (pyproj), and the xarray
    objects; only that an unknown projection name is refused. *)
From Coq Require Import QArith.
From Verif Require Import Base Words Layout Floats Structs Strings Dates Headers Grib Real Order DmFile Station Grid.
Open Scope Z_scope.

(** ** Header fields: decode/gempak.py:620-661 *)
Inductive gval :=
| GLevel (o : option Z) | GCoord (s : str) | GDate (o : option dtime) | GTime (o : option (ftype * Z))
| GText (s : str) | GInt (z : Z).
Definition is_level_key (k : str) : bool := str_eqb k k_GLV1 || str_eqb k k_GLV2.
Definition is_date_key (k : str) : bool := str_eqb k k_GDT1 || str_eqb k k_GDT2.
Definition is_ftime_key (k : str) : bool := str_eqb k k_GTM1 || str_eqb k k_GTM2.
Definition is_parm_key (k : str) : bool := str_eqb k k_GPM1 || str_eqb k k_GPM2 || str_eqb k k_GPM3.
Definition gkey_fmt (key : str) : fmtc := if is_parm_key key then FStr 4 else FInt.
Definition gkey_conv (e : endian) (key : str) (v : pyval) : res gval :=
  match v with
  | VInt z =>
      if is_level_key key then Ok (GLevel (convert_level z))
      else if str_eqb key k_GVCD then s <- convert_vertical_coord e z ;; Ok (GCoord s)
      else if is_date_key key then d <- convert_dattim z ;; Ok (GDate d)
      else if is_ftime_key key then f <- convert_ftime z ;; Ok (GTime f)
      else Ok (GInt z)
  | VBytes b => s <- decode_strip b ;; Ok (GText s)
  | _ => Err TypeError
  end.
Definition gheader := list (str * gval).
Definition read_gheader (e : endian) (keys : list str) (d : bytes) (pos : Z) : res gheader :=
  vs <- rd_struct e (map gkey_fmt keys) d pos ;;
  mapM (fun '(k, v) => h <- gkey_conv e k v ;; Ok (k, h)) (combine keys vs).
(** row headers are integers: decode/gempak.py:631-639 *)
Definition read_grow (e : endian) (keys : list str) (d : bytes) (pos : Z) : res (list Z) :=
  vs <- rd_struct e (repeat FInt (length keys)) d pos ;; as_ints vs.

(** getattr(header, key); the conversion fixed by the key decides the type of the value *)
Fixpoint gattr (h : gheader) (key : str) : res gval :=
  match h with
  | [] => Err AttributeError
  | (k, v) :: r => if str_eqb key k then Ok v else gattr r key
  end.
Definition gattr_level h k := v <- gattr h k ;; match v with GLevel o => Ok o | _ => Err TypeError end.
Definition gattr_coord h k := v <- gattr h k ;; match v with GCoord s => Ok s | _ => Err TypeError end.
Definition gattr_date h k := v <- gattr h k ;; match v with GDate o => Ok o | _ => Err TypeError end.
Definition gattr_ftime h k := v <- gattr h k ;; match v with GTime o => Ok o | _ => Err TypeError end.
Definition gattr_text h k := v <- gattr h k ;; match v with GText s => Ok s | _ => Err TypeError end.

(** ** Listing: decode/gempak.py:79-91 (the Grid tuple), 663-676 *)
Record glisting := mk_gl {
  gl_no : Z; gl_type : ftype; gl_time1 : dtime; gl_time2 : option dtime; gl_parm : str;
  gl_level1 : option Z; gl_level2 : option Z; gl_coord : str
}.
Definition need {A} (o : option A) : res A := match o with Some x => Ok x | None => Err TypeError end.
Definition glisting_of (n : Z) (h : gheader) : res glisting :=
  tm1 <- gattr_ftime h k_GTM1 ;; ' (ty, delta) <- need tm1 ;;
  dt1 <- gattr_date h k_GDT1 ;; d1 <- need dt1 ;; t1 <- add_minutes d1 delta ;;
  dt2 <- gattr_date h k_GDT2 ;; tm2 <- gattr_ftime h k_GTM2 ;;
  t2 <- match dt2, tm2 with
        | Some d, Some (_, delta2) => t <- add_minutes d delta2 ;; Ok (Some t)
        | _, _ => Ok None
        end ;;
  p1 <- gattr_text h k_GPM1 ;; p2 <- gattr_text h k_GPM2 ;; p3 <- gattr_text h k_GPM3 ;;
  l1 <- gattr_level h k_GLV1 ;; l2 <- gattr_level h k_GLV2 ;; c <- gattr_coord h k_GVCD ;;
  Ok (mk_gl n ty t1 t2 (p1 ++ p2 ++ p3) l1 l2 c).

(** ** Opening *)
(** decode/gempak.py:55-70 [GEMPROJ_TO_PROJ]: MER NPS SPS LCC SCC CED MCD NOR SOR STR AED ORT LEA GNO *)
Definition known_projections : list str :=
  [[77;69;82]; [78;80;83]; [83;80;83]; [76;67;67]; [83;67;67]; [67;69;68]; [77;67;68];
   [78;79;82]; [83;79;82]; [83;84;82]; [65;69;68]; [79;82;84]; [76;69;65]; [71;78;79]].
Record rgrid := mk_rg { rg_file : gfile; rg_rows : list (list Z); rg_cols : list gheader; rg_info : list glisting }.
(** decode/gempak.py:616-680; the projection check is at the start of _get_crs.  _gdinfo is a set;
    sorted (682-684) orders it by grid number, which is the order of the list here. *)
Definition open_grid (d : bytes) : res rgrid :=
  g <- open_gempak d ;;
  let l := gf_label g in
  let e := gf_endian g in
  rows <- read_headers e (read_grow e (gf_row_keys g) d)
            (Z.of_nat (calcsize (repeat FInt (length (gf_row_keys g))))) d
            (Z.to_nat (lb_rows l)) (word_to_position (lb_row_headers_ptr l)) ;;
  cols <- read_headers e (read_gheader e (gf_column_keys g) d)
            (Z.of_nat (calcsize (map gkey_fmt (gf_column_keys g)))) d
            (Z.to_nat (lb_columns l)) (word_to_position (lb_column_headers_ptr l)) ;;
  info <- mapM (fun '(n, h) => glisting_of n h) (indexed cols) ;;
  do match gf_nav g with
     | Some nv => if existsb (str_eqb (nv_projection nv)) known_projections then Ok tt
                  else Err NotImplementedError
     | None => Ok tt
     end ;;
  Ok (mk_rg g rows cols info).

(** ** Data *)
(** The cells of one grid in row-major order; None is a masked cell. *)
Inductive gcells :=
| CQ (l : list Q)                  (* GRIB and decimal packing: exact values *)
| CDiff (l : list (list (option Q)))   (* difference packing, row by row *)
| CF (l : list flt).               (* not packed *)
(** decode/gempak.py:1096-1108, 806-954 [_unpack_grid] with the reshape of 1120-1132, for the data
    block at word [ptr].  Simplification: reference, scale and minimal difference are finite and
    the values are computed exactly, not in float32. *)
Definition meta (e : endian) (c : fmtc) (n : nat) (d : bytes) (p : Z) : res (list pyval) :=
  rd_struct e (repeat c n) d p.
Definition qs (vs : list pyval) : res (list Q) := mapM (fun v => f <- as_float v ;; Ok (q_of f)) vs.
Definition nth_z (l : list Z) (i : Z) : res Z := py_index l i.
Definition reshape {A} (l : list A) (kx ky : Z) : res (list A) :=
  if (kx <? 0) || (ky <? 0) || negb (Zlen l =? ky * kx) then Err ValueError else Ok l.
Definition read_grid_at (g : gfile) (header_length kx ky ptr : Z) : res (option gcells) :=
  let e := gf_endian g in
  let d := gf_data g in
  let miss := q_of (lb_missing_float (gf_label g)) in
  let p0 := word_to_position ptr in
  let len := rd_uint e d p0 in
  let p1 := rd_next d p0 + word_to_position (header_length + 1) in
  let pk := rd_uint e d p1 in
  let p2 := rd_next d p1 in
  if pk =? 0 then
    let lendat := len - header_length - 1 in
    if lendat >? 1 then
      vs <- rd_array e FFloat lendat d p2 ;; fs <- mapM as_float vs ;;
      l <- reshape fs kx ky ;; Ok (Some (CF l))
    else Ok None
  else if (pk =? 1) || (pk =? 4) then
    mi <- (vs <- meta e FInt 3 d p2 ;; as_ints vs) ;;
    mr <- (vs <- meta e FFloat 2 d (p2 + 12) ;; qs vs) ;;
    bits <- nth_z mi 0 ;; flag <- nth_z mi 1 ;; kxky <- nth_z mi 2 ;;
    ref <- py_index mr 0 ;; scale <- py_index mr 1 ;;
    let lendat := len - header_length - 6 in
    do (if kxky <? 0 then Err ValueError else Ok tt) ;;
    words <- (vs <- rd_array e FInt lendat d (p2 + 20) ;; as_ints vs) ;;
    r <- read_grib_grid words bits kxky ref scale (if flag =? 0 then None else Some miss) ;;
    match r with
    | None => Ok None
    | Some l => l <- reshape l kx ky ;; Ok (Some (CQ l))
    end
  else if pk =? 3 then
    mi <- (vs <- meta e FInt 4 d p2 ;; as_ints vs) ;;
    mr <- (vs <- meta e FFloat 3 d (p2 + 16) ;; qs vs) ;;
    bits <- nth_z mi 0 ;; flag <- nth_z mi 1 ;;
    ref <- py_index mr 0 ;; scale <- py_index mr 1 ;; dmin <- py_index mr 2 ;;
    let lendat := len - header_length - 8 in
    words <- (vs <- rd_array e FInt lendat d (p2 + 28) ;; as_ints vs) ;;
    r <- unpack_diff (mk_dm bits (negb (flag =? 0)) ref scale dmin) words (Z.to_nat ky) (Z.to_nat kx) ;;
    Ok (match r with None => None | Some l => Some (CDiff l) end)
  else if (pk =? 2) || (pk =? 5) then Err NotImplementedError
  else Err ValueError.

(** decode/gempak.py:1087-1150: the data of one selected grid, one entry per part; a grid whose
    data cannot be read (None) is left out with a warning.  Without navigation there are no kx, ky
    (AttributeError). *)
Definition grid_pointer (g : gfile) (icol iprt : Z) : Z :=
  let l := gf_label g in
  rd_uint (gf_endian g) (gf_data g)
    (word_to_position (lb_data_block_ptr l + 0 * lb_columns l * lb_parts l + (icol * lb_parts l + iprt))).
Definition read_grid (f : rgrid) (icol : Z) : res (list gcells) :=
  let g := rg_file f in
  nv <- match gf_nav g with Some nv => Ok nv | None => Err AttributeError end ;;
  rs <- mapM (fun '(iprt, pt) =>
          read_grid_at g (rp_header_length pt) (nv_kx nv) (nv_ky nv) (grid_pointer g icol iprt))
        (indexed (gf_parts g)) ;;
  Ok (flat_map (fun r => match r with Some c => [c] | None => [] end) rs).
