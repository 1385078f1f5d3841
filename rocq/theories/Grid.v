(** Grid files, writing: encode/gempak.py:529-1083 [GridFile].  Definitions only.
    pyproj is not modelled: the name of the projection, its three angles and, for projected
    coordinates, the geographic coordinates it returns are arguments of the model. *)
From Coq Require Import QArith.
From Verif Require Import Base Words Layout Floats Structs Strings Dates Headers Grib Order DmFile Station.
Open Scope Z_scope.

(** ** Header names: encode/gempak.py:592-608 *)
Definition k_GRID : str := [71;82;73;68].
Definition k_NAVB : str := [78;65;86;66].
Definition k_ANLB : str := [65;78;76;66].
Definition k_GDT1 : str := [71;68;84;49].
Definition k_GTM1 : str := [71;84;77;49].
Definition k_GDT2 : str := [71;68;84;50].
Definition k_GTM2 : str := [71;84;77;50].
Definition k_GLV1 : str := [71;76;86;49].
Definition k_GLV2 : str := [71;76;86;50].
Definition k_GVCD : str := [71;86;67;68].
Definition k_GPM1 : str := [71;80;77;49].
Definition k_GPM2 : str := [71;80;77;50].
Definition k_GPM3 : str := [71;80;77;51].
Definition grid_row_names : list str := [k_GRID].
Definition grid_column_names : list str :=
  [k_GDT1; k_GTM1; k_GDT2; k_GTM2; k_GLV1; k_GLV2; k_GVCD; k_GPM1; k_GPM2; k_GPM3].

(** ** Arrays *)
(** A numpy array of float64: its shape and its cells in row-major order. *)
Definition ndarray := (list Z * list flt)%type.
Definition shape_eqb (a b : list Z) : bool := str_eqb a b.
(** a[i, j] of a two-dimensional array for i, j >= 0 *)
Definition cell (a : ndarray) (i j : Z) : res flt :=
  match fst a with
  | [ny; nx] => if (i <? ny) && (j <? nx) then py_index (snd a) (i * nx + j) else Err IndexError
  | _ => Err IndexError
  end.

(** ** Geometry *)
Record geom := mk_geom {
  gm_nx : Z; gm_ny : Z; gm_lon : ndarray; gm_lat : ndarray;
  gm_ll_lon : flt; gm_ll_lat : flt; gm_ur_lon : flt; gm_ur_lat : flt;
  gm_proj : str; gm_angle1 : flt; gm_angle2 : flt; gm_angle3 : flt
}.
(** encode/gempak.py:623-649, 659-674 with use_xy=False: two-dimensional longitudes and
    latitudes; [proj] and the angles are what _set_projection_params (676-755) finds. *)
Definition geographic (lon lat : ndarray) (proj : str) (a1 a2 a3 : flt) : res geom :=
  if negb (shape_eqb (fst lat) (fst lon)) then Err ValueError
  else
    match fst lat with
    | [ny; nx] =>
        l0 <- cell lon 0 0 ;; p0 <- cell lat 0 0 ;;
        l1 <- cell lon (ny - 1) (nx - 1) ;; p1 <- cell lat (ny - 1) (nx - 1) ;;
        Ok (mk_geom nx ny lon lat l0 p0 l1 p1 proj a1 a2 a3)
    | _ => Err ValueError
    end.

(** ** Column headers: encode/gempak.py:922-938 *)
Record gcol := mk_gc {
  g_dt1 : Z * dtime; g_tm1 : Z * (Z * Z);
  g_dt2 : option (Z * dtime);            (* None is the integer 0 *)
  g_tm2 : Z * (Z * Z);
  g_lv1 : Z; g_lv2 : Z; g_vc : Z; g_p1 : str; g_p2 : str; g_p3 : str
}.
Definition dtime_cmp (a b : dtime) : comparison :=
  then_cmp (date_cmp (date_of a) (date_of b)) (time_cmp (time_of a) (time_of b)).
Definition gdt_cmp (a b : Z * dtime) : comparison :=
  then_cmp (fst a ?= fst b) (dtime_cmp (snd a) (snd b)).
Definition gtm_cmp (a b : Z * (Z * Z)) : comparison :=
  then_cmp (fst a ?= fst b) (then_cmp (fst (snd a) ?= fst (snd b)) (snd (snd a) ?= snd (snd b))).
(** 0 and a tuple are different; Python refuses to order them (see [sort_headers]). *)
Definition gdt2_cmp (a b : option (Z * dtime)) : comparison :=
  match a, b with
  | None, None => Eq
  | None, Some _ => Lt
  | Some _, None => Gt
  | Some x, Some y => gdt_cmp x y
  end.
(** Tuples compare field by field. *)
Definition gcol_cmp (a b : gcol) : comparison :=
  then_cmp (gdt_cmp (g_dt1 a) (g_dt1 b)) (then_cmp (gtm_cmp (g_tm1 a) (g_tm1 b))
  (then_cmp (gdt2_cmp (g_dt2 a) (g_dt2 b)) (then_cmp (gtm_cmp (g_tm2 a) (g_tm2 b))
  (then_cmp (g_lv1 a ?= g_lv1 b) (then_cmp (g_lv2 a ?= g_lv2 b)
  (then_cmp (g_vc a ?= g_vc b) (then_cmp (str_cmp (g_p1 a) (g_p1 b))
  (then_cmp (str_cmp (g_p2 a) (g_p2 b)) (str_cmp (g_p3 a) (g_p3 b)))))))))).
(** sorted(self._column_set): encode/gempak.py:944.  Two headers with equal GDT1 and GTM1, one with
    GDT2 = 0 and the other with a tuple, cannot be compared (TypeError).  Any comparison sort has
    to compare two neighbours of the sorted order, so it meets such a pair when there is one:
    between two incomparable headers of the order below all headers have the same GDT1, GTM1. *)
Definition is_some {A} (o : option A) : bool := match o with Some _ => true | None => false end.
Definition unordered (a b : gcol) : bool :=
  is_eq (then_cmp (gdt_cmp (g_dt1 a) (g_dt1 b)) (gtm_cmp (g_tm1 a) (g_tm1 b)))
  && negb (Bool.eqb (is_some (g_dt2 a)) (is_some (g_dt2 b))).
Definition sort_headers (l : list gcol) : res (list gcol) :=
  if existsb (fun a => existsb (unordered a) l) l then Err TypeError else Ok (sort gcol_cmp l).

(** ** The object *)
Record gridfile := mk_gf {
  gd_geom : geom; gd_precision : Z; gd_packing : Z;
  gd_col_set : list gcol; gd_data : list (gcol * list flt);
  gd_cols : Z; gd_col_headers : list gcol;
  gd_ptrs : option pointers
}.
(** encode/gempak.py:575-650: precision 16, PackingType.grib = 1 (common.py:84-92) *)
Definition PK_GRIB : Z := 1.
Definition new_grid_file (g : geom) : gridfile := mk_gf g 16 PK_GRIB [] [] 0 [] None.
(** precision is a public attribute *)
Definition set_precision (n : Z) (o : gridfile) : gridfile :=
  mk_gf (gd_geom o) n (gd_packing o) (gd_col_set o) (gd_data o) (gd_cols o) (gd_col_headers o) (gd_ptrs o).

(** ** Arguments of add_grid *)
Inductive vcarg := VCNone | VCStr (s : str) | VCOther.
Inductive lvarg := LNone | LNum (n : pynum) | LOther.
(** [q_grid], [q_parm]: None stands for an argument of another type. *)
Record gcall := mk_gcall {
  q_grid : option ndarray; q_parm : option str; q_vcoord : vcarg; q_level : lvarg;
  q_time : dtarg; q_level2 : lvarg; q_time2 : option dtarg
}.

(** encode/gempak.py:820-829: the upper-cased name ('NONE' for None) *)
Definition vcoord_name (v : vcarg) : res str :=
  c <- match v with
       | VCNone => Ok [78;79;78;69]
       | VCStr s => Ok (upper s)
       | VCOther => Err TypeError
       end ;;
  if 4 <? Zlen c then Err ValueError else Ok c.
(** encode/gempak.py:831-834 *)
Definition level1 (l : lvarg) : res Z :=
  match l with LNum n => int_of_num n | _ => Err TypeError end.
(** encode/gempak.py:875-879, 928 *)
Definition level2 (l : lvarg) : res Z :=
  match l with LNone => Ok (-1) | LNum n => int_of_num n | LOther => Err TypeError end.

(** Everything computed before the object changes: encode/gempak.py:803-938. *)
Definition check_grid (g : geom) (q : gcall) : res (gcol * list flt) :=
  arr <- match q_grid q with Some a => Ok a | None => Err TypeError end ;;
  if negb (shape_eqb (fst arr) [gm_ny g; gm_nx g]) then Err ValueError else
  name <- match q_parm q with Some s => Ok s | None => Err TypeError end ;;
  ' (p1, p2, p3) <- enc_parm name ;;
  coord <- vcoord_name (q_vcoord q) ;;
  lv1 <- level1 (q_level q) ;;
  ' (g1, d1, h1, m1) <- parse_date_time (q_time q) ;;
  lv2 <- level2 (q_level2 q) ;;
  t2 <- parse_date_time2 (q_time q) g1 (q_time2 q) ;;
  vc <- encode_vertical_coordinate coord ;;
  let '(dt2, tm2) := match t2 with
                     | Some (g2, d2, h2, m2) => (Some (g2, d2), (g2, (h2, m2)))
                     | None => (None, (0, (0, 0)))
                     end in
  Ok (mk_gc (g1, d1) (g1, (h1, m1)) dt2 tm2 lv1 lv2 vc p1 p2 p3, map fill_nan (snd arr)).

(** encode/gempak.py:757-945 [add_grid]: the object after the call and whether it raised.
    Simplification: the stored array is the caller's own, changed in place (313-317); the model
    stores its cells at the time of the call, so it does not cover later changes the caller makes
    to that array. *)
Definition add_grid (o : gridfile) (q : gcall) : gridfile * res unit :=
  match check_grid (gd_geom o) q with
  | Err x => (o, Err x)
  | Ok (c, cells) =>
      let set := set_add gcol_cmp c (gd_col_set o) in
      let data := dict_set gcol_cmp c cells (gd_data o) in
      let n := Zlen set in
      let o1 hs := mk_gf (gd_geom o) (gd_precision o) (gd_packing o) set data n hs (gd_ptrs o) in
      if 1 + n >? MMHDRS then (o1 (gd_col_headers o), Err ValueError)
      else match sort_headers set with
           | Err x => (o1 (gd_col_headers o), Err x)
           | Ok hs => (o1 hs, Ok tt)
           end
  end.

(** ** Writing *)
(** encode/gempak.py:576-621; FileTypes.grid = 3, DataTypes.grid = 5, DataSource.grid = 6
    (common.py:55-117) *)
Definition DT_GRID : Z := 5.
Definition grid_part : part := mk_part k_GRID 2 DT_GRID [k_GRID] [0] [0] [0].
Definition grid_head (o : gridfile) : dmhead :=
  mk_head grid_row_names grid_column_names [mk_fh k_NAVB NAVB_SIZE 1; mk_fh k_ANLB ANLB_SIZE 1]
    [grid_part] 1 (gd_cols o) 3 6.

(** encode/gempak.py:951-956 [_write_row_headers] *)
Definition write_grid_row (e : endian) (s : stream) : res stream :=
  s <- st_int e (- missing_int) s ;; st_int e 1 s.
(** encode/gempak.py:958-993 [_write_column_headers]: the words of one column *)
Definition gcol_words (e : endian) (c : gcol) : res (list bytes) :=
  z1 <- enc_gdt (fst (g_dt1 c)) (snd (g_dt1 c)) ;; w1 <- pack_i32 e z1 ;;
  z2 <- enc_gtm (fst (g_tm1 c)) (fst (snd (g_tm1 c))) (snd (snd (g_tm1 c))) ;; w2 <- pack_i32 e z2 ;;
  z3 <- match g_dt2 c with Some (t, d) => enc_gdt t d | None => Ok 0 end ;; w3 <- pack_i32 e z3 ;;
  z4 <- enc_gtm (fst (g_tm2 c)) (fst (snd (g_tm2 c))) (snd (snd (g_tm2 c))) ;; w4 <- pack_i32 e z4 ;;
  w5 <- pack_i32 e (g_lv1 c) ;; w6 <- pack_i32 e (g_lv2 c) ;; w7 <- pack_i32 e (g_vc c) ;;
  w8 <- word_of_str (g_p1 c) ;; w9 <- word_of_str (g_p2 c) ;; w10 <- word_of_str (g_p3 c) ;;
  Ok [w1; w2; w3; w4; w5; w6; w7; w8; w9; w10].

(** encode/gempak.py:195-264: the navigation and analysis (type 2) structures *)
Definition wnav_fmt : list fmtc := [FFloat; FStr 4] ++ repeat FFloat 11 ++ [FPad 972].
Definition wanl_fmt : list fmtc := repeat FFloat 18 ++ [FPad 440].
(** encode/gempak.py:997-1013 *)
Definition nav_values (g : geom) : list pyval :=
  [VFloat (of_Z 2); VBytes (ljust 4 (gm_proj g)); VFloat (of_Z 1); VFloat (of_Z 1);
   VFloat (of_Z (gm_nx g)); VFloat (of_Z (gm_ny g));
   VFloat (gm_ll_lat g); VFloat (gm_ll_lon g); VFloat (gm_ur_lat g); VFloat (gm_ur_lon g);
   VFloat (gm_angle1 g); VFloat (gm_angle2 g); VFloat (gm_angle3 g)].
(** encode/gempak.py:1015-1023: the grid spacing at the middle of the grid *)
Definition deltan (g : geom) : res flt :=
  let rx1 := gm_nx g / 2 in
  let rx2 := rx1 + 1 in
  let ry1 := gm_ny g / 2 in
  let ry2 := ry1 + 1 in
  lon2 <- cell (gm_lon g) ry2 rx2 ;; lon1 <- cell (gm_lon g) ry1 rx1 ;;
  lat2 <- cell (gm_lat g) ry2 rx2 ;; lat1 <- cell (gm_lat g) ry1 rx1 ;;
  let dellon := fsub lon2 lon1 in
  let dellat := fsub lat2 lat1 in
  Ok (fmul (SFsqrt p64 e64 (fmul (fdiv (of_Z 1) (of_Z 2)) (fadd (fmul dellon dellon) (fmul dellat dellat)))) (of_Z 2)).
(** encode/gempak.py:1025-1046 *)
Definition anl_values (g : geom) (dn : flt) : list pyval :=
  let box := [VFloat (gm_ll_lat g); VFloat (gm_ll_lon g); VFloat (gm_ur_lat g); VFloat (gm_ur_lon g)] in
  [VFloat (of_Z 2); VFloat dn; VFloat (of_Z 0); VFloat (of_Z 0); VFloat (of_Z 0); VFloat (of_Z 0)] ++ box ++ box ++ box.
(** encode/gempak.py:995-1046 [_write_file_headers] *)
Definition write_grid_file_headers (e : endian) (g : geom) (s : stream) : res stream :=
  s <- st_int e NAVB_SIZE s ;;
  s <- st_struct e wnav_fmt (nav_values g) s ;;
  dn <- deltan g ;;
  s <- st_int e ANLB_SIZE s ;;
  st_struct e wanl_fmt (anl_values g dn) s.

(** The reference and the scale are float64 in the code and exact rationals in [pack_grib]; the
    nearest double of a rational with a power-of-two denominator is the value itself. *)
Definition flt_of_Q (q : Q) : flt := binary_normalize p64 e64 (Qnum q) (- Z.log2 (Zpos (Qden q))) false.
(** encode/gempak.py:947-949, 1058-1075: the words of one grid.  Simplification: a grid with an
    infinite cell raises (pack_grib computes with it and rounds the result to an int); the model
    says OverflowError. *)
Definition grid_words (e : endian) (g : geom) (packing precision : Z) (cells : list flt) : res (list bytes) :=
  if packing =? PK_GRIB then
    if negb (forallb finite cells) then Err OverflowError else
    ' (ref, scale, packed) <- pack_grib (map q_of cells) (q_of missing_float) precision ;;
    w1 <- pack_i32 e (Zlen packed + 2 + 6) ;;
    w2 <- pack_i32 e (gm_nx g) ;; w3 <- pack_i32 e (gm_ny g) ;;
    w4 <- pack_i32 e packing ;; w5 <- pack_i32 e precision ;; w6 <- pack_i32 e (-1) ;;
    w7 <- pack_i32 e (gm_nx g * gm_ny g) ;;
    w8 <- pack_f32 e (flt_of_Q ref) ;; w9 <- pack_f32 e (flt_of_Q scale) ;;
    ws <- mapM (pack_i32 e) packed ;;
    Ok (w1 :: w2 :: w3 :: w4 :: w5 :: w6 :: w7 :: w8 :: w9 :: ws)
  else Err NotImplementedError.

(** encode/gempak.py:1048-1083 [_write_data]: the pointer word of every column and its block *)
Definition grid_items (e : endian) (o : gridfile) (base : Z) : list (Z * option (res (list bytes))) :=
  map (fun '(j, c) =>
         (base + j,
          match dict_get gcol_cmp c (gd_data o) with
          | Some cells => Some (grid_words e (gd_geom o) (gd_packing o) (gd_precision o) cells)
          | None => None
          end)) (indexed (gd_col_headers o)).

(** [to_gempak] (encode/gempak.py:477-526), as in [Station.save] *)
Definition with_grid_ptrs (o : gridfile) (p : pointers) : gridfile :=
  mk_gf (gd_geom o) (gd_precision o) (gd_packing o) (gd_col_set o) (gd_data o) (gd_cols o)
    (gd_col_headers o) (Some p).
Definition save_grid (e : endian) (o : gridfile) : gridfile * res bytes :=
  let h := grid_head o in
  let p := head_pointers h in
  let o1 := with_grid_ptrs o p in
  match to_gempak_at e h p (write_grid_file_headers e (gd_geom o1)) (write_grid_row e)
          (write_headers e (gd_cols o1) (Zlen grid_column_names) (gcol_words e) (gd_col_headers o1))
          (write_items e (grid_items e o1 (data_block_ptr p)) (next_free_word p)) with
  | Ok (b, nf) => (with_grid_ptrs o (set_next_free p nf), Ok b)
  | Err x => (o1, Err x)
  end.
