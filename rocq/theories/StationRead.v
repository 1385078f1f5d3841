(** Sounding and surface files, reading: decode/gempak.py:1156-1299 [GempakSounding] (merged
    files) and 2186-2633 [GempakSurface].  Definitions only. *)
From Coq Require Import QArith.
From Verif Require Import Base Words Layout Floats Structs Strings Dates Headers Real Order DmFile Station Text.
Open Scope Z_scope.

(** ** Header fields *)
Inductive hval := HDate (d : date) | HTime (t : time) | HInt (z : Z) | HText (s : str) | HFlt (f : flt).
Definition is_text_key (k : str) : bool :=
  str_eqb k k_STID || str_eqb k k_STAT || str_eqb k k_COUN || str_eqb k k_STD2.
Definition is_coord_key (k : str) : bool := str_eqb k k_SLAT || str_eqb k k_SLON.

(** Which conversions a header block uses: sounding rows (decode/gempak.py:1163-1171), sounding
    columns (1180-1200), surface rows and columns (2324-2349 [_key_types]). *)
Inductive hkind := SndRow | SndCol | SfcHead.
Definition key_fmt (hk : hkind) (key : str) : fmtc :=
  match hk with
  | SndRow => FInt
  | _ => if is_text_key key then FStr 4 else FInt
  end.
(** x / 100 of a 32-bit int *)
Definition key_conv (hk : hkind) (key : str) (v : pyval) : res hval :=
  match hk, v with
  | SndRow, VInt z =>
      if str_eqb key k_DATE then d <- dec_date z ;; Ok (HDate d)
      else if str_eqb key k_TIME then t <- dec_time z ;; Ok (HTime t)
      else Ok (HInt z)
  | SndCol, VInt z => if is_coord_key key then Ok (HFlt (dec_coord z)) else Ok (HInt z)
  | SfcHead, VInt z =>
      if is_coord_key key then Ok (HFlt (dec_coord z))
      else if str_eqb key k_DATE then d <- dec_date z ;; Ok (HDate d)
      else if str_eqb key k_TIME then t <- dec_time z ;; Ok (HTime t)
      else Ok (HInt z)
  | _, VBytes b => s <- decode_strip b ;; Ok (HText s)
  | _, _ => Err TypeError
  end.
Definition header := list (str * hval).
(** read_struct(headers_fmt): a namedtuple of converted fields *)
Definition read_header (e : endian) (hk : hkind) (keys : list str) (d : bytes) (pos : Z) : res header :=
  vs <- rd_struct e (map (key_fmt hk) keys) d pos ;;
  hs <- mapM (fun '(k, v) => h <- key_conv hk k v ;; Ok (k, h)) (combine keys vs) ;;
  Ok hs.

(** getattr(header, key) *)
Fixpoint attr (h : header) (key : str) : res hval :=
  match h with
  | [] => Err AttributeError
  | (k, v) :: r => if str_eqb key k then Ok v else attr r key
  end.
Definition attr_date h k := v <- attr h k ;; match v with HDate d => Ok d | _ => Err TypeError end.
Definition attr_time h k := v <- attr h k ;; match v with HTime d => Ok d | _ => Err TypeError end.
Definition attr_int h k := v <- attr h k ;; match v with HInt d => Ok d | _ => Err TypeError end.
Definition attr_text h k := v <- attr h k ;; match v with HText d => Ok d | _ => Err TypeError end.
Definition attr_flt h k := v <- attr h k ;; match v with HFlt d => Ok d | _ => Err TypeError end.

(** ** Opened files *)
Inductive stype := Sounding | Standard | Ship | Climate.
Record rfile := mk_rf { rf_file : gfile; rf_type : stype; rf_rows : list header; rf_cols : list header }.

Definition has_key (k : str) (l : list str) : bool := existsb (str_eqb k) l.
(** decode/gempak.py:2304-2322 [_get_surface_type] *)
Definition surface_type (g : gfile) (rows : list header) : res stype :=
  let rk := gf_row_keys g in
  let ck := gf_column_keys g in
  if (length rows =? 1)%nat && has_key k_DATE ck && has_key k_STID ck then Ok Ship
  else if has_key k_DATE rk && has_key k_STID ck then Ok Standard
  else if has_key k_DATE ck && has_key k_STID rk then Ok Climate
  else Err TypeError.

(** decode/gempak.py:1161-1205; 2189-2214: the header blocks *)
Definition read_header_block (g : gfile) (hk : hkind) (keys : list str) (n ptr : Z) : res (list header) :=
  let e := gf_endian g in
  let d := gf_data g in
  read_headers e (read_header e hk keys d) (Z.of_nat (calcsize (map (key_fmt hk) keys))) d
    (Z.to_nat n) (word_to_position ptr).
Definition open_station (k : kind) (d : bytes) : res rfile :=
  g <- open_gempak d ;;
  let l := gf_label g in
  rows <- read_header_block g (match k with KSounding => SndRow | KSurface => SfcHead end)
            (gf_row_keys g) (lb_rows l) (lb_row_headers_ptr l) ;;
  cols <- read_header_block g (match k with KSounding => SndCol | KSurface => SfcHead end)
            (gf_column_keys g) (lb_columns l) (lb_column_headers_ptr l) ;;
  ty <- match k with KSounding => Ok Sounding | KSurface => surface_type g rows end ;;
  Ok (mk_rf g ty rows cols).

(** 'SNDT' in (part.name for part in self.parts): decode/gempak.py:1207 *)
Definition merged (f : rfile) : bool := existsb (fun p => str_eqb (rp_name p) (part_name KSounding)) (gf_parts (rf_file f)).

(** ** Listing *)
(** decode/gempak.py:93-123: the Sounding and Surface tuples *)
Record listing := mk_ls {
  ls_row : Z; ls_col : Z; ls_time : dtime; ls_id : str; ls_number : Z; ls_lat : flt; ls_lon : flt;
  ls_elev : Z; ls_state : str; ls_country : str
}.
(** decode/gempak.py:1212-1216, 1257-1261, 1306-1310, 2221-2225, ...: the pointer word of a part *)
Definition pointer_word (f : rfile) (irow icol iprt : Z) : Z :=
  let l := gf_label (rf_file f) in
  lb_data_block_ptr l + irow * lb_columns l * lb_parts l + (icol * lb_parts l + iprt).
Definition data_ptr (f : rfile) (irow icol iprt : Z) : Z :=
  rd_uint (gf_endian (rf_file f)) (gf_data (rf_file f)) (word_to_position (pointer_word f irow icol iprt)).

(** The row and column indices visited: a ship file looks at row 0 only. *)
Definition cells (f : rfile) : list (Z * Z) :=
  match rf_type f with
  | Ship => map (fun c => (0, c)) (zrange (Zlen (rf_cols f)))
  | _ => list_prod (zrange (Zlen (rf_rows f))) (zrange (Zlen (rf_cols f)))
  end.
(** Soundings look at the first part only (1212-1219), surface files at every part. *)
Definition present (f : rfile) (irow icol : Z) : bool :=
  match rf_type f with
  | Sounding => negb (data_ptr f irow icol 0 =? 0)
  | _ => existsb (fun i => negb (data_ptr f irow icol i =? 0)) (zrange (Zlen (gf_parts (rf_file f))))
  end.
(** The header holding DATE and TIME, and the one holding the station. *)
Definition time_head (f : rfile) (irow icol : Z) : res header :=
  match rf_type f with
  | Sounding | Standard => py_index (rf_rows f) irow
  | _ => py_index (rf_cols f) icol
  end.
Definition station_head (f : rfile) (irow icol : Z) : res header :=
  match rf_type f with
  | Climate => py_index (rf_rows f) irow
  | _ => py_index (rf_cols f) icol
  end.
Definition listing_of (f : rfile) (irow icol : Z) : res listing :=
  th <- time_head f irow icol ;;
  sh <- station_head f irow icol ;;
  d <- attr_date th k_DATE ;; t <- attr_time th k_TIME ;;
  id <- match rf_type f with
        | Sounding => attr_text sh k_STID
        | _ => a <- attr_text sh k_STID ;; b <- attr_text sh k_STD2 ;; Ok (a ++ b)
        end ;;
  nm <- attr_int sh k_STNM ;; lat <- attr_flt sh k_SLAT ;; lon <- attr_flt sh k_SLON ;;
  el <- attr_int sh k_SELV ;; st <- attr_text sh k_STAT ;; co <- attr_text sh k_COUN ;;
  Ok (mk_ls irow icol (combine_dt d t) id nm lat lon el st co).
(** decode/gempak.py:1209-1238 [sninfo]; 2216-2302 [sfinfo]: sorted, so in the order of
    (row index, column index), each cell once. *)
Definition info (f : rfile) : res (list listing) :=
  mapM (fun '(i, j) => listing_of f i j) (filter (fun '(i, j) => present f i j) (cells f)).

(** ** Data *)
(** The values in the dicts the readers return. *)
Inductive dval :=
| DHead (h : hval)                 (* a header field *)
| DArr (l : list flt)              (* array of floats *)
| DArrQ (l : list (option Q))      (* list of unpacked reals; None is missing *)
| DFlt (f : flt) | DQ (q : option Q) | DStr (s : str).
Definition record := list (str * dval).
Definition put (k : str) (v : dval) (r : record) : record := dict_set str_cmp k v r.
Definition get (k : str) (r : record) : option dval := dict_get str_cmp k r.

(** The stored block of one part: decode/gempak.py:1262-1284, 2379-2404, 2444-2469, 2505-2535.
    DataTypes: real 1, character 3, realpack 4. *)
Inductive block := BReal (l : list flt) | BPack (l : list (option Q)) | BChar (b : bytes).
Definition parm_list (q : rparams) : list packed_parm :=
  map (fun '(b, (o, s)) => mk_pp b o s) (combine (rq_bits q) (combine (rq_offset q) (rq_scale q))).
Definition read_block (f : rfile) (part : rpart) (q : rparams) (ptr : Z) : res block :=
  let e := gf_endian (rf_file f) in
  let d := gf_data (rf_file f) in
  let p := word_to_position ptr in
  let lendat := rd_uint e d p - rp_header_length part in
  let p' := rd_next d p + word_to_position (rp_header_length part + 1) in
  if rp_data_type part =? 1 then
    vs <- rd_array e FFloat lendat d p' ;; l <- mapM as_float vs ;; Ok (BReal l)
  else if rp_data_type part =? 4 then
    vs <- rd_array e FInt lendat d p' ;; l <- mapM as_int vs ;;
    u <- unpack_real l (parm_list q) lendat ;; Ok (BPack u)
  else if (rp_data_type part =? 3) && negb (match rf_type f with Sounding => true | _ => false end) then
    if lendat <? 0 then Err StructError
    else vs <- rd_struct e [FStr (Z.to_nat (lendat * 4))] d p' ;;
         v <- py_index vs 0 ;; b <- as_bytes v ;; Ok (BChar b)
  else Err NotImplementedError.

(** l[i::n] for n >= 1 *)
Fixpoint stride_aux {A} (l : list A) (skip n : nat) : list A :=
  match l with
  | [] => []
  | x :: r => match skip with O => x :: stride_aux r (n - 1) n | S k => stride_aux r k n end
  end.
Definition stride {A} (i n : nat) (l : list A) : list A := stride_aux l i n.

(** decode/gempak.py:1286-1296 (soundings: one array per parameter); 2406-2415, 2471-2480,
    2537-2546 (surface: one value per parameter; a character part is one bytes object). *)
Definition add_values (ty : stype) (names : list str) (b : block) (r : record) : res record :=
  let n := length names in
  foldM (fun r '(i, nm) =>
    v <- match ty, b with
         | Sounding, BReal l => Ok (DArr (stride (Z.to_nat i) n l))
         | Sounding, BPack l => Ok (DArrQ (stride (Z.to_nat i) n l))
         | Sounding, BChar _ => Err NotImplementedError
         | _, BReal l => x <- py_index l i ;; Ok (DFlt x)
         | _, BPack l => x <- py_index l i ;; Ok (DQ x)
         | _, BChar b => x <- py_index [b] i ;; s <- decode_strip x ;; Ok (DStr s)
         end ;;
    Ok (put nm v r)) (indexed names) r.
Definition add_part (f : rfile) (irow icol : Z) (r : record) (ip : Z * (rpart * rparams)) : res record :=
  let '(iprt, (part, q)) := ip in
  let ptr := data_ptr f irow icol iprt in
  if ptr =? 0 then Ok r
  else b <- read_block f part q ptr ;; add_values (rf_type f) (rq_name q) b r.
Definition add_parts (f : rfile) (irow icol : Z) (r : record) : res record :=
  foldM (add_part f irow icol) (indexed (combine (gf_parts (rf_file f)) (gf_parameters (rf_file f)))) r.

(** The header part of a decoded entry: decode/gempak.py:1246-1256, 2356-2368, 2422-2434,
    2488-2500. *)
Definition record_keys (ty : stype) : list str :=
  [k_STID; k_STNM; k_SLAT; k_SLON; k_SELV; k_STAT; k_COUN]
  ++ match ty with Sounding => [] | _ => [k_STD2; k_SPRI] end.
Definition head_record (f : rfile) (irow icol : Z) : res record :=
  th <- time_head f irow icol ;;
  sh <- station_head f irow icol ;;
  r <- foldM (fun r k => v <- attr sh k ;; Ok (put k (DHead v) r)) (record_keys (rf_type f)) [] ;;
  foldM (fun r k => v <- attr th k ;; Ok (put k (DHead v) r)) [k_DATE; k_TIME] r.

(** 'TEXT' and 'SPCL' *)
Definition k_TEXT : str := [84;69;88;84].
Definition k_SPCL : str := [83;80;67;76].
(** if txt: a non-empty string; a non-zero float is true but cannot be searched (TypeError). *)
Definition text_of (v : option dval) : res str :=
  match v with
  | None => Ok []
  | Some (DStr s) => Ok s
  | Some (DFlt f) => match f with S754_zero _ => Ok [] | _ => Err TypeError end
  | Some (DQ q) => match q with
                   | Some q => if Qeq_bool q 0 then Ok [] else Err TypeError
                   | None => Err TypeError
                   end
  | Some _ => Err TypeError
  end.
Definition del (k : str) (r : record) : record := filter (fun '(k', _) => negb (str_eqb k k')) r.
Definition update (r vals : record) : record := fold_left (fun r '(k, v) => put k v r) vals r.
(** decode/gempak.py:2562-2633 [_process_report_text] *)
Definition process_report_text (report values : record) : res (list record) :=
  match get k_DATE report, get k_TIME report with
  | Some (DHead (HDate d)), Some (DHead (HTime t)) =>
      let vals := del k_SPCL (del k_TEXT values) in
      text <- text_of (get k_TEXT values) ;;
      r1 <- (if str_eqb text [] then Ok []
             else mapM (fun rpt => Ok (put k_TEXT (DStr rpt) (update report vals))) (text_reports text)) ;;
      spcl <- text_of (get k_SPCL values) ;;
      r2 <- (if str_eqb spcl [] then Ok []
             else mapM (fun rpt =>
                    dt <- special_time d t rpt ;;
                    let r := put k_TIME (DHead (HTime (time_of dt))) (put k_DATE (DHead (HDate (date_of dt))) report) in
                    let r := if str_eqb text [] then update r vals else r in
                    Ok (put k_SPCL (DStr rpt) r)) (text_reports spcl)) ;;
      Ok (r1 ++ r2)
  | _, _ => Err AttributeError
  end.

(** One decoded cell: [_unpack_merged] (1240-1299), [_unpack_climate] (2351-2415), [_unpack_ship]
    (2417-2480), [_unpack_standard] (2482-2560; one cell can give several reports). *)
Definition unpack_cell (f : rfile) (irow icol : Z) : res (list record) :=
  report <- head_record f irow icol ;;
  match rf_type f with
  | Standard =>
      values <- add_parts f irow icol [] ;;
      match get k_TEXT values, get k_SPCL values with
      | None, None => Ok [update report values]
      | _, _ => process_report_text report values
      end
  | _ => r <- add_parts f irow icol report ;; Ok [r]
  end.
Definition unpack (f : rfile) (cells : list (Z * Z)) : res (list record) :=
  rs <- mapM (fun '(i, j) => unpack_cell f i j) cells ;; Ok (concat rs).
