(** Sounding and surface files: encode/gempak.py:1086-1344 [SoundingFile] and 1347-1605
    [SurfaceFile].  The two classes repeat the same code; one definition with a [kind] models
    both, and every comment cites both places.  Definitions only. *)
From Verif Require Import Base Words Layout Floats Structs Strings Dates Headers Order DmFile.

Inductive kind := KSounding | KSurface.

(** ** Header names *)
Definition k_DATE : str := [68;65;84;69].
Definition k_TIME : str := [84;73;77;69].
Definition k_STID : str := [83;84;73;68].
Definition k_STNM : str := [83;84;78;77].
Definition k_SLAT : str := [83;76;65;84].
Definition k_SLON : str := [83;76;79;78].
Definition k_SELV : str := [83;69;76;86].
Definition k_STAT : str := [83;84;65;84].
Definition k_COUN : str := [67;79;85;78].
Definition k_STD2 : str := [83;84;68;50].
Definition k_SPRI : str := [83;80;82;73].

(** encode/gempak.py:1121-1122; 1382-1393 *)
Definition row_names : list str := [k_DATE; k_TIME].
Definition column_names (k : kind) : list str :=
  [k_STID; k_STNM; k_SLAT; k_SLON; k_SELV; k_STAT; k_COUN; k_STD2]
  ++ match k with KSounding => [] | KSurface => [k_SPRI] end.

(** ** Header tuples *)
(** (date, time): encode/gempak.py:1243; 1502 *)
Definition row := (date * time)%type.
Definition row_cmp (a b : row) : comparison :=
  then_cmp (date_cmp (fst a) (fst b)) (time_cmp (snd a) (snd b)).
(** (stid, stnm, slat, slon, selv, stat, coun, std2[, spri]): encode/gempak.py:1246; 1505.
    A sounding has no spri; the model keeps the constant 0 there and does not write it. *)
Record station := mk_stn {
  s_id : str; s_nm : Z; s_lat : pynum; s_lon : pynum; s_elv : Z; s_stat : str; s_coun : str;
  s_id2 : str; s_pri : pynum
}.
(** Tuples compare field by field. *)
Definition station_cmp (a b : station) : comparison :=
  then_cmp (str_cmp (s_id a) (s_id b)) (then_cmp (s_nm a ?= s_nm b)
  (then_cmp (num_cmp (s_lat a) (s_lat b)) (then_cmp (num_cmp (s_lon a) (s_lon b))
  (then_cmp (s_elv a ?= s_elv b) (then_cmp (str_cmp (s_stat a) (s_stat b))
  (then_cmp (str_cmp (s_coun a) (s_coun b)) (then_cmp (str_cmp (s_id2 a) (s_id2 b))
  (num_cmp (s_pri a) (s_pri b))))))))).
Definition key_cmp (a b : row * station) : comparison :=
  then_cmp (row_cmp (fst a) (fst b)) (station_cmp (snd a) (snd b)).

(** ** The object *)
(** [sf_data] maps (row, column) to the values of each parameter in parameter order, level by
    level (a surface report has one value per parameter). *)
Record sfile := mk_sf {
  sf_kind : kind; sf_names : list str;
  sf_row_set : list row; sf_col_set : list station;
  sf_data : list ((row * station) * list (list flt));
  sf_rows : Z; sf_cols : Z;
  sf_row_headers : list row; sf_col_headers : list station;
  sf_ptrs : option pointers      (* set by _set_pointers *)
}.

(** common.py:8-52: MMPARM, MMHDRS, MAX_LEVELS *)
Definition MMPARM : Z := 44.
Definition MMHDRS : Z := 32000.
Definition MAX_LEVELS : Z := 500.

(** encode/gempak.py:1142-1153; 1413-1424 [_add_parameters] up to the namedtuple *)
Definition add_parameters (params : list str) : list str :=
  fold_left (fun names p => if existsb (str_eqb p) names then names else names ++ [upper p]) params [].
(** namedtuple('Parameters', names): every name must be an identifier that does not start with
    an underscore (no upper-case word is a keyword), and no name may occur twice. *)
Definition is_alpha (c : Z) : bool := ((65 <=? c) && (c <=? 90)) || ((97 <=? c) && (c <=? 122)).
Definition field_ok (s : str) : bool :=
  match s with
  | [] => false
  | c :: r => is_alpha c && forallb (fun c => is_alpha c || is_digit c || (c =? 95)) r
  end.
Fixpoint nodupb (l : list str) : bool :=
  match l with [] => true | x :: r => negb (existsb (str_eqb x) r) && nodupb r end.

(** encode/gempak.py:1093-1140; 1354-1411 [__init__] with 267-291.  pack_data=True raises
    NotImplementedError (after the parameters were checked); an argument that is not
    array-like raises TypeError (not modelled). *)
Definition new_file (k : kind) (params : list str) (pack_data : bool) : res sfile :=
  if Zlen params >? MMPARM then Err ValueError
  else
    let names := add_parameters params in
    if negb (forallb field_ok names && nodupb names) then Err ValueError
    else if pack_data then Err NotImplementedError
    else Ok (mk_sf k names [] [] [] 0 0 [] [] None).

(** ** Arguments of add_sounding / add_station *)
(** int(x) of a number or a string; station_info.get(...) of an absent key is the default.
    Simplification: station_id, state and country are strings. *)
Inductive numarg := NNum (n : pynum) | NStr (s : str).
Definition int_of_arg (a : option numarg) : res Z :=
  match a with
  | None => Ok missing_int
  | Some (NNum n) => int_of_num n
  | Some (NStr s) => py_int s
  end.
Record sinfo := mk_si {
  si_id : option str; si_number : option numarg; si_elev : option numarg;
  si_state : option str; si_country : option str; si_priority : option pynum
}.
(** One call.  [c_data]: the dict in its order (a surface value is a one-element list);
    [c_lat], [c_lon]: None stands for an argument that is neither int nor float. *)
Record call := mk_call {
  c_data : list (str * list flt); c_lat : option pynum; c_lon : option pynum;
  c_time : dtarg; c_info : option sinfo
}.

(** encode/gempak.py:313-317 [_replace_nan] on a copy (1187); 1449 *)
Definition fill_nan (v : flt) : flt := if fnan v then missing_float else v.
Definition upper_data (d : list (str * list flt)) : list (str * list flt) :=
  fold_left (fun acc '(k, v) => dict_set str_cmp (upper k) (map fill_nan v) acc) d [].
(** self._param_args( ** data): encode/gempak.py:1188; 1450.  TypeError for a missing or an
    unexpected name; the result has the fields in parameter order. *)
Definition param_args (names : list str) (d : list (str * list flt)) : res (list (list flt)) :=
  if forallb (fun '(k, _) => existsb (str_eqb k) names) d then
    mapM (fun n => match dict_get str_cmp n d with Some v => Ok v | None => Err TypeError end) names
  else Err TypeError.
(** encode/gempak.py:1155-1159, 1190-1191 (next(iter({})) raises StopIteration); 1426-1429: values
    of a surface report are scalars here, so the check passes. *)
Definition validate_length (k : kind) (d : list (str * list flt)) : res unit :=
  match k with
  | KSounding =>
      match d with
      | [] => Err StopIteration
      | (_, v) :: _ =>
          if forallb (fun '(_, x) => (length x =? length v)%nat) d && (Zlen v <? MAX_LEVELS)
          then Ok tt else Err ValueError
      end
  | KSurface => Ok tt
  end.

(** init, fhr = date_time.split('F'): exactly two pieces ('F' is 70). *)
Definition is_F (c : Z) : bool := c =? 70.
(** encode/gempak.py:1199-1211: a string with or without a forecast hour, or a datetime.
    timedelta(hours=n) raises OverflowError for a huge n, as add_minutes does. *)
Definition sounding_time (a : dtarg) : res dtime :=
  match a with
  | ADStr s =>
      let s := upper s in
      if existsb is_F s then
        match split_on is_F s with
        | ([init; fhr], _) =>
            t <- strptime fmt_YmdHM init ;; h <- py_int fhr ;; add_minutes t (60 * h)
        | _ => Err ValueError
        end
      else strptime fmt_YmdHM s
  | ADDt t => Ok t
  | ADOther => Err TypeError
  end.
(** encode/gempak.py:1461-1467: a string is parsed, but line 1502 then uses the string itself. *)
Definition surface_time (a : dtarg) : res (option dtime) :=
  match a with
  | ADStr s => do strptime fmt_YmdHM (upper s) ;; Ok None
  | ADDt t => Ok (Some t)
  | ADOther => Err TypeError
  end.

(** encode/gempak.py:1213-1234; 1469-1492: (stid, stnm, selv, stat, coun, std2, spri) *)
Definition opt_str (o : option str) : str := match o with Some s => s | None => [] end.
Definition station_of (k : kind) (lat lon : pynum) (info : option sinfo) : res station :=
  match info with
  | None => Ok (mk_stn [] missing_int lat lon missing_int [] [] [] (PInt 0))
  | Some i =>
      nm <- int_of_arg (si_number i) ;;
      elv <- int_of_arg (si_elev i) ;;
      let '(stid, std2) := split_stid (opt_str (si_id i)) in
      let pri := match k, si_priority i with
                 | KSurface, Some p => p
                 | _, _ => PInt 0
                 end in
      Ok (mk_stn stid nm lat lon elv (firstn 4 (upper (opt_str (si_state i))))
            (firstn 4 (upper (opt_str (si_country i)))) std2 pri)
  end.

(** Everything computed before the object changes: encode/gempak.py:1184-1246; 1446-1505. *)
Definition need_num (n : option pynum) : res pynum :=
  match n with Some x => Ok x | None => Err TypeError end.
Definition check_call (k : kind) (names : list str) (c : call) : res (row * station * list (list flt)) :=
  let d := upper_data (c_data c) in
  cols <- param_args names d ;;
  do validate_length k d ;;
  lat <- need_num (c_lat c) ;;
  lon <- need_num (c_lon c) ;;
  match k with
  | KSounding =>
      t <- sounding_time (c_time c) ;;
      st <- station_of k lat lon (c_info c) ;;
      Ok ((date_of t, time_of t), st, cols)
  | KSurface =>
      ot <- surface_time (c_time c) ;;
      st <- station_of k lat lon (c_info c) ;;
      match ot with
      | Some t => Ok ((date_of t, time_of t), st, cols)
      | None => Err AttributeError
      end
  end.

(** encode/gempak.py:1161-1258 [add_sounding]; 1431-1517 [add_station]: the object after the call
    and whether it raised.  (The attribute _datetime, overwritten by every call and read only
    inside it, is not part of the model.) *)
Definition add_entry (o : sfile) (c : call) : sfile * res unit :=
  match check_call (sf_kind o) (sf_names o) c with
  | Err x => (o, Err x)
  | Ok (r, st, cols) =>
      let row_set := set_add row_cmp r (sf_row_set o) in
      let col_set := set_add station_cmp st (sf_col_set o) in
      let data := dict_set key_cmp (r, st) cols (sf_data o) in
      let rows := Zlen row_set in
      let columns := Zlen col_set in
      if rows + columns >? MMHDRS then
        (mk_sf (sf_kind o) (sf_names o) row_set col_set data rows columns
           (sf_row_headers o) (sf_col_headers o) (sf_ptrs o), Err ValueError)
      else
        (mk_sf (sf_kind o) (sf_names o) row_set col_set data rows columns
           (sort row_cmp row_set) (sort station_cmp col_set) (sf_ptrs o), Ok tt)
  end.

(** ** Writing *)
(** 'SNDT' and 'SFDT'; header 1; DataTypes.real = 1 (common.py:63-70): encode/gempak.py:1126-1135;
    1397-1406.  scale, offset and bits are zero for every parameter. *)
Definition part_name (k : kind) : str := match k with KSounding => [83;78;68;84] | KSurface => [83;70;68;84] end.
Definition part_header : Z := 1.
Definition DT_REAL : Z := 1.
Definition the_part (k : kind) (names : list str) : part :=
  let zs := repeat 0 (length names) in mk_part (part_name k) part_header DT_REAL names zs zs zs.
(** FileTypes.sounding = 2, surface = 1 (common.py:55-60); DataSource.raob_buoy = 4, metar = 2
    (common.py:101-117) *)
Definition file_type (k : kind) : Z := match k with KSounding => 2 | KSurface => 1 end.
Definition data_source (k : kind) : Z := match k with KSounding => 4 | KSurface => 2 end.
Definition sf_head (o : sfile) : dmhead :=
  mk_head row_names (column_names (sf_kind o)) [] [the_part (sf_kind o) (sf_names o)]
    (sf_rows o) (sf_cols o) (file_type (sf_kind o)) (data_source (sf_kind o)).

(** encode/gempak.py:1260-1282; 1519-1541 [_write_row_headers]: the words of one row *)
Definition row_words (e : endian) (r : row) : res (list bytes) :=
  d <- enc_date (fst r) ;; w1 <- pack_i32 e d ;;
  t <- enc_time (snd r) ;; w2 <- pack_i32 e t ;;
  Ok [w1; w2].
(** stream.write_int(x): struct.error for a float *)
Definition num_word (e : endian) (n : pynum) : res bytes :=
  match n with PInt z => pack_i32 e z | PFloat _ => Err StructError end.
Definition coord_word (e : endian) (n : pynum) : res bytes := z <- enc_coord n ;; pack_i32 e z.
(** encode/gempak.py:1284-1304; 1543-1563 [_write_column_headers]: the words of one column;
    HEADER_DTYPE (common.py:11-33): STID, STAT, COUN, STD2 '4s', the others 'i'. *)
Definition column_words (e : endian) (k : kind) (s : station) : res (list bytes) :=
  w1 <- word_of_str (s_id s) ;; w2 <- pack_i32 e (s_nm s) ;;
  w3 <- coord_word e (s_lat s) ;; w4 <- coord_word e (s_lon s) ;;
  w5 <- pack_i32 e (s_elv s) ;; w6 <- word_of_str (s_stat s) ;;
  w7 <- word_of_str (s_coun s) ;; w8 <- word_of_str (s_id2 s) ;;
  match k with
  | KSounding => Ok [w1; w2; w3; w4; w5; w6; w7; w8]
  | KSurface => w9 <- num_word e (s_pri s) ;; Ok [w1; w2; w3; w4; w5; w6; w7; w8; w9]
  end.

(** zip( *params.values()): the values level by level *)
Definition level (cols : list (list flt)) (i : nat) : list flt := map (fun c => nth i c S754_nan) cols.
Definition levels (cols : list (list flt)) : list (list flt) :=
  match cols with [] => [] | c :: _ => map (level cols) (seq 0 (length c)) end.
(** encode/gempak.py:1318-1336; 1579-1596: the words of one data block *)
Definition block_words (e : endian) (k : kind) (r : row) (cols : list (list flt)) : res (list bytes) :=
  lendat <- match k, cols with
            | KSounding, [] => Err StopIteration
            | KSounding, c :: _ => Ok (part_header + Zlen c * Zlen cols)
            | KSurface, _ => Ok (part_header + 1 * Zlen cols)
            end ;;
  itime <- enc_time (snd r) ;;
  w1 <- pack_i32 e lendat ;;
  w2 <- pack_i32 e itime ;;
  ws <- mapM (pack_f32 e) (concat (levels cols)) ;;
  Ok (w1 :: w2 :: ws).

(** The pointer word of (i, j) and its block: encode/gempak.py:1306-1344; 1565-1605 [_write_data].
    Soundings loop over columns outside and rows inside, surface files the other way round. *)
Definition indexed {A} (l : list A) : list (Z * A) := combine (zrange (Zlen l)) l.
Definition item_of (e : endian) (o : sfile) (base : Z) (ir : Z * row) (jc : Z * station)
  : Z * option (res (list bytes)) :=
  (base + fst ir * sf_cols o + fst jc,
   match dict_get key_cmp (snd ir, snd jc) (sf_data o) with
   | Some cols => Some (block_words e (sf_kind o) (snd ir) cols)
   | None => None
   end).
Definition items_of (e : endian) (o : sfile) (base : Z) : list (Z * option (res (list bytes))) :=
  let rs := indexed (sf_row_headers o) in
  let cs := indexed (sf_col_headers o) in
  match sf_kind o with
  | KSounding => flat_map (fun jc => map (fun ir => item_of e o base ir jc) rs) cs
  | KSurface => flat_map (fun ir => map (fun jc => item_of e o base ir jc) cs) rs
  end.

(** [to_gempak] (encode/gempak.py:477-526): the object after the call (pointers set, next free
    word advanced) and the bytes written to disk.  Simplification: after an error while
    writing, next_free_word keeps its initial value (it is set again by the next call). *)
Definition set_next_free (p : pointers) (n : Z) : pointers :=
  mk_pointers (row_keys_ptr p) (column_keys_ptr p) (file_keys_ptr p) (row_headers_ptr p)
    (column_headers_ptr p) (parts_ptr p) (data_block_ptr p) n.
Definition with_ptrs (o : sfile) (p : pointers) : sfile :=
  mk_sf (sf_kind o) (sf_names o) (sf_row_set o) (sf_col_set o) (sf_data o) (sf_rows o) (sf_cols o)
    (sf_row_headers o) (sf_col_headers o) (Some p).
Definition save (e : endian) (o : sfile) : sfile * res bytes :=
  let h := sf_head o in
  let p := head_pointers h in
  let o1 := with_ptrs o p in
  let ncol := Zlen (column_names (sf_kind o)) in
  match to_gempak_at e h p (fun s => Ok s)
          (write_headers e (sf_rows o1) (Zlen row_names) (row_words e) (sf_row_headers o1))
          (write_headers e (sf_cols o1) ncol (column_words e (sf_kind o)) (sf_col_headers o1))
          (write_items e (items_of e o1 (data_block_ptr p)) (next_free_word p)) with
  | Ok (b, nf) => (with_ptrs o (set_next_free p nf), Ok b)
  | Err x => (o1, Err x)
  end.
