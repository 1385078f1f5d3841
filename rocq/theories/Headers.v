(** Header fields: levels, vertical coordinates, parameter names, station identifiers and
    coordinates, as the writers store them and the readers convert them.  Definitions only. *)
From Verif Require Import Base Floats Structs Strings Dates.

(** encode/gempak.py:159-161 [write_string]: struct.pack('<4s', bytes(f'{s:<4s}', 'utf-8')). *)
Definition word_of_str (s : str) : res bytes :=
  b <- str_bytes (ljust 4 s) ;; Ok (fit 4 b).
(** decode/gempak.py:541-544 [_decode_strip] *)
Definition decode_strip (b : bytes) : res str := s <- bytes_str b ;; Ok (strip s).

(** common.py:72-83 VerticalCoordinates: lower-case member names, value = position. *)
Definition vcoord_names : list str :=
  [ [110;111;110;101];    (* none *)
    [112;114;101;115];    (* pres *)
    [116;104;116;97];     (* thta *)
    [104;103;104;116];    (* hght *)
    [115;103;109;97];     (* sgma *)
    [100;112;116;104];    (* dpth *)
    [104;121;98;100];     (* hybd *)
    [112;118;97;98];      (* pvab *)
    [112;118;98;108] ].   (* pvbl *)

Fixpoint index_of (s : str) (l : list str) (i : Z) : option Z :=
  match l with
  | [] => None
  | x :: r => if str_eqb s x then Some i else index_of s r (i + 1)
  end.

(** encode/gempak.py:306-311 [_encode_vertical_coordinate] *)
Definition encode_vertical_coordinate (coord : str) : res Z :=
  match index_of (lower coord) vcoord_names 0 with Some v => Ok v | None => Err KeyError end.

(** encode/gempak.py:820-829, 927-931: the GVCD value of add_grid's vertical_coordinate
    (None stands for the Python None). *)
Definition enc_vcoord (coord : option str) : res Z :=
  let c := match coord with None => [78;79;78;69] (* 'NONE' *) | Some s => upper s end in
  if 4 <? Zlen c then Err ValueError else encode_vertical_coordinate c.

(** decode/gempak.py:520-525 [_convert_vertical_coord]; [e] is the file's byte order. *)
Definition convert_vertical_coord (e : endian) (coord : Z) : res str :=
  if coord <=? 8 then
    if coord <? 0 then Err ValueError
    else match nth_error vcoord_names (Z.to_nat coord) with
         | Some s => Ok (upper s)
         | None => Err ValueError
         end
  else b <- pack_i32 e coord ;; bytes_str b.

(** encode/gempak.py:831-834, 875-879: int(level); a level is an int or a float. *)
Inductive pynum := PInt (z : Z) | PFloat (f : flt).
Definition int_of_num (n : pynum) : res Z :=
  match n with PInt z => Ok z | PFloat f => int_of_float f end.
(** encode/gempak.py:925-926: GLV1 and GLV2 (-1 when level2 is None). *)
Definition enc_level2 (l : option pynum) : res Z :=
  match l with None => Ok (-1) | Some n => int_of_num n end.
(** decode/gempak.py:512-518 [_convert_level] on an int *)
Definition convert_level (level : Z) : option Z := if level >=? 0 then Some level else None.

(** encode/gempak.py:812-818, 919-920: the three 4-character pieces of the parameter name
    (pbuff always has 12 characters here). *)
Definition enc_parm (name : str) : res (str * str * str) :=
  if 12 <? Zlen name then Err ValueError
  else
    let pbuff := ljust 12 (upper name) in
    Ok (firstn 4 pbuff, firstn 4 (skipn 4 pbuff), firstn 4 (skipn 8 pbuff)).
(** decode/gempak.py:669: GPM1 + GPM2 + GPM3, each stripped when read (631, 651-652). *)
Definition dec_parm (w1 w2 w3 : bytes) : res str :=
  a <- decode_strip w1 ;; b <- decode_strip w2 ;; c <- decode_strip w3 ;; Ok (a ++ b ++ c).

(** encode/gempak.py:1225-1234, 1484-1494: station_id split into STID and STD2. *)
Definition split_stid (id : str) : str * str :=
  let stid := upper id in
  if 4 <? Zlen stid then (firstn 4 stid, firstn 4 (skipn 4 stid)) else (stid, []).

(** encode/gempak.py:1299-1301, 1560-1562: int(coord * 100); Python int * int is exact. *)
Definition enc_coord (c : pynum) : res Z :=
  match c with
  | PInt z => Ok (z * 100)
  | PFloat f => int_of_float (fmul f (of_Z 100))
  end.
(** decode/gempak.py:1185-1187: x / 100 (Python int / int, correctly rounded; for |x| < 2^53
    this is the binary64 quotient of the two exactly converted ints). *)
Definition dec_coord (x : Z) : flt := fdiv (of_Z x) (of_Z 100).

(** decode/gempak.py:659-665: (TYPE, DATTIM1) of a grid header with words GDT1, GTM1.
    Subscripting None and None + timedelta raise TypeError. *)
Definition listed_time (gdt1 gtm1 : Z) : res (ftype * dtime) :=
  d <- convert_dattim gdt1 ;;
  f <- convert_ftime gtm1 ;;
  match d, f with
  | Some t, Some (ty, delta) => t' <- add_minutes t delta ;; Ok (ty, t')
  | _, _ => Err TypeError
  end.

(** The GDT1 and GTM1 words written for add_grid's date_time argument
    (encode/gempak.py:840-873, 921-922, 973-991). *)
Definition stored_time (a : dtarg) : res (Z * Z) :=
  ' (g, d, h, m) <- parse_date_time a ;;
  z1 <- enc_gdt g d ;;
  z2 <- enc_gtm g h m ;;
  Ok (z1, z2).

(** The STID and STD2 words written for a station identifier (encode/gempak.py:1236-1241,
    1299-1309 and 1494-1500, 1560-1570) and the identifiers the readers report:
    decode/gempak.py:1226 (sounding: STID) and 2232 (surface: STID + STD2). *)
Definition stored_id (id : str) : res (bytes * bytes) :=
  let '(stid, std2) := split_stid id in
  w1 <- word_of_str stid ;; w2 <- word_of_str std2 ;; Ok (w1, w2).
Definition listed_sounding_id (w1 w2 : bytes) : res str := decode_strip w1.
Definition listed_surface_id (w1 w2 : bytes) : res str :=
  a <- decode_strip w1 ;; b <- decode_strip w2 ;; Ok (a ++ b).
