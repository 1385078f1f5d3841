(** The data management file: encode/gempak.py GempakStream and DataManagementFile (writer) and
    decode/gempak.py GempakFile (reader).  Definitions only.

    The writer functions take the byte order as an argument; the code always writes
    little-endian ([LE]).  The other byte order stands for files written by GEMPAK on a
    big-endian machine. *)
From Coq Require Import QArith.
From Verif Require Import Base Words Layout Floats Structs Strings Headers Order.
Open Scope Z_scope.

(** ** GempakStream (encode/gempak.py:144-172), a BytesIO: contents and position. *)
Record stream := mk_st { st_buf : bytes; st_pos : Z }.
(** encode/gempak.py:147-148 *)
Definition st_new : stream := mk_st [] 0.

(** BytesIO.write at position p: bytes are overwritten or appended; a gap beyond the end is
    filled with zero bytes; writing nothing changes nothing. *)
Definition overwrite (buf : bytes) (p : nat) (d : bytes) : bytes :=
  match d with
  | [] => buf
  | _ => firstn p buf ++ repeat 0 (p - length buf) ++ d ++ skipn (p + length d) buf
  end.
Definition st_write (d : bytes) (s : stream) : stream :=
  mk_st (overwrite (st_buf s) (Z.to_nat (st_pos s)) d) (st_pos s + Zlen d).

(** encode/gempak.py:150-152; seek rejects a negative position with ValueError. *)
Definition st_jump (word : Z) (s : stream) : res stream :=
  let p := word_to_position word in
  if p <? 0 then Err ValueError else Ok (mk_st (st_buf s) p).
(** encode/gempak.py:154-156 *)
Definition st_word (s : stream) : Z := position_to_word (st_pos s).
(** encode/gempak.py:158-168 *)
Definition st_string (x : str) (s : stream) : res stream := b <- word_of_str x ;; Ok (st_write b s).
Definition st_int (e : endian) (z : Z) (s : stream) : res stream :=
  b <- pack_i32 e z ;; Ok (st_write b s).
Definition st_float (e : endian) (f : flt) (s : stream) : res stream :=
  b <- pack_f32 e f ;; Ok (st_write b s).
(** encode/gempak.py:170-172; NamedStruct.pack puts the keyword arguments in field order (C41),
    so the values are given positionally here. *)
Definition st_struct (e : endian) (fmt : list fmtc) (vals : list pyval) (s : stream) : res stream :=
  b <- struct_pack e fmt vals ;; Ok (st_write b s).

(** ** What the base class reads from the object *)
(** One entry of _file_headers: name, 'length', 'type'. *)
Record fheader := mk_fh { fh_name : str; fh_length : Z; fh_type : Z }.
(** One entry of _parts_dict. *)
Record part := mk_part {
  pt_name : str; pt_header : Z; pt_type : Z; pt_parameters : list str;
  pt_scale : list Z; pt_offset : list Z; pt_bits : list Z
}.
Record dmhead := mk_head {
  hd_row_names : list str; hd_column_names : list str;
  hd_file_headers : list fheader; hd_parts : list part;
  hd_rows : Z; hd_columns : Z; hd_file_type : Z; hd_data_source : Z
}.

(** The inputs of _set_pointers (encode/gempak.py:323-374). *)
Definition head_shape (h : dmhead) : shape :=
  mk_shape (Zlen (hd_row_names h)) (hd_rows h) (Zlen (hd_column_names h)) (hd_columns h)
    (map fh_length (hd_file_headers h)) (map (fun p => Zlen (pt_parameters p)) (hd_parts h)).
Definition head_pointers (h : dmhead) : pointers := set_pointers (head_shape h).

(** common.py:10 GEMPAK_HEADER = 'GEMPAK DATA MANAGEMENT FILE ' *)
Definition GEMPAK_HEADER : str :=
  [71;69;77;80;65;75;32;68;65;84;65;32;77;65;78;65;71;69;77;69;78;84;32;70;73;76;69;32].
(** common.py:45 and encode/gempak.py:268-277 *)
Definition MMFREE : Z := 62.

(** encode/gempak.py:178-206 (28s, 20 i, 12x, f) and 208-218 *)
Definition label_fmt : list fmtc := FStr 28 :: repeat FInt 20 ++ [FPad 12; FFloat].
Definition data_mgmt_fmt : list fmtc := [FInt; FInt; FInt; FInt; FPad 464].

(** encode/gempak.py:376-402 *)
Definition label_values (h : dmhead) (p : pointers) : list pyval :=
  [ VBytes GEMPAK_HEADER; VInt 1; VInt (Zlen (hd_file_headers h)); VInt (file_keys_ptr p);
    VInt (hd_rows h); VInt (Zlen (hd_row_names h)); VInt (row_keys_ptr p); VInt (row_headers_ptr p);
    VInt (hd_columns h); VInt (Zlen (hd_column_names h)); VInt (column_keys_ptr p);
    VInt (column_headers_ptr p); VInt (Zlen (hd_parts h)); VInt (parts_ptr p);
    VInt data_mgmt_ptr; VInt data_mgmt_length; VInt (data_block_ptr p);
    VInt (hd_file_type h); VInt (hd_data_source h); VInt 11; VInt missing_int;
    VFloat missing_float ].
Definition write_label (e : endian) (h : dmhead) (p : pointers) : stream -> res stream :=
  st_struct e label_fmt (label_values h p).

(** encode/gempak.py:404-412 *)
Definition write_data_management (e : endian) (next_free : Z) : stream -> res stream :=
  st_struct e data_mgmt_fmt [VInt next_free; VInt MMFREE; VInt 0; VInt 0].

(** for x in l: stream.write_string(x) / write_int(x) / write_float(x) *)
Definition st_strings (l : list str) (s : stream) : res stream := foldM (fun s x => st_string x s) l s.
Definition st_ints (e : endian) (l : list Z) (s : stream) : res stream := foldM (fun s x => st_int e x s) l s.
Definition st_floats (e : endian) (l : list flt) (s : stream) : res stream := foldM (fun s x => st_float e x s) l s.

(** encode/gempak.py:414-423 *)
Definition write_file_keys (e : endian) (h : dmhead) (s : stream) : res stream :=
  s <- st_strings (map fh_name (hd_file_headers h)) s ;;
  s <- st_ints e (map fh_length (hd_file_headers h)) s ;;
  st_ints e (map fh_type (hd_file_headers h)) s.
(** encode/gempak.py:425-433 *)
Definition write_row_keys (h : dmhead) : stream -> res stream := st_strings (hd_row_names h).
Definition write_column_keys (h : dmhead) : stream -> res stream := st_strings (hd_column_names h).
(** encode/gempak.py:435-463 *)
Definition write_parts (e : endian) (h : dmhead) (s : stream) : res stream :=
  s <- st_strings (map pt_name (hd_parts h)) s ;;
  s <- st_ints e (map pt_header (hd_parts h)) s ;;
  s <- st_ints e (map pt_type (hd_parts h)) s ;;
  s <- st_ints e (map (fun p => Zlen (pt_parameters p)) (hd_parts h)) s ;;
  s <- st_strings (concat (map pt_parameters (hd_parts h))) s ;;
  s <- st_ints e (concat (map pt_offset (hd_parts h))) s ;;
  s <- st_ints e (concat (map pt_scale (hd_parts h))) s ;;
  st_ints e (concat (map pt_bits (hd_parts h))) s.

(** encode/gempak.py:477-526 [to_gempak] after _set_pointers (485), with the object's pointers
    [p].  The subclass's methods are arguments; the data writer also returns the updated
    next_free_word.  The result is the contents of the file (opened only after everything
    succeeded, 525) and the final next_free_word. *)
Definition to_gempak_at (e : endian) (h : dmhead) (p : pointers)
    (write_file_headers write_row_headers write_column_headers : stream -> res stream)
    (write_data : stream -> res (stream * Z)) : res (bytes * Z) :=
  s <- write_label e h p st_new ;;
  s <- st_jump (row_keys_ptr p) s ;;
  s <- write_row_keys h s ;;
  s <- st_jump (column_keys_ptr p) s ;;
  s <- write_column_keys h s ;;
  s <- match hd_file_headers h with
       | [] => Ok s
       | _ => s <- st_jump (file_keys_ptr p) s ;;
              s <- write_file_keys e h s ;;
              write_file_headers s
       end ;;
  s <- st_jump (parts_ptr p) s ;;
  s <- write_parts e h s ;;
  s <- st_jump (row_headers_ptr p) s ;;
  s <- write_row_headers s ;;
  s <- st_jump (column_headers_ptr p) s ;;
  s <- write_column_headers s ;;
  s <- st_jump (data_block_ptr p) s ;;
  ' (s, next_free) <- write_data s ;;
  s <- st_jump data_mgmt_ptr s ;;
  s <- write_data_management e next_free s ;;
  Ok (st_buf s, next_free).

(** Header blocks of the subclasses (encode/gempak.py:958-993, 1263-1309, 1524-1570): every slot
    is first filled with the unused value, then the used headers are written from the start.
    [words x] are the encoded words of one header after the used flag. *)
Definition write_words (l : list bytes) (s : stream) : stream := fold_left (fun s w => st_write w s) l s.
Definition write_headers {H} (e : endian) (slots keys : Z) (words : H -> res (list bytes))
    (headers : list H) (s : stream) : res stream :=
  let start := st_word s in
  s <- st_ints e (repeat missing_int (Z.to_nat (slots * (keys + 1)))) s ;;
  s <- st_jump start s ;;
  foldM (fun s h => s <- st_int e (- missing_int) s ;; ws <- words h ;; Ok (write_words ws s)) headers s.

(** The pointer table and data blocks (encode/gempak.py:1048-1083, 1311-1344, 1572-1605).
    One item: the word of its pointer, and the encoded words of its data block (which may fail
    to encode), or None when there is no data for it. *)
Definition write_item (e : endian) (st : stream * Z) (it : Z * option (res (list bytes)))
  : res (stream * Z) :=
  let '(s, next_free) := st in
  let '(ptr, d) := it in
  s <- st_jump ptr s ;;
  match d with
  | Some ws => s <- st_int e next_free s ;;
               s <- st_jump next_free s ;;
               ws <- ws ;;
               let s := write_words ws s in
               Ok (s, st_word s)
  | None => s <- st_int e 0 s ;; Ok (s, next_free)
  end.
(** ... then zeros up to the end of the 128-word record. *)
Definition fill_record (e : endian) (s : stream) : res stream :=
  let '(_, word) := dmword (st_word s) in
  if negb (word =? 1) then st_ints e (repeat 0 (Z.to_nat (MBLKSZ - word + 1))) s else Ok s.
Definition write_items (e : endian) (items : list (Z * option (res (list bytes)))) (next_free : Z)
    (s : stream) : res (stream * Z) :=
  ' (s, next_free) <- foldM (write_item e) items (s, next_free) ;;
  s <- fill_record e s ;;
  Ok (s, next_free).

(** ** Reader: decode/gempak.py:212-452.  The file is a byte list; a read happens at an explicit
    offset (the buffer's position; marks are saved offsets, C37).  The host is little-endian,
    so prefmt is '' or '>' (454-467).  Validity of field names (namedtuple) is not modelled. *)

(** IOBuffer.read_int(4, endian, False): an unsigned word; short at the end of the data (there
    the code's position advances by less than 4; this is not modelled). *)
Definition rd_uint (e : endian) (d : bytes) (pos : Z) : Z := dec_uint e (py_slice d pos (pos + 4)).
(** Where the buffer stands after it: fewer bytes are read at the end of the file (tools.py:154-158) *)
Definition rd_next (d : bytes) (pos : Z) : Z := pos + Zlen (py_slice d pos (pos + 4)).
(** IOBuffer.read_struct at an offset *)
Definition rd_struct := struct_unpack_from.
(** struct.Struct(f'{n}{c}'): a negative count is a bad format. *)
Definition rd_array (e : endian) (c : fmtc) (n : Z) (d : bytes) (pos : Z) : res (list pyval) :=
  if n <? 0 then Err StructError else rd_struct e (repeat c (Z.to_nat n)) d pos.

Definition as_int (v : pyval) : res Z := match v with VInt z => Ok z | _ => Err TypeError end.
Definition as_bytes (v : pyval) : res bytes := match v with VBytes b => Ok b | _ => Err TypeError end.
Definition as_float (v : pyval) : res flt := match v with VFloat f => Ok f | _ => Err TypeError end.
Definition as_ints : list pyval -> res (list Z) := mapM as_int.

Record dmlabel := mk_label {
  lb_file_headers : Z; lb_file_keys_ptr : Z; lb_rows : Z; lb_row_keys : Z; lb_row_keys_ptr : Z;
  lb_row_headers_ptr : Z; lb_columns : Z; lb_column_keys : Z; lb_column_keys_ptr : Z;
  lb_column_headers_ptr : Z; lb_parts : Z; lb_parts_ptr : Z; lb_data_mgmt_ptr : Z;
  lb_data_mgmt_length : Z; lb_data_block_ptr : Z; lb_file_type : Z; lb_data_source : Z;
  lb_machine_type : Z; lb_missing_int : Z; lb_missing_float : flt; lb_version : Z
}.

(** decode/gempak.py:219-241, common.py:55-60 FileTypes (ValueError otherwise), decode:138-146
    with common.py:101-117 (unknown sources become 99). *)
Definition is_file_type (z : Z) : bool := (1 <=? z) && (z <=? 3).
Definition data_source_of (z : Z) : Z :=
  if existsb (Z.eqb z) [0;1;2;3;4;5;6;7;99;100;102;103;104;105] then z else 99.
Definition rlabel_fmt : list fmtc := repeat FInt 20 ++ [FPad 12; FFloat].
Definition read_label (e : endian) (d : bytes) (pos : Z) : res dmlabel :=
  vs <- rd_struct e rlabel_fmt d pos ;;
  zs <- as_ints (firstn 20 vs) ;;
  mf <- match nth_error vs 20 with Some v => as_float v | None => Err TypeError end ;;
  match zs with
  | [ver; fh; fkp; rows; rk; rkp; rhp; cols; ck; ckp; chp; parts; pp; dmp; dml; dbp; ft; ds; mt; mi] =>
      if is_file_type ft then
        Ok (mk_label fh fkp rows rk rkp rhp cols ck ckp chp parts pp dmp dml dbp ft (data_source_of ds) mt mi mf ver)
      else Err ValueError
  | _ => Err TypeError
  end.

(** decode/gempak.py:378-398: the row and column key names *)
Definition read_keys (e : endian) (d : bytes) (ptr n : Z) : res (list str) :=
  vs <- rd_struct e (repeat (FStr 4) (Z.to_nat n)) d (word_to_position ptr) ;;
  mapM (fun v => b <- as_bytes v ;; decode_strip b) vs.

(** decode/gempak.py:400-418.  DataTypes: common.py:63-70 (ValueError otherwise). *)
Record rpart := mk_rpart { rp_name : str; rp_header_length : Z; rp_data_type : Z; rp_count : Z }.
Definition is_data_type (z : Z) : bool := (1 <=? z) && (z <=? 5).
Definition parts_fmt (n : Z) : list fmtc :=
  let pad := FPad (Z.to_nat ((n - 1) * 4)) in
  [FStr 4; pad; FInt; pad; FInt; pad; FInt].
Definition read_part (e : endian) (d : bytes) (nparts w : Z) : res rpart :=
  vs <- rd_struct e (parts_fmt nparts) d (word_to_position w) ;;
  match vs with
  | [VBytes b; VInt hl; VInt dt; VInt c] =>
      nm <- decode_strip b ;;
      if is_data_type dt then Ok (mk_rpart nm hl dt c) else Err ValueError
  | _ => Err TypeError
  end.
Definition zrange (n : Z) : list Z := map Z.of_nat (seq 0 (Z.to_nat n)).
(** With parts = 0 the pad count is negative and the format is rejected (407). *)
Definition read_parts (e : endian) (d : bytes) (ptr n : Z) : res (list rpart) :=
  if n <? 1 then Err StructError else mapM (fun i => read_part e d n (ptr + i)) (zrange n).

(** decode/gempak.py:420-440: for each attribute, for each part, its values one after another. *)
Record rparams := mk_rparams {
  rq_name : list str; rq_scale : list Z; rq_offset : list Z; rq_bits : list Z
}.
(** n items of 4 bytes read one by one starting at [pos]. *)
Definition read_items (e : endian) (c : fmtc) (d : bytes) (pos n : Z) : res (list pyval) :=
  mapM (fun i => vs <- rd_struct e [c] d (pos + 4 * i) ;; py_index vs 0) (zrange n).
Fixpoint read_attr {A} (e : endian) (c : fmtc) (conv : pyval -> res A) (d : bytes) (pos : Z)
    (counts : list Z) : res (list (list A) * Z) :=
  match counts with
  | [] => Ok ([], pos)
  | n :: r => vs <- read_items e c d pos n ;;
              xs <- mapM conv vs ;;
              ' (rest, pos') <- read_attr e c conv d (pos + 4 * Z.max 0 n) r ;;
              Ok (xs :: rest, pos')
  end.
Definition zip4 (a : list (list str)) (b c f : list (list Z)) : list rparams :=
  map (fun '(n, (s, (o, t))) => mk_rparams n s o t) (combine a (combine b (combine c f))).
Definition read_parameters (e : endian) (d : bytes) (ptr : Z) (counts : list Z) : res (list rparams) :=
  let conv_s := fun v => b <- as_bytes v ;; decode_strip b in
  ' (names, p1) <- read_attr e (FStr 4) conv_s d (word_to_position ptr) counts ;;
  ' (scales, p2) <- read_attr e FInt as_int d p1 counts ;;
  ' (offsets, p3) <- read_attr e FInt as_int d p2 counts ;;
  ' (bits, _) <- read_attr e FInt as_int d p3 counts ;;
  Ok (zip4 names scales offsets bits).

(** Grid navigation and analysis blocks (decode/gempak.py:243-303, 339-373), kept as the list
    of unpacked values. common.py: NAVB_SIZE, ANLB_SIZE *)
Definition NAVB_SIZE : Z := 256.
Definition ANLB_SIZE : Z := 128.
Definition rnav_fmt : list fmtc := [FFloat; FStr 3; FPad 1] ++ repeat FFloat 11 ++ [FPad 972].
Definition ranl_fmt1 : list fmtc := repeat FFloat 4 ++ [FPad 4] ++ repeat FFloat 12 ++ [FPad 444].
Definition ranl_fmt2 : list fmtc := repeat FFloat 18 ++ [FPad 440].
Definition file_keys_fmt (n : nat) : list fmtc := repeat (FStr 4) n ++ repeat FInt n ++ repeat FInt n.

Record gnav := mk_nav {
  nv_values : list pyval; nv_projection : str; nv_kx : Z; nv_ky : Z; nv_analysis : option (list pyval)
}.
(** float == int (by value); used for the analysis type *)
Definition float_is (f : flt) (z : Z) : bool := finite f && Qeq_bool (q_of f) (inject_Z z).
Definition read_nav (e : endian) (d : bytes) (ptr n : Z) : res gnav :=
  let p0 := word_to_position ptr in
  let kf := file_keys_fmt (Z.to_nat n) in
  do rd_struct e kf d p0 ;;
  let p1 := p0 + Z.of_nat (calcsize kf) in
  if negb (rd_uint e d p1 =? NAVB_SIZE) then Err ValueError else
  vs <- rd_struct e rnav_fmt d (p1 + 4) ;;
  pj <- (b <- py_index vs 1 ;; b <- as_bytes b ;; bytes_str b) ;;
  kx <- (f <- py_index vs 4 ;; f <- as_float f ;; int_of_float f) ;;
  ky <- (f <- py_index vs 5 ;; f <- as_float f ;; int_of_float f) ;;
  let p2 := p1 + 4 + Z.of_nat (calcsize rnav_fmt) in
  if negb (rd_uint e d p2 =? ANLB_SIZE) then Err ValueError else
  at_ <- (vs <- rd_struct e [FFloat] d (p2 + 4) ;; v <- py_index vs 0 ;; as_float v) ;;
  if float_is at_ 1 then an <- rd_struct e ranl_fmt1 d (p2 + 4) ;; Ok (mk_nav vs pj kx ky (Some an))
  else if float_is at_ 2 then an <- rd_struct e ranl_fmt2 d (p2 + 4) ;; Ok (mk_nav vs pj kx ky (Some an))
  else Ok (mk_nav vs pj kx ky None).

(** An opened file. *)
Record gfile := mk_gfile {
  gf_data : bytes; gf_endian : endian; gf_label : dmlabel; gf_nav : option gnav;
  gf_data_management : list Z;
  gf_row_keys : list str; gf_column_keys : list str;
  gf_parts : list rpart; gf_parameters : list rparams
}.

(** decode/gempak.py:454-467 (little-endian host) *)
Definition swap_check (d : bytes) : endian :=
  if str_eqb (py_slice d 28 32) [1;0;0;0] then LE else BE.
(** decode/gempak.py:469-476 *)
Definition check_header (d : bytes) : res unit :=
  vs <- rd_struct LE [FStr 28] d 0 ;;
  v <- py_index vs 0 ;; b <- as_bytes v ;; t <- bytes_str b ;;
  if str_eqb t GEMPAK_HEADER then Ok tt else Err TypeError.

(** decode/gempak.py:311-440 [GempakFile.__init__] *)
Definition open_gempak (d : bytes) : res gfile :=
  do check_header d ;;
  let e := swap_check d in
  lb <- read_label e d 28 ;;
  nav <- (if lb_file_headers lb >? 0
          then n <- read_nav e d (lb_file_keys_ptr lb) (lb_file_headers lb) ;; Ok (Some n)
          else Ok None) ;;
  dm <- (vs <- rd_struct e (repeat FInt 32) d (word_to_position (lb_data_mgmt_ptr lb)) ;; as_ints vs) ;;
  rk <- read_keys e d (lb_row_keys_ptr lb) (lb_row_keys lb) ;;
  ck <- read_keys e d (lb_column_keys_ptr lb) (lb_column_keys lb) ;;
  parts <- read_parts e d (lb_parts_ptr lb) (lb_parts lb) ;;
  prm <- read_parameters e d (lb_parts_ptr lb + lb_parts lb * 4) (map rp_count parts) ;;
  Ok (mk_gfile d e lb nav dm rk ck parts prm).

(** The header loops of the subclasses (decode/gempak.py:637-639, 659-661, 1174-1176, 1203-1205,
    2199-2201, 2209-2211): a slot whose flag word is not 9999 is not recorded, and only its flag
    word is skipped.  [rd] reads one header at an offset, [size] is its size in bytes.
    decode/gempak.py:53: USED_FLAG *)
Definition USED_FLAG : Z := 9999.
Fixpoint read_headers {H} (e : endian) (rd : Z -> res H) (size : Z) (d : bytes) (slots : nat) (pos : Z)
  : res (list H) :=
  match slots with
  | O => Ok []
  | S k => if rd_uint e d pos =? USED_FLAG
           then h <- rd (pos + 4) ;; r <- read_headers e rd size d k (pos + 4 + size) ;; Ok (h :: r)
           else read_headers e rd size d k (pos + 4)
  end.
