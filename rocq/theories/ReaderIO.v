(** Queries as they run on the buffer of an open file: decode/gempak.py:1090-1110, 806-954 (grids), 1240-1365 (soundings),
    2351-2560 (surface), with the queries that call them.  Definitions only.
    The other files on reading give positions; here the object has one buffer with a place and a list of marks
    (tools.py:82-180), and every query moves it.  What a query does with the bytes it has read is not written again: the pure
    functions of StationRead, Unmerged, GridRead and Query are used for that. *)
From Coq Require Import QArith.
From Verif Require Import Base Words Layout Floats Structs Strings Dates Headers Grib Real Order DmFile Station StationRead Grid GridRead Query SnOut
  Unmerged Tools.
From Verif Require Calc Merge.
Open Scope Z_scope.

(** ** Operations on the buffer, one after the other *)
Inductive prog (A : Type) :=
| Done (r : res A)
| Jump (mark off : Z) (k : prog A)                              (* tools.py:97-99 *)
| ReadInt (e : endian) (k : Z -> prog A)                        (* tools.py:143-145, read_int(4, endian, False) *)
| SetMark (k : Z -> prog A)                                     (* tools.py:92-95 *)
| ReadStruct (e : endian) (fmt : list fmtc) (k : list pyval -> prog A).   (* tools.py:114-118 *)
Arguments Done {A} r.
Arguments Jump {A} mark off k.
Arguments ReadInt {A} e k.
Arguments SetMark {A} k.
Arguments ReadStruct {A} e fmt k.

(** One operation; an exception ends the query *)
Definition step {A} (p : prog A) (b : iobuf) : prog A * iobuf :=
  match p with
  | Done r => (Done r, b)
  | Jump m off k => match io_jump_to m off b with Ok b' => (k, b') | Err x => (Done (Err x), b) end
  | ReadInt e k => let '(z, b') := io_read_int 4 e false b in (k z, b')
  | SetMark k => let '(m, b') := io_set_mark b in (k m, b')
  | ReadStruct e fmt k => let '(b', r) := io_read_struct e fmt b in (match r with Ok vs => k vs | Err x => Done (Err x) end, b')
  end.
Fixpoint run {A} (p : prog A) (b : iobuf) : iobuf * res A :=
  match p with
  | Done r => (b, r)
  | Jump m off k => match io_jump_to m off b with Ok b' => run k b' | Err x => (b, Err x) end
  | ReadInt e k => let '(z, b') := io_read_int 4 e false b in run (k z) b'
  | SetMark k => let '(m, b') := io_set_mark b in run (k m) b'
  | ReadStruct e fmt k =>
      match io_read_struct e fmt b with (b', Ok vs) => run (k vs) b' | (b', Err x) => (b', Err x) end
  end.

Fixpoint andThen {A B} (p : prog A) (f : A -> prog B) : prog B :=
  match p with
  | Done (Ok x) => f x
  | Done (Err e) => Done (Err e)
  | Jump m off k => Jump m off (andThen k f)
  | ReadInt e k => ReadInt e (fun z => andThen (k z) f)
  | SetMark k => SetMark (fun m => andThen (k m) f)
  | ReadStruct e fmt k => ReadStruct e fmt (fun vs => andThen (k vs) f)
  end.
Notation "x <~ p ;; q" := (andThen p (fun x => q)) (at level 61, p at next level, right associativity).
Definition ret {A} (x : A) : prog A := Done (Ok x).
Definition jump (m off : Z) : prog unit := Jump m off (ret tt).
Definition read_word (e : endian) : prog Z := ReadInt e ret.
Definition set_mark : prog Z := SetMark ret.
(** struct.Struct(f'{n}{c}'): a negative count is a bad format, refused before anything is read *)
Definition read_items_io (e : endian) (c : fmtc) (n : Z) : prog (list pyval) :=
  if n <? 0 then Done (Err StructError) else ReadStruct e (repeat c (Z.to_nat n)) ret.
Definition read_text_io (e : endian) (n : Z) : prog (list pyval) :=
  if n <? 0 then Done (Err StructError) else ReadStruct e [FStr (Z.to_nat n)] ret.
Fixpoint mapP {A B} (f : A -> prog B) (l : list A) : prog (list B) :=
  match l with
  | [] => ret []
  | x :: r => y <~ f x ;; ys <~ mapP f r ;; ret (y :: ys)
  end.
Fixpoint foldP {A T} (f : T -> A -> prog T) (l : list A) (s : T) : prog T :=
  match l with
  | [] => ret s
  | x :: r => s' <~ f s x ;; foldP f r s'
  end.

(** self._start (decode/gempak.py:320): the first mark set on the new buffer *)
Definition start : Z := 0.

(** ** Stations *)
(** 1258-1264, 1317-1323, 2370-2377, 2436-2442, 2502-2508: the pointer to the data of a part *)
Definition data_ptr_io (f : rfile) (irow icol iprt : Z) : prog Z :=
  _ <~ jump start (word_to_position (pointer_word f irow icol iprt)) ;; read_word (gf_endian (rf_file f)).
(** 1267-1271, 1328-1332, ...: to the data; the length word is given back *)
Definition to_data_io (e : endian) (header_length ptr : Z) : prog Z :=
  _ <~ jump start (word_to_position ptr) ;;
  len <~ read_word e ;;
  mark <~ set_mark ;;
  _ <~ jump mark (word_to_position (header_length + 1)) ;;
  ret len.
(** 1267-1284, 2379-2404, 2444-2469, 2510-2535 *)
Definition read_block_io (f : rfile) (part : rpart) (q : rparams) (ptr : Z) : prog block :=
  let e := gf_endian (rf_file f) in
  len <~ to_data_io e (rp_header_length part) ptr ;;
  let lendat := len - rp_header_length part in
  if rp_data_type part =? 1 then
    vs <~ read_items_io e FFloat lendat ;; Done (l <- mapM as_float vs ;; Ok (BReal l))
  else if rp_data_type part =? 4 then
    vs <~ read_items_io e FInt lendat ;;
    Done (l <- mapM as_int vs ;; u <- unpack_real l (parm_list q) lendat ;; Ok (BPack u))
  else if (rp_data_type part =? 3) && negb (match rf_type f with Sounding => true | _ => false end) then
    vs <~ read_text_io e (lendat * 4) ;; Done (v <- py_index vs 0 ;; b <- as_bytes v ;; Ok (BChar b))
  else Done (Err NotImplementedError).
(** 1257-1296, 2369-2415, 2435-2480, 2501-2546 *)
Definition add_part_io (f : rfile) (irow icol : Z) (r : record) (ip : Z * (rpart * rparams)) : prog record :=
  let '(iprt, (part, q)) := ip in
  ptr <~ data_ptr_io f irow icol iprt ;;
  if ptr =? 0 then ret r
  else b <~ read_block_io f part q ptr ;; Done (add_values (rf_type f) (rq_name q) b r).
Definition add_parts_io (f : rfile) (irow icol : Z) (r : record) : prog record :=
  foldP (add_part_io f irow icol) (indexed (combine (gf_parts (rf_file f)) (gf_parameters (rf_file f)))) r.
Definition unpack_cell_io (f : rfile) (irow icol : Z) : prog (list record) :=
  report <~ Done (head_record f irow icol) ;;
  match rf_type f with
  | Standard =>
      values <~ add_parts_io f irow icol [] ;;
      Done (match get k_TEXT values, get k_SPCL values with
            | None, None => Ok [update report values]
            | _, _ => process_report_text report values
            end)
  | _ => r <~ add_parts_io f irow icol report ;; ret [r]
  end.
Definition unpack_io (f : rfile) (cells : list (Z * Z)) : prog (list record) :=
  rs <~ mapP (fun '(i, j) => unpack_cell_io f i j) cells ;; ret (concat rs).
(** 2055-2125, 2793-2870: the selection reads nothing from the buffer *)
Definition select_records_io (k : kind) (f : rfile) (a : stargs) : prog (list record) :=
  l <~ Done (info f) ;; sel <~ Done (st_select k l a) ;; unpack_io f (map (fun x => (ls_row x, ls_col x)) sel).
(** 2751-2892 *)
Definition sfjson_io (f : rfile) (a : stargs) (include_special : bool) : prog (list sfobj) :=
  rs <~ select_records_io KSurface f a ;;
  Done (mapM json_of (filter (fun r => negb (match r with [] => true | _ => false end)
                                       && (include_special || negb (has k_SPCL r))) rs)).
(** 2635-2749 *)
Definition nearest_time_io (order : list str -> list str) (f : rfile) (when : titem) (a : ntargs) (special : bool) : prog (list sfobj) :=
  t <~ Done (parse_item when) ;;
  if given_filters a =? 0 then Done (Err ValueError)
  else if given_filters a >? 1 then Done (Err NotImplementedError)
  else
    l <~ Done (info f) ;;
    r1 <~ mapP (fun s => m <~ sfjson_io f (by_id s) special ;; Done (nearest t m)) (lookup_ids order l a) ;;
    r2 <~ mapP (fun n => m <~ sfjson_io f (by_number n) special ;; Done (nearest t m))
            (match n_number a with Some s => listed s | None => [] end) ;;
    ret (r1 ++ r2).

Section Soundings.
Variable of_q : Q -> flt.
Variable W : Calc.arith.
Variable num_of : flt -> Calc.num W.
Variable flt_of : Calc.num W -> flt.
Variable fuel : nat.

(** 1324-1362 *)
Definition read_upart_io (f : rfile) (part : rpart) (q : rparams) (ptr : Z) : prog upart :=
  let n := length (rq_name q) in
  let arrays (l : list flt) :=
    UArrays (fold_left (fun acc '(i, nm) => dict_set str_cmp nm (stride (Z.to_nat i) n l) acc) (indexed (rq_name q)) []) in
  let e := gf_endian (rf_file f) in
  len <~ to_data_io e (rp_header_length part) ptr ;;
  let lendat := len - rp_header_length part in
  if rp_data_type part =? 3 then
    vs <~ read_text_io e (lendat * 4) ;;
    Done (v <- py_index vs 0 ;; b <- as_bytes v ;;
          t <- foldM (fun acc '(i, nm) => x <- py_index [b] i ;; s <- decode_strip x ;; Ok (dict_set str_cmp nm s acc)) (indexed (rq_name q)) [] ;;
          Ok (UTexts t))
  else if rp_data_type part =? 1 then
    vs <~ read_items_io e FFloat lendat ;; Done (l <- mapM as_float vs ;; Ok (arrays l))
  else if rp_data_type part =? 4 then
    vs <~ read_items_io e FInt lendat ;;
    Done (l <- mapM as_int vs ;; u <- unpack_real l (parm_list q) lendat ;; Ok (arrays (map (unpacked of_q (missing_of f)) u)))
  else Done (Err NotImplementedError).
(** 1316-1323 *)
Definition read_uparts_io (f : rfile) (irow icol : Z) : prog (list (str * upart)) :=
  foldP (fun acc '(iprt, (part, q)) =>
    ptr <~ data_ptr_io f irow icol iprt ;;
    if ptr =? 0 then ret acc
    else u <~ read_upart_io f part q ptr ;; ret (dict_set str_cmp (rp_name part) u acc))
    (indexed (combine (gf_parts (rf_file f)) (gf_parameters (rf_file f)))) [].
(** 1304-1365 with [_merge_sounding], which reads nothing from the buffer *)
Definition unmerged_cell_io (f : rfile) (irow icol : Z) : prog (option record) :=
  h <~ Done (head_record f irow icol) ;;
  ps <~ read_uparts_io f irow icol ;;
  Done (selv <- match get k_SELV h with Some (DHead (HInt z)) => Ok (of_Z z) | Some (DHead (HFlt x)) => Ok x | _ => Err TypeError end ;;
        m <- Merge.merge_sounding W (num_of (missing_of f)) fuel (to_parts W num_of ps) (num_of selv) ;;
        match m with
        | None => Ok None
        | Some s =>
            t <- texts_of ps ;;
            Ok (Some (h ++ map (fun '(nm, k) => (nm, DArr (map flt_of (Calc.get s k)))) level_keys ++ t))
        end).
(** 2011-2180 *)
Definition snxarray_io (f : rfile) (a : stargs) : prog (list dataset) :=
  if merged f then
    rs <~ select_records_io KSounding f a ;; Done (mapM (dataset_of (lb_missing_float (gf_label (rf_file f)))) rs)
  else
    l <~ Done (info f) ;; sel <~ Done (st_select KSounding l a) ;;
    os <~ mapP (fun x => unmerged_cell_io f (ls_row x) (ls_col x)) sel ;;
    Done (mapM (dataset_of (widen (missing_of f))) (somes os)).
End Soundings.

(** ** Grids *)
(** 1096-1108, 806-954, 1120-1132 *)
Definition read_grid_at_io (g : gfile) (header_length kx ky ptr : Z) : prog (option gcells) :=
  let e := gf_endian g in
  let miss := q_of (lb_missing_float (gf_label g)) in
  len <~ to_data_io e header_length ptr ;;
  pk <~ read_word e ;;
  if pk =? 0 then
    let lendat := len - header_length - 1 in
    if lendat >? 1 then
      vs <~ read_items_io e FFloat lendat ;; Done (fs <- mapM as_float vs ;; l <- reshape fs kx ky ;; Ok (Some (CF l)))
    else ret None
  else if (pk =? 1) || (pk =? 4) then
    ms <~ ReadStruct e (repeat FInt 3) ret ;; mi <~ Done (as_ints ms) ;;
    rs <~ ReadStruct e (repeat FFloat 2) ret ;; mr <~ Done (qs rs) ;;
    bits <~ Done (nth_z mi 0) ;; flag <~ Done (nth_z mi 1) ;; kxky <~ Done (nth_z mi 2) ;;
    ref <~ Done (py_index mr 0) ;; scale <~ Done (py_index mr 1) ;;
    let lendat := len - header_length - 6 in
    _ <~ Done (if kxky <? 0 then Err ValueError else Ok tt) ;;
    vs <~ read_items_io e FInt lendat ;;
    Done (words <- as_ints vs ;;
          r <- read_grib_grid words bits kxky ref scale (if flag =? 0 then None else Some miss) ;;
          match r with
          | None => Ok None
          | Some l => l <- reshape l kx ky ;; Ok (Some (CQ l))
          end)
  else if pk =? 3 then
    ms <~ ReadStruct e (repeat FInt 4) ret ;; mi <~ Done (as_ints ms) ;;
    rs <~ ReadStruct e (repeat FFloat 3) ret ;; mr <~ Done (qs rs) ;;
    bits <~ Done (nth_z mi 0) ;; flag <~ Done (nth_z mi 1) ;;
    ref <~ Done (py_index mr 0) ;; scale <~ Done (py_index mr 1) ;; dmin <~ Done (py_index mr 2) ;;
    let lendat := len - header_length - 8 in
    vs <~ read_items_io e FInt lendat ;;
    Done (words <- as_ints vs ;;
          r <- unpack_diff (mk_dm bits (negb (flag =? 0)) ref scale dmin) words (Z.to_nat ky) (Z.to_nat kx) ;;
          Ok (match r with None => None | Some l => Some (CDiff l) end))
  else if (pk =? 2) || (pk =? 5) then Done (Err NotImplementedError)
  else Done (Err ValueError).
(** 1093-1101 *)
Definition grid_ptr_io (g : gfile) (icol iprt : Z) : prog Z :=
  let l := gf_label g in
  _ <~ jump start (word_to_position (lb_data_block_ptr l + 0 * lb_columns l * lb_parts l + (icol * lb_parts l + iprt))) ;;
  read_word (gf_endian g).
(** 1090-1150 *)
Definition read_grid_io (f : rgrid) (icol : Z) : prog (list gcells) :=
  let g := rg_file f in
  nv <~ Done (match gf_nav g with Some nv => Ok nv | None => Err AttributeError end) ;;
  rs <~ mapP (fun '(iprt, pt) => ptr <~ grid_ptr_io g icol iprt ;; read_grid_at_io g (rp_header_length pt) (nv_kx nv) (nv_ky nv) ptr)
         (indexed (gf_parts g)) ;;
  ret (flat_map (fun r => match r with Some c => [c] | None => [] end) rs).
(** 956-1150 *)
Definition gdxarray_io (f : rgrid) (a : gdargs) : prog (list gout) :=
  sel <~ Done (gd_select (rg_info f) a) ;;
  rs <~ mapP (fun g => cs <~ read_grid_io f (gl_no g) ;;
                       ret (map (mk_go (var_name (gl_parm g)) (gl_time1 g) (lower (gl_coord g)) (gl_level1 g) (gl_type g)) cs)) sel ;;
  ret (concat rs).

(** ** A program using one open object *)
(** The calls of a program on one object, in order; a call that raises leaves the buffer where it was then *)
Fixpoint session {A} (calls : list (prog A)) (b : iobuf) : iobuf * list (res A) :=
  match calls with
  | [] => (b, [])
  | p :: r => let '(b1, x) := run p b in let '(b2, xs) := session r b1 in (b2, x :: xs)
  end.
(** decode/gempak.py:316-320: the new buffer of the file with its first mark; opening then reads the headers through it *)
Definition opened_by (opening : prog unit) (d : bytes) : iobuf := fst (run opening (snd (io_set_mark (io_init d)))).

(** ** Two threads *)
(** Each entry of the schedule is one operation of the first ([true]) or of the second thread.  Simplification: an operation of
    the buffer is not interrupted; the interpreter may switch threads inside one too. *)
Fixpoint interleave {A} (schedule : list bool) (p q : prog A) (b : iobuf) : prog A * prog A * iobuf :=
  match schedule with
  | [] => (p, q, b)
  | true :: s => let '(p', b') := step p b in interleave s p' q b'
  | false :: s => let '(q', b') := step q b in interleave s p q' b'
  end.
(** The same with an object, so a buffer, of its own for each thread *)
Fixpoint interleave2 {A} (schedule : list bool) (p q : prog A) (b c : iobuf) : prog A * prog A * iobuf * iobuf :=
  match schedule with
  | [] => (p, q, b, c)
  | true :: s => let '(p', b') := step p b in interleave2 s p' q b' c
  | false :: s => let '(q', c') := step q c in interleave2 s p q' b c'
  end.
