(** Unmerged sounding files: reading the parts of a sounding, merging them, and the datasets made of
    the result: decode/gempak.py:1301-1367 [_unpack_unmerged], 1369-2009 (header and text entries of
    [_merge_sounding]), 2117-2180 (snxarray).  Definitions only. *)
From Coq Require Import QArith Ascii String.
From Verif Require Import Base Words Layout Floats Structs Strings Dates Headers Real Order DmFile Station Text StationRead Query SnOut.
From Verif Require Calc Merge CalcNum.
From Coq Require Import List.
Open Scope Z_scope.

Definition name_string (s : str) : string :=
  fold_right (fun c t => String (ascii_of_nat (Z.to_nat c)) t) EmptyString s.

(** A value read from the file as a Python float: the same number, normalized as binary64 *)
Definition widen (x : flt) : flt :=
  match x with S754_finite s m e => binary_normalize p64 e64 (if s then Z.neg m else Z.pos m) e s | _ => x end.

(** sounding[part.name]: the arrays of a part, or the texts of a character part *)
Inductive upart := UArrays (l : list (str * list flt)) | UTexts (l : list (str * str)).

Section Unmerged.
(** The Python float nearest an unpacked real; the arithmetic of the merging *)
Variable of_q : Q -> flt.
Variable W : Calc.arith.
Variable num_of : flt -> Calc.num W.
Variable flt_of : Calc.num W -> flt.
Variable fuel : nat.      (* bound of the loop of interp_logp_height *)

Definition missing_of (f : rfile) : flt := lb_missing_float (gf_label (rf_file f)).
Definition unpacked (mf : flt) (q : option Q) : flt := match q with Some q => of_q q | None => mf end.
(** 1324-1362: one part that is stored *)
Definition read_upart (f : rfile) (part : rpart) (q : rparams) (ptr : Z) : res upart :=
  let n := length (rq_name q) in
  let arrays (l : list flt) :=
    UArrays (fold_left (fun acc '(i, nm) => dict_set str_cmp nm (stride (Z.to_nat i) n l) acc) (indexed (rq_name q)) []) in
  if rp_data_type part =? 3 then
    let e := gf_endian (rf_file f) in
    let d := gf_data (rf_file f) in
    let p := word_to_position ptr in
    let lendat := rd_uint e d p - rp_header_length part in
    let p' := rd_next d p + word_to_position (rp_header_length part + 1) in
    if lendat <? 0 then Err StructError
    else
      vs <- rd_struct e [FStr (Z.to_nat (lendat * 4))] d p' ;;
      v <- py_index vs 0 ;; b <- as_bytes v ;;
      t <- foldM (fun acc '(i, nm) => x <- py_index [b] i ;; s <- decode_strip x ;; Ok (dict_set str_cmp nm s acc)) (indexed (rq_name q)) [] ;;
      Ok (UTexts t)
  else
    b <- read_block f part q ptr ;;
    match b with
    | BReal l => Ok (arrays l)
    | BPack l => Ok (arrays (map (unpacked (missing_of f)) l))
    | BChar _ => Err NotImplementedError
    end.
(** 1316-1322: every part of the cell that is stored.  Simplification: no part is named like a header
    (STID, ..., TIME). *)
Definition read_uparts (f : rfile) (irow icol : Z) : res (list (str * upart)) :=
  foldM (fun acc '(iprt, (part, q)) =>
    let ptr := data_ptr f irow icol iprt in
    if ptr =? 0 then Ok acc
    else u <- read_upart f part q ptr ;; Ok (dict_set str_cmp (rp_name part) u acc))
    (indexed (combine (gf_parts (rf_file f)) (gf_parameters (rf_file f)))) [].
(** The parts as [_merge_sounding] sees them.  Simplification: character parts count as absent there
    (only the four texts are looked up in them). *)
Definition to_parts (l : list (str * upart)) : Merge.parts_t W :=
  flat_map (fun '(nm, u) => match u with
                            | UArrays a => [(name_string nm, map (fun '(k, v) => (name_string k, map num_of v)) a)]
                            | UTexts _ => []
                            end) l.
(** 1999-2007.  Simplification: a text part that is not of characters is not modelled. *)
Definition k_TEXTS : str := [84;69;88;84].
Definition texts_of (l : list (str * upart)) : res record :=
  foldM (fun acc k => match dict_get str_cmp k l with
                      | None => Ok acc
                      | Some (UTexts t) => match dict_get str_cmp k_TEXTS t with
                                           | Some s => Ok (acc ++ [(k, DStr s)])
                                           | None => Err KeyError
                                           end
                      | Some (UArrays _) => Err NotImplementedError
                      end) text_keys [].
Definition level_keys : list (str * Calc.key) :=
  [(k_PRES, Calc.PRES); (k_HGHT, Calc.HGHT); ([84;69;77;80], Calc.TEMP); ([68;87;80;84], Calc.DWPT);
   ([68;82;67;84], Calc.DRCT); ([83;80;69;68], Calc.SPED)].
(** 1304-1314, 1365, 1371-1388: the merged sounding of one cell; None when no part has a level *)
Definition unmerged_cell (f : rfile) (irow icol : Z) : res (option record) :=
  h <- head_record f irow icol ;;
  ps <- read_uparts f irow icol ;;
  selv <- match get k_SELV h with Some (DHead (HInt z)) => Ok (of_Z z) | Some (DHead (HFlt x)) => Ok x | _ => Err TypeError end ;;
  m <- Merge.merge_sounding W (num_of (missing_of f)) fuel (to_parts ps) (num_of selv) ;;
  match m with
  | None => Ok None
  | Some s =>
      t <- texts_of ps ;;
      Ok (Some (h ++ map (fun '(nm, k) => (nm, DArr (map flt_of (Calc.get s k)))) level_keys ++ t))
  end.
(** 2117-2180 *)
Definition somes {X} (l : list (option X)) : list X := flat_map (fun o => match o with Some x => [x] | None => [] end) l.
Definition snxarray_unmerged (f : rfile) (a : stargs) : res (list dataset) :=
  l <- info f ;; sel <- st_select KSounding l a ;;
  os <- mapM (fun x => unmerged_cell f (ls_row x) (ls_col x)) sel ;;
  mapM (dataset_of (widen (missing_of f))) (somes os).
(** snxarray: 2011-2180 *)
Definition snxarray_any (f : rfile) (a : stargs) : res (list dataset) :=
  if merged f then snxarray f a else snxarray_unmerged f a.
End Unmerged.
