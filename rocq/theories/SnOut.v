(** The datasets snxarray returns: decode/gempak.py:2119-2180 (the records of merged files,
    [select_records KSounding]).  Definitions only. *)
From Coq Require Import QArith.
From Verif Require Import Base Floats Strings Dates Headers Order DmFile Station StationRead Query.
Open Scope Z_scope.

Definition k_PRES : str := [80;82;69;83].
Definition k_HGHT : str := [72;71;72;84].
(** 'TXTA', 'TXTB', 'TXTC', 'TXPB' *)
Definition text_keys : list str := [[84;88;84;65]; [84;88;84;66]; [84;88;84;67]; [84;88;80;66]].

(** A value of an array: a float, or an unpacked real ([None] is the missing value).  Simplification:
    unpacked reals are exact, and not rounded to float32 at the end. *)
Inductive lval := LF (f : flt) | LQ (q : option Q).
Definition array_of (v : dval) : res (list lval) :=
  match v with
  | DArr l => Ok (map LF l)
  | DArrQ l => Ok (map LQ l)
  | _ => Err ValueError                 (* not an array with a level dimension *)
  end.
(** Comparison of two values in np.lexsort: NaN comes last *)
Definition lrank (mf : flt) (v : lval) : Z :=
  match v with LF f => num_rank (PFloat f) | LQ (Some _) => 0 | LQ None => num_rank (PFloat mf) end.
Definition lvalue (mf : flt) (v : lval) : Q :=
  match v with LF f => q_of f | LQ (Some q) => q | LQ None => q_of mf end.
Definition lcmp (mf : flt) (a b : lval) : comparison :=
  then_cmp (lrank mf a ?= lrank mf b) (Qcompare (lvalue mf a) (lvalue mf b)).
(** values == self.dm_label.missing_float: 2164-2166 *)
Definition is_missing (mf : flt) (v : lval) : bool :=
  match v with
  | LF f => SFeqb f mf
  | LQ None => SFeqb mf mf
  | LQ (Some q) => finite mf && Qeq_bool q (q_of mf)
  end.
Definition mask (mf : flt) (v : lval) : option lval := if is_missing mf v then None else Some v.

Inductive vcoord := VPres | VHght.
Record dataset := mk_ds {
  ds_id : dval; ds_number : dval; ds_lat : dval; ds_lon : dval; ds_elev : dval; ds_state : dval; ds_country : dval;
  ds_pressure : option lval; ds_text : record; ds_time : dtime;
  ds_on : vcoord; ds_levels : list lval; ds_vars : list (str * list (option lval))
}.
(** 2174-2178: sortby; falling pressures are the reversed order of rising ones *)
Definition order_of (mf : flt) (on : vcoord) (levels : list lval) : list nat :=
  let rising := map snd (sort (fun a b => lcmp mf (fst a) (fst b)) (combine levels (seq 0 (length levels)))) in
  match on with VPres => rev rising | VHght => rising end.
Definition reorder {A} (order : list nat) (l : list A) : list A :=
  flat_map (fun i => match nth_error l i with Some x => [x] | None => [] end) order.
(** Those of a sounding's entries that are popped before the variables are made: 2124-2157 *)
Definition popped (on : vcoord) : list str :=
  [k_STID; k_STNM; k_SLAT; k_SLON; k_SELV; k_STAT; k_COUN; k_DATE; k_TIME] ++ text_keys
  ++ [match on with VPres => k_PRES | VHght => k_HGHT end].
Definition is_popped (on : vcoord) (k : str) : bool := existsb (str_eqb k) (popped on).
(** 2120-2180.  Simplification: a variable that has the name of a coordinate is kept beside it. *)
Definition dataset_of (mf : flt) (r : record) : res dataset :=
  id <- need_key k_STID r ;; nm <- need_key k_STNM r ;; lat <- need_key k_SLAT r ;; lon <- need_key k_SLON r ;;
  el <- need_key k_SELV r ;; st <- need_key k_STAT r ;; co <- need_key k_COUN r ;;
  '(on, v) <- match get k_PRES r, get k_HGHT r with
              | Some v, _ => Ok (VPres, v)
              | None, Some v => Ok (VHght, v)
              | None, None => Err ValueError
              end ;;
  levels <- array_of v ;;
  sp <- match on with VPres => x <- py_index levels 0 ;; Ok (Some x) | VHght => Ok None end ;;
  d <- need_key k_DATE r ;; t <- need_key k_TIME r ;;
  dt <- match d, t with DHead (HDate d), DHead (HTime t) => Ok (combine_dt d t) | _, _ => Err TypeError end ;;
  vars <- foldM (fun acc '(k, v) =>
            l <- array_of v ;;
            if (length l =? length levels)%nat then Ok (dict_set str_cmp (lower k) (map (mask mf) l) acc) else Err ValueError)
          (filter (fun '(k, _) => negb (is_popped on k)) r) [] ;;
  let order := order_of mf on levels in
  Ok (mk_ds id nm lat lon el st co sp (filter (fun '(k, _) => existsb (str_eqb k) text_keys) r) dt on
        (reorder order levels) (map (fun '(k, l) => (k, reorder order l)) vars)).

(** 2011-2180 for merged files *)
Definition snxarray (f : rfile) (a : stargs) : res (list dataset) :=
  rs <- select_records KSounding f a ;; mapM (dataset_of (lb_missing_float (gf_label (rf_file f)))) rs.
