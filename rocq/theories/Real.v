(** Packed reals (decode/gempak.py:528-540 [_fortran_ishift], 557-610 [_unpack_real]) and
    difference-packed grids (decode/gempak.py:835-903, DIFF branch of [_unpack_grid]).
    Definitions only. *)
From Coq Require Import QArith.
From Verif Require Import Base Grib.
Open Scope Z_scope.

(** decode/gempak.py:528-540 *)
Definition fortran_ishift (i shift : Z) : Z :=
  if shift >? 0 then wrap32 (Z.shiftl i shift)
  else if shift <? 0 then
    (if i <? 0 then Z.shiftr (Z.land i 4294967295) (Z.abs shift) else Z.shiftr i (Z.abs shift))
  else i.

(** A packed parameter: bits, offset, scale (parameters['bits'], ['offset'], ['scale']). *)
Record packed_parm := mk_pp { pp_bits : Z; pp_offset : Z; pp_scale : Z }.

(** 10 ** scale, exactly.  Simplification: Python computes a float for a negative scale and
    stores the product as binary32; here the product is the exact rational. *)
Definition pow10 (n : Z) : Q := Qpower (10 # 1) n.

(** decode/gempak.py:577-601: the integer field of one parameter starting at bit [itotal] *)
Definition unpack_field (pdat : list Z) (bits itotal : Z) : res Z :=
  let jsbit := itotal mod 32 + 1 in
  let jsword := itotal / 32 in
  let jshift := 1 - jsbit in
  jword <- py_index pdat jsword ;;
  let mask := fortran_ishift 4294967295 (bits - 32) in
  let ifield := Z.land (fortran_ishift jword jshift) mask in
  if jsbit + bits - 1 >? 32 then
    jword2 <- py_index pdat (jsword + 1) ;;
    Ok (Z.lor ifield (Z.land (fortran_ishift jword2 (jshift + 32)) mask))
  else Ok ifield.

(** decode/gempak.py:574-605: one record; [None] is the missing value *)
Fixpoint unpack_record (pdat : list Z) (parms : list packed_parm) (itotal : Z) : res (list (option Q)) :=
  match parms with
  | [] => Ok []
  | p :: r =>
      ifield <- unpack_field pdat (pp_bits p) itotal ;;
      let v := if ifield =? fortran_ishift 4294967295 (pp_bits p - 32) then None
               else Some (inject_Z (ifield + pp_offset p) * pow10 (pp_scale p))%Q in
      rest <- unpack_record pdat r (itotal + pp_bits p) ;;
      Ok (v :: rest)
  end.

Definition sum_bits (parms : list packed_parm) : Z := fold_left Z.add (map pp_bits parms) 0.

(** decode/gempak.py:571-608: the records one after another *)
Fixpoint unpack_records (n : nat) (buffer : list Z) (pwords : Z) (parms : list packed_parm) (ii : Z)
  : res (list (option Q)) :=
  match n with
  | O => Ok []
  | S k =>
      r <- unpack_record (py_slice buffer ii (ii + pwords)) parms 0 ;;
      rest <- unpack_records k buffer pwords parms (ii + pwords) ;;
      Ok (r ++ rest)
  end.

(** decode/gempak.py:557-610 *)
Definition unpack_real (buffer : list Z) (parms : list packed_parm) (length : Z) : res (list (option Q)) :=
  let pwords := (sum_bits parms - 1) / 32 + 1 in
  if pwords =? 0 then Err ZeroDivisionError else
  let npack := (length - 1) / pwords + 1 in
  if negb (npack * pwords =? length) then Err ValueError else
  unpack_records (Z.to_nat npack) buffer pwords parms 0.

(** ** Difference packing *)

(** decode/gempak.py:857-903: loop state (iword, ibit) and (first, line, psav, plin) *)
Record dvals := mk_dv { dv_first : bool; dv_line : bool; dv_psav : Q; dv_plin : Q }.
Record dmeta := mk_dm { dm_bits : Z; dm_flag : bool; dm_ref : Q; dm_scale : Q; dm_diffmin : Q }.

(** decode/gempak.py:863-871: the packed integer at (iword, ibit) *)
Definition diff_code (m : dmeta) (buf : list Z) (iword ibit : Z) : res Z :=
  let imiss := 2 ^ dm_bits m - 1 in
  let jshft := dm_bits m + ibit - 33 in
  w <- py_index buf iword ;;
  let idat := Z.land (fortran_ishift w jshft) imiss in
  if jshft >? 0 then
    w2 <- py_index buf (iword + 1) ;;
    Ok (Z.lor idat (fortran_ishift w2 (jshft - 32)))
  else Ok idat.

(** decode/gempak.py:873-876 *)
Definition diff_advance (m : dmeta) (iword ibit : Z) : Z * Z :=
  let ibit := ibit + dm_bits m in
  if ibit >? 32 then (iword + 1, ibit - 32) else (iword, ibit).

(** decode/gempak.py:878-903: the value of one cell ([None] = missing_float) and the new state *)
Definition diff_value (m : dmeta) (s : dvals) (idat : Z) : dvals * option Q :=
  let imiss := 2 ^ dm_bits m - 1 in
  if dm_flag m && (idat =? imiss) then (s, None)
  else if dv_first s then
    (mk_dv false true (dm_ref m) (dm_ref m), Some (dm_ref m))
  else
    let d := (dm_diffmin m + inject_Z idat * dm_scale m)%Q in
    if negb (dv_line s) then
      let v := (dv_plin s + d)%Q in (mk_dv false true v v, Some v)
    else
      let v := (dv_psav s + d)%Q in (mk_dv false true v (dv_plin s), Some v).

(** decode/gempak.py:862-903: inner loop over i *)
Fixpoint diff_row (m : dmeta) (buf : list Z) (kx : nat) (iword ibit : Z) (s : dvals)
  : res (Z * Z * dvals * list (option Q)) :=
  match kx with
  | O => Ok (iword, ibit, s, [])
  | S k =>
      c <- diff_code m buf iword ibit ;;
      let '(iword', ibit') := diff_advance m iword ibit in
      let '(s', v) := diff_value m s c in
      ' (i2, b2, s2, vs) <- diff_row m buf k iword' ibit' s' ;;
      Ok (i2, b2, s2, v :: vs)
  end.

(** decode/gempak.py:860-903: outer loop over j; [line] is reset for every row *)
Fixpoint diff_rows (m : dmeta) (buf : list Z) (ky kx : nat) (iword ibit : Z) (s : dvals)
  : res (list (list (option Q))) :=
  match ky with
  | O => Ok []
  | S j =>
      ' (i2, b2, s2, r) <- diff_row m buf kx iword ibit
                             (mk_dv (dv_first s) false (dv_psav s) (dv_plin s)) ;;
      rest <- diff_rows m buf j kx i2 b2 s2 ;;
      Ok (r :: rest)
  end.

(** decode/gempak.py:852-903: a buffer of at most one word yields no grid *)
Definition unpack_diff (m : dmeta) (buf : list Z) (ky kx : nat) : res (option (list (list (option Q)))) :=
  if Zlen buf >? 1 then
    g <- diff_rows m buf ky kx 0 1 (mk_dv true false 0 0) ;; Ok (Some g)
  else Ok None.
