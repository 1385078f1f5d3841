(** Properties C18 (packed reals) and C19 (difference-packed grids). *)
From Coq Require Import Lia ZifyBool ZifyNat QArith.
From Verif Require Import Base BaseFacts SpecGrib SpecReal Grib GribFacts Real RealFacts.
Open Scope Z_scope.

(** words needed for the bits of all parameters *)
Definition record_words (parms : list packed_parm) : Z := - ((- total (map pp_bits parms)) / 32).

(** C18: parameter [i] of record [r] is decoded from its own bit field only. *)
Theorem C18_packed_real_fields : forall buffer parms n,
  Forall (fun w => - 2 ^ 31 <= w < 2 ^ 31) buffer ->
  Forall (fun p => 1 <= pp_bits p <= 32) parms -> parms <> [] ->
  Zlen buffer = Z.of_nat n * record_words parms ->
  exists out, unpack_real buffer parms (Zlen buffer) = Ok out /\
    length out = (n * length parms)%nat /\
    forall r i p, (r < n)%nat -> nth_error parms i = Some p ->
      let rec_words := firstn (Z.to_nat (record_words parms))
                         (skipn (Z.to_nat (Z.of_nat r * record_words parms)) buffer) in
      nth_error out (r * length parms + i) =
      Some (field_value (pp_bits p) (pp_offset p) (pp_scale p)
              (bit_field (lsb_number rec_words) (total (map pp_bits (firstn i parms))) (pp_bits p))).
Proof. exact unpack_real_spec. Qed.
Print Assumptions C18_packed_real_fields.

(** C18: a record built from given field values decodes to those values. *)
Theorem C18_packed_real_inverse : forall record parms values,
  Forall (fun w => - 2 ^ 31 <= w < 2 ^ 31) record ->
  Forall (fun p => 1 <= pp_bits p <= 32) parms -> parms <> [] ->
  length values = length parms ->
  Forall (fun pv => 0 <= snd pv < 2 ^ pp_bits (fst pv)) (combine parms values) ->
  Zlen record = record_words parms ->
  lsb_number record = fields_number (combine (map pp_bits parms) values) ->
  exists out, unpack_real record parms (Zlen record) = Ok out /\
    length out = length parms /\
    forall i p v, nth_error parms i = Some p -> nth_error values i = Some v ->
      nth_error out i = Some (field_value (pp_bits p) (pp_offset p) (pp_scale p) v).
Proof. exact unpack_real_inverse. Qed.
Print Assumptions C18_packed_real_inverse.

(** C18: a length that is not a whole number of records is rejected. *)
Theorem C18_length_mismatch : forall buffer parms,
  Forall (fun p => 1 <= pp_bits p <= 32) parms -> parms <> [] ->
  Zlen buffer mod record_words parms <> 0 ->
  unpack_real buffer parms (Zlen buffer) = Err ValueError.
Proof. exact unpack_real_mismatch. Qed.
Print Assumptions C18_length_mismatch.

Definition sample_parms : list packed_parm := [mk_pp 11 100 (-1); mk_pp 30 0 0; mk_pp 3 (-2) 1; mk_pp 20 5 (-2)].
Definition sample_values : list Z := [2047; 987654321; 5; 70000].
Definition sample_record : list Z :=
  let n := fields_number (combine (map pp_bits sample_parms) sample_values) in
  [wrap32 (n mod two32); wrap32 (n / two32)].
Example C18_example :
  lsb_number sample_record = fields_number (combine (map pp_bits sample_parms) sample_values) /\
  Zlen sample_record = record_words sample_parms /\
  forallb in_i32 sample_record = true /\
  match unpack_real sample_record sample_parms 2 with
  | Ok [None; Some a; Some b; Some c] => (Qeq_bool a 987654321 && Qeq_bool b 30 && Qeq_bool c (70005 # 100)) = true
  | _ => False end.
Proof. vm_compute. repeat split. Qed.

(** C19: the code of cell (j, i) is the field number j*kx+i of the big-end-first bit string; a
    missing code gives the missing value; every other cell is the reference (first present cell of
    the grid) or its predecessor plus the decoded difference.  The predecessor is the last present
    cell before it in the row, or else the first present cell of the nearest earlier row that has
    one. *)
Definition predecessor (rows : list (list (option Q))) (before : list (option Q)) : option Q :=
  match last_present before with Some v => Some v | None => last_row_start rows end.

Theorem C19_diff_grid : forall m buf ky kx,
  Forall (fun w => - 2 ^ 31 <= w < 2 ^ 31) buf -> 1 <= dm_bits m <= 32 -> 2 <= Zlen buf ->
  dm_bits m * (Z.of_nat ky * Z.of_nat kx) <= 32 * Zlen buf ->
  exists g, unpack_diff m buf ky kx = Ok (Some g) /\ length g = ky /\
  forall j, (j < ky)%nat -> exists row, nth_error g j = Some row /\ length row = kx /\
  forall i, (i < kx)%nat ->
    let cell := Z.of_nat j * Z.of_nat kx + Z.of_nat i in
    let bits := concat_bits 32 (map (fun w => w mod 2 ^ 32) buf) in
    let code := (bits / 2 ^ (32 * Zlen buf - dm_bits m * (cell + 1))) mod 2 ^ dm_bits m in
    exists v, nth_error row i = Some v /\
      if dm_flag m && (code =? 2 ^ dm_bits m - 1) then v = None
      else match predecessor (firstn j g) (firstn i row) with
           | None => v = Some (dm_ref m)
           | Some p => v = Some (p + (dm_diffmin m + inject_Z code * dm_scale m))%Q
           end.
Proof.
  intros m buf ky kx HW Hb HL HB. exact (unpack_diff_spec m buf ky kx HW Hb HL HB).
Qed.
Print Assumptions C19_diff_grid.

Example C19_example :
  match unpack_diff (mk_dm 8 true 10 (1#2) (-1)) [16777215; 67372036; 117901063] 3 3 with
  | Ok (Some [[Some a; None; None]; [None; Some b; Some c]; [Some d; Some e; Some f]]) =>
     (Qeq_bool a 10 && Qeq_bool b 11 && Qeq_bool d 12) = true
  | _ => False end.
Proof. vm_compute. reflexivity. Qed.
