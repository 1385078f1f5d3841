(** What the fields of a sounding or surface file can hold.  Nothing here mentions rows, columns,
    pointers or words. *)
From Coq Require Import QArith Qabs.
From Verif Require Import Base Floats Strings Dates Headers Order Station SpecLayout SpecStation.
Open Scope Z_scope.

(** A 32-bit signed integer. *)
Definition fits_int (z : Z) : Prop := -2147483648 <= z <= 2147483647.
(** Latitudes and longitudes are stored in hundredths, in 32 bits. *)
Definition fits_coord (n : pynum) : Prop :=
  match n with
  | PInt z => Z.abs z <= 21474836
  | PFloat f => finite f = true /\ valid64 f = true /\ (Qabs (q_of f) <= inject_Z 21474836)%Q
  end.
(** NaN, an infinity, or a number no larger than the largest 32-bit float. *)
Definition fits_value (x : flt) : Prop :=
  finite x = true -> (Qabs (q_of x) <= inject_Z ((2 ^ 24 - 1) * 2 ^ 104))%Q.
(** Everything in a call can be stored: a proper datetime, ASCII texts (the characters that are
    kept), numbers in range, and for a surface report one value per name. *)
Definition fits_call (k : kind) (names : list str) (c : call) : Prop :=
  match c_time c with ADDt t => valid_dt t = true | _ => True end /\
  is_ascii (firstn 8 (text_arg si_id c)) = true /\
  is_ascii (firstn 4 (text_arg si_state c)) = true /\ is_ascii (firstn 4 (text_arg si_country c)) = true /\
  fits_int (int_arg si_number c) /\ fits_int (int_arg si_elev c) /\
  fits_coord (num_arg (c_lat c)) /\ fits_coord (num_arg (c_lon c)) /\
  match pri_arg k c with PInt z => fits_int z | PFloat _ => False end /\
  match k with KSounding => True | KSurface => Forall (fun '(_, v) => length v = 1%nat) (c_data c) end /\
  Forall (fun n => Forall fits_value (given n c)) names.

(** The size of a report: its values and two words more. *)
Definition report_size (names : list str) (c : call) : Z := 2 + sum (map (fun n => Zlen (given n c)) names).
(** The reports that were not superseded, together: file positions are 32-bit. *)
Definition fits_file (k : kind) (names : list str) (calls : list call) : Prop :=
  sum (map (report_size names) (keep_last (same_entry k) calls)) <= 1890000000.
