(** What the fields of a grid file can hold.  Nothing here mentions rows, columns, pointers or words
    of the file other than its size. *)
From Coq Require Import QArith Qabs.
From Verif Require Import Base Floats Strings Dates Headers Order Station Grid GridRead SpecLayout SpecStation SpecWrite SpecGrib SpecGrid.
Open Scope Z_scope.

(** The two integers that stand for a time are 32-bit. *)
Definition fits_time (a : dtarg) : Prop := forall z1 z2, stored_time a = Ok (z1, z2) -> fits_int z1 /\ fits_int z2.
(** Everything in a call can be stored: times and levels are 32-bit, the name is ASCII and the cells
    (missing ones count as -9999) are not further apart than 2147483647. *)
Definition fits_grid (q : gcall) : Prop :=
  fits_time (q_time q) /\ (forall a, q_time2 q = Some a -> fits_time a) /\
  fits_int (level_of (q_level q)) /\ fits_int (level_of (q_level2 q)) /\ is_ascii (name_of q) = true /\
  (forall x y, In x (cells_of q) -> In y (cells_of q) -> (q_of x - q_of y <= 2147483647)%Q).
(** A coordinate: NaN, an infinity or a number of at most a million degrees. *)
Definition fits_degrees (x : flt) : Prop := finite x = true -> (Qabs (q_of x) <= inject_Z 1000000)%Q.
(** The geometry: coordinates, angles and the number of cells. *)
Definition fits_geometry (lon lat : ndarray) (a1 a2 a3 : flt) : Prop :=
  Forall fits_degrees (snd lon) /\ Forall fits_degrees (snd lat) /\ Forall fits_value [a1; a2; a3] /\
  fits_int (Zlen (snd lon)).
(** A grid takes its packed words and nine more; file positions are 32-bit. *)
Definition grid_size (bits cells : Z) : Z := 9 + words_for (bits * cells).
Definition fits_grid_file (bits cells : Z) (calls : list gcall) : Prop :=
  Zlen (keep_last same_header calls) * grid_size bits cells <= 2140000000.
