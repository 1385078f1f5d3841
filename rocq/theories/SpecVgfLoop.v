(** Specification side of reading arbitrary vector graphics files: fields of a record by their
    place in the file, and records visited. *)
From Verif Require Import Base Floats Strings Structs Tools VgfBase VgfRead SpecVgf.
From Coq Require Import List.
Import ListNotations.
Open Scope Z_scope.

(** The signed 32-bit big-endian integer at byte [i] *)
Definition i32_at (b : bytes) (i : nat) : Z :=
  let u := u32_at b i in if u <? 2147483648 then u else u - 4294967296.
(** Where the header starts: class, size, and the counts of lists and tracks *)
Definition class_at (b : bytes) (i : nat) : Z := nth (i + 2) b 0.
Definition size_at (b : bytes) (i : nat) : Z := i32_at b (i + 20).
Definition list_items_at (b : bytes) (i : nat) : Z := i32_at b (i + 40 + 16).
Definition track_points_at (b : bytes) (i : nat) : Z := i32_at b (i + 40 + 4).
(** A record with a positive size field, at most 500 list items and at most 50 track points *)
Definition sane (b : bytes) (i : nat) : Prop :=
  1 <= size_at b i /\ (class_at b i = 14 -> list_items_at b i <= 500) /\ (class_at b i = 10 -> track_points_at b i <= 50).

(** States of the loop *)
Inductive reached (tca : vhdr -> str -> res (list velem)) (data : bytes) : vstate -> Prop :=
| r_start : reached tca data (vgf_start data)
| r_round : forall s s', reached tca data s -> vstep tca s = Ok (inl s') -> reached tca data s'.

(** The four-byte numbers at byte [i] *)
Definition f32_at (b : bytes) (i : nat) : flt := unpack_f32 BE (firstn 4 (skipn i b)).
Definition floats_at (b : bytes) (i n : nat) : list flt := map (fun k => f32_at b (i + 4 * k)) (seq 0 n).
Definition type_at (b : bytes) (i : nat) : Z := nth (i + 1) b 0.
Definition closed_at (b : bytes) (i : nat) : Z := nth (i + 4) b 0.
(** The number of points of a line, and the direction of a special line *)
Definition line_points_at (b : bytes) (i : nat) : Z := i32_at b (i + 40).
Definition direction_at (b : bytes) (i : nat) : Z := i32_at b (i + 40 + 12).
(** [n] coordinates at byte [i], rounded to two decimals *)
Definition coords_at (b : bytes) (i : nat) (n : Z) : list flt := map around2 (floats_at b i (Z.to_nat n)).
(** Followed by the first *)
Definition and_first (l : list flt) : list flt := l ++ firstn 1 l.
(** A complete header the reader accepts: delete flag, colours, size *)
Definition accepted (b : bytes) (i : nat) : Prop :=
  (i + 40 <= length b)%nat /\ 0 <= nth i b 0 <= 1 /\ 0 <= i32_at b (i + 12) <= 32 /\ 0 <= i32_at b (i + 16) <= 32 /\ size_at b i <= Zlen b.
