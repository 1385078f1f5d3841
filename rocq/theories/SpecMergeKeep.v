(** Specification side of what merging keeps of the mandatory levels. *)
From Coq Require Import List ZArith String.
From Verif Require Import Base Calc SpecCalc Merge SpecMergeOrder.
From Coq Require Import List.
Import ListNotations.
Open Scope string_scope.
Open Scope Z_scope.

Section Keep.
Context {A : arith}.
Notation N := (num A).
Variable m : N.          (* the missing value *)

(** Level [i] of part [name] has the six values [v] *)
Definition reports (ps : parts_t A) (name : string) (i : nat) (v : key -> N) : Prop :=
  forall k, val A ps name k i = Ok (v k).
(** The pressure is lower than everything that may be taken for the surface pressure: the first
    pressure of TTAA, TTBB and PPBB (there without its sign, and also if stored as height), or 2000 hPa when there is none *)
Definition above_surface (ps : parts_t A) (p : N) : Prop :=
  n_lt A p (lit_ 2000) = true /\
  (forall name q, name = "TTAA" \/ name = "TTBB" -> val A ps name PRES 0 = Ok q -> given m q -> n_lt A p q = true) /\
  (on_pressure m ps "PPBB" -> forall q, val A ps "PPBB" PRES 0 = Ok q \/ val A ps "PPBB" HGHT 0 = Ok q -> given m q -> n_lt A p (n_abs A q) = true).
(** Level [i] of part [name] is a mandatory level above the surface (the first level of TTAA is the
    surface itself) and its pressure is lower than that of the mandatory levels before it *)
Definition mandatory_level (ps : parts_t A) (name : string) (i : nat) (p : N) : Prop :=
  above_surface ps p /\
  (name = "TTAA" /\ (1 <= i)%nat /\ (forall j q, (1 <= j < i)%nat -> val A ps "TTAA" PRES j = Ok q -> n_lt A p q = true) \/
   name = "TTCC" /\ (forall j q, (1 <= j)%nat -> val A ps "TTAA" PRES j = Ok q -> n_lt A p q = true) /\
                    (forall j q, (j < i)%nat -> val A ps "TTCC" PRES j = Ok q -> n_lt A p q = true)).
(** No tropopause is reported at that pressure *)
Definition no_tropopause_at (ps : parts_t A) (p : N) : Prop :=
  forall name l x, name = "TRPA" \/ name = "TRPC" -> arr A ps name PRES = Ok l -> In x l -> n_eq A p (n_abs A x) = false.
(** What is kept of a level: pressure and temperature; dewpoint if there is one; wind if there is
    direction and speed, and [winds] holds; height if [height] holds *)
Definition survives (height winds : Prop) (v : key -> N) (k : key) : Prop :=
  match k with
  | PRES | TEMP => True
  | DWPT => given m (v DWPT)
  | DRCT | SPED => winds /\ given m (v DRCT) /\ given m (v SPED)
  | HGHT => height
  end.
(** Some level of [s] has these values *)
Definition has_level (s : sounding N) (v : key -> N) (kept : key -> Prop) : Prop :=
  exists j, forall k, kept k -> nth_error (get s k) j = Some (v k).
End Keep.
