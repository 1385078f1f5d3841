(** Specification side of the reports of tropopause, significant and maximum wind levels in a merged sounding. *)
From Coq Require Import List ZArith String.
From Verif Require Import Base Calc SpecCalc Merge SpecMergeOrder SpecMergeKeep.
From Coq Require Import List.
Import ListNotations.
Open Scope string_scope.
Open Scope Z_scope.

Section Report.
Context {A : arith}.
Notation N := (num A).
Variable m : N.          (* the missing value *)

(** Level [i] of part [name] has the pressure [x]; significant winds may have their pressures stored as heights *)
Definition pressure (ps : parts_t A) (name : string) (i : nat) (x : N) : Prop :=
  exists p l, assoc name ps = Some p /\ nth_error l i = Some x /\
    (assoc "PRES" p = Some l \/ (name = "PPBB" \/ name = "PPDD") /\ assoc "PRES" p = None /\ assoc "HGHT" p = Some l).
(** Some part reports the values [a] and [b] of [k1] and [k2] at the pressure [p] *)
Definition reported (ps : parts_t A) (p : N) (k1 k2 : key) (a b : N) : Prop :=
  exists name i x, pressure ps name i x /\ n_eq A (n_abs A x) p = true /\ val A ps name k1 i = Ok a /\ val A ps name k2 i = Ok b.
(** The parts that are merged level by level: the one below 100 hPa, the one above *)
Definition temperature_parts : list (string * string) := [("TRPA", "TRPC"); ("TTBB", "TTDD")].
Definition wind_parts : list (string * string) := [("PPBB", "PPDD"); ("MXWA", "MXWC")].
(** Level [i] of [name], one of the two parts, has the pressure [p] (without sign), not higher than the
    pressures reported before it in the two parts *)
Definition in_order (ps : parts_t A) (parts : string * string) (name : string) (i : nat) (p : N) : Prop :=
  (exists x, pressure ps name i x /\ p = n_abs A x) /\
  (name = fst parts \/ name = snd parts /\ forall j y, pressure ps (fst parts) j y -> n_lt A (n_abs A y) p = false) /\
  forall j y, (j < i)%nat -> pressure ps name j y -> n_lt A (n_abs A y) p = false.
(** The merged sounding has a level at the pressure [p] with the values [a] of [k1] and, if it is
    given, [b] of [k2] *)
Definition level_with (s : sounding N) (p : N) (k1 k2 : key) (a b : N) : Prop :=
  exists j q, nth_error (get s PRES) j = Some q /\ n_eq A q p = true /\ nth_error (get s k1) j = Some a /\
    (given m b -> nth_error (get s k2) j = Some b).
End Report.
