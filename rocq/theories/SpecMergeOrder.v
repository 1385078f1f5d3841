(** Specification side of the order of merged levels. *)
From Coq Require Import List ZArith String Sorted SpecFloat.
From Verif Require Import Base Floats Calc SpecCalc Merge.
From Coq Require Import List.
Import ListNotations.
Open Scope string_scope.
Open Scope Z_scope.

(** Each element is less than the one before *)
Definition descending {A} (l : list (num A)) : Prop := StronglySorted (fun a b => n_lt A b a = true) l.
(** [r] consists of [l], in its order, with the elements of [b] put in between *)
Inductive woven {X} : list X -> list X -> list X -> Prop :=
| woven_nil : woven [] [] []
| woven_left : forall x l b r, woven l b r -> woven (x :: l) b (x :: r)
| woven_right : forall x l b r, woven l b r -> woven l (x :: b) (x :: r).

Section Parts.
Context {A : arith}.
Variable m : num A.          (* the missing value *)
Definition given (x : num A) : Prop := n_eq A x m = false.
Definition lit_ (z : Z) : num A := n_lit A z 0.

(** The part has values on pressure surfaces: an array of pressures, or of heights some of which
    are negative (pressures stored as heights) *)
Definition on_pressure (ps : parts_t A) (name : string) : Prop :=
  forall p, assoc name ps = Some p ->
    In "PRES" (map fst p) \/ exists h z, assoc "HGHT" p = Some h /\ In z h /\ given z /\ n_lt A z (lit_ 0) = true.

(** The mandatory levels begin with a usable surface level: its pressure is given, not negative, at
    most 1060 hPa and not lower than the pressure of a level with temperature and height *)
Definition surface_in_TTAA (ps : parts_t A) : Prop :=
  exists p, val A ps "TTAA" PRES 0 = Ok p /\ given p /\ n_lt A p (lit_ 0) = false /\ n_lt A (lit_ 1060) p = false /\
    forall i q t z, val A ps "TTAA" PRES i = Ok q -> val A ps "TTAA" TEMP i = Ok t -> val A ps "TTAA" HGHT i = Ok z ->
      given q -> given t -> given z -> n_lt A p q = false.
(** The significant temperatures begin with pressure and temperature of the surface *)
Definition surface_in_TTBB (ps : parts_t A) : Prop :=
  exists p t, val A ps "TTBB" PRES 0 = Ok p /\ val A ps "TTBB" TEMP 0 = Ok t /\ given p /\ given t.
Definition surface_reported (ps : parts_t A) : Prop := surface_in_TTAA ps \/ surface_in_TTBB ps.
(** No value of any part is a NaN ([ok] says which values are not) *)
Definition numbers (ok : num A -> Prop) (ps : parts_t A) : Prop :=
  forall name p k l, In (name, p) ps -> In (k, l) p -> Forall ok l.
End Parts.
Definition not_nan (x : flt) : Prop := x <> S754_nan.
