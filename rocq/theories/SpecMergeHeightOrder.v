(** Specification side of the order of merged levels with winds on height surfaces. *)
From Coq Require Import List ZArith String.
From Verif Require Import Base Calc SpecCalc Merge SpecMergeOrder.
From Coq Require Import List.
Import ListNotations.
Open Scope string_scope.
Open Scope Z_scope.

(** The pressure at the height [z], from the pressures [pb] and [pt] at the heights [zb] and [zt] *)
Definition pressure_at {A} (pb pt zb zt z : num A) : num A :=
  n_mul A pb (n_exp A (n_div A (n_mul A (n_sub A z zb) (n_log A (n_div A pt pb))) (n_sub A zt zb))).
(** Numbers without rounding: they are ordered, and a pressure interpolated strictly between two
    heights lies strictly between their pressures and falls with height *)
Record exact_numbers (A : arith) : Prop := {
  x_irr : forall x, n_lt A x x = false;
  x_trans : forall x y z, n_lt A x y = true -> n_lt A y z = true -> n_lt A x z = true;
  x_split : forall x y z, n_lt A x z = true -> n_lt A x y = true \/ n_lt A y z = true;
  x_eq : forall x y, n_eq A x y = negb (n_lt A x y) && negb (n_lt A y x);
  x_le : forall x y, n_le A x y = negb (n_lt A y x);
  x_abs : forall x, n_lt A (n_abs A x) (lit_ 0) = false;
  x_abs_0 : forall x, n_eq A x (lit_ 0) = false -> n_lt A (lit_ 0) (n_abs A x) = true;
  x_near : forall x y, n_eq A x y = true -> n_lt A (n_abs A (n_sub A x y)) (lit_ 1) = true;
  x_between : forall pb pt zb zt z, n_lt A (lit_ 0) pt = true -> n_lt A pt pb = true -> n_lt A zb z = true -> n_lt A z zt = true ->
    n_lt A pt (pressure_at pb pt zb zt z) = true /\ n_lt A (pressure_at pb pt zb zt z) pb = true;
  x_falls : forall pb pt zb zt z z', n_lt A (lit_ 0) pt = true -> n_lt A pt pb = true -> n_lt A zb z = true -> n_lt A z z' = true -> n_lt A z' zt = true ->
    n_lt A (pressure_at pb pt zb zt z') (pressure_at pb pt zb zt z) = true }.

Section Parts.
Context {A : arith}.
Variable m : num A.          (* the missing value *)
(** The given pressures of all parts are positive *)
Definition positive_pressures (ps : parts_t A) : Prop :=
  forall name p l x, assoc name ps = Some p -> assoc "PRES" p = Some l -> In x l -> given m x -> n_lt A (lit_ 0) x = true.
(** No given height of the significant winds is negative *)
Definition heights_not_negative (ps : parts_t A) : Prop :=
  forall name p l z, In name ["PPBB"; "PPDD"] -> assoc name ps = Some p -> assoc "HGHT" p = Some l -> In z l -> given m z -> n_lt A z (lit_ 0) = false.
(** The pressures, strictly falling and all given, with mandatory levels of higher pressure than the
    lowest one put in between *)
Definition falling_pressures (ps : parts_t A) (s : sounding (num A)) : Prop :=
  exists p levels below, descending (p :: levels) /\ Forall (given m) (p :: levels) /\ woven (p :: levels) below (get s PRES) /\
    forall q, In q below -> n_lt A p q = true /\ exists i, val A ps "TTAA" PRES i = Ok q.
End Parts.
