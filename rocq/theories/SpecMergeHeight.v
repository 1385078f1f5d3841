(** Specification side of the significant winds on height surfaces in a merged sounding. *)
From Coq Require Import List ZArith String Sorted.
From Verif Require Import Base Calc SpecCalc Merge SpecMergeOrder.
From Coq Require Import List.
Import ListNotations.
Open Scope string_scope.
Open Scope Z_scope.

Section Height.
Context {A : arith}.
Notation N := (num A).
Variable m : N.          (* the missing value *)

(** The winds of the part are on height surfaces: there is a speed, there are no pressures, and no
    height is negative *)
Definition on_height (ps : parts_t A) (name : string) : Prop :=
  exists p h v, assoc name ps = Some p /\ assoc "PRES" p = None /\ assoc "HGHT" p = Some h /\ assoc "SPED" p = Some v /\ v <> [] /\
    forall z, In z h -> given m z -> n_lt A z (lit_ 0) = false.
(** There is no wind in the part *)
Definition no_winds (ps : parts_t A) (name : string) : Prop :=
  assoc name ps = None \/ exists p, assoc name ps = Some p /\ assoc "SPED" p = Some [].
(** None is higher than a later one *)
Definition not_falling (l : list N) : Prop := StronglySorted (fun a b => n_lt A b a = false) l.
(** The heights of the levels are given and do not fall; [ok] says which values are numbers *)
Definition rising_heights (ok : N -> Prop) (s : sounding N) : Prop :=
  not_falling (get s HGHT) /\ Forall (given m) (get s HGHT) /\ Forall ok (get s HGHT).
(** A level with this height and wind *)
Definition wind_at (s : sounding N) (h d v : N) : Prop :=
  exists j, nth_error (get s HGHT) j = Some h /\ nth_error (get s DRCT) j = Some d /\ nth_error (get s SPED) j = Some v.
(** A level less than one metre away *)
Definition level_within_1m (s : sounding N) (h : N) : Prop :=
  exists z, In z (get s HGHT) /\ n_lt A (n_abs A (n_sub A z h)) (lit_ 1) = true.
End Height.
