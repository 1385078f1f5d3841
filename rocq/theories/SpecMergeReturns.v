(** Specification side of merging that returns. *)
From Coq Require Import List ZArith String.
From Verif Require Import Base Calc SpecCalc Merge SpecMerge SpecMergeOrder.
From Coq Require Import List.
Import ListNotations.
Open Scope string_scope.
Open Scope Z_scope.

Section Parts.
Context {A : arith}.
Variable m : num A.          (* the missing value *)
(** The part [name], if it is there, has the arrays [ks], all of one length *)
Definition has_arrays (ps : parts_t A) (name : string) (ks : list key) : Prop :=
  forall p, assoc name ps = Some p -> exists n, forall k, In k ks -> exists l, assoc (key_name k) p = Some l /\ length l = n.
(** The part has no other arrays than the six of a sounding, all of one length *)
Definition only_levels (ps : parts_t A) (name : string) : Prop :=
  forall p, assoc name ps = Some p -> exists n, forall a l, In (a, l) p -> length l = n /\ exists k, a = key_name k.
(** Winds by pressure: the pressures are an array of their own, or the heights some of which are
    negative; directions and speeds are as many *)
Definition pressures_in (p : part A) (l : list (num A)) : Prop :=
  assoc "PRES" p = Some l \/
  (assoc "PRES" p = None /\ assoc "HGHT" p = Some l /\ exists z, In z l /\ given m z /\ n_lt A z (lit_ 0) = true).
Definition has_winds (ps : parts_t A) (name : string) : Prop :=
  forall p, assoc name ps = Some p -> exists l d v, pressures_in p l /\ assoc "DRCT" p = Some d /\ assoc "SPED" p = Some v /\
    length l = length v /\ length d = length v.
(** A pressure between 0 and 2000 hPa *)
Definition plausible (p : num A) : Prop := n_lt A (lit_ 0) p = true /\ n_le A p (lit_ 2000) = true.
(** Every pressure given in the part is plausible *)
Definition plausible_levels (ps : parts_t A) (name : string) : Prop :=
  forall i x, val A ps name PRES i = Ok x -> given m x -> plausible x.
(** Every level of the part with a value of [k] has a plausible pressure *)
Definition plausible_with (ps : parts_t A) (name : string) (k : key) : Prop :=
  forall i x y, val A ps name PRES i = Ok x -> val A ps name k i = Ok y -> given m y -> plausible x.
Definition plausible_winds (ps : parts_t A) (name : string) : Prop :=
  forall p l i x y, assoc name ps = Some p -> pressures_in p l -> nth_error l i = Some x -> val A ps name DRCT i = Ok y -> given m y -> plausible (n_abs A x).

(** A decoded sounding whose parts are regular *)
Definition regular (ps : parts_t A) : Prop :=
  (forall name, In name ["TTAA"; "TTCC"] ->
     has_arrays ps name keys /\ only_levels ps name /\ plausible_levels ps name) /\
  (forall name, In name ["TRPA"; "TRPC"] -> has_arrays ps name [PRES; TEMP; DWPT; DRCT; SPED] /\ plausible_with ps name TEMP) /\
  (forall name, In name ["TTBB"; "TTDD"] -> has_arrays ps name [PRES; TEMP; DWPT] /\ plausible_with ps name TEMP) /\
  (forall name, In name ["PPAA"; "PPCC"] -> has_arrays ps name [PRES; DRCT; SPED]) /\
  (forall name, In name ["MXWA"; "MXWC"] -> has_arrays ps name [PRES; DRCT; SPED] /\ plausible_with ps name DRCT) /\
  (forall name, In name ["PPBB"; "PPDD"] -> has_winds ps name /\ plausible_winds ps name).
End Parts.
