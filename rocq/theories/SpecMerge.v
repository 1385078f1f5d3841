(** Specification side of merging. *)
From Coq Require Import List ZArith String.
From Verif Require Import Base Calc SpecCalc Merge.
Import ListNotations.
Open Scope string_scope.

(** Six arrays of one length *)
Definition equally_long {N} (s : sounding N) : Prop := exists n, aligned s n.
(** The part [name], if it is there, has each array once (as a dictionary does) *)
Definition dictionary {A} (ps : parts_t A) (name : string) : Prop :=
  forall p, assoc name ps = Some p -> NoDup (map fst p).
(** The part [name], if it is there, has all six arrays *)
Definition complete {A} (ps : parts_t A) (name : string) : Prop :=
  forall p k, assoc name ps = Some p -> In (key_name k) (map fst p).
