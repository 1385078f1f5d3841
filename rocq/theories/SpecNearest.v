(** What it means to be the floating-point number nearest to a rational. *)
From Coq Require Import ZArith QArith Qabs.
From Verif Require Import Base Floats Order.

(** A finite double no finite double is nearer to q than *)
Definition nearest (q : Q) (f : flt) : Prop :=
  valid64 f = true /\ finite f = true /\
  forall g, valid64 g = true -> finite g = true -> (Qabs (q_of f - q) <= Qabs (q_of g - q))%Q.
