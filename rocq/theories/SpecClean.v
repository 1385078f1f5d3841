(** Specification side of the clean-up of text read from vector graphics files. *)
From Coq Require Import ZArith List.
Import ListNotations.
Open Scope Z_scope.

(** The code points Python counts as white space *)
Definition white (c : Z) : Prop :=
  9 <= c <= 13 \/ 28 <= c <= 32 \/ 8192 <= c <= 8202 \/ In c [133; 160; 5760; 8232; 8233; 8239; 8287; 12288].

(** [t] is [s] without the white space at its ends. *)
Definition stripped (s t : list Z) : Prop :=
  exists a b, s = a ++ t ++ b /\ Forall white a /\ Forall white b /\
    (forall c r, t = c :: r -> ~ white c) /\ (forall c r, t = r ++ [c] -> ~ white c).

(** [t] is [s] with a line break for every pair of dollar signs, taken from the left. *)
Inductive broken : list Z -> list Z -> Prop :=
| bk_end : broken [] []
| bk_pair : forall s t, broken s t -> broken (36 :: 36 :: s) (10 :: t)
| bk_char : forall c s t, (c <> 36 \/ forall r, s <> 36 :: r) -> broken s t -> broken (c :: s) (c :: t).
