(** Specification side of the sounding calculations. *)
From Verif Require Import Base Calc.
From Coq Require Import List ZArith.
Import ListNotations.

(** An entry that is there and is not the missing value; one that is the missing value *)
Definition present {A} (m : num A) (l : list (num A)) (i : nat) : Prop :=
  exists x, nth_error l i = Some x /\ n_eq A x m = false.
Definition absent {A} (m : num A) (l : list (num A)) (i : nat) : Prop :=
  exists x, nth_error l i = Some x /\ n_eq A x m = true.
(** The same entry in both *)
Definition same_at {N} (l l' : list N) (i : nat) : Prop := nth_error l' i = nth_error l i.
(** Equally long, and present entries are the same *)
Definition filled {A} (m : num A) (l l' : list (num A)) : Prop :=
  length l' = length l /\ forall i, present m l i -> same_at l l' i.

(** The next level above [i] with a height is [j] *)
Definition next_height {A} (m : num A) (h : list (num A)) (i j : nat) : Prop :=
  (i < j)%nat /\ present m h j /\ forall k, (i < k < j)%nat -> absent m h k.
(** The last level below [i] with a height is [a] *)
Definition last_height {A} (m : num A) (h : list (num A)) (i a : nat) : Prop :=
  (a < i)%nat /\ present m h a /\ forall k, (a < k < i)%nat -> absent m h k.
(** The next level with a height has a lower pressure, wherever a height is missing *)
Definition above_lower {A} (m : num A) (pr h : list (num A)) : Prop :=
  forall i j p q, nth_error pr i = Some p -> n_eq A p m = false -> absent m h i -> next_height m h i j ->
    nth_error pr j = Some q -> n_le A p q = false.
(** All six arrays have [n] entries *)
Definition aligned {N} (s : sounding N) (n : nat) : Prop := forall k, length (get s k) = n.
(** The height at pressure [p], linear in the logarithm of pressure between (pa, za) and (pj, zj) *)
Definition log_between (A : arith) (p pa za pj zj : num A) : num A :=
  n_add A za (n_mul A (n_sub A zj za) (n_div A (n_log A (n_div A p pa)) (n_log A (n_div A pj pa)))).
(** Positive and falling from each level to every higher one *)
Definition falling {A} (pr : list (num A)) : Prop :=
  (forall i j p q, (i < j)%nat -> nth_error pr i = Some p -> nth_error pr j = Some q -> n_lt A q p = true) /\
  forall p, In p pr -> n_le A p (n_lit A 0 0) = false.
