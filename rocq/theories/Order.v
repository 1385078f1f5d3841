(** Python's ordering and equality of the values used as keys, and the containers built on them:
    OrderedSet, dict, sorted().  Definitions only. *)
From Coq Require Import QArith.
From Verif Require Import Base Floats Strings Dates Headers.
Open Scope Z_scope.

(** The value of a finite float. *)
Definition pow2q (e : Z) : Q := if e <? 0 then 1 # (Z.to_pos (2 ^ (- e))) else inject_Z (2 ^ e).
Definition q_of (f : flt) : Q :=
  match f with
  | S754_finite s m e => (if s then inject_Z (Z.neg m) else inject_Z (Z.pos m)) * pow2q e
  | _ => 0%Q
  end.
Definition finite (f : flt) : bool :=
  match f with S754_finite _ _ _ | S754_zero _ => true | _ => false end.

(** int/float comparison in Python is by exact value.  Simplification: NaN is put after
    everything else and equals itself (in Python every comparison with NaN is False, and
    container membership falls back on identity). *)
Definition num_rank (n : pynum) : Z :=
  match n with
  | PFloat (S754_infinity true) => -1
  | PFloat (S754_infinity false) => 1
  | PFloat S754_nan => 2
  | _ => 0
  end.
Definition num_value (n : pynum) : Q :=
  match n with PInt z => inject_Z z | PFloat f => q_of f end.
Definition then_cmp (c d : comparison) : comparison := match c with Eq => d | _ => c end.
Definition num_cmp (a b : pynum) : comparison :=
  then_cmp (num_rank a ?= num_rank b) (Qcompare (num_value a) (num_value b)).

(** datetime.date and datetime.time *)
Definition date_cmp (a b : date) : comparison :=
  then_cmp (da_y a ?= da_y b) (then_cmp (da_mo a ?= da_mo b) (da_d a ?= da_d b)).
Definition time_cmp (a b : time) : comparison :=
  then_cmp (ti_h a ?= ti_h b) (then_cmp (ti_mi a ?= ti_mi b)
    (then_cmp (ti_s a ?= ti_s b) (ti_us a ?= ti_us b))).

Definition is_eq (c : comparison) : bool := match c with Eq => true | _ => false end.

(** x in l; OrderedSet.add (tools.py:199-222: the keys of a dict, so an equal item already
    present stays as it is); d[k] = v; d.get(k); sorted(l). *)
Section Containers.
  Context {K : Type} (cmp : K -> K -> comparison).
  Definition mem (x : K) (l : list K) : bool := existsb (fun y => is_eq (cmp x y)) l.
  Definition set_add (x : K) (l : list K) : list K := if mem x l then l else l ++ [x].
  Fixpoint dict_set {V} (k : K) (v : V) (d : list (K * V)) : list (K * V) :=
    match d with
    | [] => [(k, v)]
    | (k', v') :: r => if is_eq (cmp k k') then (k', v) :: r else (k', v') :: dict_set k v r
    end.
  Fixpoint dict_get {V} (k : K) (d : list (K * V)) : option V :=
    match d with
    | [] => None
    | (k', v) :: r => if is_eq (cmp k k') then Some v else dict_get k r
    end.
  (** sorted(): stable, so insertion sort gives the same list. *)
  Fixpoint insert (x : K) (l : list K) : list K :=
    match l with
    | [] => [x]
    | y :: r => match cmp x y with Gt => y :: insert x r | _ => x :: l end
    end.
  Definition sort (l : list K) : list K := fold_right insert [] l.
End Containers.
