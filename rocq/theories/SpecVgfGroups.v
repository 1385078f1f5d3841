(** Specification side of the list of group types of a vector graphics file. *)
From Coq Require Import ZArith.
From Verif Require Import Base SpecVgfLoop SpecVgfFields.
From Coq Require Import List.
Import ListNotations.
Open Scope Z_scope.

(** Each number of the list once, in the order of its first appearance *)
Fixpoint distinct (l : list Z) : list Z :=
  match l with [] => [] | x :: r => x :: filter (fun y => negb (y =? x)) (distinct r) end.
(** Zero stands for no group *)
Definition group_types (l : list Z) : list Z := distinct (filter (fun g => negb (g =? 0)) l).

Definition group_at (d : bytes) (p : nat) : Z := nth (p + 7) d 0.
(** Where the records start, from byte [p] to the end of the file: a record that is shown ends with
    its last field, any other one after the size it states *)
Inductive records (d : bytes) : nat -> list nat -> Prop :=
| no_more : records d (length d) []
| shown_record p L ps : (p < length d)%nat -> layout_at d p = Some L -> records d (at_byte p (l_end L)) ps -> records d p (p :: ps)
| other_record p ps : (p < length d)%nat -> layout_at d p = None -> records d (at_byte p (size_at d p)) ps -> records d p (p :: ps).
(** The group types of the records other than headers *)
Definition groups_at (d : bytes) (ps : list nat) : list Z :=
  group_types (map (group_at d) (filter (fun p => negb (class_at d p =? 0)) ps)).
