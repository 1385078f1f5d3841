(** Specification side of grid files and the caller's arrays. *)
From Verif Require Import Base Order Floats Tools Station Grid GridShare.
From Coq Require Import List.
Import ListNotations.

(** The arrays as the program itself leaves them: only its assignments change them. *)
Fixpoint own_arrays (h : heap) (l : list step) : heap :=
  match l with
  | [] => h
  | Pass _ _ :: t => own_arrays h t
  | Assign r cells :: t => own_arrays (put h r (fst (h r), cells)) t
  end.
(** The calls, each with the array as the program has it at the time of the call. *)
Fixpoint calls_of (h : heap) (l : list step) : list gcall :=
  match l with
  | [] => []
  | Pass q r :: t => with_array q (h r) :: calls_of h t
  | Assign r cells :: t => calls_of (put h r (fst (h r), cells)) t
  end.
(** The file when every call stores the grid it is given. *)
Definition intended (g : geom) (h : heap) (l : list step) : gridfile :=
  fold_left (fun o q => fst (add_grid o q)) (calls_of h l) (new_grid_file g).
(** No array is assigned to after it was passed to [add_grid]. *)
Fixpoint left_alone (passed : list nat) (l : list step) : Prop :=
  match l with
  | [] => True
  | Pass _ r :: t => left_alone (r :: passed) t
  | Assign r _ :: t => ~ In r passed /\ left_alone passed t
  end.
