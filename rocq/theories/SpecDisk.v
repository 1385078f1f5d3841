(** Specification side of writing files: interrupted calls, and what a call means to leave on disk. *)
From Coq Require Import ZArith String.
From Verif Require Import Base Words Station Grid Vgf Disk.
From Coq Require Import List.
Import ListNotations.

(** The disk when the process dies during these operations; of the bytes handed to [write] any
    number may have reached the disk *)
Inductive interrupted : disk -> list op -> disk -> Prop :=
| at_once : forall d l, interrupted d l d
| in_write : forall d p b l n, interrupted d (Written p b :: l) (step d (Written p (firstn n b)))
| later : forall d x l d', interrupted (step d x) l d' -> interrupted d (x :: l) d'.

Definition path_of (c : wcall) : string := match c with WStation _ p _ => p | WGrid _ p _ => p | WVgf p _ => p end.
Definition is_gempak (c : wcall) : Prop := match c with WVgf _ _ => False | _ => True end.
(** The whole file the call is to write *)
Definition complete_file (c : wcall) (b : bytes) : Prop :=
  match c with
  | WStation e _ o => snd (save e o) = Ok b
  | WGrid e _ o => snd (save_grid e o) = Ok b
  | WVgf _ l => to_vgf l = (b, None)
  end.
(** The call leaves [b] in its file *)
Definition leaves (can_open : string -> bool) (c : wcall) (b : bytes) : Prop :=
  can_open (path_of c) = true /\
  (complete_file c b \/ exists p l x, c = WVgf p l /\ to_vgf l = (b, Some x)).
Definition leaves_nothing (can_open : string -> bool) (c : wcall) : Prop := forall b, ~ leaves can_open c b.
