(** What a program sees of the queries on an open file.  Definitions only. *)
From Coq Require Import QArith List.
From Verif Require Import Base Floats Strings Dates StationRead Query SnOut GridRead Tools ReaderIO.
From Verif Require Calc.
Import ListNotations.

(** The queries a program can make on an open station file, and what they return *)
Inductive scall :=
| CSnxarray (a : stargs)
| CSfjson (a : stargs) (include_special : bool)
| CNearest (when : titem) (a : ntargs) (include_special : bool).
Inductive sresult := Datasets (l : list dataset) | Objects (l : list sfobj).

(** The thread's query is not disturbed by the other one: if it comes to its end in the schedule, with the answer [r], that is
    the answer it gives when nothing else runs *)
Definition undisturbed {A} (schedule : list bool) (mine other : prog A) (b : iobuf) : Prop :=
  forall r other' b', interleave schedule mine other b = (Done r, other', b') -> r = snd (run mine b).

(** A query between two reads: it has ended, or what it does next is to move from the start of the file to the place it
    reads from *)
Definition between_reads {A} (p : prog A) : Prop :=
  match p with
  | Done _ => True
  | Jump mark _ _ => mark = start
  | _ => False
  end.
(** A schedule that takes the turn from a thread only when the query of that thread is between two reads; [turn] is the thread
    that has it first *)
Fixpoint turns_between_reads {A} (turn : bool) (schedule : list bool) (p q : prog A) (b : iobuf) : Prop :=
  match schedule with
  | [] => True
  | t :: s =>
      (t = turn \/ between_reads (if turn then p else q)) /\
      (if t then let '(p', b') := step p b in turns_between_reads true s p' q b'
       else let '(q', b') := step q b in turns_between_reads false s p q' b')
  end.
