(** Specification for the layout properties (independent of the model's helpers). *)
From Verif Require Import Base.

(** A section: first word and number of words. *)
Definition section := (Z * Z)%type.

(** Sections in file order: each ends before every later one begins. *)
Definition disjoint_increasing (l : list section) : Prop :=
  ForallOrdPairs (fun a b => fst a + snd a <= fst b) l /\ Forall (fun s => 1 <= fst s /\ 0 <= snd s) l.

(** A word that starts a 128-word record (records start at words 1, 129, 257, ...). *)
Definition starts_record (w : Z) : Prop := exists k, 0 <= k /\ w = 128 * k + 1.

Fixpoint sum (l : list Z) : Z := match l with [] => 0 | x :: r => x + sum r end.
