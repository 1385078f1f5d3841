(** What a caller expects of the objects given to a query.  Definitions only. *)
From Coq Require Import QArith List.
From Verif Require Import Base Floats Strings Dates Headers Station StationRead Grid GridRead Query Args.

(** The argument as a value or a list of values *)
Definition given {A} (o : arg A) : some_of A :=
  match o with AOne x => One x | AList l => Many l | ATuple l => Many l | AIter l => Many l end.
Definition given_gd (o : gdobj) : gdargs :=
  mk_gda (option_map given (o_parameter o)) (option_map given (o_time o)) (option_map given (o_coordinate o)) (option_map given (o_level o))
    (option_map given (o_time2 o)) (option_map given (o_level2 o)).
Definition given_st (o : stobj) : stargs :=
  mk_sta (option_map given (o_id o)) (option_map given (o_number o)) (option_map given (o_when o)) (option_map given (o_state o))
    (option_map given (o_country o)) (o_bbox o).

(** Not an iterator *)
Definition again {A} (o : option (arg A)) : Prop := forall l, o <> Some (AIter l).
(** Times: not an iterator, and a tuple holds datetimes only *)
Definition times_ok (o : option (arg titem)) : Prop :=
  again o /\ forall l, o = Some (ATuple l) -> forall s, ~ In (TStr s) l.

(** The object is the same afterwards *)
Definition untouched {A} (o o' : option (arg A)) : Prop := again o -> o' = o.
(** A list of times afterwards: the same length, each item the same or the datetime its text stands for *)
Definition same_time (x y : titem) : Prop := y = x \/ exists s t, x = TStr s /\ strptime fmt_YmdHM s = Ok t /\ y = TDt t.
Definition times_after (o o' : option (arg titem)) : Prop :=
  match o with
  | Some (AList l) => exists l', o' = Some (AList l') /\ Forall2 same_time l l'
  | Some (AIter _) => True
  | _ => o' = o
  end.
(** All texts are replaced *)
Definition datetimes (o : option (arg titem)) : Prop := forall l, o = Some (AList l) -> forall s, ~ In (TStr s) l.
