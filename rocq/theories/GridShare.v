(** Model of grid files with the caller's arrays: [add_grid] keeps the array it is given, not a
    copy of it.  Grid.v models the same code with the cells at the time of the call; here the
    object refers to the caller's arrays, which the caller can change. *)
From Verif Require Import Base Order Floats Tools Station Grid.
From Coq Require Import List.
Import ListNotations.
Open Scope Z_scope.

(** The arrays the program has, by number *)
Definition heap := nat -> ndarray.
Definition put (h : heap) (r : nat) (a : ndarray) : heap := fun x => if Nat.eqb x r then a else h x.

(** The object: [self.data] (encode/gempak.py:936) holds references; the [gd_data] of [sh_file] is
    not used. *)
Record shared := mk_shared { sh_file : gridfile; sh_refs : list (gcol * nat) }.

Definition with_data (o : gridfile) (d : list (gcol * list flt)) : gridfile :=
  mk_gf (gd_geom o) (gd_precision o) (gd_packing o) (gd_col_set o) d (gd_cols o) (gd_col_headers o) (gd_ptrs o).
(** What [to_gempak] sees: the cells the arrays have at that moment (1033-1051). *)
Definition seen (h : heap) (s : shared) : gridfile :=
  with_data (sh_file s) (map (fun '(c, r) => (c, snd (h r))) (sh_refs s)).

(** The arguments of a call but for the array *)
Definition with_array (q : gcall) (a : ndarray) : gcall :=
  mk_gcall (Some a) (q_parm q) (q_vcoord q) (q_level q) (q_time q) (q_level2 q) (q_time2 q).

(** encode/gempak.py:757-945, [add_grid] of the array number [r]: [_replace_nan] (316-320) fills the
    NaN cells of the caller's array in place, and the array itself is stored. *)
Definition add_shared (h : heap) (s : shared) (q : gcall) (r : nat) : heap * shared * res unit :=
  let o := sh_file s in
  match check_grid (gd_geom o) (with_array q (h r)) with
  | Err x => (h, s, Err x)
  | Ok (c, cells) =>
      let set := set_add gcol_cmp c (gd_col_set o) in
      let n := Zlen set in
      let o1 hs := mk_gf (gd_geom o) (gd_precision o) (gd_packing o) set [] n hs (gd_ptrs o) in
      let refs := dict_set gcol_cmp c r (sh_refs s) in
      let h1 := put h r (fst (h r), cells) in
      if 1 + n >? MMHDRS then (h1, mk_shared (o1 (gd_col_headers o)) refs, Err ValueError)
      else match sort_headers set with
           | Err x => (h1, mk_shared (o1 (gd_col_headers o)) refs, Err x)
           | Ok hs => (h1, mk_shared (o1 hs) refs, Ok tt)
           end
  end.

(** Programs: calls of [add_grid] (exceptions are caught), and assignments to the cells of an array
    ([a[:] = ...]) *)
Inductive step := Pass (q : gcall) (r : nat) | Assign (r : nat) (cells : list flt).
Fixpoint run_shared (h : heap) (s : shared) (l : list step) : heap * shared :=
  match l with
  | [] => (h, s)
  | Pass q r :: t => let '(h1, s1, _) := add_shared h s q r in run_shared h1 s1 t
  | Assign r cells :: t => run_shared (put h r (fst (h r), cells)) s t
  end.
Definition new_shared (g : geom) : shared := mk_shared (new_grid_file g) [].
