(** C83: grid files and the arrays of the caller. *)
From Verif Require Import Base Order Floats Tools Dates Strings Headers Station Grid GridShare SpecShare GridShareFacts Props_GridFile.
From Coq Require Import List.
Import ListNotations.
Open Scope Z_scope.

(** ** C83 *)

(** A program that fills one array again and again and adds it each time: both grids of the file
    show the last cells.  The file that would hold each grid as it was added has other cells. *)
Definition at_hour (h : Z) : gcall :=
  mk_gcall None (Some [84;77;80;67]) (VCStr [112;114;101;115]) (LNum (PInt 500)) (ADDt (mk_dt 2024 2 29 h 0 0 0)) LNone None.
Definition nine (z : Z) : list flt := repeat (of_Z z) 9.
Definition one_array : heap := fun _ => ([3; 3], nine 1).
Definition refill : list step := [Pass (at_hour 0) 0%nat; Assign 0%nat (nine 2); Pass (at_hour 1) 0%nat].
Theorem C83_refill_refuted : exists g h l,
  (let '(h', s') := run_shared h (new_shared g) l in map snd (gd_data (seen h' s')) = [nine 2; nine 2]) /\
  map snd (gd_data (intended g h l)) = [nine 1; nine 2].
Proof. exists ex_geom, one_array, refill. vm_compute. auto. Qed.
Print Assumptions C83_refill_refuted.

(** The caller's own array is changed when it has NaN cells. *)
Theorem C83_caller_refuted : exists g h l r,
  (let '(h', s') := run_shared h (new_shared g) l in snd (h' r) = missing_float :: repeat (of_Z 1) 8) /\
  snd (own_arrays h l r) = S754_nan :: repeat (of_Z 1) 8.
Proof.
  exists ex_geom, (fun _ => ([3; 3], S754_nan :: repeat (of_Z 1) 8)), [Pass (at_hour 0) 0%nat], 0%nat. vm_compute. auto.
Qed.
Print Assumptions C83_caller_refuted.

(** Programs that do not assign to an array after passing it: the file holds every grid as it was
    when it was added, whatever else the program does (arrays passed more than once, calls that
    raise, any number of calls). *)
Theorem C83_left_alone_partial : forall g h l h' s', left_alone [] l -> run_shared h (new_shared g) l = (h', s') ->
  seen h' s' = intended g h l.
Proof.
  intros g h l h' s' LA R. refine (proj2 (shared_run l h h (new_shared g) [] h' s' _ _ LA R)).
  - intros r. left. reflexivity.
  - intros r [].
Qed.
Print Assumptions C83_left_alone_partial.

(** Whatever the program does, adding grids changes the caller's arrays in NaN cells only: these
    become the missing value. *)
Theorem C83_arrays_kept_partial : forall g h l h' s' r, run_shared h (new_shared g) l = (h', s') ->
  fst (h' r) = fst (own_arrays h l r) /\
  (forall i x, nth_error (snd (own_arrays h l r)) i = Some x -> fnan x = false -> nth_error (snd (h' r)) i = Some x) /\
  (forall i x, nth_error (snd (own_arrays h l r)) i = Some x -> fnan x = true ->
     nth_error (snd (h' r)) i = Some x \/ nth_error (snd (h' r)) i = Some missing_float) /\
  length (snd (h' r)) = length (snd (own_arrays h l r)).
Proof.
  intros g h l h' s' r R. assert (C : close h' (own_arrays h l)) by (eapply only_nan; [|exact R]; intros y; left; reflexivity).
  destruct (C r) as [->| ->]; [auto|]. cbn [filled fst snd]. split; [reflexivity|]. split; [|split; [|apply map_length]].
  - intros i x E N. rewrite nth_error_map, E. cbn [option_map]. unfold fill_nan. rewrite N. reflexivity.
  - intros i x E N. right. rewrite nth_error_map, E. cbn [option_map]. unfold fill_nan. rewrite N. reflexivity.
Qed.
Print Assumptions C83_arrays_kept_partial.

(* two arrays, the first with a NaN cell and passed twice, the second filled before it is passed *)
Definition careful : list step :=
  [Pass (at_hour 0) 0%nat; Assign 1%nat (nine 5); Pass (at_hour 1) 1%nat; Pass (at_hour 2) 0%nat].
Example C83_satisfiable : left_alone [] careful /\
  map snd (gd_data (intended ex_geom (fun _ => ([3; 3], S754_nan :: repeat (of_Z 1) 8)) careful)) =
  [missing_float :: repeat (of_Z 1) 8; nine 5; missing_float :: repeat (of_Z 1) 8].
Proof. split; [cbn; intuition discriminate|vm_compute; reflexivity]. Qed.
