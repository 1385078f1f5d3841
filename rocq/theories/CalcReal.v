(** The sounding calculations in exact real arithmetic. *)
From Verif Require Import Base Calc.
From Coq Require Import List ZArith Reals.
Open Scope R_scope.

Definition rmod (x y : R) : R := x - y * IZR (Int_part (x / y)).
(** gemcalc.py's numbers as real numbers: no rounding, no NaN, no infinity *)
Definition reals : arith :=
  mk_arith R (fun x y => if Req_EM_T x y then true else false) (fun x y => if Rlt_dec x y then true else false)
    (fun x y => if Rle_dec x y then true else false) Rplus Rminus Rmult Rdiv rmod Rabs ln exp (fun x => x)
    (fun m e => IZR m * powerRZ 10 e).

(** [x] lies between [a] and [b] *)
Definition in_between (a b x : R) : Prop := Rmin a b <= x <= Rmax a b.
(** The same direction in degrees *)
Definition same_angle (x y : R) : Prop := exists k : Z, x = y + 360 * IZR k.
