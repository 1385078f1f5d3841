(** The arithmetic of Python floats, for the sounding calculations. *)
From Verif Require Import Base Floats Calc.
From Coq Require Import ZArith SpecFloat.
Open Scope Z_scope.

(** Floats compared as binary64; the operations are parameters. *)
Definition f64_with (ad su mu di md : flt -> flt -> flt) (ab lg ex : flt -> flt) : arith :=
  mk_arith flt SFeqb SFltb SFleb ad su mu di md ab lg ex (fun x => x)
    (fun m e => if e <? 0 then di (of_Z m) (of_Z (10 ^ (- e))) else of_Z (m * 10 ^ e)).
(** binary64, as gemcalc.py computes with Python floats and numpy float64.  The logarithm, the
    exponential and the remainder remain parameters: nothing is assumed of them.  A decimal literal
    is the quotient of two integers that are exact in binary64, hence correctly rounded. *)
Definition f64 (lg ex : flt -> flt) (md : flt -> flt -> flt) : arith :=
  f64_with fadd fsub fmul fdiv md SFabs lg ex.
