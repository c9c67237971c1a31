(** Rounded arithmetic: every operation returns the rounded exact result.

    This is the arithmetic of numpy's float64 as long as nothing overflows and no NaN appears, when
    [rnd] is the rounding of IEEE 754 binary64: +, -, *, / and sqrt are correctly rounded, negation, abs
    and comparisons are exact, an integer is converted by rounding it.  The order of additions is the one of the
    model ([nsum]: left to right); numpy's sum and dot may associate differently. *)
From Coq Require Import ZArith Reals.
From Verif Require Import Num.
Local Open Scope R_scope.

Definition Num_rnd (rnd : R -> R) : Num R := {|
  n0 := 0; n1 := 1;
  nadd := fun a b => rnd (a + b); nsub := fun a b => rnd (a - b); nmul := fun a b => rnd (a * b);
  ndiv := fun a b => rnd (a / b); nopp := Ropp; nabs := Rabs; nsqrt := fun a => rnd (sqrt a);
  nleb := Rleb; nltb := Rltb; neqb := Reqb;
  nnan := 0; nofZ := fun z => rnd (IZR z)
|}.
