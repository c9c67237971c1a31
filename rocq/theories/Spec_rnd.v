(** What is assumed of a rounding function *)
From Coq Require Import ZArith Reals List.
From Verif Require Import Num Mat Spec.
Local Open Scope R_scope.

(** [u] bounds the relative error of normal results, [eta] the absolute error of subnormal ones.  binary64
    with round to nearest: u = 2^-53, eta = 2^-1075 (up to overflow); see [P_b64.b64_rounding]. *)
Record rounding (u eta : R) (rnd : R -> R) : Prop := mk_rounding {
  rnd_mono : forall x y, x <= y -> rnd x <= rnd y;
  rnd_odd : forall x, rnd (- x) = - rnd x;
  rnd_idem : forall x, rnd (rnd x) = rnd x;
  rnd_one : rnd 1 = 1;
  rnd_two : rnd 2 = 2;
  rnd_half : rnd (1 / 2) = 1 / 2;
  rnd_err : forall x, Rabs (rnd x - x) <= u * Rabs x + eta;
  rnd_u : 0 <= u;
  rnd_eta : 0 <= eta }.
(** a floating-point number *)
Definition representable (rnd : R -> R) (x : R) : Prop := rnd x = x.
(** the numbers of elements that are added up are exact: for binary64 all n <= 2^53 *)
Definition counts_exact (rnd : R -> R) (n : nat) : Prop := forall k, (k <= n)%nat -> rnd (INR k) = INR k.
Definition abs_sum (x : list R) : R := Sum (length x) (fun i => Rabs (at_ x i)).
