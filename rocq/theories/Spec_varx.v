(** Specification vocabulary for vector autoregressive models with external factors. *)
From Coq Require Import List Arith ZArith Reals.
From Verif Require Import Num Mat Py Spec.
Import ListNotations.
Local Open Scope R_scope.

(** feature f of the forecast of sample t by the VARX(p, s) model (mu, A_1..A_p, B_1..B_s, B_0):
    mu + sum_tau A_tau y_{t - tau} + sum_tau B_tau u_{t - tau} + B_0 u_t *)
Definition no_mat : mat R := mkmat 0 0 [].
Definition varx_forecast (p s : nat) (y : mat R) (u : option (mat R))
           (mu : list R) (A B : list (mat R)) (B0 : mat R) (t f : nat) : R :=
  at_ mu f
  + Sum p (fun tau => Sum (nc y) (fun j => ent (nth tau A no_mat) f j * ent y (t - S tau) j))
  + match u with
    | None => 0
    | Some U =>
        Sum s (fun tau => Sum (nc U) (fun j => ent (nth tau B no_mat) f j * ent U (t - S tau) j))
        + Sum (nc U) (fun j => ent B0 f j * ent U t j)
    end.
Definition reported_list (o : option (list (mat R))) : list (mat R) := match o with Some l => l | None => [] end.
Definition reported_mat (o : option (mat R)) : mat R := match o with Some M => M | None => no_mat end.

(** sum of the squared errors of a linear regression Y ~ Z B *)
Definition regression_error (Z Y B : mat R) : R :=
  Sum (nr Y) (fun t => Sum (nc Y) (fun f => (ent Y t f - Sum (nc Z) (fun q => ent Z t q * ent B q f)) ^ 2)).
(** contracts of the external least-squares and inversion routines *)
Definition lstsq_shape (lstsq : mat R -> mat R -> res (mat R)) : Prop :=
  forall Z Y B, lstsq Z Y = Ok B -> is_mat (nc Z) (nc Y) B.
Definition lstsq_minimises (lstsq : mat R -> mat R -> res (mat R)) : Prop :=
  forall Z Y B, lstsq Z Y = Ok B ->
    forall B', is_mat (nc Z) (nc Y) B' -> regression_error Z Y B <= regression_error Z Y B'.
Definition inv_shape (inv : mat R -> res (mat R)) : Prop := forall S S', inv S = Ok S' -> nr S' = nr S.
(** weighted sum of the squared errors of a forecast after the first P samples *)
Definition weighted_error (P : nat) (y : mat R) (w : nat -> R) (forecast : nat -> nat -> R) : R :=
  Sum (nr y - P) (fun t => w (P + t)%nat * Sum (nc y) (fun f => (ent y (P + t) f - forecast (P + t)%nat f) ^ 2)).
