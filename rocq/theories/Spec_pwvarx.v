(** Specification vocabulary for the piecewise VARX model: reads the data and the reported coefficients
    directly, without the regression matrices of the code. *)
From Coq Require Import List Arith ZArith Reals.
From Verif Require Import Num Mat Py Spec Spec_varx M_pwvarx.
Import ListNotations.

(** feature f of sample t of a one- or two-dimensional array *)
Definition sample {T} {N : Num T} (a : arr T) (t f : nat) : T :=
  match a with A1 v => nth t v n0 | A2 M => nth f (nth t (dat M) []) n0 end.
Definition n_samples {T} (a : arr T) : nat := match a with A1 v => length v | A2 M => nr M end.
Definition n_features {T} (a : arr T) : nat := match a with A1 _ => 1 | A2 M => nc M end.
Definition n_factors {T} (exog : option (arr T)) : nat := match exog with Some u => n_features u | None => 0 end.
(** the label of sample t of the fitted part is component k *)
Definition labelled (labels : list Z) (t k : nat) : Prop := nth_error labels t = Some (Z.of_nat k).

Local Open Scope R_scope.
(** feature f of the forecast of sample t by a local model:
    mu + sum_tau A_tau y_{t - tau} + sum_tau B_tau u_{t - tau} *)
Definition pw_forecast (p s : nat) (endog : arr R) (exog : option (arr R)) (mu : nat -> R) (A B : list (mat R)) (t f : nat) : R :=
  mu f
  + Sum p (fun tau => Sum (n_features endog) (fun j => ent (nth tau A no_mat) f j * sample endog (t - S tau) j))
  + match exog with
    | None => 0
    | Some u => Sum s (fun tau => Sum (n_features u) (fun j => ent (nth tau B no_mat) f j * sample u (t - S tau) j))
    end.
(** the reported coefficients of component k; a model without trend has intercept 0 *)
Definition reported_mu (trend : bool) (mu : option (mat R)) (k f : nat) : R :=
  match mu with Some m => if trend then ent m k f else 0 | None => 0 end.
Definition reported_stack (o : option (list (list (mat R)))) (k : nat) : list (mat R) :=
  match o with Some l => nth k l [] | None => [] end.
(** sum of the squared forecast errors over the samples of component k *)
Definition component_error (P : nat) (endog : arr R) (labels : list Z) (k : nat) (forecast : nat -> nat -> R) : R :=
  Sum (n_samples endog - P) (fun t =>
    if Z.eqb (nth t labels (-1)%Z) (Z.of_nat k)
    then Sum (n_features endog) (fun f => (sample endog (P + t) f - forecast (P + t)%nat f) ^ 2) else 0).
