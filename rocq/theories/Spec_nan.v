(** NaN among the inputs.  Vocabulary for the claims over [ext], the real numbers with the
    infinities and NaN. *)
From Coq Require Import List Arith Reals.
From Verif Require Import Num NumExt Mat Py.
Import ListNotations.

(** row i, column j *)
Definition cell (M : mat ext) (i j : nat) : ext := nth j (nth i (dat M) []) (Fin 0).
(** M has a NaN at position (i, j) *)
Definition nan_at (M : mat ext) (i j : nat) : Prop := i < nr M /\ j < nc M /\ cell M i j = NaN.
Definition has_nan (M : mat ext) : Prop := exists i j, nan_at M i j.
Definition row_zero (M : mat ext) (i : nat) : Prop := forall j, j < nc M -> cell M i j = Fin 0.
Definition all_zero (M : mat ext) : Prop := forall i, i < nr M -> row_zero M i.
Definition all_nan (M : mat ext) : Prop := forall i j, i < nr M -> j < nc M -> cell M i j = NaN.
Definition column_nan (M : mat ext) (j : nat) : Prop := forall i, i < nr M -> cell M i j = NaN.
(** the uniform draws are real numbers in (0, 1] *)
Definition good_draws (g : rng ext) : Prop := forall i, exists x, r_uniform g i = Fin x /\ (0 < x <= 1)%R.
(** the usual outcome of a run whose cost is NaN throughout: all [m] iterations, nothing reported *)
Definition nan_outcome (m : nat) (cost : ext) (n_iter : nat) (log : list ext) (warned : bool) : Prop :=
  cost = NaN /\ S n_iter = m /\ log = repeat NaN (S m) /\ warned = false.
