(** Arrays of nonnegative floating-point numbers; resolution of the step lengths *)
From Coq Require Import ZArith Reals List.
From Verif Require Import Num Mat Py M_spg Spec Spec_rnd.
Import ListNotations.
Local Open Scope R_scope.

Definition nonneg_float (rnd : R -> R) (x : R) : Prop := 0 <= x /\ representable rnd x.
(** every entry; entries outside of an array read as 0, which is a nonnegative floating-point number *)
Definition nonneg_vec (rnd : R -> R) (v : list R) : Prop := forall i, nonneg_float rnd (at_ v i).
Definition nonneg_mat (rnd : R -> R) (M : mat R) : Prop := forall i j, nonneg_float rnd (ent M i j).
Definition nonneg_stack (rnd : R -> R) (Ts : list (mat R)) : Prop := forall q, nonneg_mat rnd (nth q Ts (mkmat 0 0 [])).
(** uniform draws are nonnegative floating-point numbers *)
Definition float_draws (rnd : R -> R) (g : rng R) : Prop := forall p, nonneg_float rnd (r_uniform g p).

(** a backtracking step multiplies the step length by at most this factor, up to [eta] *)
Definition contraction (u : R) (p : ls_params R) : R := Rmax (1 / 2) (ls_sigma_two p) * (1 + u).
(** sigma_two < 1 - u, and the step tolerance is above the resolution of the subnormal numbers *)
Definition step_resolution (u eta : R) (p : ls_params R) : Prop :=
  0 <= ls_sigma_one p /\ ls_sigma_two p <= 1 /\ 0 < ls_step_tol p
  /\ contraction u p < 1 /\ eta < (1 - contraction u p) * ls_step_tol p.
