(** Specification vocabulary for linear programs and FEM-BV clustering, over the reals.
    Only the data types exchanged with the LP solver are shared with the model. *)
From Coq Require Import List Arith ZArith Reals.
From Verif Require Import Num Mat Lp Spec.
Import ListNotations.
Local Open Scope R_scope.

(** entry (i, j) of a sparse matrix *)
Definition csr_at (A : csr R) (i j : nat) : R :=
  fold_right (fun e acc => (if andb (Nat.eqb (fst (fst e)) i) (Nat.eqb (snd (fst e)) j) then snd e else 0) + acc) 0 (s_entries A).
(** (A v)_i *)
Definition csr_dot (A : csr R) (v : list R) (i : nat) : R := Sum (s_cols A) (fun j => csr_at A i j * at_ v j).

(** A_eq v = b_eq and A_ub v <= b_ub *)
Definition lp_feasible (p : lp R) (v : list R) : Prop :=
  length v = length (lp_c p)
  /\ (forall i, (i < s_rows (lp_A_eq p))%nat -> csr_dot (lp_A_eq p) v i = at_ (lp_b_eq p) i)
  /\ (forall i, (i < s_rows (lp_A_ub p))%nat -> csr_dot (lp_A_ub p) v i <= at_ (lp_b_ub p) i).
Definition lp_value (p : lp R) (v : list R) : R := Sum (length (lp_c p)) (fun j => at_ (lp_c p) j * at_ v j).
Definition lp_optimal (p : lp R) (v : list R) : Prop :=
  lp_feasible p v /\ forall u, lp_feasible p u -> lp_value p v <= lp_value p u.
Definition lp_infeasible (p : lp R) : Prop := forall v, ~ lp_feasible p v.
Definition lp_unbounded (p : lp R) : Prop := forall m, exists v, lp_feasible p v /\ lp_value p v < m.
(** contracts of the external solver: its answers are feasible / optimal; it reports failure only for
    infeasible or unbounded problems *)
Definition solver_feasible (s : nat -> lp R -> lp_answer R) : Prop := forall i p sol, s i p = LpValue sol -> lp_feasible p sol.
Definition solver_optimal (s : nat -> lp R -> lp_answer R) : Prop := forall i p sol, s i p = LpValue sol -> lp_optimal p sol.
Definition solver_honest (s : nat -> lp R -> lp_answer R) : Prop := forall i p, s i p = LpFailed -> lp_infeasible p \/ lp_unbounded p.

(** the variables of a FEM-BV program: the n x k weights row by row, then the (n - 1) x k slacks *)
Definition block (k n : nat) (v : list R) : mat R := mbuild n k (fun t i => at_ v (t * k + i)%nat).
Definition slack (k n : nat) (v : list R) (t i : nat) : R := at_ v (k * n + t * k + i)%nat.
(** number of variables; a bound counts only if it is a non-negative number *)
Definition n_variables (max_tv_norm : option R) (k n : nat) : nat :=
  (k * n + match max_tv_norm with Some C => if Rle_dec 0 C then k * (n - 1) else 0 | None => 0 end)%nat.

(** total variation of column i of a sequence of weights *)
Definition total_variation (G : mat R) (i : nat) : R :=
  Sum (nr G - 1) (fun t => Rabs (ent G (S t) i - ent G t i)).
(** the documented constraint set: probability vectors in every row and, if a non-negative bound is
    given, at most that much total variation of every component *)
Definition admissible (max_tv_norm : option R) (G : mat R) : Prop :=
  row_stochastic G /\
  forall C, max_tv_norm = Some C -> 0 <= C -> forall i, (i < nc G)%nat -> total_variation G i <= C.
(** the clustering cost of weights G for distances D *)
Definition clustering_cost (G D : mat R) : R := Sum (nr G) (fun t => Sum (nc G) (fun i => ent G t i * ent D t i)).
(** squared distance of data row t to centroid j *)
Definition centroid_dist2 (X Theta : mat R) (t j : nat) : R := Sum (nc X) (fun f => (ent X t f - ent Theta j f) ^ 2).
(** the k-means cost of weights G and centroids Theta *)
Definition kmeans_cost (X G Theta : mat R) : R :=
  Sum (nr G) (fun t => Sum (nc G) (fun j => ent G t j * centroid_dist2 X Theta t j)).
