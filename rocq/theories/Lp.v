(** Data exchanged with scipy.sparse and cvxpy: sparse matrices and linear programs. *)
From Coq Require Import List Arith Bool.
From Verif Require Import Num Mat Py.
Import ListNotations.

(** scipy.sparse.csr_matrix: shape and the (row, column, value) entries it was built from.
    Entries at the same position add up. *)
Record csr (T : Type) : Type := mk_csr { s_rows : nat; s_cols : nat; s_entries : list (nat * nat * T) }.
Arguments mk_csr {T}. Arguments s_rows {T}. Arguments s_cols {T}. Arguments s_entries {T}.

(** minimise c . v subject to A_eq v = b_eq, A_ub v <= b_ub *)
Record lp (T : Type) : Type := mk_lp {
  lp_c : list T; lp_A_eq : csr T; lp_b_eq : list T; lp_A_ub : csr T; lp_b_ub : list T }.
Arguments mk_lp {T}. Arguments lp_c {T}. Arguments lp_A_eq {T}. Arguments lp_b_eq {T}. Arguments lp_A_ub {T}. Arguments lp_b_ub {T}.

(** Outcome of [problem.solve(...)] followed by reading [problem.status] and the variable's value. *)
Inductive lp_answer (T : Type) : Type :=
| LpFailed                       (* status 'infeasible' or 'unbounded' *)
| LpValue (sol : list T)         (* any other status, with a value *)
| LpNoValue                      (* any other status, value None (e.g. 'infeasible_inaccurate') *)
| LpRaises (e : exn).            (* solve raised *)
Arguments LpFailed {T}. Arguments LpValue {T}. Arguments LpNoValue {T}. Arguments LpRaises {T}.

Section Sparse.
  Context {T : Type}.
  (** csr_matrix((coeffs, (rows, cols)), shape=(r, c)): ValueError unless the three arrays have one
      length and all indices fit the shape *)
  Definition csr_matrix (coeffs : list T) (rows cols : list nat) (r c : nat) : res (csr T) :=
    if andb (andb (Nat.eqb (length rows) (length coeffs)) (Nat.eqb (length cols) (length coeffs)))
            (andb (forallb (fun i => Nat.ltb i r) rows) (forallb (fun j => Nat.ltb j c) cols))
    then Ok (mk_csr r c (combine (combine rows cols) coeffs))
    else Raise ValueError.
  (** np.repeat(l, m): every element m times *)
  Definition np_repeat {A} (l : list A) (m : nat) : list A := flat_map (fun x => repeat x m) l.
  (** np.tile(l, m): the whole array m times *)
  Definition np_tile {A} (l : list A) (m : nat) : list A := concat (repeat l m).
  (** np.arange(lo, hi) *)
  Definition np_arange (lo hi : nat) : list nat := seq lo (hi - lo).
End Sparse.
