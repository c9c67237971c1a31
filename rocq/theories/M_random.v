(** Model of src/reor/_random_matrix.py and src/reor/_validation.py *)
From Coq Require Import List Arith ZArith Bool.
From Verif Require Import Num Mat Py.
Import ListNotations.

Section RandomMatrix.
  Context {T : Type} {N : Num T}.
  Local Open Scope num_scope.

  (** _random_matrix.py:5-12, 21-23: axis 0, m / column sums *)
  Definition left_stochastic_matrix (r c : nat) (g : rng T) : mat T * rng T :=
    let '(m, g') := draw_uniform_mat r c g in
    let axis_sums := tab c (fun j => nsum r (fun i => mget m i j)) in
    (mbuild r c (fun i j => mget m i j / vget axis_sums j), g').

  (** _random_matrix.py:5-14, 26-28: axis 1, m / row sums *)
  Definition right_stochastic_matrix (r c : nat) (g : rng T) : mat T * rng T :=
    let '(m, g') := draw_uniform_mat r c g in
    let axis_sums := tab r (fun i => nsum c (fun j => mget m i j)) in
    (mbuild r c (fun i j => mget m i j / vget axis_sums i), g').

  (** np.isclose(a, 1) with the default rtol = 1e-5, atol = 1e-8:
      |a - 1| <= atol + rtol * |1|  (NaN compares false) *)
  Definition isclose_one (a : T) : bool :=
    nabs (a - n1) <=? (n1 / nofZ 100000000 + n1 / nofZ 100000 * nabs n1).

  (** _validation.py:9-15 for a 2-d array and axis = 1 / axis = 0, and a 1-d array *)
  Definition check_unit_row_sums (A : mat T) : res unit :=
    if forallb isclose_one (tab (nr A) (fun i => nsum (nc A) (fun j => mget A i j)))
    then Ok tt else Raise ValueError.
  Definition check_unit_col_sums (A : mat T) : res unit :=
    if forallb isclose_one (tab (nc A) (fun j => nsum (nr A) (fun i => mget A i j)))
    then Ok tt else Raise ValueError.
  Definition check_unit_vec_sum (v : list T) : res unit :=
    if isclose_one (vsum v) then Ok tt else Raise ValueError.

  (** _validation.py:18-22 *)
  Definition check_array_shape (A : mat T) (r c : nat) : res unit :=
    if andb (Nat.eqb (nr A) r) (Nat.eqb (nc A) c) then Ok tt else Raise ValueError.

  (** sklearn's check_array on an optional argument: a missing array (None) is a 0-d object
      array, which check_array rejects with ValueError, as it does arrays with an entry that is
      NaN or infinite (x - x is 0 exactly for finite x).  check_array also rejects empty arrays;
      inputs here are non-empty 2-d arrays. *)
  Definition nfinite (x : T) : bool := neqb (x - x) n0.
  Definition all_finite (M : mat T) : bool :=
    forallb (fun i => forallb (fun j => nfinite (mget M i j)) (seq 0 (nc M))) (seq 0 (nr M)).
  Definition check_array (A : option (mat T)) : res (mat T) :=
    match A with
    | Some M => if all_finite M then Ok M else Raise ValueError
    | None => Raise ValueError
    end.

  (** gpnh_convex_coding.py:27-30 = mtd_convex_coding.py:29-32 = archetypal_analysis.py:29-32
      = fembv.py:24-27 *)
  Definition check_init_weights (w : option (mat T)) (r c : nat) : res (mat T) :=
    let! M := check_array w in
    let! _ := check_array_shape M r c in
    let! _ := check_unit_row_sums M in
    Ok M.
  (** gpnh_convex_coding.py:33-35 = mtd_convex_coding.py:35-37 *)
  Definition check_init_dictionary (d : option (mat T)) (r c : nat) : res (mat T) :=
    let! M := check_array d in
    let! _ := check_array_shape M r c in
    Ok M.
  (** archetypal_analysis.py:35-38 *)
  Definition check_init_aa_dictionary (d : option (mat T)) (r c : nat) : res (mat T) :=
    let! M := check_array d in
    let! _ := check_array_shape M r c in
    let! _ := check_unit_row_sums M in
    Ok M.
End RandomMatrix.
