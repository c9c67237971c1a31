(** Model of src/reor/simplex_projection.py *)
From Coq Require Import List Arith ZArith.
From Verif Require Import Num Mat.
Import ListNotations.

Section Simplex.
  Context {T : Type} {N : Num T}.
  Local Open Scope num_scope.

  (** np.sort (simplex_projection.py:12).  Insertion sort; the algorithm is irrelevant for
      comparable values.  numpy puts NaN last. *)
  Fixpoint insert (x : T) (l : list T) : list T :=
    match l with
    | [] => [x]
    | y :: t => if orb (x <=? y) (nisnan y) then x :: l else y :: insert x t
    end.
  Fixpoint np_sort (l : list T) : list T :=
    match l with [] => [] | x :: t => insert x (np_sort t) end.

  (** simplex_projection.py:17-20, one pass of the loop body.  [i] runs over n-2, n-3, ..., 0, -1;
      [k = n - 1 - i] is the number of largest entries summed: sorted_x[-k:].sum().  *)
  Definition t_hat_at (sorted_x : list T) (k : nat) : T :=
    (vsum (skipn (length sorted_x - k) sorted_x) - n1) / nofnat k.
  (** sorted_x[i] for i = n - 1 - k >= 0; for i = -1 (k = n) Python reads the last element. *)
  Definition sorted_at (sorted_x : list T) (k : nat) : T :=
    if Nat.eqb k (length sorted_x) then vget sorted_x (length sorted_x - 1)
    else vget sorted_x (length sorted_x - 1 - k).
  (** the loop; [left] = iterations left after this one, [k] as above *)
  Fixpoint t_hat_loop (sorted_x : list T) (left k : nat) : T :=
    let t := t_hat_at sorted_x k in
    if t >=? sorted_at sorted_x k then t                       (* :19-20 break *)
    else match left with O => t | S left' => t_hat_loop sorted_x left' (S k) end.
  (** range(n - 2, -2, -1) has n elements, k = 1 .. n;  no iteration (t_hat = 0) if n = 0 *)
  Definition t_hat (sorted_x : list T) : T :=
    match length sorted_x with O => n0 | S m => t_hat_loop sorted_x m 1 end.

  (** simplex_projection.py:9-22 *)
  Definition simplex_project_vector (x : list T) : list T :=
    let t := t_hat (np_sort x) in
    map (fun xi => nfmax (xi - t) n0) x.

  (** simplex_projection.py:25-30: the loop over columns; each pass rewrites one column in place. *)
  Definition set_col (A : mat T) (j : nat) (v : list T) : mat T :=
    mbuild (nr A) (nc A) (fun i j' => if Nat.eqb j' j then vget v i else mget A i j').
  Definition set_row (A : mat T) (i : nat) (v : list T) : mat T :=
    mbuild (nr A) (nc A) (fun i' j => if Nat.eqb i' i then vget v j else mget A i' j).
  Definition simplex_project_columns (A : mat T) : mat T :=
    fold_left (fun B i => set_col B i (simplex_project_vector (mcol B i))) (seq 0 (nc A)) A.
  (** simplex_projection.py:33-38 *)
  Definition simplex_project_rows (A : mat T) : mat T :=
    fold_left (fun B i => set_row B i (simplex_project_vector (mrow B i))) (seq 0 (nr A)) A.
End Simplex.
