(** gpnh_convex_coding_crom.py with the slices of Python for lags of any sign.  M_crom.v reads the
    slices for positive lags only; the constructor accepts every integer array. *)
From Coq Require Import List Arith ZArith Bool.
From Verif Require Import Num Mat Py M_simplex M_spg M_iter M_random M_furthest M_gpnh M_mtd M_crom.
Import ListNotations.

Section LAGS.
  Context {T : Type} {N : Num T}.
  Local Open Scope num_scope.

  (** One bound of a Python slice of a sequence of length n: negative bounds count from the end, and
      the result is clipped to 0 .. n. *)
  Definition py_bound (n : nat) (z : Z) : nat :=
    let z' := if (z <? 0)%Z then (z + Z.of_nat n)%Z else z in
    Z.to_nat (Z.max 0 (Z.min (Z.of_nat n) z')).
  (** M[lo:hi] for integers of any sign *)
  Definition py_slice (lo hi : Z) (M : mat T) : mat T :=
    mslice (py_bound (nr M) lo) (py_bound (nr M) hi) M.
  (** M[lo:] *)
  Definition py_from (lo : Z) (M : mat T) : mat T := mslice (py_bound (nr M) lo) (nr M) M.

  (** lags.max(): ValueError for an empty array (gpnh_convex_coding_crom.py:132) *)
  Definition py_max_lag (lags : list Z) : res Z :=
    match lags with [] => Raise ValueError | l :: ls => Ok (fold_left Z.max ls l) end.
  (** the value used after [py_max_lag] has succeeded *)
  Definition zmax_of (lags : list Z) : Z := match py_max_lag lags with Ok m => m | Raise _ => 0%Z end.
  (** lags[i] *)
  Definition zlag (lags : list Z) (i : nat) : Z := nth i lags 0%Z.
  (** Gamma[max_lag - lag:-lag] (:137) *)
  Definition py_lagged (lags : list Z) (lag : Z) (G : mat T) : mat T :=
    py_slice (zmax_of lags - lag)%Z (- lag)%Z G.

  (** Z[a:] += V, in place: V must have as many rows as the slice, or a single row, which is added to
      every row of the slice; ValueError otherwise.  [V] has [m] rows and the number of columns of Z. *)
  Definition add_rows (a m : nat) (V : nat -> nat -> T) (Z : mat T) : res (mat T) :=
    let r := (nr Z - a)%nat in
    if Nat.eqb m r then
      Ok (mbuild (nr Z) (nc Z) (fun t j => if Nat.ltb t a then mget Z t j else mget Z t j + V (t - a)%nat j))
    else if Nat.eqb m 1 then
      Ok (mbuild (nr Z) (nc Z) (fun t j => if Nat.ltb t a then mget Z t j else mget Z t j + V 0%nat j))
    else Raise ValueError.

  (** the loop of _update_predicted_weights (:134-138): the lags from index [i] on *)
  Fixpoint py_add_lags (lags rest : list Z) (i : nat) (ow : list T) (Ts : list (mat T)) (G Z : mat T) : res (mat T) :=
    match rest with
    | [] => Ok Z
    | lag :: rest' =>
        let V := mmul (py_lagged lags lag G) (mtr (tmat Ts i)) in
        let! Z' := add_rows (py_bound (nr G) (zmax_of lags)) (nr V) (fun s j => vget ow i * mget V s j) Z in
        py_add_lags lags rest' (S i) ow Ts G Z'
    end.
  (** gpnh_convex_coding_crom.py:127-138 _update_predicted_weights: zeros, Z[:max_lag] = Gamma[:max_lag],
      then the loop *)
  Definition py_predicted_weights (lags : list Z) (ow : list T) (Ts : list (mat T)) (G : mat T) : res (mat T) :=
    let! m := py_max_lag lags in
    let a := py_bound (nr G) m in
    let Z0 := mbuild (nr G) (nc G) (fun t j => if Nat.ltb t a then mget G t j else n0) in
    py_add_lags lags lags 0 ow Ts G Z0.
  (** The call made at the start of the parameter fit decides whether it raises: the outcome depends on
      the lags and the number of samples only (theorem C86_shape).  The later calls use this value. *)
  Definition py_Z (lags : list Z) (ow : list T) (Ts : list (mat T)) (G : mat T) : mat T :=
    match py_predicted_weights lags ow Ts G with Ok Z => Z | Raise _ => G end.

  Definition py_set_parameters (lags : list Z) (G : mat T) (ow : list T) (Ts : list (mat T)) (w : cws T) : cws T :=
    mk_cws ow Ts (py_Z lags ow Ts G) (cw_alpha w) (cw_mem w).
  Definition py_initialize_workspace (c : mtd_cfg T) (lags : list Z) (G : mat T) (ow : list T) (Ts : list (mat T)) : cws T :=
    mk_cws ow Ts (py_Z lags ow Ts G) n1 (repeat n0 (mc_memory c)).

  (** 1.0 / (n_components * (n_samples - max_lag)) (:150, :162) *)
  Definition py_normalization (lags : list Z) (k n : nat) : T :=
    n1 / (nofnat k * nofZ (Z.of_nat n - zmax_of lags)).
  (** self.Gamma[max_lag:] - self.Z[max_lag:] *)
  Definition py_residual (lags : list Z) (G : mat T) (w : cws T) : mat T :=
    msub (py_from (zmax_of lags) G) (py_from (zmax_of lags) (cw_Z w)).
  (** gpnh_convex_coding_crom.py:140-155 _evaluate_fit_residual *)
  Definition py_fit_residual (lags : list Z) (k n : nat) (G : mat T) (w : cws T) : T :=
    if Nat.eqb k 1 then n0 else
    let value := n0 + nsq (mnorm (py_residual lags G w)) in
    py_normalization lags k n * value.
  (** gpnh_convex_coding_crom.py:157-177 _update_parameters_gradient *)
  Definition py_order_gradient (lags : list Z) (k n : nat) (G : mat T) (w : cws T) : list T :=
    tab (length lags) (fun i =>
      nofZ (-2) * py_normalization lags k n
      * mtrace (mmul (mmul (py_residual lags G w) (tmat (cw_transition_matrices w) i))
                     (mtr (py_lagged lags (zlag lags i) G)))).
  Definition py_transition_gradient (lags : list Z) (k n : nat) (G : mat T) (w : cws T) : list (mat T) :=
    tab (length lags) (fun i =>
      mscale (nofZ (-2) * py_normalization lags k n * vget (cw_order_weights w) i)
             (mmul (mtr (py_residual lags G w)) (py_lagged lags (zlag lags i) G))).

  (** gpnh_convex_coding_crom.py:179-226 _parameters_line_search *)
  Definition py_line_search (fuel : nat) (c : mtd_cfg T) (lags : list Z) (k n : nat) (G : mat T) (w : cws T)
             (grad_ow incr_ow : list T) (grad_T incr_T : list (mat T)) : res (cws T * T * list T) :=
    let current_cost := py_fit_residual lags k n G w in
    let ow_old := cw_order_weights w in
    let T_old := cw_transition_matrices w in
    line_search fuel (mc_ls c) (py_fit_residual lags k n G)
      (fun s => py_set_parameters lags G (vadd ow_old (vscale s incr_ow)) (tadd T_old (tscale s incr_T)) w)
      (py_set_parameters lags G (vadd ow_old incr_ow) (tadd T_old incr_T) w)
      (cw_mem w) current_cost (vinner incr_ow grad_ow + tinner incr_T grad_T).
  (** gpnh_convex_coding_crom.py:228-274 _update_parameters *)
  Definition py_update_parameters (fuel : nat) (c : mtd_cfg T) (lags : list Z) (k n : nat) (G : mat T) (w0 : cws T) : res (cws T) :=
    let w := py_set_parameters lags G (cw_order_weights w0) (cw_transition_matrices w0) w0 in
    let grad_ow := py_order_gradient lags k n G w in
    let grad_T := py_transition_gradient lags k n G w in
    let incr_ow := vsub (simplex_project_vector
                           (vsub (cw_order_weights w) (vscale (cw_alpha w) grad_ow)))
                        (cw_order_weights w) in
    let incr_T := tsub (map simplex_project_columns
                          (tsub (cw_transition_matrices w) (tscale (cw_alpha w) grad_T)))
                       (cw_transition_matrices w) in
    let! r := py_line_search fuel c lags k n G w grad_ow incr_ow grad_T incr_T in
    let '(w1, step_size, mem) := r in
    let delta_ow := vsub (py_order_gradient lags k n G w1) grad_ow in
    let delta_T := tsub (py_transition_gradient lags k n G w1) grad_T in
    let sksk := nsq step_size * (vinner incr_ow incr_ow + tinner incr_T incr_T) in
    let beta := step_size * (vinner incr_ow delta_ow + tinner incr_T delta_T) in
    Ok (mk_cws (cw_order_weights w1) (cw_transition_matrices w1) (cw_Z w1)
          (get_next_spg_alpha beta sksk (ls_alpha_min (mc_ls c)) (ls_alpha_max (mc_ls c))) mem).

  (** gpnh_convex_coding_crom.py:276-325 _fit_parameters.  [c] supplies the line search parameters, the
      memory and the monotonicity flag; its lags are not read. *)
  Definition py_fit_parameters (fuel : nat) (c : mtd_cfg T) (lags : list Z) (k n : nat) (G : mat T) (tolerance : T)
             (max_iterations : nat) (g : rng T) : res (cws T * rng T * nat * list T) :=
    let '(ow, Ts, g') := initialize_parameters_random k (length lags) g in
    let! _ := py_predicted_weights lags ow Ts G in
    let w0 := py_initialize_workspace c lags G ow Ts in
    let! r := iterate (py_fit_residual lags k n G) (cost_increased (mc_monotone c))
                [py_update_parameters fuel c lags k n G] tolerance max_iterations w0 in
    let '(w, _, n_iter, log) := r in
    Ok (w, g', n_iter, log).

  (** gpnh_convex_coding_crom.py:327-352 fit_transform *)
  Definition crom_fit_transform_py (fuel : nat) (o : crom T) (data : mat T)
             (dictionary weights : option (mat T)) (upd_d upd_w : bool) (kw : option fs_kwargs)
    : res (crom_run T * mat T) :=
    let! rw := fit_transform fuel (co_gpnh o) data dictionary weights upd_d upd_w kw in
    let '(r, G) := rw in
    let gc := go_cfg (gr_obj r) in
    let! kmt := check_params (go_n_components (gr_obj r)) (gc_max_iterations gc) (gc_tolerance gc) in
    let '(k, max_iterations, tolerance) := kmt in
    let! p := py_fit_parameters fuel (crom_cfg gc []) (co_lags o) k (nr data) G tolerance max_iterations (go_rng (gr_obj r)) in
    let '(w, g', n_iter, log) := p in
    Ok (mk_crom_run (mk_crom (set_rng g' (gr_obj r)) (co_lags o)
                       (Some (cw_order_weights w, cw_transition_matrices w)))
                    r n_iter log, G).
End LAGS.
