(** Model of src/reor/gpnh_convex_coding_crom.py *)
From Coq Require Import List Arith ZArith Bool.
From Verif Require Import Num Mat Py M_simplex M_spg M_iter M_random M_furthest M_gpnh M_mtd.
Import ListNotations.

Section CROM.
  Context {T : Type} {N : Num T}.
  Local Open Scope num_scope.

  (** The lags argument (gpnh_convex_coding_crom.py:77-82): None, a numpy integer array, or an object
      without attribute size (a list, tuple or number). *)
  Inductive crom_lags_arg := CLNone | CLArray (l : list Z) | CLOther.

  (** The object: the GPNHConvexCoding part, the lags as stored, and the transition model
      (None until a fit has set it; the np.empty arrays of the constructor are never read). *)
  Record crom := mk_crom {
    co_gpnh : gpnh T;
    co_lags : list Z;
    co_parameters : option (list T * list (mat T))
  }.

  (** gpnh_convex_coding_crom.py:74-100 __init__.  np.empty((n_lags, n_components, n_components)):
      TypeError unless n_components is an integer, ValueError if it is negative. *)
  Definition crom_new (c : gpnh_cfg T) (lags : crom_lags_arg) (n_components : pyval T) (g : rng T) : res crom :=
    let! l := match lags with
              | CLNone => Ok [1%Z]
              | CLArray l => Ok l
              | CLOther => Raise AttributeError
              end in
    match n_components with
    | PInt z => if (z <? 0)%Z then Raise ValueError
                else Ok (mk_crom (gpnh_new c n_components g) l None)
    | _ => Raise TypeError
    end.

  (** The functions this class has in common with MTDConvexCoding (word for word:
      _update_predicted_weights gpnh_convex_coding_crom.py:127-138, the initial parameters
      :286-295, predict :392-424) are those of M_mtd; they read only the lags of their
      configuration.  The lags are taken to be positive (M_crom_lags.v has the other ones): the slices [max_lag - lag : -lag] of
      other lags are not modelled, and every theorem about a fit or a prediction assumes
      positive lags. *)
  Definition crom_cfg (c : gpnh_cfg T) (lags : list Z) : mtd_cfg T :=
    mk_mtd_cfg (map Z.to_nat lags) (gc_epsilon c) n1 (gc_init c) (gc_tolerance c) (gc_max_iterations c)
               (gc_ls c) (gc_memory c) (gc_monotone c).

  (** The attributes changed by the parameter fit (gpnh_convex_coding_crom.py:82-100); *_old, grad_*,
      delta_grad_*, incr_* are recomputed before being read and are local values here. *)
  Record cws := mk_cws {
    cw_order_weights : list T; cw_transition_matrices : list (mat T); cw_Z : mat T;
    cw_alpha : T; cw_mem : list T
  }.
  Definition crom_set_parameters (c : mtd_cfg T) (G : mat T) (ow : list T) (Ts : list (mat T)) (w : cws) : cws :=
    mk_cws ow Ts (predicted_weights c ow Ts G) (cw_alpha w) (cw_mem w).

  (** gpnh_convex_coding_crom.py:102-125 _initialize_parameters_workspace *)
  Definition crom_initialize_workspace (c : mtd_cfg T) (G : mat T) (ow : list T) (Ts : list (mat T)) : cws :=
    mk_cws ow Ts (predicted_weights c ow Ts G) n1 (repeat n0 (mc_memory c)).

  (** 1.0 / (n_components * (n_samples - max_lag)); [n] is self.X.shape[0] *)
  Definition crom_normalization (c : mtd_cfg T) (k n : nat) : T :=
    n1 / (nofnat k * nofZ (Z.of_nat n - Z.of_nat (max_lag c))).
  (** self.Gamma[max_lag:] - self.Z[max_lag:] *)
  Definition crom_residual (c : mtd_cfg T) (G : mat T) (w : cws) : mat T :=
    msub (mslice (max_lag c) (nr G) G) (mslice (max_lag c) (nr (cw_Z w)) (cw_Z w)).

  (** gpnh_convex_coding_crom.py:140-155 _evaluate_fit_residual *)
  Definition crom_fit_residual (c : mtd_cfg T) (k n : nat) (G : mat T) (w : cws) : T :=
    if Nat.eqb k 1 then n0 else
    let value := n0 + nsq (mnorm (crom_residual c G w)) in
    crom_normalization c k n * value.

  (** gpnh_convex_coding_crom.py:157-177 _update_parameters_gradient *)
  Definition crom_order_gradient (c : mtd_cfg T) (k n : nat) (G : mat T) (w : cws) : list T :=
    tab (n_lags c) (fun i =>
      nofZ (-2) * crom_normalization c k n
      * mtrace (mmul (mmul (crom_residual c G w) (tmat (cw_transition_matrices w) i)) (mtr (lagged c i G)))).
  Definition crom_transition_gradient (c : mtd_cfg T) (k n : nat) (G : mat T) (w : cws) : list (mat T) :=
    tab (n_lags c) (fun i =>
      mscale (nofZ (-2) * crom_normalization c k n * vget (cw_order_weights w) i)
             (mmul (mtr (crom_residual c G w)) (lagged c i G))).

  (** gpnh_convex_coding_crom.py:179-226 _parameters_line_search *)
  Definition crom_line_search (fuel : nat) (c : mtd_cfg T) (k n : nat) (G : mat T) (w : cws)
             (grad_ow incr_ow : list T) (grad_T incr_T : list (mat T)) : res (cws * T * list T) :=
    let current_cost := crom_fit_residual c k n G w in
    let ow_old := cw_order_weights w in
    let T_old := cw_transition_matrices w in
    line_search fuel (mc_ls c) (crom_fit_residual c k n G)
      (fun s => crom_set_parameters c G (vadd ow_old (vscale s incr_ow)) (tadd T_old (tscale s incr_T)) w)
      (crom_set_parameters c G (vadd ow_old incr_ow) (tadd T_old incr_T) w)
      (cw_mem w) current_cost (vinner incr_ow grad_ow + tinner incr_T grad_T).

  (** gpnh_convex_coding_crom.py:228-274 _update_parameters *)
  Definition crom_update_parameters (fuel : nat) (c : mtd_cfg T) (k n : nat) (G : mat T) (w0 : cws) : res cws :=
    let w := crom_set_parameters c G (cw_order_weights w0) (cw_transition_matrices w0) w0 in
    let grad_ow := crom_order_gradient c k n G w in
    let grad_T := crom_transition_gradient c k n G w in
    let incr_ow := vsub (simplex_project_vector
                           (vsub (cw_order_weights w) (vscale (cw_alpha w) grad_ow)))
                        (cw_order_weights w) in
    let incr_T := tsub (map simplex_project_columns
                          (tsub (cw_transition_matrices w) (tscale (cw_alpha w) grad_T)))
                       (cw_transition_matrices w) in
    let! r := crom_line_search fuel c k n G w grad_ow incr_ow grad_T incr_T in
    let '(w1, step_size, mem) := r in
    let delta_ow := vsub (crom_order_gradient c k n G w1) grad_ow in
    let delta_T := tsub (crom_transition_gradient c k n G w1) grad_T in
    let sksk := nsq step_size * (vinner incr_ow incr_ow + tinner incr_T incr_T) in
    let beta := step_size * (vinner incr_ow delta_ow + tinner incr_T delta_T) in
    Ok (mk_cws (cw_order_weights w1) (cw_transition_matrices w1) (cw_Z w1)
          (get_next_spg_alpha beta sksk (ls_alpha_min (mc_ls c)) (ls_alpha_max (mc_ls c))) mem).

  (** gpnh_convex_coding_crom.py:276-325 _fit_parameters.  self.max_iterations and self.tolerance
      have been validated by the GPNH fit.  Result: workspace, advanced generator, last n_iter,
      the residuals reported by the verbose output. *)
  Definition crom_fit_parameters (fuel : nat) (c : mtd_cfg T) (k n : nat) (G : mat T) (tolerance : T)
             (max_iterations : nat) (g : rng T) : res (cws * rng T * nat * list T) :=
    let '(ow, Ts, g') := initialize_parameters_random k (n_lags c) g in
    let! _ := check_max_lag c in
    let w0 := crom_initialize_workspace c G ow Ts in
    let! r := iterate (crom_fit_residual c k n G) (cost_increased (mc_monotone c))
                [crom_update_parameters fuel c k n G] tolerance max_iterations w0 in
    let '(w, _, n_iter, log) := r in
    Ok (w, g', n_iter, log).

  Record crom_run := mk_crom_run {
    cr_obj : crom; cr_gpnh : gpnh_run T; cr_n_iter : nat; cr_log : list T }.
  Definition set_rng (g : rng T) (o : gpnh T) : gpnh T :=
    mk_gpnh (go_cfg o) (go_n_components o) g (go_ws o) (go_dictionary_ o) (go_cost_ o) (go_n_iter_ o)
            (go_n_components_ o).

  (** gpnh_convex_coding_crom.py:327-352 fit_transform *)
  Definition crom_fit_transform (fuel : nat) (o : crom) (data : mat T)
             (dictionary weights : option (mat T)) (upd_d upd_w : bool) (kw : option fs_kwargs)
    : res (crom_run * mat T) :=
    let! rw := fit_transform fuel (co_gpnh o) data dictionary weights upd_d upd_w kw in
    let '(r, G) := rw in
    let gc := go_cfg (gr_obj r) in
    let c := crom_cfg gc (co_lags o) in
    let! kmt := check_params (go_n_components (gr_obj r)) (gc_max_iterations gc) (gc_tolerance gc) in
    let '(k, max_iterations, tolerance) := kmt in
    let! p := crom_fit_parameters fuel c k (nr data) G tolerance max_iterations (go_rng (gr_obj r)) in
    let '(w, g', n_iter, log) := p in
    Ok (mk_crom_run (mk_crom (set_rng g' (gr_obj r)) (co_lags o)
                       (Some (cw_order_weights w, cw_transition_matrices w)))
                    r n_iter log, G).

  (** gpnh_convex_coding.py:661-680 transform, inherited *)
  Definition crom_transform (fuel : nat) (o : crom) (data : mat T) : res (crom * gpnh_run T * mat T) :=
    let! rw := transform fuel (co_gpnh o) data in
    let '(r, W) := rw in
    Ok (mk_crom (gr_obj r) (co_lags o) (co_parameters o), r, W).

  (** gpnh_convex_coding_crom.py:369-426 predict (integer horizons).  Without a completed parameter fit
      the transition model is the uninitialised memory of the constructor: not modelled, AttributeError
      stands for it, and theorems assume [co_parameters] to be set. *)
  Definition crom_predict (fuel : nat) (o : crom) (data : mat T) (horizon : Z) : res (crom * gpnh_run T * mat T) :=
    let! rw := crom_transform fuel o data in
    let '(o', r, W) := rw in
    let! PW := if (horizon =? 0)%Z then Ok W
               else match co_parameters o with
                    | None => Raise AttributeError
                    | Some (ow, Ts) =>
                        let c := crom_cfg (go_cfg (co_gpnh o)) (co_lags o) in
                        let! _ := check_max_lag c in
                        Ok (mtd_predict_weights c ow Ts W horizon)
                    end in
    let! Y := inverse_transform (co_gpnh o') PW in
    Ok (o', r, Y).
End CROM.
Arguments crom : clear implicits.
Arguments cws : clear implicits.
Arguments crom_run : clear implicits.
