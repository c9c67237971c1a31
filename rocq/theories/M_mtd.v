(** Model of src/reor/mtd_convex_coding.py *)
From Coq Require Import List Arith ZArith Bool.
From Verif Require Import Num Mat Py M_simplex M_spg M_iter M_random M_furthest M_gpnh.
Import ListNotations.

Section MTD.
  Context {T : Type} {N : Num T}.
  Local Open Scope num_scope.

  (** Constructor parameters that never change afterwards (mtd_convex_coding.py:192-223;
      [verbose] dropped).  [mc_lags] is the validated self.lags. *)
  Record mtd_cfg := mk_mtd_cfg {
    mc_lags : list nat;
    mc_eps_states : T;               (* epsilon_states *)
    mc_eps_weights : T;              (* epsilon_weights *)
    mc_init : init_method;
    mc_tolerance : pyval T;
    mc_max_iterations : pyval T;
    mc_ls : ls_params T;
    mc_memory : nat;                 (* line_search_memory *)
    mc_monotone : bool               (* require_monotonic_cost_decrease *)
  }.

  (** The lags argument (mtd_convex_coding.py:199-206): None, an iterable, or another object
      (iterating it raises TypeError).  Lags beyond the int64 range (OverflowError) are not
      modelled. *)
  Inductive lags_arg := LagsNone | LagsSeq (l : list (pyval T)) | LagsOther.
  Fixpoint check_lags (l : list (pyval T)) : res (list nat) :=
    match l with
    | [] => Ok []
    | PInt z :: rest =>
        if (z <? 1)%Z then Raise ValueError
        else let! r := check_lags rest in Ok (Z.to_nat z :: r)
    | _ :: _ => Raise ValueError
    end.
  Definition resolve_lags (a : lags_arg) : res (list nat) :=
    match a with
    | LagsNone => Ok [1]
    | LagsSeq l => check_lags l
    | LagsOther => Raise TypeError
    end.

  (** self.lags.max(); the maximum of an empty array raises ValueError, which happens in
      _initialize_workspace ([check_max_lag]) before any other use. *)
  Definition max_lag (c : mtd_cfg) : nat := list_max (mc_lags c).
  Definition check_max_lag (c : mtd_cfg) : res unit :=
    match mc_lags c with [] => Raise ValueError | _ => Ok tt end.

  (** Workspace attributes (mtd_convex_coding.py:225-268).  A three-dimensional array of
      transition matrices is a list of matrices.  trace_XtX is never read, and *_old, grad_*,
      delta_grad_*, incr_* are recomputed before being read; they are local values here. *)
  Record mws := mk_mws {
    m_X : mat T; m_Gamma : mat T; m_S : mat T;
    m_order_weights : list T; m_transition_matrices : list (mat T);
    m_GtG : mat T; m_GtX : mat T; m_XSt : mat T; m_SSt : mat T; m_Z : mat T;
    m_alpha_Gamma : T; m_alpha_S : T; m_alpha_parameters : T;
    m_f_S_mem : list T; m_f_Gamma_mem : list T; m_f_parameters_mem : list T
  }.

  (** transition_matrices[i], order_weights[i], lags[i] *)
  Definition mat0 : mat T := mkmat 0 0 [].
  Definition tmat (Ts : list (mat T)) (i : nat) : mat T := nth i Ts mat0.
  Definition lag (c : mtd_cfg) (i : nat) : nat := nth i (mc_lags c) 0.
  Definition n_lags (c : mtd_cfg) : nat := length (mc_lags c).

  (** Gamma[max_lag - lag : -lag] *)
  Definition lagged (c : mtd_cfg) (i : nat) (G : mat T) : mat T :=
    mslice (max_lag c - lag c i) (nr G - lag c i) G.

  (** mtd_convex_coding.py:317-328 _update_predicted_weights: rows below max_lag copy the
      weights; row max_lag + s accumulates, in the order of the lags,
      order_weights[i] * (Gamma[max_lag - lag : -lag].dot(transition_matrices[i].T))[s]. *)
  Definition predicted_weights (c : mtd_cfg) (ow : list T) (Ts : list (mat T)) (G : mat T) : mat T :=
    let L := max_lag c in
    mbuild (nr G) (nc G) (fun t a =>
      if Nat.ltb t L then mget G t a
      else nsum (n_lags c) (fun i =>
             vget ow i * mget (mmul (lagged c i G) (mtr (tmat Ts i))) (t - L) a)).

  (** mtd_convex_coding.py:270-315 _initialize_workspace *)
  Definition mtd_initialize_workspace (c : mtd_cfg) (X G S : mat T) (ow : list T) (Ts : list (mat T)) : mws :=
    mk_mws X G S ow Ts (mmul (mtr G) G) (mmul (mtr G) X) (mmul X (mtr S)) (mmul S (mtr S))
           (predicted_weights c ow Ts G) n1 n1 n1
           (repeat n0 (mc_memory c)) (repeat n0 (mc_memory c)) (repeat n0 (mc_memory c)).

  (** self.Gamma = ...; self._update_predicted_weights() *)
  Definition mtd_set_Gamma (c : mtd_cfg) (G : mat T) (w : mws) : mws :=
    mk_mws (m_X w) G (m_S w) (m_order_weights w) (m_transition_matrices w)
           (m_GtG w) (m_GtX w) (m_XSt w) (m_SSt w)
           (predicted_weights c (m_order_weights w) (m_transition_matrices w) G)
           (m_alpha_Gamma w) (m_alpha_S w) (m_alpha_parameters w)
           (m_f_S_mem w) (m_f_Gamma_mem w) (m_f_parameters_mem w).
  (** self.S = ...; self.SSt = self.S.dot(self.S.T) *)
  Definition mtd_set_S (S : mat T) (w : mws) : mws :=
    mk_mws (m_X w) (m_Gamma w) S (m_order_weights w) (m_transition_matrices w)
           (m_GtG w) (m_GtX w) (m_XSt w) (mmul S (mtr S)) (m_Z w)
           (m_alpha_Gamma w) (m_alpha_S w) (m_alpha_parameters w)
           (m_f_S_mem w) (m_f_Gamma_mem w) (m_f_parameters_mem w).
  (** self.order_weights = ...; self.transition_matrices = ...; self._update_predicted_weights() *)
  Definition mtd_set_parameters (c : mtd_cfg) (ow : list T) (Ts : list (mat T)) (w : mws) : mws :=
    mk_mws (m_X w) (m_Gamma w) (m_S w) ow Ts (m_GtG w) (m_GtX w) (m_XSt w) (m_SSt w)
           (predicted_weights c ow Ts (m_Gamma w))
           (m_alpha_Gamma w) (m_alpha_S w) (m_alpha_parameters w)
           (m_f_S_mem w) (m_f_Gamma_mem w) (m_f_parameters_mem w).
  (** the step length and cost memory stored at the end of an update *)
  Definition mtd_set_S_mem (a : T) (mem : list T) (w : mws) : mws :=
    mk_mws (m_X w) (m_Gamma w) (m_S w) (m_order_weights w) (m_transition_matrices w)
           (m_GtG w) (m_GtX w) (m_XSt w) (m_SSt w) (m_Z w)
           (m_alpha_Gamma w) a (m_alpha_parameters w) mem (m_f_Gamma_mem w) (m_f_parameters_mem w).
  Definition mtd_set_Gamma_mem (a : T) (mem : list T) (w : mws) : mws :=
    mk_mws (m_X w) (m_Gamma w) (m_S w) (m_order_weights w) (m_transition_matrices w)
           (m_GtG w) (m_GtX w) (m_XSt w) (m_SSt w) (m_Z w)
           a (m_alpha_S w) (m_alpha_parameters w) (m_f_S_mem w) mem (m_f_parameters_mem w).
  Definition mtd_set_parameters_mem (a : T) (mem : list T) (w : mws) : mws :=
    mk_mws (m_X w) (m_Gamma w) (m_S w) (m_order_weights w) (m_transition_matrices w)
           (m_GtG w) (m_GtX w) (m_XSt w) (m_SSt w) (m_Z w)
           (m_alpha_Gamma w) (m_alpha_S w) a (m_f_S_mem w) (m_f_Gamma_mem w) mem.

  (** mtd_convex_coding.py:330-346 _evaluate_dictionary_penalty; [k] is self.n_components *)
  Definition mtd_dictionary_penalty (c : mtd_cfg) (k : nat) (w : mws) : T :=
    if Nat.eqb k 1 then n0 else
    let n_features := nofnat (nc (m_X w)) in
    let prefactor := n2 / (nofnat k * n_features * (nofnat k - n1)) in
    let value := n0 + (prefactor * nofnat k * mtrace (m_SSt w) - prefactor * msum (m_SSt w)) in
    mc_eps_states c * value.

  (** 1.0 / (n_components * (n_samples - max_lag)) *)
  Definition mtd_normalization (c : mtd_cfg) (k : nat) (w : mws) : T :=
    n1 / (nofnat k * nofZ (Z.of_nat (nr (m_X w)) - Z.of_nat (max_lag c))).
  (** self.Gamma[max_lag:] - self.Z[max_lag:] *)
  Definition mtd_residual (c : mtd_cfg) (w : mws) : mat T :=
    msub (mslice (max_lag c) (nr (m_Gamma w)) (m_Gamma w)) (mslice (max_lag c) (nr (m_Z w)) (m_Z w)).

  (** mtd_convex_coding.py:348-363 _evaluate_weights_penalty *)
  Definition mtd_weights_penalty (c : mtd_cfg) (k : nat) (w : mws) : T :=
    if Nat.eqb k 1 then n0 else
    let value := n0 + nsq (mnorm (mtd_residual c w)) in
    mc_eps_weights c * mtd_normalization c k w * value.

  (** mtd_convex_coding.py:365-373 _evaluate_loss_function *)
  Definition mtd_loss_function (w : mws) : T :=
    let normalization := n1 / (nofnat (nc (m_X w)) * nofnat (nr (m_X w))) in
    let residual := mnorm (msub (m_X w) (mmul (m_Gamma w) (m_S w))) in
    normalization * nsq residual.

  (** mtd_convex_coding.py:375-380 _evaluate_cost *)
  Definition mtd_evaluate_cost (c : mtd_cfg) (k : nat) (w : mws) : T :=
    mtd_loss_function w + mtd_dictionary_penalty c k w + mtd_weights_penalty c k w.

  (** mtd_convex_coding.py:382-396 _dictionary_penalty_gradient *)
  Definition mtd_dictionary_penalty_gradient (c : mtd_cfg) (k : nat) (w : mws) : mat T :=
    if Nat.eqb k 1 then mzeros (nr (m_S w)) (nc (m_S w)) else
    let n_features := nofnat (nc (m_X w)) in
    let prefactor := nofZ 4 * mc_eps_states c / (n_features * nofnat k * (nofnat k - n1)) in
    let D := mmap (fun x => x - n1) (mscale (nofnat k) (meye k)) in
    mmul D (mscale prefactor (m_S w)).

  (** mtd_convex_coding.py:398-407 _update_dictionary_gradient *)
  Definition mtd_dictionary_gradient (c : mtd_cfg) (k : nat) (w : mws) : mat T :=
    let normalization := n1 / (nofnat (nc (m_X w)) * nofnat (nr (m_X w))) in
    let g0 := mtd_dictionary_penalty_gradient c k w in
    let g1 := madd g0 (mscale (nofZ (-2) * normalization) (m_GtX w)) in
    madd g1 (mscale (n2 * normalization) (mmul (m_GtG w) (m_S w))).

  (** mtd_convex_coding.py:409-448 _dictionary_line_search *)
  Definition mtd_dictionary_line_search (fuel : nat) (c : mtd_cfg) (k : nat) (w : mws)
             (grad_S incr_S : mat T) : res (mws * T * list T) :=
    let current_cost := mtd_evaluate_cost c k w in
    let S_old := m_S w in
    line_search fuel (mc_ls c) (mtd_evaluate_cost c k)
      (fun s => mtd_set_S (madd S_old (mscale s incr_S)) w)
      (mtd_set_S (madd (m_S w) incr_S) w)
      (m_f_S_mem w) current_cost (minner incr_S grad_S).

  (** mtd_convex_coding.py:450-478 _update_dictionary *)
  Definition mtd_update_dictionary (fuel : nat) (c : mtd_cfg) (k : nat) (w0 : mws) : res mws :=
    let w := mk_mws (m_X w0) (m_Gamma w0) (m_S w0) (m_order_weights w0) (m_transition_matrices w0)
               (mmul (mtr (m_Gamma w0)) (m_Gamma w0)) (mmul (mtr (m_Gamma w0)) (m_X w0))
               (m_XSt w0) (mmul (m_S w0) (mtr (m_S w0))) (m_Z w0)
               (m_alpha_Gamma w0) (m_alpha_S w0) (m_alpha_parameters w0)
               (m_f_S_mem w0) (m_f_Gamma_mem w0) (m_f_parameters_mem w0) in
    let grad_S := mtd_dictionary_gradient c k w in
    let incr_S := msub (msub (m_S w) (mscale (m_alpha_S w) grad_S)) (m_S w) in
    let! r := mtd_dictionary_line_search fuel c k w grad_S incr_S in
    let '(w1, step_size, mem) := r in
    let delta_grad_S := msub (mtd_dictionary_gradient c k w1) grad_S in
    let sksk := nsq step_size * minner incr_S incr_S in
    let beta := step_size * minner incr_S delta_grad_S in
    Ok (mtd_set_S_mem (get_next_spg_alpha beta sksk (ls_alpha_min (mc_ls c)) (ls_alpha_max (mc_ls c)))
                      mem w1).

  (** mtd_convex_coding.py:480-499 _weights_penalty_gradient: row t of grad_Gamma[:-lag]
      receives row t + lag of the residual; then the rows from max_lag on. *)
  Definition mtd_weights_penalty_gradient (c : mtd_cfg) (k : nat) (w : mws) : mat T :=
    let n := nr (m_Gamma w) in
    let normalization := mtd_normalization c k w in
    let residual := msub (m_Gamma w) (m_Z w) in
    let g0 := mzeros n (nc (m_Gamma w)) in
    let g1 := fold_left (fun g i =>
                mbuild n (nc (m_Gamma w)) (fun t a =>
                  if Nat.ltb t (n - lag c i)
                  then mget g t a
                       + nofZ (-2) * mc_eps_weights c * normalization * vget (m_order_weights w) i
                         * mget (mmul (mslice (lag c i) n residual) (tmat (m_transition_matrices w) i)) t a
                  else mget g t a)) (seq 0 (n_lags c)) g0 in
    mbuild n (nc (m_Gamma w)) (fun t a =>
      if Nat.ltb t (max_lag c) then mget g1 t a
      else mget g1 t a + n2 * mc_eps_weights c * normalization * (mget (m_Gamma w) t a - mget (m_Z w) t a)).

  (** mtd_convex_coding.py:501-510 _update_weights_gradient *)
  Definition mtd_weights_gradient (c : mtd_cfg) (k : nat) (w : mws) : mat T :=
    let normalization := n1 / (nofnat (nc (m_X w)) * nofnat (nr (m_X w))) in
    let g0 := mtd_weights_penalty_gradient c k w in
    let g1 := madd g0 (mscale (nofZ (-2) * normalization) (m_XSt w)) in
    madd g1 (mscale (n2 * normalization) (mmul (m_Gamma w) (m_SSt w))).

  (** mtd_convex_coding.py:512-551 _weights_line_search *)
  Definition mtd_weights_line_search (fuel : nat) (c : mtd_cfg) (k : nat) (w : mws)
             (grad_Gamma incr_Gamma : mat T) : res (mws * T * list T) :=
    let current_cost := mtd_evaluate_cost c k w in
    let Gamma_old := m_Gamma w in
    line_search fuel (mc_ls c) (mtd_evaluate_cost c k)
      (fun s => mtd_set_Gamma c (madd Gamma_old (mscale s incr_Gamma)) w)
      (mtd_set_Gamma c (madd (m_Gamma w) incr_Gamma) w)
      (m_f_Gamma_mem w) current_cost (minner incr_Gamma grad_Gamma).

  (** mtd_convex_coding.py:553-581 _update_weights *)
  Definition mtd_update_weights (fuel : nat) (c : mtd_cfg) (k : nat) (w0 : mws) : res mws :=
    let w := mk_mws (m_X w0) (m_Gamma w0) (m_S w0) (m_order_weights w0) (m_transition_matrices w0)
               (m_GtG w0) (m_GtX w0) (mmul (m_X w0) (mtr (m_S w0))) (mmul (m_S w0) (mtr (m_S w0))) (m_Z w0)
               (m_alpha_Gamma w0) (m_alpha_S w0) (m_alpha_parameters w0)
               (m_f_S_mem w0) (m_f_Gamma_mem w0) (m_f_parameters_mem w0) in
    let grad_Gamma := mtd_weights_gradient c k w in
    let incr_Gamma :=
      msub (simplex_project_rows (msub (m_Gamma w) (mscale (m_alpha_Gamma w) grad_Gamma))) (m_Gamma w) in
    let! r := mtd_weights_line_search fuel c k w grad_Gamma incr_Gamma in
    let '(w1, step_size, mem) := r in
    let delta_grad_Gamma := msub (mtd_weights_gradient c k w1) grad_Gamma in
    let sksk := nsq step_size * minner incr_Gamma incr_Gamma in
    let beta := step_size * minner incr_Gamma delta_grad_Gamma in
    Ok (mtd_set_Gamma_mem (get_next_spg_alpha beta sksk (ls_alpha_min (mc_ls c)) (ls_alpha_max (mc_ls c)))
                          mem w1).

  (** mtd_convex_coding.py:583-603 _update_parameters_gradient *)
  Definition mtd_order_gradient (c : mtd_cfg) (k : nat) (w : mws) : list T :=
    tab (n_lags c) (fun i =>
      nofZ (-2) * mc_eps_weights c * mtd_normalization c k w
      * mtrace (mmul (mmul (mtd_residual c w) (tmat (m_transition_matrices w) i)) (mtr (lagged c i (m_Gamma w))))).
  Definition mtd_transition_gradient (c : mtd_cfg) (k : nat) (w : mws) : list (mat T) :=
    tab (n_lags c) (fun i =>
      mscale (nofZ (-2) * mc_eps_weights c * mtd_normalization c k w * vget (m_order_weights w) i)
             (mmul (mtr (mtd_residual c w)) (lagged c i (m_Gamma w)))).

  (** elementwise operations on stacks of matrices *)
  Definition tadd (A B : list (mat T)) : list (mat T) := tab (length A) (fun i => madd (tmat A i) (tmat B i)).
  Definition tsub (A B : list (mat T)) : list (mat T) := tab (length A) (fun i => msub (tmat A i) (tmat B i)).
  Definition tscale (s : T) (A : list (mat T)) : list (mat T) := map (mscale s) A.
  Definition tinner (A B : list (mat T)) : T := nsum (length A) (fun i => minner (tmat A i) (tmat B i)).

  (** mtd_convex_coding.py:605-652 _parameters_line_search *)
  Definition mtd_parameters_line_search (fuel : nat) (c : mtd_cfg) (k : nat) (w : mws)
             (grad_ow incr_ow : list T) (grad_T incr_T : list (mat T)) : res (mws * T * list T) :=
    let current_cost := mtd_evaluate_cost c k w in
    let ow_old := m_order_weights w in
    let T_old := m_transition_matrices w in
    line_search fuel (mc_ls c) (mtd_evaluate_cost c k)
      (fun s => mtd_set_parameters c (vadd ow_old (vscale s incr_ow)) (tadd T_old (tscale s incr_T)) w)
      (mtd_set_parameters c (vadd ow_old incr_ow) (tadd T_old incr_T) w)
      (m_f_parameters_mem w) current_cost (vinner incr_ow grad_ow + tinner incr_T grad_T).

  (** mtd_convex_coding.py:654-700 _update_parameters *)
  Definition mtd_update_parameters (fuel : nat) (c : mtd_cfg) (k : nat) (w0 : mws) : res mws :=
    let w := mtd_set_parameters c (m_order_weights w0) (m_transition_matrices w0) w0 in
    let grad_ow := mtd_order_gradient c k w in
    let grad_T := mtd_transition_gradient c k w in
    let incr_ow := vsub (simplex_project_vector
                           (vsub (m_order_weights w) (vscale (m_alpha_parameters w) grad_ow)))
                        (m_order_weights w) in
    let incr_T := tsub (map simplex_project_columns
                          (tsub (m_transition_matrices w) (tscale (m_alpha_parameters w) grad_T)))
                       (m_transition_matrices w) in
    let! r := mtd_parameters_line_search fuel c k w grad_ow incr_ow grad_T incr_T in
    let '(w1, step_size, mem) := r in
    let delta_ow := vsub (mtd_order_gradient c k w1) grad_ow in
    let delta_T := tsub (mtd_transition_gradient c k w1) grad_T in
    let sksk := nsq step_size * (vinner incr_ow incr_ow + tinner incr_T incr_T) in
    let beta := step_size * (vinner incr_ow delta_ow + tinner incr_T delta_T) in
    Ok (mtd_set_parameters_mem (get_next_spg_alpha beta sksk (ls_alpha_min (mc_ls c)) (ls_alpha_max (mc_ls c)))
                               mem w1).

  (** mtd_convex_coding.py:702-756 _iterate *)
  Definition mtd_iterate (fuel : nat) (c : mtd_cfg) (k : nat) (upd_d upd_w upd_p : bool) (tolerance : T)
             (max_iterations : nat) (w : mws) : res (mws * T * nat * list T) :=
    iterate (mtd_evaluate_cost c k) (cost_increased (mc_monotone c))
      (enabled upd_d (mtd_update_dictionary fuel c k) ++ enabled upd_w (mtd_update_weights fuel c k)
         ++ enabled upd_p (mtd_update_parameters fuel c k))
      tolerance max_iterations w.

  (** _check_init_order_weights, _check_init_transition_matrices (mtd_convex_coding.py:40-47):
      None has no attribute shape.  Axis 1 of the stack is the row index of each matrix. *)
  Definition check_init_order_weights (v : option (list T)) (p : nat) : res (list T) :=
    match v with
    | None => Raise AttributeError
    | Some v => if Nat.eqb (length v) p then let! _ := check_unit_vec_sum v in Ok v else Raise ValueError
    end.
  Definition check_init_transition_matrices (v : option (list (mat T))) (p k : nat) : res (list (mat T)) :=
    match v with
    | None => Raise AttributeError
    | Some Ts =>
        if andb (Nat.eqb (length Ts) p) (forallb (fun M => andb (Nat.eqb (nr M) k) (Nat.eqb (nc M) k)) Ts)
        then if forallb (fun M => match check_unit_col_sums M with Ok _ => true | Raise _ => false end) Ts
             then Ok Ts else Raise ValueError
        else Raise ValueError
    end.

  (** mtd_convex_coding.py:102-115.  The stack is created with the dtype of the data: with
      integer data numpy truncates every entry to 0 (see M_dtype); data are floating point here. *)
  Fixpoint draw_transition_matrices (p k : nat) (g : rng T) : list (mat T) * rng T :=
    match p with
    | O => ([], g)
    | S p' => let '(M, g1) := left_stochastic_matrix k k g in
              let '(r, g2) := draw_transition_matrices p' k g1 in (M :: r, g2)
    end.
  Definition initialize_parameters_random (k order : nat) (g : rng T) : list T * list (mat T) * rng T :=
    let '(u, g1) := draw_uniform_vec order g in
    let s := vsum u in
    let ow := map (fun x => x / s) u in
    let '(Ts, g2) := draw_transition_matrices order k g1 in
    (ow, Ts, g2).

  (** _initialize_mtd_convex_coding_dictionary / _weights (mtd_convex_coding.py:50-99, 118-153)
      repeat gpnh_convex_coding.py:38-125 word for word: [initialize_dictionary],
      [initialize_weights] of M_gpnh.  Parameters: mtd_convex_coding.py:156-168. *)
  Definition initialize_parameters (k order : nat) (init : init_method) (g : rng T)
    : res (list T * list (mat T) * rng T) :=
    match init with
    | InitNone | InitRandom | InitFurthestSum => Ok (initialize_parameters_random k order g)
    | _ => Raise ValueError
    end.

  (** mtd_convex_coding.py:780-819: initial values.  The extra keyword arguments of a call
      ([kw], None if there are none) are passed to all three initialisers; those of the weights and
      of the parameters accept none: TypeError. *)
  Definition mtd_choose_initial (c : mtd_cfg) (k : nat) (data : mat T)
             (dictionary weights : option (mat T)) (ow : option (list T)) (Ts : option (list (mat T)))
             (upd_d upd_w upd_p : bool) (kw : option fs_kwargs) (g : rng T)
    : res (mat T * mat T * list T * list (mat T) * rng T) :=
    let kwv := match kw with Some v => v | None => fs_default end in
    match mc_init c with
    | InitCustom =>
        let! W := check_init_weights weights (nr data) k in
        let! D := check_init_dictionary dictionary k (nc data) in
        let! o := check_init_order_weights ow (n_lags c) in
        let! M := check_init_transition_matrices Ts (n_lags c) k in
        Ok (D, W, o, M, g)
    | init =>
        let! Dg := if upd_d then initialize_dictionary data k init kwv g
                   else let! D := check_init_dictionary dictionary k (nc data) in Ok (D, g) in
        let! Wg := if upd_w
                   then match kw with
                        | Some _ => Raise TypeError
                        | None => initialize_weights data k init (snd Dg) end
                   else let! W := check_init_weights weights (nr data) k in Ok (W, snd Dg) in
        let! Pg := if upd_p
                   then match kw with
                        | Some _ => Raise TypeError
                        | None => initialize_parameters k (n_lags c) init (snd Wg) end
                   else let! o := check_init_order_weights ow (n_lags c) in
                        let! M := check_init_transition_matrices Ts (n_lags c) k in
                        Ok (o, M, snd Wg) in
        let '(o, M, g') := Pg in
        Ok (fst Dg, fst Wg, o, M, g')
    end.

  (** The object.  [mo_ws] is None before the first run that reached _initialize_workspace. *)
  Record mtd := mk_mtd {
    mo_cfg : mtd_cfg;
    mo_n_components : pyval T;
    mo_rng : rng T;
    mo_ws : option mws;
    mo_dictionary_ : option (mat T); mo_cost_ : option T; mo_n_iter_ : option nat;
    mo_n_components_ : option nat
  }.
  (** mtd_convex_coding.py:192-268 __init__ ([c] without its lags, which come from the argument) *)
  Definition with_lags (lags : list nat) (c : mtd_cfg) : mtd_cfg :=
    mk_mtd_cfg lags (mc_eps_states c) (mc_eps_weights c) (mc_init c) (mc_tolerance c)
               (mc_max_iterations c) (mc_ls c) (mc_memory c) (mc_monotone c).
  Definition mtd_new (c : mtd_cfg) (lags : lags_arg) (n_components : pyval T) (g : rng T) : res mtd :=
    let! l := resolve_lags lags in
    Ok (mk_mtd (with_lags l c) n_components g None None None None None).

  Record mtd_run := mk_mtd_run {
    mr_obj : mtd; mr_cost : T; mr_n_iter : nat; mr_log : list T; mr_warned : bool }.

  (** mtd_convex_coding.py:758-838 _mtd_convex_coding *)
  Definition mtd_convex_coding (fuel : nat) (o : mtd) (data : mat T)
             (dictionary weights : option (mat T)) (ow : option (list T)) (Ts : option (list (mat T)))
             (upd_d upd_w upd_p : bool) (kw : option fs_kwargs) : res mtd_run :=
    let c := mo_cfg o in
    let ncomp := resolve_components (mo_n_components o) (nc data) in
    let! kmt := check_params ncomp (mc_max_iterations c) (mc_tolerance c) in
    let '(k, max_iterations, tolerance) := kmt in
    let! i := mtd_choose_initial c k data dictionary weights ow Ts upd_d upd_w upd_p kw (mo_rng o) in
    let '(D, W, ow0, Ts0, g) := i in
    let! _ := check_max_lag c in
    let w1 := mtd_initialize_workspace c data W D ow0 Ts0 in
    let! r := mtd_iterate fuel c k upd_d upd_w upd_p tolerance max_iterations w1 in
    let '(w2, cost, n_iter, log) := r in
    let warned := andb (Nat.eqb n_iter max_iterations) (tolerance >? n0) in      (* :834 *)
    Ok (mk_mtd_run
          (mk_mtd c ncomp g (Some w2) (mo_dictionary_ o) (mo_cost_ o) (mo_n_iter_ o) (mo_n_components_ o))
          cost n_iter log warned).

  (** mtd_convex_coding.py:840-872 fit_transform; order_weights, transition_matrices and the
      update_* flags may be passed through **kwargs.  Returns the run and the weights. *)
  Definition mtd_fit_transform (fuel : nat) (o : mtd) (data : mat T)
             (dictionary weights : option (mat T)) (ow : option (list T)) (Ts : option (list (mat T)))
             (upd_d upd_w upd_p : bool) (kw : option fs_kwargs) : res (mtd_run * mat T) :=
    let! r := mtd_convex_coding fuel o data dictionary weights ow Ts upd_d upd_w upd_p kw in
    let o1 := mr_obj r in
    match mo_ws o1 with
    | None => Raise AttributeError
    | Some w =>
        let o2 := mk_mtd (mo_cfg o1) (mo_n_components o1) (mo_rng o1) (mo_ws o1)
                    (Some (m_S w)) (Some (mr_cost r)) (Some (mr_n_iter r)) (Some (nr (m_S w))) in
        Ok (mk_mtd_run o2 (mr_cost r) (mr_n_iter r) (mr_log r) (mr_warned r), m_Gamma w)
    end.

  (** mtd_convex_coding.py:889-911 transform.  Before a fit self.S is None, so the dictionary
      check fails first; the uninitialised order_weights of the constructor are never read. *)
  Definition mtd_transform (fuel : nat) (o : mtd) (data : mat T) : res (mtd_run * mat T) :=
    let S := match mo_ws o with Some w => Some (m_S w) | None => None end in
    let ow := match mo_ws o with Some w => Some (m_order_weights w) | None => None end in
    let Ts := match mo_ws o with Some w => Some (m_transition_matrices w) | None => None end in
    let! r := mtd_convex_coding fuel o data S None ow Ts false true false None in
    match mo_ws (mr_obj r) with
    | None => Raise AttributeError
    | Some w => Ok (r, m_Gamma w)
    end.

  (** mtd_convex_coding.py:968-982 inverse_transform *)
  Definition mtd_inverse_transform (o : mtd) (weights : mat T) : res (mat T) :=
    match mo_ws o with
    | None => Raise TypeError
    | Some w => if Nat.eqb (nc weights) (nr (m_S w)) then Ok (mmul weights (m_S w)) else Raise ValueError
    end.

  (** mtd_convex_coding.py:932-948 predict_next_step_weights *)
  Definition mtd_next_weights (c : mtd_cfg) (ow : list T) (Ts : list (mat T)) (cur : mat T) : list T :=
    if Nat.ltb (nr cur) (max_lag c) then repeat nnan (nc cur)
    else tab (nc cur) (fun a => nsum (n_lags c) (fun i =>
           vget ow i * vget (mvmul (tmat Ts i) (mrow cur (nr cur - lag c i))) a)).
  (** np.roll(w, -1, axis=0) followed by w[-1] = next *)
  Definition mtd_shift (cur : mat T) (next : list T) : mat T :=
    mbuild (nr cur) (nc cur) (fun s a =>
      if Nat.eqb (S s) (nr cur) then vget next a else mget cur (S s) a).
  Fixpoint mtd_lead (c : mtd_cfg) (ow : list T) (Ts : list (mat T)) (leads : nat) (cur : mat T) : mat T :=
    match leads with
    | O => cur
    | S m => mtd_lead c ow Ts m (mtd_shift cur (mtd_next_weights c ow Ts cur))
    end.
  (** mtd_convex_coding.py:950-964: the predicted weights; [range(horizon)] is empty for a
      negative horizon *)
  Definition mtd_predict_weights (c : mtd_cfg) (ow : list T) (Ts : list (mat T)) (W : mat T) (horizon : Z) : mat T :=
    let L := max_lag c in
    mbuild (nr W) (nc W) (fun i a =>
      if Nat.ltb i (L - 1) then nnan
      else let cur := mtd_lead c ow Ts (Z.to_nat horizon) (mslice (i + 1 - L) (i + 1) W) in
           mget cur (nr cur - 1) a).

  (** mtd_convex_coding.py:913-966 predict; a horizon that is not an integer raises TypeError
      in [range] (only integers are modelled).  Returns the run of transform and the prediction. *)
  Definition mtd_predict (fuel : nat) (o : mtd) (data : mat T) (horizon : Z) : res (mtd_run * mat T) :=
    let! r := mtd_transform fuel o data in
    let '(run, W) := r in
    match mo_ws (mr_obj run) with
    | None => Raise AttributeError
    | Some w =>
        let PW := if (horizon =? 0)%Z then W
                  else mtd_predict_weights (mo_cfg o) (m_order_weights w) (m_transition_matrices w) W horizon in
        let! Y := mtd_inverse_transform (mr_obj run) PW in
        Ok (run, Y)
    end.
End MTD.
Arguments mtd_cfg : clear implicits.
Arguments mws : clear implicits.
Arguments mtd : clear implicits.
Arguments mtd_run : clear implicits.
Arguments lags_arg : clear implicits.
