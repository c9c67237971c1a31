(** Model of src/reor/gpnh_convex_coding.py *)
From Coq Require Import List Arith ZArith Bool.
From Verif Require Import Num Mat Py M_simplex M_spg M_iter M_random M_furthest.
Import ListNotations.

Section GPNH.
  Context {T : Type} {N : Num T}.
  Local Open Scope num_scope.

  (** Constructor parameters that never change afterwards
      (gpnh_convex_coding.py:215-234; [verbose] dropped). *)
  Record gpnh_cfg := mk_gpnh_cfg {
    gc_epsilon : T;                  (* epsilon_states *)
    gc_init : init_method;
    gc_tolerance : pyval T;
    gc_max_iterations : pyval T;
    gc_ls : ls_params T;
    gc_memory : nat;                 (* line_search_memory *)
    gc_monotone : bool               (* require_monotonic_cost_decrease *)
  }.

  (** Workspace attributes (gpnh_convex_coding.py:236-261).  trace_XtX is written but never
      read, and Gamma_old, grad_*, delta_grad_*, incr_* are always recomputed before being
      read; they are local values here. *)
  Record gws := mk_gws {
    w_X : mat T; w_Gamma : mat T; w_S : mat T;
    w_GtG : mat T; w_GtX : mat T; w_XSt : mat T; w_SSt : mat T;
    w_alpha_Gamma : T; w_alpha_S : T;
    w_f_S_mem : list T; w_f_Gamma_mem : list T
  }.
  Definition set_Gamma (G : mat T) (w : gws) : gws :=
    mk_gws (w_X w) G (w_S w) (w_GtG w) (w_GtX w) (w_XSt w) (w_SSt w)
           (w_alpha_Gamma w) (w_alpha_S w) (w_f_S_mem w) (w_f_Gamma_mem w).
  (** self.S = ...; self.SSt = self.S.dot(self.S.T) *)
  Definition set_S_SSt (S : mat T) (w : gws) : gws :=
    mk_gws (w_X w) (w_Gamma w) S (w_GtG w) (w_GtX w) (w_XSt w) (mmul S (mtr S))
           (w_alpha_Gamma w) (w_alpha_S w) (w_f_S_mem w) (w_f_Gamma_mem w).
  Definition set_S_mem (a : T) (mem : list T) (w : gws) : gws :=
    mk_gws (w_X w) (w_Gamma w) (w_S w) (w_GtG w) (w_GtX w) (w_XSt w) (w_SSt w)
           (w_alpha_Gamma w) a mem (w_f_Gamma_mem w).
  Definition set_Gamma_mem (a : T) (mem : list T) (w : gws) : gws :=
    mk_gws (w_X w) (w_Gamma w) (w_S w) (w_GtG w) (w_GtX w) (w_XSt w) (w_SSt w)
           a (w_alpha_S w) (w_f_S_mem w) mem.

  (** gpnh_convex_coding.py:263-287 _initialize_workspace *)
  Definition initialize_workspace (c : gpnh_cfg) (w : gws) : gws :=
    let X := w_X w in let G := w_Gamma w in let S := w_S w in
    mk_gws X G S (mmul (mtr G) G) (mmul (mtr G) X) (mmul X (mtr S)) (mmul S (mtr S))
           n1 n1 (repeat n0 (gc_memory c)) (repeat n0 (gc_memory c)).

  (** gpnh_convex_coding.py:289-305 _evaluate_dictionary_penalty; [k] is self.n_components *)
  Definition evaluate_dictionary_penalty (c : gpnh_cfg) (k : nat) (w : gws) : T :=
    if Nat.eqb k 1 then n0 else
    let n_features := nofnat (nc (w_X w)) in
    let prefactor := n2 / (nofnat k * n_features * (nofnat k - n1)) in
    let value := n0 + (prefactor * nofnat k * mtrace (w_SSt w) - prefactor * msum (w_SSt w)) in
    gc_epsilon c * value.

  (** gpnh_convex_coding.py:307-315 _evaluate_loss_function *)
  Definition evaluate_loss_function (w : gws) : T :=
    let normalization := n1 / (nofnat (nc (w_X w)) * nofnat (nr (w_X w))) in
    let residual := mnorm (msub (w_X w) (mmul (w_Gamma w) (w_S w))) in
    normalization * nsq residual.

  (** gpnh_convex_coding.py:317-321 _evaluate_cost *)
  Definition evaluate_cost (c : gpnh_cfg) (k : nat) (w : gws) : T :=
    evaluate_loss_function w + evaluate_dictionary_penalty c k w.

  (** gpnh_convex_coding.py:323-337 _dictionary_penalty_gradient *)
  Definition dictionary_penalty_gradient (c : gpnh_cfg) (k : nat) (w : gws) : mat T :=
    if Nat.eqb k 1 then mzeros (nr (w_S w)) (nc (w_S w)) else
    let n_features := nofnat (nc (w_X w)) in
    let prefactor := nofZ 4 * gc_epsilon c / (n_features * nofnat k * (nofnat k - n1)) in
    let D := mmap (fun x => x - n1) (mscale (nofnat k) (meye k)) in
    mmul D (mscale prefactor (w_S w)).

  (** gpnh_convex_coding.py:339-348 _update_dictionary_gradient *)
  Definition dictionary_gradient (c : gpnh_cfg) (k : nat) (w : gws) : mat T :=
    let normalization := n1 / (nofnat (nc (w_X w)) * nofnat (nr (w_X w))) in
    let g0 := dictionary_penalty_gradient c k w in
    let g1 := madd g0 (mscale (nofZ (-2) * normalization) (w_GtX w)) in
    madd g1 (mscale (n2 * normalization) (mmul (w_GtG w) (w_S w))).

  (** gpnh_convex_coding.py:350-389 _dictionary_line_search *)
  Definition dictionary_line_search (fuel : nat) (c : gpnh_cfg) (k : nat) (w : gws)
             (grad_S incr_S : mat T) : res (gws * T * list T) :=
    let current_cost := evaluate_cost c k w in
    let S_old := w_S w in
    let incr_norm := minner incr_S grad_S in
    line_search fuel (gc_ls c) (evaluate_cost c k)
      (fun s => set_S_SSt (madd S_old (mscale s incr_S)) w)
      (set_S_SSt (madd (w_S w) incr_S) w)
      (w_f_S_mem w) current_cost incr_norm.

  (** gpnh_convex_coding.py:391-419 _update_dictionary *)
  Definition update_dictionary (fuel : nat) (c : gpnh_cfg) (k : nat) (w0 : gws) : res gws :=
    let w := mk_gws (w_X w0) (w_Gamma w0) (w_S w0)
               (mmul (mtr (w_Gamma w0)) (w_Gamma w0)) (mmul (mtr (w_Gamma w0)) (w_X w0))
               (w_XSt w0) (mmul (w_S w0) (mtr (w_S w0)))
               (w_alpha_Gamma w0) (w_alpha_S w0) (w_f_S_mem w0) (w_f_Gamma_mem w0) in
    let grad_S := dictionary_gradient c k w in
    let incr_S := msub (msub (w_S w) (mscale (w_alpha_S w) grad_S)) (w_S w) in
    let! r := dictionary_line_search fuel c k w grad_S incr_S in
    let '(w1, step_size, mem) := r in
    let delta_grad_S := msub (dictionary_gradient c k w1) grad_S in
    let sksk := nsq step_size * minner incr_S incr_S in
    let beta := step_size * minner incr_S delta_grad_S in
    Ok (set_S_mem (get_next_spg_alpha beta sksk (ls_alpha_min (gc_ls c)) (ls_alpha_max (gc_ls c)))
                  mem w1).

  (** gpnh_convex_coding.py:421-435 _weights_penalty_gradient, _update_weights_gradient *)
  Definition weights_gradient (w : gws) : mat T :=
    let normalization := n1 / (nofnat (nc (w_X w)) * nofnat (nr (w_X w))) in
    let g0 := mzeros (nr (w_Gamma w)) (nc (w_Gamma w)) in
    let g1 := madd g0 (mscale (nofZ (-2) * normalization) (w_XSt w)) in
    madd g1 (mscale (n2 * normalization) (mmul (w_Gamma w) (w_SSt w))).

  (** gpnh_convex_coding.py:437-474 _weights_line_search *)
  Definition weights_line_search (fuel : nat) (c : gpnh_cfg) (k : nat) (w : gws)
             (grad_Gamma incr_Gamma : mat T) : res (gws * T * list T) :=
    let current_cost := evaluate_cost c k w in
    let Gamma_old := w_Gamma w in
    let incr_norm := minner incr_Gamma grad_Gamma in
    line_search fuel (gc_ls c) (evaluate_cost c k)
      (fun s => set_Gamma (madd Gamma_old (mscale s incr_Gamma)) w)
      (set_Gamma (madd (w_Gamma w) incr_Gamma) w)
      (w_f_Gamma_mem w) current_cost incr_norm.

  (** gpnh_convex_coding.py:476-504 _update_weights *)
  Definition update_weights (fuel : nat) (c : gpnh_cfg) (k : nat) (w0 : gws) : res gws :=
    let w := mk_gws (w_X w0) (w_Gamma w0) (w_S w0) (w_GtG w0) (w_GtX w0)
               (mmul (w_X w0) (mtr (w_S w0))) (mmul (w_S w0) (mtr (w_S w0)))
               (w_alpha_Gamma w0) (w_alpha_S w0) (w_f_S_mem w0) (w_f_Gamma_mem w0) in
    let grad_Gamma := weights_gradient w in
    let incr_Gamma :=
      msub (simplex_project_rows (msub (w_Gamma w) (mscale (w_alpha_Gamma w) grad_Gamma)))
           (w_Gamma w) in
    let! r := weights_line_search fuel c k w grad_Gamma incr_Gamma in
    let '(w1, step_size, mem) := r in
    let delta_grad_Gamma := msub (weights_gradient w1) grad_Gamma in
    let sksk := nsq step_size * minner incr_Gamma incr_Gamma in
    let beta := step_size * minner incr_Gamma delta_grad_Gamma in
    Ok (set_Gamma_mem (get_next_spg_alpha beta sksk (ls_alpha_min (gc_ls c)) (ls_alpha_max (gc_ls c)))
                      mem w1).

  (** gpnh_convex_coding.py:506-552 _iterate *)
  Definition gpnh_iterate (fuel : nat) (c : gpnh_cfg) (k : nat) (upd_d upd_w : bool) (tolerance : T)
             (max_iterations : nat) (w : gws) : res (gws * T * nat * list T) :=
    iterate (evaluate_cost c k) (cost_increased (gc_monotone c))
      (enabled upd_d (update_dictionary fuel c k) ++ enabled upd_w (update_weights fuel c k))
      tolerance max_iterations w.

  (** Extra keyword arguments of the furthest_sum initialisation (kwargs.get, gpnh_convex_coding.py:100-102). *)
  Record fs_kwargs := mk_fs_kwargs {
    fk_start_index : option Z; fk_n_extra_steps : Z; fk_exclude : list Z }.
  Definition fs_default : fs_kwargs := mk_fs_kwargs None 10 [].

  (** gpnh_convex_coding.py:38-46 *)
  Definition initialize_dictionary_random (data : mat T) (k : nat) (g : rng T) : mat T * rng T :=
    let mean_abs := msum (mmap nabs data) / nofnat (nr data * nc data) in
    let avg := nsqrt (mean_abs / nofnat k) in
    let '(z, g') := draw_normal_mat k (nc data) g in
    (mscale avg z, g').

  (** the dissimilarity matrix of gpnh_convex_coding.py:64-68 *)
  Definition kernel_dissimilarities (kernel : mat T) : mat T :=
    mbuild (nr kernel) (nr kernel) (fun i j =>
      nsqrt (mget kernel j j - n2 * mget kernel i j + mget kernel i i)).

  (** gpnh_convex_coding.py:49-78 *)
  Definition initialize_dictionary_furthest_sum (data : mat T) (k : nat) (kw : fs_kwargs) (g : rng T)
    : res (mat T * rng T) :=
    let kernel := mmul data (mtr data) in
    let! sg := match fk_start_index kw with
               | Some s => Ok (s, g)
               | None => let! r := draw_randint (nr kernel) g in Ok (Z.of_nat (fst r), snd r)
               end in
    let! selected := furthest_sum (kernel_dissimilarities kernel) (Z.of_nat k) (fst sg)
                       (fk_exclude kw) (fk_n_extra_steps kw) in
    let! _ := check_selected (nr data) selected in
    Ok (mbuild k (nc data) (fun i j => mget data (pyindex (nr data) (nth i selected 0%Z)) j), snd sg).

  (** gpnh_convex_coding.py:90-111 *)
  Definition initialize_dictionary (data : mat T) (k : nat) (init : init_method) (kw : fs_kwargs)
             (g : rng T) : res (mat T * rng T) :=
    match init with
    | InitNone | InitRandom => Ok (initialize_dictionary_random data k g)
    | InitFurthestSum => initialize_dictionary_furthest_sum data k kw g
    | _ => Raise ValueError
    end.
  (** gpnh_convex_coding.py:81-87, 114-125 *)
  Definition initialize_weights (data : mat T) (k : nat) (init : init_method) (g : rng T)
    : res (mat T * rng T) :=
    match init with
    | InitNone | InitRandom | InitFurthestSum => Ok (right_stochastic_matrix (nr data) k g)
    | _ => Raise ValueError
    end.

  (** Parameter checks gpnh_convex_coding.py:564-572 (identical text in
      mtd_convex_coding.py:770-778, archetypal_analysis.py:687-695 and fembv.py); bool is an
      Integral in Python, so True/False are [PInt 1]/[PInt 0] here:
      returns n_components, max_iterations and tolerance as numbers. *)
  Definition check_params (n_components max_iterations tolerance : pyval T) : res (nat * nat * T) :=
    let! k := match n_components with
              | PInt z => if (z <=? 0)%Z then Raise ValueError else Ok (Z.to_nat z)
              | _ => Raise ValueError end in
    let! m := match max_iterations with
              | PInt z => if (z <=? 0)%Z then Raise ValueError else Ok (Z.to_nat z)
              | _ => Raise ValueError end in
    let! t := match tolerance with
              | PInt z => if (z <? 0)%Z then Raise ValueError else Ok (nofZ z)
              | PFloat x => if x <? n0 then Raise ValueError else Ok x
              | _ => Raise ValueError end in
    Ok (k, m, t).

  (** n_components=None is replaced by [dflt] and stored (gpnh_convex_coding.py:561-562). *)
  Definition resolve_components (n : pyval T) (dflt : nat) : pyval T :=
    match n with PNone => PInt (Z.of_nat dflt) | _ => n end.

  (** The object.  [go_ws] is None before the first run that reached _initialize_workspace
      (X, Gamma, S are None).  [go_kw] below: extra keyword arguments of a call, None if absent. *)
  Record gpnh := mk_gpnh {
    go_cfg : gpnh_cfg;
    go_n_components : pyval T;
    go_rng : rng T;
    go_ws : option gws;
    go_dictionary_ : option (mat T); go_cost_ : option T; go_n_iter_ : option nat;
    go_n_components_ : option nat
  }.

  (** gpnh_convex_coding.py:215-261: a freshly constructed object *)
  Definition gpnh_new (c : gpnh_cfg) (n_components : pyval T) (g : rng T) : gpnh :=
    mk_gpnh c n_components g None None None None None.

  (** Outcome of a run: object, cost, n_iter, reported costs, whether the
      "Maximum number of iterations" warning was issued. *)
  Record gpnh_run := mk_gpnh_run {
    gr_obj : gpnh; gr_cost : T; gr_n_iter : nat; gr_log : list T; gr_warned : bool }.

  (** gpnh_convex_coding.py:574-594 (and 128-140): choice of the initial dictionary and weights *)
  Definition choose_initial (c : gpnh_cfg) (k : nat) (data : mat T) (dictionary weights : option (mat T))
             (upd_d upd_w : bool) (kw : option fs_kwargs) (g : rng T)
    : res (mat T * mat T * rng T) :=
    let kwv := match kw with Some v => v | None => fs_default end in
    match gc_init c with
    | InitCustom =>
        let! W := check_init_weights weights (nr data) k in
        let! D := check_init_dictionary dictionary k (nc data) in
        Ok (D, W, g)
    | init =>
        if andb (negb upd_d) upd_w then
          let! D := check_init_dictionary dictionary k (nc data) in
          match kw with
          | Some _ => Raise TypeError          (* unexpected keyword argument, :582-584 *)
          | None => let! r := initialize_weights data k init g in Ok (D, fst r, snd r)
          end
        else if andb upd_d (negb upd_w) then
          let! W := check_init_weights weights (nr data) k in
          let! r := initialize_dictionary data k init kwv g in
          Ok (fst r, W, snd r)
        else
          let! r := initialize_dictionary data k init kwv g in
          let! r2 := initialize_weights data k init (snd r) in
          Ok (fst r, fst r2, snd r2)
    end.

  (** gpnh_convex_coding.py:554-610 _gpnh_convex_coding *)
  Definition gpnh_convex_coding (fuel : nat) (o : gpnh) (data : mat T)
             (dictionary weights : option (mat T)) (upd_d upd_w : bool) (kw : option fs_kwargs)
    : res gpnh_run :=
    let c := go_cfg o in
    let ncomp := resolve_components (go_n_components o) (nc data) in
    let! kmt := check_params ncomp (gc_max_iterations c) (gc_tolerance c) in
    let '(k, max_iterations, tolerance) := kmt in
    let! dwg := choose_initial c k data dictionary weights upd_d upd_w kw (go_rng o) in
    let '(D, W, g) := dwg in
    let w_old := match go_ws o with Some w => w | None =>
                   mk_gws data W D data data data data n1 n1 [] [] end in
    let w0 := mk_gws data W D (w_GtG w_old) (w_GtX w_old) (w_XSt w_old) (w_SSt w_old)
                (w_alpha_Gamma w_old) (w_alpha_S w_old) (w_f_S_mem w_old) (w_f_Gamma_mem w_old) in
    let w1 := initialize_workspace c w0 in
    let! r := gpnh_iterate fuel c k upd_d upd_w tolerance max_iterations w1 in
    let '(w2, cost, n_iter, log) := r in
    let warned := andb (Nat.eqb n_iter max_iterations) (tolerance >? n0) in      (* :606 *)
    Ok (mk_gpnh_run
          (mk_gpnh c ncomp g (Some w2) (go_dictionary_ o) (go_cost_ o) (go_n_iter_ o) (go_n_components_ o))
          cost n_iter log warned).

  (** gpnh_convex_coding.py:612-644 fit_transform; update_dictionary / update_weights may be
      passed through **kwargs.  Returns the run and the weights. *)
  Definition fit_transform (fuel : nat) (o : gpnh) (data : mat T)
             (dictionary weights : option (mat T)) (upd_d upd_w : bool) (kw : option fs_kwargs)
    : res (gpnh_run * mat T) :=
    let! r := gpnh_convex_coding fuel o data dictionary weights upd_d upd_w kw in
    let o1 := gr_obj r in
    match go_ws o1 with
    | None => Raise AttributeError
    | Some w =>
        let o2 := mk_gpnh (go_cfg o1) (go_n_components o1) (go_rng o1) (go_ws o1)
                    (Some (w_S w)) (Some (gr_cost r)) (Some (gr_n_iter r)) (Some (nr (w_S w))) in
        Ok (mk_gpnh_run o2 (gr_cost r) (gr_n_iter r) (gr_log r) (gr_warned r), w_Gamma w)
    end.

  (** gpnh_convex_coding.py:661-680 transform *)
  Definition transform (fuel : nat) (o : gpnh) (data : mat T) : res (gpnh_run * mat T) :=
    let S := match go_ws o with Some w => Some (w_S w) | None => None end in
    let! r := gpnh_convex_coding fuel o data S None false true None in
    match go_ws (gr_obj r) with
    | None => Raise AttributeError
    | Some w => Ok (r, w_Gamma w)
    end.

  (** gpnh_convex_coding.py:682-696 inverse_transform; None.dot... : AttributeError/TypeError
      before fitting *)
  Definition inverse_transform (o : gpnh) (weights : mat T) : res (mat T) :=
    match go_ws o with
    | None => Raise TypeError
    | Some w => if Nat.eqb (nc weights) (nr (w_S w)) then Ok (mmul weights (w_S w)) else Raise ValueError
    end.
End GPNH.
Arguments gpnh_cfg : clear implicits.
Arguments gws : clear implicits.
Arguments gpnh : clear implicits.
Arguments gpnh_run : clear implicits.
