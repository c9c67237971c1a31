(** Model of src/reor/archetypal_analysis.py *)
From Coq Require Import List Arith ZArith Bool.
From Verif Require Import Num Mat Py M_simplex M_spg M_iter M_random M_furthest M_gpnh.
Import ListNotations.

Section AA.
  Context {T : Type} {N : Num T}.
  Local Open Scope num_scope.

  (** Constructor parameters that never change afterwards (archetypal_analysis.py:218-235;
      [verbose] dropped). *)
  Record aa_cfg := mk_aa_cfg {
    ac_delta : T;
    ac_init : init_method;
    ac_tolerance : pyval T;
    ac_max_iterations : pyval T;
    ac_ls : ls_params T;
    ac_memory : nat;                 (* line_search_memory *)
    ac_monotone : bool               (* require_monotonic_cost_decrease *)
  }.

  (** Workspace attributes (archetypal_analysis.py:236-270).  C_old, S_old, alpha_old, grad_*,
      delta_grad_*, incr_* are always recomputed before being read; they are local values here. *)
  Record aws := mk_aws {
    a_K : mat T; a_S : mat T; a_C : mat T; a_alpha : list T;
    a_trace_K : T; a_CK : mat T; a_CKCt : mat T; a_CKS : mat T; a_StS : mat T;
    a_alpha_C : T; a_alpha_S : T; a_alpha_alpha : T;
    a_f_S_mem : list T; a_f_C_mem : list T; a_f_alpha_mem : list T
  }.

  (** "self.CK = self.C.dot(self.K); if self.delta > 0: self.CK = diag_alpha.dot(self.CK)"
      (archetypal_analysis.py:276-280, 386-390, 451-455, 474-476, 561-564) *)
  Definition scaled_CK (c : aa_cfg) (alpha : list T) (C K : mat T) : mat T :=
    let CK := mmul C K in
    if ac_delta c >? n0 then mmul (mdiag alpha) CK else CK.
  (** "self.CKCt = self.CK.dot(self.C.T); if self.delta > 0: self.CKCt = self.CKCt.dot(diag_alpha)"
      (archetypal_analysis.py:282-284, 392-394, 457-459, 478-480, 566-568) *)
  Definition scaled_CKCt (c : aa_cfg) (alpha : list T) (CK C : mat T) : mat T :=
    let CKCt := mmul CK (mtr C) in
    if ac_delta c >? n0 then mmul CKCt (mdiag alpha) else CKCt.

  (** archetypal_analysis.py:272-284: the attributes written by _evaluate_cost *)
  Definition aa_refresh (c : aa_cfg) (w : aws) : aws :=
    let StS := mmul (mtr (a_S w)) (a_S w) in
    let CK := scaled_CK c (a_alpha w) (a_C w) (a_K w) in
    let CKCt := scaled_CKCt c (a_alpha w) CK (a_C w) in
    mk_aws (a_K w) (a_S w) (a_C w) (a_alpha w) (a_trace_K w) CK CKCt (a_CKS w) StS
           (a_alpha_C w) (a_alpha_S w) (a_alpha_alpha w) (a_f_S_mem w) (a_f_C_mem w) (a_f_alpha_mem w).
  (** archetypal_analysis.py:286-287: the value returned by _evaluate_cost *)
  Definition aa_evaluate_cost (c : aa_cfg) (w : aws) : T :=
    let w' := aa_refresh c w in
    mtrace (mmul (a_StS w') (a_CKCt w')) - n2 * mtrace (mmul (a_S w') (a_CK w')) + mtrace (a_K w').

  (** archetypal_analysis.py:289-323 _initialize_workspace; [k] is self.n_components *)
  Definition aa_initialize_workspace (c : aa_cfg) (k : nat) (K S C : mat T) : aws :=
    let CK := mmul C K in
    mk_aws K S C (repeat n1 k) (mtrace K) CK (mmul CK (mtr C)) (mmul CK S) (mmul (mtr S) S)
           n1 n1 n1 (repeat n0 (ac_memory c)) (repeat n0 (ac_memory c)) (repeat n0 (ac_memory c)).

  (** The cost expression of the line searches, from the cached products
      (archetypal_analysis.py:340-341, 360-361, 375-376, 433-434, 461-462, 482-483) *)
  Definition aa_cached_cost (w : aws) : T :=
    a_trace_K w - n2 * mtrace (mmul (a_S w) (a_CK w)) + mtrace (mmul (a_StS w) (a_CKCt w)).

  (** archetypal_analysis.py:325-334 _update_weights_gradient *)
  Definition aa_weights_gradient (c : aa_cfg) (w : aws) : mat T :=
    let g0 := mmul (mtr (a_K w)) (mscale (nofZ (-2)) (mtr (a_C w))) in
    let g1 := if ac_delta c >? n0 then mmul g0 (mdiag (a_alpha w)) else g0 in
    madd g1 (mmul (a_S w) (mscale n2 (a_CKCt w))).

  (** self.S = ...; self.StS = self.S.T.dot(self.S) *)
  Definition set_S_StS (S : mat T) (w : aws) : aws :=
    mk_aws (a_K w) S (a_C w) (a_alpha w) (a_trace_K w) (a_CK w) (a_CKCt w) (a_CKS w) (mmul (mtr S) S)
           (a_alpha_C w) (a_alpha_S w) (a_alpha_alpha w) (a_f_S_mem w) (a_f_C_mem w) (a_f_alpha_mem w).
  (** self.C = ...; self.CK = ...; self.CKCt = ... *)
  Definition set_C_CK (c : aa_cfg) (C : mat T) (w : aws) : aws :=
    let CK := scaled_CK c (a_alpha w) C (a_K w) in
    mk_aws (a_K w) (a_S w) C (a_alpha w) (a_trace_K w) CK (scaled_CKCt c (a_alpha w) CK C) (a_CKS w) (a_StS w)
           (a_alpha_C w) (a_alpha_S w) (a_alpha_alpha w) (a_f_S_mem w) (a_f_C_mem w) (a_f_alpha_mem w).

  (** archetypal_analysis.py:337-381 _weights_line_search *)
  Definition aa_weights_line_search (fuel : nat) (c : aa_cfg) (w : aws) (grad_S incr_S : mat T)
    : res (aws * T * list T) :=
    let current_cost := aa_cached_cost w in
    let S_old := a_S w in
    line_search fuel (ac_ls c) aa_cached_cost
      (fun s => set_S_StS (madd S_old (mscale s incr_S)) w)
      (set_S_StS (madd (a_S w) incr_S) w)
      (a_f_S_mem w) current_cost (minner incr_S grad_S).

  (** archetypal_analysis.py:383-418 _update_weights *)
  Definition aa_update_weights (fuel : nat) (c : aa_cfg) (w0 : aws) : res aws :=
    let CK := scaled_CK c (a_alpha w0) (a_C w0) (a_K w0) in
    let CKCt := scaled_CKCt c (a_alpha w0) CK (a_C w0) in
    let w := mk_aws (a_K w0) (a_S w0) (a_C w0) (a_alpha w0) (a_trace_K w0) CK CKCt (a_CKS w0) (a_StS w0)
               (a_alpha_C w0) (a_alpha_S w0) (a_alpha_alpha w0)
               (a_f_S_mem w0) (a_f_C_mem w0) (a_f_alpha_mem w0) in
    let grad_S := aa_weights_gradient c w in
    let incr_S := msub (simplex_project_rows (msub (a_S w) (mscale (a_alpha_S w) grad_S))) (a_S w) in
    let! r := aa_weights_line_search fuel c w grad_S incr_S in
    let '(w1, step_size, mem) := r in
    let delta_grad_S := msub (aa_weights_gradient c w1) grad_S in
    let sksk := nsq step_size * minner incr_S incr_S in
    let beta := step_size * minner incr_S delta_grad_S in
    let alpha_S := get_next_spg_alpha beta sksk (ls_alpha_min (ac_ls c)) (ls_alpha_max (ac_ls c)) in
    Ok (mk_aws (a_K w1) (a_S w1) (a_C w1) (a_alpha w1) (a_trace_K w1) (a_CK w1) (a_CKCt w1) (a_CKS w1) (a_StS w1)
          (a_alpha_C w1) alpha_S (a_alpha_alpha w1) mem (a_f_C_mem w1) (a_f_alpha_mem w1)).

  (** archetypal_analysis.py:420-428 _update_dictionary_gradient *)
  Definition aa_dictionary_gradient (c : aa_cfg) (w : aws) : mat T :=
    let g0 := mmul (mtr (a_S w)) (mscale (nofZ (-2)) (mtr (a_K w))) in
    let g1 := madd g0 (mscale n2 (mmul (a_StS w) (a_CK w))) in
    if ac_delta c >? n0 then mmul (mdiag (a_alpha w)) g1 else g1.

  (** archetypal_analysis.py:430-488 _dictionary_line_search *)
  Definition aa_dictionary_line_search (fuel : nat) (c : aa_cfg) (w : aws) (grad_C incr_C : mat T)
    : res (aws * T * list T) :=
    let current_cost := aa_cached_cost w in
    let C_old := a_C w in
    line_search fuel (ac_ls c) aa_cached_cost
      (fun s => set_C_CK c (madd C_old (mscale s incr_C)) w)
      (set_C_CK c (madd (a_C w) incr_C) w)
      (a_f_C_mem w) current_cost (minner incr_C grad_C).

  (** archetypal_analysis.py:490-500 _update_scale_factors_gradient: a vector, the diagonal *)
  Definition aa_scale_gradient (w : aws) : list T :=
    let g0 := mmul (a_StS w) (mscale n2 (mmul (mdiag (a_alpha w)) (mtr (a_CKCt w)))) in
    let g1 := madd g0 (mscale (nofZ (-2)) (mtr (a_CKS w))) in
    mdiagonal g1.

  (** the cost of a k x k matrix [d] of scale factors (archetypal_analysis.py:508-512, 529-533, 545-549) *)
  Definition aa_scale_cost (w : aws) (d : mat T) : T :=
    let CKCt_tmp := mmul d (mmul (a_CKCt w) d) in
    a_trace_K w - n2 * mtrace (mmul (a_CKS w) d) + mtrace (mmul (a_StS w) CKCt_tmp).

  (** archetypal_analysis.py:502-554 _scale_factors_line_search: the accepted matrix of scale
      factors is local and dropped; only the step and the cost memory survive.
      incr_alpha is k x k, grad_alpha a vector broadcast over the rows (:524). *)
  Definition aa_scale_line_search (fuel : nat) (c : aa_cfg) (w : aws) (grad_alpha : list T) (incr_alpha : mat T)
    : res (T * list T) :=
    let diag_alpha := mdiag (a_alpha w) in
    let current_cost := aa_scale_cost w diag_alpha in
    let grad := mbuild (nr incr_alpha) (nc incr_alpha) (fun _ j => nth j grad_alpha n0) in
    let! r := line_search fuel (ac_ls c) (aa_scale_cost w)
      (fun s => madd diag_alpha (mscale s incr_alpha))
      (madd diag_alpha incr_alpha)
      (a_f_alpha_mem w) current_cost (minner incr_alpha grad) in
    let '(_, step_size, mem) := r in
    Ok (step_size, mem).

  (** archetypal_analysis.py:592-621: the scale-factor part of _update_dictionary, for delta > 0.
      [diag_alpha - alpha_alpha * grad_alpha] subtracts a row vector from every row. *)
  Definition aa_update_scale (fuel : nat) (c : aa_cfg) (w0 : aws) : res aws :=
    let CK := mmul (a_C w0) (a_K w0) in
    let w := mk_aws (a_K w0) (a_S w0) (a_C w0) (a_alpha w0) (a_trace_K w0)
               CK (mmul CK (mtr (a_C w0))) (mmul CK (a_S w0)) (a_StS w0)
               (a_alpha_C w0) (a_alpha_S w0) (a_alpha_alpha w0)
               (a_f_S_mem w0) (a_f_C_mem w0) (a_f_alpha_mem w0) in
    let diag_alpha := mdiag (a_alpha w) in
    let grad_alpha := aa_scale_gradient w in
    let i0 := mbuild (nr diag_alpha) (nc diag_alpha) (fun i j =>
                mget diag_alpha i j - a_alpha_alpha w * nth j grad_alpha n0) in
    let i1 := mmap (fun x => nfmin x (n1 - ac_delta c)) i0 in
    let i2 := mmap (fun x => nfmax x (n1 + ac_delta c)) i1 in
    let incr_alpha := msub i2 diag_alpha in
    let! r := aa_scale_line_search fuel c w grad_alpha incr_alpha in
    let '(step_size, mem) := r in
    let grad_alpha' := aa_scale_gradient w in
    let delta_grad := mbuild (nr incr_alpha) (nc incr_alpha)
                        (fun _ j => nth j grad_alpha' n0 - nth j grad_alpha n0) in
    let sksk := nsq step_size * minner incr_alpha incr_alpha in
    let beta := step_size * minner incr_alpha delta_grad in
    let alpha_alpha := get_next_spg_alpha beta sksk (ls_alpha_min (ac_ls c)) (ls_alpha_max (ac_ls c)) in
    Ok (mk_aws (a_K w) (a_S w) (a_C w) (a_alpha w) (a_trace_K w) (a_CK w) (a_CKCt w) (a_CKS w) (a_StS w)
          (a_alpha_C w) (a_alpha_S w) alpha_alpha (a_f_S_mem w) (a_f_C_mem w) mem).

  (** archetypal_analysis.py:556-623 _update_dictionary *)
  Definition aa_update_dictionary (fuel : nat) (c : aa_cfg) (w0 : aws) : res aws :=
    let CK := scaled_CK c (a_alpha w0) (a_C w0) (a_K w0) in
    let CKCt := scaled_CKCt c (a_alpha w0) CK (a_C w0) in
    let w := mk_aws (a_K w0) (a_S w0) (a_C w0) (a_alpha w0) (a_trace_K w0) CK CKCt (a_CKS w0)
               (mmul (mtr (a_S w0)) (a_S w0))
               (a_alpha_C w0) (a_alpha_S w0) (a_alpha_alpha w0)
               (a_f_S_mem w0) (a_f_C_mem w0) (a_f_alpha_mem w0) in
    let grad_C := aa_dictionary_gradient c w in
    let incr_C := msub (simplex_project_rows (msub (a_C w) (mscale (a_alpha_C w) grad_C))) (a_C w) in
    let! r := aa_dictionary_line_search fuel c w grad_C incr_C in
    let '(w1, step_size, mem) := r in
    let delta_grad_C := msub (aa_dictionary_gradient c w1) grad_C in
    let sksk := nsq step_size * minner incr_C incr_C in
    let beta := step_size * minner incr_C delta_grad_C in
    let alpha_C := get_next_spg_alpha beta sksk (ls_alpha_min (ac_ls c)) (ls_alpha_max (ac_ls c)) in
    let w2 := mk_aws (a_K w1) (a_S w1) (a_C w1) (a_alpha w1) (a_trace_K w1) (a_CK w1) (a_CKCt w1) (a_CKS w1)
                (a_StS w1) alpha_C (a_alpha_S w1) (a_alpha_alpha w1)
                (a_f_S_mem w1) mem (a_f_alpha_mem w1) in
    if ac_delta c >? n0 then aa_update_scale fuel c w2 else Ok w2.

  (** archetypal_analysis.py:625-671 _iterate.  _evaluate_cost also rewrites the caches: that
      effect ([aa_refresh]) is composed with each update, and applied to the initial state. *)
  Definition and_refresh (c : aa_cfg) (u : aws -> res aws) (w : aws) : res aws :=
    let! w' := u w in Ok (aa_refresh c w').
  Definition aa_iterate (fuel : nat) (c : aa_cfg) (upd_d upd_w : bool) (tolerance : T)
             (max_iterations : nat) (w : aws) : res (aws * T * nat * list T) :=
    iterate (aa_evaluate_cost c) (cost_increased (ac_monotone c))
      (enabled upd_d (and_refresh c (aa_update_dictionary fuel c))
         ++ enabled upd_w (and_refresh c (aa_update_weights fuel c)))
      tolerance max_iterations (aa_refresh c w).

  (** archetypal_analysis.py:61-87.  The kernel is floating point here; with an integer kernel the
      dictionary is an integer array, see M_dtype. *)
  Definition aa_dictionary_furthest_sum (kernel : mat T) (k : nat) (kw : fs_kwargs) (g : rng T)
    : res (mat T * rng T) :=
    let n_samples := nr kernel in
    let! sg := match fk_start_index kw with
               | Some s => Ok (s, g)
               | None => let! r := draw_randint n_samples g in Ok (Z.of_nat (fst r), snd r)
               end in
    let! selected := furthest_sum (kernel_dissimilarities kernel) (Z.of_nat k) (fst sg)
                       (fk_exclude kw) (fk_n_extra_steps kw) in
    let! _ := check_selected n_samples selected in
    Ok (mbuild k n_samples (fun i j =>
          if Nat.eqb j (pyindex n_samples (nth i selected 0%Z)) then n1 else n0), snd sg).

  (** archetypal_analysis.py:41-48, 90-111 *)
  Definition aa_initialize_dictionary (kernel : mat T) (k : nat) (init : init_method) (kw : fs_kwargs)
             (g : rng T) : res (mat T * rng T) :=
    match init with
    | InitNone | InitFurthestSum => aa_dictionary_furthest_sum kernel k kw g
    | InitRandom => Ok (right_stochastic_matrix k (nr kernel) g)
    | _ => Raise ValueError
    end.
  (** archetypal_analysis.py:51-58, 114-125 *)
  Definition aa_initialize_weights (kernel : mat T) (k : nat) (init : init_method) (g : rng T)
    : res (mat T * rng T) :=
    match init with
    | InitNone | InitFurthestSum | InitRandom => Ok (right_stochastic_matrix (nr kernel) k g)
    | _ => Raise ValueError
    end.

  (** The object.  random_state is kept as given: an integer seed makes a fresh generator in
      every call ([ao_seeded] true, [ao_rng] is that fresh generator), a RandomState instance
      (or None, numpy's global one) advances. *)
  Record aa := mk_aa {
    ao_cfg : aa_cfg;
    ao_n_components : pyval T;
    ao_seeded : bool;
    ao_rng : rng T;
    ao_ws : option aws;
    ao_dictionary_ : option (mat T); ao_cost_ : option T; ao_n_iter_ : option nat;
    ao_n_components_ : option nat
  }.
  (** archetypal_analysis.py:218-270: the constructor evaluates np.ones(n_components)
      (:239): a negative integer raises ValueError, a float or other object TypeError. *)
  Definition aa_new (c : aa_cfg) (n_components : pyval T) (seeded : bool) (g : rng T) : res aa :=
    let o := mk_aa c n_components seeded g None None None None None in
    match n_components with
    | PNone => Ok o
    | PInt z => if (z <? 0)%Z then Raise ValueError else Ok o
    | _ => Raise TypeError
    end.

  Record aa_run := mk_aa_run {
    ar_obj : aa; ar_cost : T; ar_n_iter : nat; ar_log : list T; ar_warned : bool }.

  (** archetypal_analysis.py:697-717 (and 128-141): initial dictionary and weights.  Extra
      keyword arguments reach _initialize_kernel_aa_weights, which does not accept any. *)
  Definition aa_choose_initial (c : aa_cfg) (k : nat) (kernel : mat T) (dictionary weights : option (mat T))
             (upd_d upd_w : bool) (kw : option fs_kwargs) (g : rng T)
    : res (mat T * mat T * rng T) :=
    let n_samples := nr kernel in
    let kwv := match kw with Some v => v | None => fs_default end in
    match ac_init c with
    | InitCustom =>
        let! W := check_init_weights weights n_samples k in
        let! D := check_init_aa_dictionary dictionary k n_samples in
        Ok (D, W, g)
    | init =>
        if andb (negb upd_d) upd_w then
          let! D := check_init_aa_dictionary dictionary k n_samples in
          match kw with
          | Some _ => Raise TypeError
          | None => let! r := aa_initialize_weights kernel k init g in Ok (D, fst r, snd r)
          end
        else if andb upd_d (negb upd_w) then
          let! W := check_init_weights weights n_samples k in
          let! r := aa_initialize_dictionary kernel k init kwv g in
          Ok (fst r, W, snd r)
        else
          let! r := aa_initialize_dictionary kernel k init kwv g in
          match kw with
          | Some _ => Raise TypeError
          | None => let! r2 := aa_initialize_weights kernel k init (snd r) in Ok (fst r, fst r2, snd r2)
          end
    end.

  (** archetypal_analysis.py:673-733 _kernel_aa *)
  Definition kernel_aa (fuel : nat) (o : aa) (kernel : mat T)
             (dictionary weights : option (mat T)) (upd_d upd_w : bool) (kw : option fs_kwargs)
    : res aa_run :=
    let c := ao_cfg o in
    if negb (Nat.eqb (nc kernel) (nr kernel)) then Raise ValueError else          (* :679 *)
    let ncomp := resolve_components (ao_n_components o) (nr kernel) in            (* :684 *)
    let! kmt := check_params ncomp (ac_max_iterations c) (ac_tolerance c) in
    let '(k, max_iterations, tolerance) := kmt in
    let! dwg := aa_choose_initial c k kernel dictionary weights upd_d upd_w kw (ao_rng o) in
    let '(D, W, g) := dwg in
    let w0 := aa_initialize_workspace c k kernel W D in
    let! r := aa_iterate fuel c upd_d upd_w tolerance max_iterations w0 in
    let '(w2, cost, n_iter, log) := r in
    let warned := andb (Nat.eqb n_iter max_iterations) (tolerance >? n0) in      (* :729 *)
    Ok (mk_aa_run
          (mk_aa c ncomp (ao_seeded o) (if ao_seeded o then ao_rng o else g) (Some w2)
             (ao_dictionary_ o) (ao_cost_ o) (ao_n_iter_ o) (ao_n_components_ o))
          cost n_iter log warned).

  (** archetypal_analysis.py:762-767: attributes set after a fit; returns the weights *)
  Definition aa_set_fitted (r : aa_run) : res (aa_run * mat T) :=
    let o1 := ar_obj r in
    match ao_ws o1 with
    | None => Raise AttributeError
    | Some w =>
        let o2 := mk_aa (ao_cfg o1) (ao_n_components o1) (ao_seeded o1) (ao_rng o1) (ao_ws o1)
                    (Some (a_C w)) (Some (ar_cost r)) (Some (ar_n_iter r)) (Some (nr (a_C w))) in
        Ok (mk_aa_run o2 (ar_cost r) (ar_n_iter r) (ar_log r) (ar_warned r), a_S w)
    end.

  (** archetypal_analysis.py:735-767 fit_transform *)
  Definition aa_fit_transform (fuel : nat) (o : aa) (kernel : mat T)
             (dictionary weights : option (mat T)) (upd_d upd_w : bool) (kw : option fs_kwargs)
    : res (aa_run * mat T) :=
    let! r := kernel_aa fuel o kernel dictionary weights upd_d upd_w kw in
    aa_set_fitted r.

  (** archetypal_analysis.py:784-803 transform *)
  Definition aa_transform (fuel : nat) (o : aa) (kernel : mat T) : res (aa_run * mat T) :=
    let C := match ao_ws o with Some w => Some (a_C w) | None => None end in
    let! r := kernel_aa fuel o kernel C None false true None in
    match ao_ws (ar_obj r) with
    | None => Raise AttributeError
    | Some w => Ok (r, a_S w)
    end.

  (** archetypal_analysis.py:805-819 inverse_transform (np.dot with None: TypeError) *)
  Definition aa_inverse_transform (o : aa) (weights : mat T) : res (mat T) :=
    match ao_ws o with
    | None => Raise TypeError
    | Some w => if Nat.eqb (nc weights) (nr (a_C w)) then Ok (mmul weights (a_C w)) else Raise ValueError
    end.

  (** ArchetypalAnalysis (archetypal_analysis.py:908-973): [kf] is kernel_func, an arbitrary
      callable; None means the Euclidean inner product of the rows (:934-937, 964-967). *)
  Definition arch_kernel (kf : option (mat T -> mat T)) (data : mat T) : mat T :=
    match kf with None => mmul data (mtr data) | Some f => f data end.
  (** archetypal_analysis.py:913-949 *)
  Definition arch_fit_transform (fuel : nat) (kf : option (mat T -> mat T)) (o : aa) (data : mat T)
             (dictionary weights : option (mat T)) (upd_d upd_w : bool) (kw : option fs_kwargs)
    : res (aa_run * mat T) :=
    let kernel := arch_kernel kf data in
    let! r := kernel_aa fuel o kernel dictionary weights upd_d upd_w kw in
    aa_set_fitted r.
  (** archetypal_analysis.py:951-973 *)
  Definition arch_transform (fuel : nat) (kf : option (mat T -> mat T)) (o : aa) (data : mat T)
    : res (aa_run * mat T) :=
    let kernel := arch_kernel kf data in
    let C := match ao_ws o with Some w => Some (a_C w) | None => None end in
    let! r := kernel_aa fuel o kernel C None false true None in
    match ao_ws (ar_obj r) with
    | None => Raise AttributeError
    | Some w => Ok (r, a_S w)
    end.
End AA.
Arguments aa_cfg : clear implicits.
Arguments aws : clear implicits.
Arguments aa : clear implicits.
Arguments aa_run : clear implicits.
