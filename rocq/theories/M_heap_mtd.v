(** MTDConvexCoding (src/reor/mtd_convex_coding.py) statement by statement on a heap of arrays, in
    the style of M_heap_gpnh.v.  The values come from M_mtd.v.  A sequence of partial writes into
    one array with no other statement between them is one [inplace]. *)
From Coq Require Import List Arith ZArith Bool.
From Verif Require Import Num Mat Py M_simplex M_spg M_iter M_random M_furthest M_gpnh M_mtd Heap M_heap.
Import ListNotations.

(** The attributes holding arrays (mtd_convex_coding.py:227-258; ow is order_weights, T is
    transition_matrices; trace_XtX is a number and never read). *)
Inductive mname :=
| xX | xGamma | xS | xow | xT | xGtG | xGtX | xXSt | xSSt | xZ
| xGamma_old | xgrad_Gamma | xdelta_grad_Gamma | xincr_Gamma
| xS_old | xgrad_S | xdelta_grad_S | xincr_S
| xow_old | xgrad_ow | xdelta_grad_ow | xincr_ow
| xT_old | xgrad_T | xdelta_grad_T | xincr_T.
Definition mname_eq (x y : mname) : {x = y} + {x <> y}.
Proof. decide equality. Defined.

Section HMtd.
  Context {T : Type} {N : Num T}.
  Local Open Scope num_scope.
  Local Open Scope prog_scope.

  (** The values of the attributes. *)
  Record mtat := mk_mtat {
    q_X : mat T; q_Gamma : mat T; q_S : mat T; q_ow : list T; q_T : list (mat T);
    q_GtG : mat T; q_GtX : mat T; q_XSt : mat T; q_SSt : mat T; q_Z : mat T;
    q_Gamma_old : mat T; q_grad_Gamma : mat T; q_delta_grad_Gamma : mat T; q_incr_Gamma : mat T;
    q_S_old : mat T; q_grad_S : mat T; q_delta_grad_S : mat T; q_incr_S : mat T;
    q_ow_old : list T; q_grad_ow : list T; q_delta_grad_ow : list T; q_incr_ow : list T;
    q_T_old : list (mat T); q_grad_T : list (mat T); q_delta_grad_T : list (mat T); q_incr_T : list (mat T) }.
  Definition m_rd (e : mname -> arr T) : mtat :=
    mk_mtat (am (e xX)) (am (e xGamma)) (am (e xS)) (av (e xow)) (a3 (e xT))
            (am (e xGtG)) (am (e xGtX)) (am (e xXSt)) (am (e xSSt)) (am (e xZ))
            (am (e xGamma_old)) (am (e xgrad_Gamma)) (am (e xdelta_grad_Gamma)) (am (e xincr_Gamma))
            (am (e xS_old)) (am (e xgrad_S)) (am (e xdelta_grad_S)) (am (e xincr_S))
            (av (e xow_old)) (av (e xgrad_ow)) (av (e xdelta_grad_ow)) (av (e xincr_ow))
            (a3 (e xT_old)) (a3 (e xgrad_T)) (a3 (e xdelta_grad_T)) (a3 (e xincr_T)).
  (** Attributes that are not arrays (mtd_convex_coding.py:260-268). *)
  Record msc := mk_msc {
    z_alpha_Gamma : T; z_alpha_S : T; z_alpha_parameters : T;
    z_f_S_mem : list T; z_f_Gamma_mem : list T; z_f_parameters_mem : list T }.
  (** The workspace of M_mtd.v *)
  Definition m_ws (r : mtat) (s : msc) : mws T :=
    mk_mws (q_X r) (q_Gamma r) (q_S r) (q_ow r) (q_T r) (q_GtG r) (q_GtX r) (q_XSt r) (q_SSt r) (q_Z r)
           (z_alpha_Gamma s) (z_alpha_S s) (z_alpha_parameters s)
           (z_f_S_mem s) (z_f_Gamma_mem s) (z_f_parameters_mem s).

  Notation prog := (prog (arr T) mname mtat msc).
  Notation st := (hst (arr T) mname msc).

  (** statements on arrays of one, two and three dimensions *)
  Definition mnewm (x : mname) (f : mtat -> msc -> mat T) : prog unit := new x (fun r s => AM (f r s)).
  Definition minplacem (x : mname) (f : mtat -> msc -> mat T) : prog unit := inplace x (fun r s => AM (f r s)).
  Definition mnewv (x : mname) (f : mtat -> msc -> list T) : prog unit := new x (fun r s => AV (f r s)).
  Definition minplacev (x : mname) (f : mtat -> msc -> list T) : prog unit := inplace x (fun r s => AV (f r s)).
  Definition mnew3 (x : mname) (f : mtat -> msc -> list (mat T)) : prog unit := new x (fun r s => A3 (f r s)).
  Definition minplace3 (x : mname) (f : mtat -> msc -> list (mat T)) : prog unit := inplace x (fun r s => A3 (f r s)).

  (** mtd_convex_coding.py:317-328: a new array of zeros, then written in place *)
  Definition pm_predicted (c : mtd_cfg T) : prog unit :=
    mnewm xZ (fun r _ => mzeros (nr (q_Gamma r)) (nc (q_Gamma r))) ;;;
    minplacem xZ (fun r _ => predicted_weights c (q_ow r) (q_T r) (q_Gamma r)).

  (** mtd_convex_coding.py:375-380; only reads *)
  Definition pm_cost (c : mtd_cfg T) (k : nat) : prog T :=
    look (fun r s => mtd_evaluate_cost c k (m_ws r s)).

  (** mtd_convex_coding.py:382-407 *)
  Definition pm_dictionary_gradient (c : mtd_cfg T) (k : nat) : prog unit :=
    mnewm xgrad_S (fun r s => mtd_dictionary_penalty_gradient c k (m_ws r s)) ;;;
    let normalization := fun r => n1 / (nofnat (nc (q_X r)) * nofnat (nr (q_X r))) in
    minplacem xgrad_S (fun r _ => madd (q_grad_S r) (mscale (nofZ (-2) * normalization r) (q_GtX r))) ;;;
    minplacem xgrad_S (fun r _ => madd (q_grad_S r) (mscale (n2 * normalization r) (mmul (q_GtG r) (q_S r)))).

  (** mtd_convex_coding.py:409-448 *)
  Definition pm_dictionary_line_search (fuel : nat) (c : mtd_cfg T) (k : nat) : prog T :=
    p_line_search fuel (mc_ls c) (pm_cost c k)
      (mnewm xS_old (fun r _ => q_S r))                                            (* :414 copy *)
      z_f_S_mem (fun m s => mk_msc (z_alpha_Gamma s) (z_alpha_S s) (z_alpha_parameters s)
                                   m (z_f_Gamma_mem s) (z_f_parameters_mem s))
      (fun r => minner (q_incr_S r) (q_grad_S r))
      (minplacem xS (fun r _ => madd (q_S r) (q_incr_S r)) ;;;                     (* :427 += *)
       mnewm xSSt (fun r _ => mmul (q_S r) (mtr (q_S r))))
      (fun step =>
         mnewm xS (fun r _ => madd (q_S_old r) (mscale step (q_incr_S r))) ;;;     (* :440 *)
         mnewm xSSt (fun r _ => mmul (q_S r) (mtr (q_S r)))).

  (** mtd_convex_coding.py:450-478 *)
  Definition pm_update_dictionary (fuel : nat) (c : mtd_cfg T) (k : nat) : prog unit :=
    mnewm xSSt (fun r _ => mmul (q_S r) (mtr (q_S r))) ;;;
    mnewm xGtX (fun r _ => mmul (mtr (q_Gamma r)) (q_X r)) ;;;
    mnewm xGtG (fun r _ => mmul (mtr (q_Gamma r)) (q_Gamma r)) ;;;
    pm_dictionary_gradient c k ;;;
    mnewm xincr_S (fun r s => msub (q_S r) (mscale (z_alpha_S s) (q_grad_S r))) ;;;
    minplacem xincr_S (fun r _ => msub (q_incr_S r) (q_S r)) ;;;
    do! step_size <- pm_dictionary_line_search fuel c k ;;
    mnewm xdelta_grad_S (fun r _ => q_grad_S r) ;;;                                (* :464 copy *)
    pm_dictionary_gradient c k ;;;
    mnewm xdelta_grad_S (fun r _ => msub (q_grad_S r) (q_delta_grad_S r)) ;;;
    setsc (fun r s =>
      let sksk := nsq step_size * minner (q_incr_S r) (q_incr_S r) in
      let beta := step_size * minner (q_incr_S r) (q_delta_grad_S r) in
      mk_msc (z_alpha_Gamma s)
             (get_next_spg_alpha beta sksk (ls_alpha_min (mc_ls c)) (ls_alpha_max (mc_ls c)))
             (z_alpha_parameters s) (z_f_S_mem s) (z_f_Gamma_mem s) (z_f_parameters_mem s)).

  (** mtd_convex_coding.py:480-510: zeros_like, the partial += of the penalty, two += *)
  Definition pm_weights_gradient (c : mtd_cfg T) (k : nat) : prog unit :=
    mnewm xgrad_Gamma (fun r _ => mzeros (nr (q_Gamma r)) (nc (q_Gamma r))) ;;;
    minplacem xgrad_Gamma (fun r s => mtd_weights_penalty_gradient c k (m_ws r s)) ;;;
    let normalization := fun r => n1 / (nofnat (nc (q_X r)) * nofnat (nr (q_X r))) in
    minplacem xgrad_Gamma (fun r _ => madd (q_grad_Gamma r) (mscale (nofZ (-2) * normalization r) (q_XSt r))) ;;;
    minplacem xgrad_Gamma (fun r _ =>
      madd (q_grad_Gamma r) (mscale (n2 * normalization r) (mmul (q_Gamma r) (q_SSt r)))).

  (** mtd_convex_coding.py:512-551 *)
  Definition pm_weights_line_search (fuel : nat) (c : mtd_cfg T) (k : nat) : prog T :=
    p_line_search fuel (mc_ls c) (pm_cost c k)
      (mnewm xGamma_old (fun r _ => q_Gamma r))                                    (* :517 copy *)
      z_f_Gamma_mem (fun m s => mk_msc (z_alpha_Gamma s) (z_alpha_S s) (z_alpha_parameters s)
                                       (z_f_S_mem s) m (z_f_parameters_mem s))
      (fun r => minner (q_incr_Gamma r) (q_grad_Gamma r))
      (minplacem xGamma (fun r _ => madd (q_Gamma r) (q_incr_Gamma r)) ;;;         (* :530 += *)
       pm_predicted c)
      (fun step =>
         mnewm xGamma (fun r _ => madd (q_Gamma_old r) (mscale step (q_incr_Gamma r))) ;;;  (* :543 *)
         pm_predicted c).

  (** mtd_convex_coding.py:553-581; simplex_project_rows writes into its argument *)
  Definition pm_update_weights (fuel : nat) (c : mtd_cfg T) (k : nat) : prog unit :=
    mnewm xSSt (fun r _ => mmul (q_S r) (mtr (q_S r))) ;;;
    mnewm xXSt (fun r _ => mmul (q_X r) (mtr (q_S r))) ;;;
    pm_weights_gradient c k ;;;
    mnewm xincr_Gamma (fun r s => msub (q_Gamma r) (mscale (z_alpha_Gamma s) (q_grad_Gamma r))) ;;;
    minplacem xincr_Gamma (fun r _ => simplex_project_rows (q_incr_Gamma r)) ;;;
    minplacem xincr_Gamma (fun r _ => msub (q_incr_Gamma r) (q_Gamma r)) ;;;
    do! step_size <- pm_weights_line_search fuel c k ;;
    mnewm xdelta_grad_Gamma (fun r _ => q_grad_Gamma r) ;;;                        (* :567 copy *)
    pm_weights_gradient c k ;;;
    mnewm xdelta_grad_Gamma (fun r _ => msub (q_grad_Gamma r) (q_delta_grad_Gamma r)) ;;;
    setsc (fun r s =>
      let sksk := nsq step_size * minner (q_incr_Gamma r) (q_incr_Gamma r) in
      let beta := step_size * minner (q_incr_Gamma r) (q_delta_grad_Gamma r) in
      mk_msc (get_next_spg_alpha beta sksk (ls_alpha_min (mc_ls c)) (ls_alpha_max (mc_ls c)))
             (z_alpha_S s) (z_alpha_parameters s) (z_f_S_mem s) (z_f_Gamma_mem s) (z_f_parameters_mem s)).

  (** mtd_convex_coding.py:583-603: two arrays of zeros, filled entry by entry *)
  Definition pm_parameters_gradient (c : mtd_cfg T) (k : nat) : prog unit :=
    mnewv xgrad_ow (fun r _ => repeat n0 (length (q_ow r))) ;;;
    mnew3 xgrad_T (fun r _ => map (fun A => mzeros (nr A) (nc A)) (q_T r)) ;;;
    minplacev xgrad_ow (fun r s => mtd_order_gradient c k (m_ws r s)) ;;;
    minplace3 xgrad_T (fun r s => mtd_transition_gradient c k (m_ws r s)).

  (** mtd_convex_coding.py:605-652 *)
  Definition pm_parameters_line_search (fuel : nat) (c : mtd_cfg T) (k : nat) : prog T :=
    p_line_search fuel (mc_ls c) (pm_cost c k)
      (mnewv xow_old (fun r _ => q_ow r) ;;; mnew3 xT_old (fun r _ => q_T r))      (* :610-611 copies *)
      z_f_parameters_mem (fun m s => mk_msc (z_alpha_Gamma s) (z_alpha_S s) (z_alpha_parameters s)
                                            (z_f_S_mem s) (z_f_Gamma_mem s) m)
      (fun r => vinner (q_incr_ow r) (q_grad_ow r) + tinner (q_incr_T r) (q_grad_T r))
      (minplacev xow (fun r _ => vadd (q_ow r) (q_incr_ow r)) ;;;                  (* :626 += *)
       minplace3 xT (fun r _ => tadd (q_T r) (q_incr_T r)) ;;;                     (* :627 += *)
       pm_predicted c)
      (fun step =>
         mnewv xow (fun r _ => vadd (q_ow_old r) (vscale step (q_incr_ow r))) ;;;  (* :641 *)
         mnew3 xT (fun r _ => tadd (q_T_old r) (tscale step (q_incr_T r))) ;;;     (* :643 *)
         pm_predicted c).

  (** mtd_convex_coding.py:654-700: simplex_project_vector returns a new array,
      simplex_project_columns writes into the view incr_transition_matrices[i] *)
  Definition pm_update_parameters (fuel : nat) (c : mtd_cfg T) (k : nat) : prog unit :=
    pm_predicted c ;;;
    pm_parameters_gradient c k ;;;
    mnewv xincr_ow (fun r s => vsub (q_ow r) (vscale (z_alpha_parameters s) (q_grad_ow r))) ;;;
    mnew3 xincr_T (fun r s => tsub (q_T r) (tscale (z_alpha_parameters s) (q_grad_T r))) ;;;
    mnewv xincr_ow (fun r _ => simplex_project_vector (q_incr_ow r)) ;;;
    minplace3 xincr_T (fun r _ => map simplex_project_columns (q_incr_T r)) ;;;
    minplacev xincr_ow (fun r _ => vsub (q_incr_ow r) (q_ow r)) ;;;
    minplace3 xincr_T (fun r _ => tsub (q_incr_T r) (q_T r)) ;;;
    do! step_size <- pm_parameters_line_search fuel c k ;;
    mnewv xdelta_grad_ow (fun r _ => q_grad_ow r) ;;;                              (* :678-679 copies *)
    mnew3 xdelta_grad_T (fun r _ => q_grad_T r) ;;;
    pm_parameters_gradient c k ;;;
    mnewv xdelta_grad_ow (fun r _ => vsub (q_grad_ow r) (q_delta_grad_ow r)) ;;;
    mnew3 xdelta_grad_T (fun r _ => tsub (q_grad_T r) (q_delta_grad_T r)) ;;;
    setsc (fun r s =>
      let sksk := nsq step_size * (vinner (q_incr_ow r) (q_incr_ow r) + tinner (q_incr_T r) (q_incr_T r)) in
      let beta := step_size * (vinner (q_incr_ow r) (q_delta_grad_ow r) + tinner (q_incr_T r) (q_delta_grad_T r)) in
      mk_msc (z_alpha_Gamma s) (z_alpha_S s)
             (get_next_spg_alpha beta sksk (ls_alpha_min (mc_ls c)) (ls_alpha_max (mc_ls c)))
             (z_f_S_mem s) (z_f_Gamma_mem s) (z_f_parameters_mem s)).

  (** mtd_convex_coding.py:702-756.  The ValueError of lags.max() for an empty list of lags
      (:322, first reached from :279) is raised here: after it the model's object also has the
      workspace attributes assigned in :281-305, which the Python object does not. *)
  Definition pm_iterate (fuel : nat) (c : mtd_cfg T) (k : nat) (upd_d upd_w upd_p : bool) (tolerance : T)
             (max_iterations : nat) : prog (T * nat * list T) :=
    match check_max_lag c with
    | Raise e => Throw e
    | Ok _ =>
        p_iterate (pm_cost c k) (cost_increased (mc_monotone c))
          (p_enabled upd_d (pm_update_dictionary fuel c k) ++ p_enabled upd_w (pm_update_weights fuel c k)
             ++ p_enabled upd_p (pm_update_parameters fuel c k))
          tolerance max_iterations
    end.

  (** mtd_convex_coding.py:273-305: the arrays made by _initialize_workspace; [junk] as in
      M_heap_gpnh.v *)
  Definition m_workspace (c : mtd_cfg T) (junk : mname -> arr T) : list (mname * (mtat -> msc -> arr T)) :=
    [ (xGtG, fun r _ => AM (mmul (mtr (q_Gamma r)) (q_Gamma r)));
      (xGtX, fun r _ => AM (mmul (mtr (q_Gamma r)) (q_X r)));
      (xXSt, fun r _ => AM (mmul (q_X r) (mtr (q_S r))));
      (xSSt, fun r _ => AM (mmul (q_S r) (mtr (q_S r))));
      (xZ, fun r _ => AM (predicted_weights c (q_ow r) (q_T r) (q_Gamma r)));
      (xGamma_old, fun r _ => AM (q_Gamma r));
      (xgrad_Gamma, fun _ _ => junk xgrad_Gamma); (xdelta_grad_Gamma, fun _ _ => junk xdelta_grad_Gamma); (xincr_Gamma, fun _ _ => junk xincr_Gamma);
      (xS_old, fun r _ => AM (q_S r));
      (xgrad_S, fun _ _ => junk xgrad_S); (xdelta_grad_S, fun _ _ => junk xdelta_grad_S); (xincr_S, fun _ _ => junk xincr_S);
      (xow_old, fun r _ => AV (q_ow r));
      (xgrad_ow, fun _ _ => junk xgrad_ow); (xdelta_grad_ow, fun _ _ => junk xdelta_grad_ow); (xincr_ow, fun _ _ => junk xincr_ow);
      (xT_old, fun r _ => A3 (q_T r));
      (xgrad_T, fun _ _ => junk xgrad_T); (xdelta_grad_T, fun _ _ => junk xdelta_grad_T); (xincr_T, fun _ _ => junk xincr_T) ].
  (** mtd_convex_coding.py:307-315 *)
  Definition m_sc0 (c : mtd_cfg T) : msc :=
    mk_msc n1 n1 n1 (repeat n0 (mc_memory c)) (repeat n0 (mc_memory c)) (repeat n0 (mc_memory c)).

  (** The object: attributes hold addresses.  [hq_attr] is None before the first call that reached
      mtd_convex_coding.py:821. *)
  Record hmtd := mk_hmtd {
    hq_cfg : mtd_cfg T; hq_n_components : pyval T; hq_rng : rng T;
    hq_attr : option (mname -> nat); hq_sc : msc;
    hq_dictionary_ : option nat; hq_cost_ : option T; hq_n_iter_ : option nat; hq_n_components_ : option nat }.

  (** An argument that was checked: the caller's array itself. *)
  Definition hm_given (a : option nat) : res nat := match a with Some a => Ok a | None => Raise AttributeError end.
  Definition hm_check_D (m : mem (arr T)) (dictionary : option nat) (k p : nat) : res nat :=
    let! _ := check_init_dictionary (option_map (fun a => am (m_heap m a)) dictionary) k p in hm_given dictionary.
  Definition hm_check_W (m : mem (arr T)) (weights : option nat) (n k : nat) : res nat :=
    let! _ := check_init_weights (option_map (fun a => am (m_heap m a)) weights) n k in hm_given weights.
  Definition hm_check_o (m : mem (arr T)) (ow : option nat) (p : nat) : res nat :=
    let! _ := check_init_order_weights (option_map (fun a => av (m_heap m a)) ow) p in hm_given ow.
  Definition hm_check_T (m : mem (arr T)) (Ts : option nat) (p k : nat) : res nat :=
    let! _ := check_init_transition_matrices (option_map (fun a => a3 (m_heap m a)) Ts) p k in hm_given Ts.

  (** mtd_convex_coding.py:792-798, 800-806, 808-819: the local variables refer to the caller's
      arrays or to new ones (see [hg_choose] for what is dropped after an exception) *)
  Definition hm_choose_D (k : nat) (m : mem (arr T)) (data : nat) (dictionary : option nat) (upd_d : bool)
             (init : init_method) (kwv : fs_kwargs) (g : rng T) : res (nat * rng T * mem (arr T)) :=
    let X := am (m_heap m data) in
    if upd_d
    then let! r := initialize_dictionary X k init kwv g in
         let '(d, m1) := alloc m (AM (fst r)) in Ok (d, snd r, m1)
    else let! d := hm_check_D m dictionary k (nc X) in Ok (d, g, m).
  Definition hm_choose_W (k : nat) (m : mem (arr T)) (data : nat) (weights : option nat) (upd_w : bool)
             (init : init_method) (kw : option fs_kwargs) (g : rng T) : res (nat * rng T * mem (arr T)) :=
    let X := am (m_heap m data) in
    if upd_w
    then match kw with
         | Some _ => Raise TypeError
         | None => let! r := initialize_weights X k init g in
                   let '(w, m1) := alloc m (AM (fst r)) in Ok (w, snd r, m1)
         end
    else let! w := hm_check_W m weights (nr X) k in Ok (w, g, m).
  Definition hm_choose_P (c : mtd_cfg T) (k : nat) (m : mem (arr T)) (ow Ts : option nat) (upd_p : bool)
             (init : init_method) (kw : option fs_kwargs) (g : rng T) : res (nat * nat * rng T * mem (arr T)) :=
    if upd_p
    then match kw with
         | Some _ => Raise TypeError
         | None => let! r := initialize_parameters k (n_lags c) init g in
                   let '(o, m1) := alloc m (AV (fst (fst r))) in
                   let '(t, m2) := alloc m1 (A3 (snd (fst r))) in Ok (o, t, snd r, m2)
         end
    else let! o := hm_check_o m ow (n_lags c) in
         let! t := hm_check_T m Ts (n_lags c) k in
         Ok (o, t, g, m).

  (** mtd_convex_coding.py:780-819.  Returns the addresses of the dictionary, the weights, the
      order weights and the transition matrices. *)
  Definition hm_choose (c : mtd_cfg T) (k : nat) (m : mem (arr T)) (data : nat)
             (dictionary weights ow Ts : option nat) (upd_d upd_w upd_p : bool) (kw : option fs_kwargs) (g : rng T)
    : res (nat * nat * nat * nat * rng T * mem (arr T)) :=
    let X := am (m_heap m data) in
    let kwv := match kw with Some v => v | None => fs_default end in
    match mc_init c with
    | InitCustom =>
        let! w := hm_check_W m weights (nr X) k in
        let! d := hm_check_D m dictionary k (nc X) in
        let! o := hm_check_o m ow (n_lags c) in
        let! t := hm_check_T m Ts (n_lags c) k in
        Ok (d, w, o, t, g, m)
    | init =>
        let! d1 := hm_choose_D k m data dictionary upd_d init kwv g in
        let '(d, g1, m1) := d1 in
        let! w1 := hm_choose_W k m1 data weights upd_w init kw g1 in
        let '(w, g2, m2) := w1 in
        let! p1 := hm_choose_P c k m2 ow Ts upd_p init kw g2 in
        let '(o, t, g3, m3) := p1 in
        Ok (d, w, o, t, g3, m3)
    end.

  (** mtd_convex_coding.py:821-827: five copies, then the workspace *)
  Definition hm_setup (c : mtd_cfg T) (junk : mname -> arr T) (m : mem (arr T)) (attr : mname -> nat)
             (data d w o t : nat) : st :=
    let s0 := mk_hst (m_heap m) (m_next m) attr (m_sc0 c) in
    let s1 := h_new mname_eq xX (h_heap s0 data) s0 in
    let s2 := h_new mname_eq xGamma (h_heap s1 w) s1 in
    let s3 := h_new mname_eq xS (h_heap s2 d) s2 in
    let s4 := h_new mname_eq xow (h_heap s3 o) s3 in
    let s5 := h_new mname_eq xT (h_heap s4 t) s4 in
    h_news mname_eq m_rd (m_workspace c junk) s5.

  (** mtd_convex_coding.py:758-838 _mtd_convex_coding *)
  Definition hm_convex_coding (fuel : nat) (junk : mname -> arr T) (o : hmtd) (m : mem (arr T)) (data : nat)
             (dictionary weights ow Ts : option nat) (upd_d upd_w upd_p : bool) (kw : option fs_kwargs)
    : res (T * nat * list T * bool) * hmtd * mem (arr T) :=
    let c := hq_cfg o in
    let ncomp := resolve_components (hq_n_components o) (nc (am (m_heap m data))) in
    let obj := fun g attr s => mk_hmtd c ncomp g attr s (hq_dictionary_ o) (hq_cost_ o)
                                       (hq_n_iter_ o) (hq_n_components_ o) in
    match check_params ncomp (mc_max_iterations c) (mc_tolerance c) with
    | Raise e => (Raise e, obj (hq_rng o) (hq_attr o) (hq_sc o), m)
    | Ok (k, max_iterations, tolerance) =>
        match hm_choose c k m data dictionary weights ow Ts upd_d upd_w upd_p kw (hq_rng o) with
        | Raise e => (Raise e, obj (hq_rng o) (hq_attr o) (hq_sc o), m)
        | Ok (d, w, o', t, g, m1) =>
            let attr := match hq_attr o with Some a => a | None => fun _ => 0%nat end in
            let s0 := hm_setup c junk m1 attr data d w o' t in
            let '(r, s1) := run_h mname_eq m_rd (pm_iterate fuel c k upd_d upd_w upd_p tolerance max_iterations) s0 in
            (let! x := r in
             let '(cost, n_iter, log) := x in
             Ok (cost, n_iter, log, andb (Nat.eqb n_iter max_iterations) (tolerance >? n0)),
             obj g (Some (h_attr s1)) (h_sc s1), mk_mem (h_heap s1) (h_next s1))
        end
    end.

  (** mtd_convex_coding.py:840-872 fit_transform: dictionary_ and the result are the attribute
      arrays themselves *)
  Definition hm_fit_transform (fuel : nat) (junk : mname -> arr T) (o : hmtd) (m : mem (arr T)) (data : nat)
             (dictionary weights ow Ts : option nat) (upd_d upd_w upd_p : bool) (kw : option fs_kwargs)
    : res nat * hmtd * mem (arr T) :=
    let '(r, o1, m1) := hm_convex_coding fuel junk o m data dictionary weights ow Ts upd_d upd_w upd_p kw in
    match r, hq_attr o1 with
    | Raise e, _ => (Raise e, o1, m1)
    | Ok _, None => (Raise AttributeError, o1, m1)
    | Ok (cost, n_iter, _, _), Some a =>
        (Ok (a xGamma),
         mk_hmtd (hq_cfg o1) (hq_n_components o1) (hq_rng o1) (hq_attr o1) (hq_sc o1)
           (Some (a xS)) (Some cost) (Some n_iter) (Some (nr (am (m_heap m1 (a xS))))), m1)
    end.

  (** mtd_convex_coding.py:889-911 transform: the arguments are the arrays self.S,
      self.order_weights, self.transition_matrices *)
  Definition hm_transform (fuel : nat) (junk : mname -> arr T) (o : hmtd) (m : mem (arr T)) (data : nat)
    : res nat * hmtd * mem (arr T) :=
    let self x := match hq_attr o with Some a => Some (a x) | None => None end in
    let '(r, o1, m1) := hm_convex_coding fuel junk o m data (self xS) None (self xow) (self xT)
                          false true false None in
    match r, hq_attr o1 with
    | Raise e, _ => (Raise e, o1, m1)
    | Ok _, None => (Raise AttributeError, o1, m1)
    | Ok _, Some a => (Ok (a xGamma), o1, m1)
    end.

  (** mtd_convex_coding.py:913-982 predict: the predicted weights and the result are new arrays;
      lagged_weights is a view of the transformed weights, but np.roll copies it before the
      assignment to lagged_weights[-1] *)
  Definition hm_predict (fuel : nat) (junk : mname -> arr T) (o : hmtd) (m : mem (arr T)) (data : nat) (horizon : Z)
    : res nat * hmtd * mem (arr T) :=
    let '(r, o1, m1) := hm_transform fuel junk o m data in
    match r, hq_attr o1 with
    | Raise e, _ => (Raise e, o1, m1)
    | Ok _, None => (Raise AttributeError, o1, m1)
    | Ok W, Some a =>
        let '(PW, m2) := if (horizon =? 0)%Z then (W, m1)
                         else alloc m1 (AM (mtd_predict_weights (hq_cfg o) (av (m_heap m1 (a xow)))
                                               (a3 (m_heap m1 (a xT))) (am (m_heap m1 W)) horizon)) in
        let P := am (m_heap m2 PW) in
        let S := am (m_heap m2 (a xS)) in
        if Nat.eqb (nc P) (nr S)
        then let '(Y, m3) := alloc m2 (AM (mmul P S)) in (Ok Y, o1, m3)
        else (Raise ValueError, o1, m2)
    end.
End HMtd.
Arguments mtat : clear implicits.
Arguments msc : clear implicits.
Arguments hmtd : clear implicits.
