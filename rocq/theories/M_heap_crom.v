(** GPNHConvexCodingCROM (src/reor/gpnh_convex_coding_crom.py) on a heap of arrays, in the style of
    M_heap_gpnh.v and M_heap_mtd.v: the GPNH fit of M_heap_gpnh.v followed by the fit of the
    transition model.  The values come from M_crom.v. *)
From Coq Require Import List Arith ZArith Bool.
From Verif Require Import Num Mat Py M_simplex M_spg M_iter M_random M_furthest M_gpnh M_mtd M_crom
  Heap M_heap M_heap_gpnh.
Import ListNotations.

(** The attributes this class adds (gpnh_convex_coding_crom.py:85-98; ow is order_weights, T is
    transition_matrices), and all array attributes of an object. *)
Inductive pname :=
| yow | yT | yZ
| yow_old | ygrad_ow | ydelta_grad_ow | yincr_ow
| yT_old | ygrad_T | ydelta_grad_T | yincr_T.
Inductive cname := CG (x : gname) | CP (x : pname).
Definition cname_eq (x y : cname) : {x = y} + {x <> y}.
Proof. decide equality; [apply gname_eq | decide equality]. Defined.

Section HCrom.
  Context {T : Type} {N : Num T}.
  Local Open Scope num_scope.
  Local Open Scope prog_scope.

  (** The values of the attributes. *)
  Record ctat := mk_ctat {
    k_g : gat T; k_ow : list T; k_T : list (mat T); k_Z : mat T;
    k_ow_old : list T; k_grad_ow : list T; k_delta_grad_ow : list T; k_incr_ow : list T;
    k_T_old : list (mat T); k_grad_T : list (mat T); k_delta_grad_T : list (mat T); k_incr_T : list (mat T) }.
  Definition c_rd (e : cname -> arr T) : ctat :=
    let p x := e (CP x) in
    mk_ctat (g_rd (fun x => e (CG x))) (av (p yow)) (a3 (p yT)) (am (p yZ))
            (av (p yow_old)) (av (p ygrad_ow)) (av (p ydelta_grad_ow)) (av (p yincr_ow))
            (a3 (p yT_old)) (a3 (p ygrad_T)) (a3 (p ydelta_grad_T)) (a3 (p yincr_T)).
  (** Attributes that are not arrays (gpnh_convex_coding_crom.py:98-100). *)
  Record csc := mk_csc { i_alpha : T; i_mem : list T }.
  (** The workspace of M_crom.v *)
  Definition c_ws (r : ctat) (s : csc) : cws T := mk_cws (k_ow r) (k_T r) (k_Z r) (i_alpha s) (i_mem s).
  (** self.Gamma and self.X.shape[0] *)
  Definition c_Gamma (r : ctat) : mat T := f_Gamma (k_g r).
  Definition c_samples (r : ctat) : nat := nr (f_X (k_g r)).

  Notation prog := (prog (arr T) cname ctat csc).
  Notation st := (hst (arr T) cname csc).

  Definition cnewm (x : pname) (f : ctat -> csc -> mat T) : prog unit := new (CP x) (fun r s => AM (f r s)).
  Definition cinplacem (x : pname) (f : ctat -> csc -> mat T) : prog unit := inplace (CP x) (fun r s => AM (f r s)).
  Definition cnewv (x : pname) (f : ctat -> csc -> list T) : prog unit := new (CP x) (fun r s => AV (f r s)).
  Definition cinplacev (x : pname) (f : ctat -> csc -> list T) : prog unit := inplace (CP x) (fun r s => AV (f r s)).
  Definition cnew3 (x : pname) (f : ctat -> csc -> list (mat T)) : prog unit := new (CP x) (fun r s => A3 (f r s)).
  Definition cinplace3 (x : pname) (f : ctat -> csc -> list (mat T)) : prog unit := inplace (CP x) (fun r s => A3 (f r s)).

  (** gpnh_convex_coding_crom.py:127-138: a new array of zeros, then written in place *)
  Definition pc_predicted (c : mtd_cfg T) : prog unit :=
    cnewm yZ (fun r _ => mzeros (nr (c_Gamma r)) (nc (c_Gamma r))) ;;;
    cinplacem yZ (fun r _ => predicted_weights c (k_ow r) (k_T r) (c_Gamma r)).

  (** gpnh_convex_coding_crom.py:140-155; only reads *)
  Definition pc_cost (c : mtd_cfg T) (k : nat) : prog T :=
    look (fun r s => crom_fit_residual c k (c_samples r) (c_Gamma r) (c_ws r s)).

  (** gpnh_convex_coding_crom.py:157-177: two arrays of zeros, filled entry by entry *)
  Definition pc_parameters_gradient (c : mtd_cfg T) (k : nat) : prog unit :=
    cnewv ygrad_ow (fun r _ => repeat n0 (length (k_ow r))) ;;;
    cnew3 ygrad_T (fun r _ => map (fun A => mzeros (nr A) (nc A)) (k_T r)) ;;;
    cinplacev ygrad_ow (fun r s => crom_order_gradient c k (c_samples r) (c_Gamma r) (c_ws r s)) ;;;
    cinplace3 ygrad_T (fun r s => crom_transition_gradient c k (c_samples r) (c_Gamma r) (c_ws r s)).

  (** gpnh_convex_coding_crom.py:179-226 *)
  Definition pc_parameters_line_search (fuel : nat) (c : mtd_cfg T) (k : nat) : prog T :=
    p_line_search fuel (mc_ls c) (pc_cost c k)
      (cnewv yow_old (fun r _ => k_ow r) ;;; cnew3 yT_old (fun r _ => k_T r))      (* :184-185 copies *)
      i_mem (fun m s => mk_csc (i_alpha s) m)
      (fun r => vinner (k_incr_ow r) (k_grad_ow r) + tinner (k_incr_T r) (k_grad_T r))
      (cinplacev yow (fun r _ => vadd (k_ow r) (k_incr_ow r)) ;;;                  (* :200 += *)
       cinplace3 yT (fun r _ => tadd (k_T r) (k_incr_T r)) ;;;                     (* :201 += *)
       pc_predicted c)
      (fun step =>
         cnewv yow (fun r _ => vadd (k_ow_old r) (vscale step (k_incr_ow r))) ;;;  (* :215 *)
         cnew3 yT (fun r _ => tadd (k_T_old r) (tscale step (k_incr_T r))) ;;;     (* :217 *)
         pc_predicted c).

  (** gpnh_convex_coding_crom.py:228-274: simplex_project_vector returns a new array,
      simplex_project_columns writes into the view incr_transition_matrices[i] *)
  Definition pc_update_parameters (fuel : nat) (c : mtd_cfg T) (k : nat) : prog unit :=
    pc_predicted c ;;;
    pc_parameters_gradient c k ;;;
    cnewv yincr_ow (fun r s => vsub (k_ow r) (vscale (i_alpha s) (k_grad_ow r))) ;;;
    cnew3 yincr_T (fun r s => tsub (k_T r) (tscale (i_alpha s) (k_grad_T r))) ;;;
    cnewv yincr_ow (fun r _ => simplex_project_vector (k_incr_ow r)) ;;;
    cinplace3 yincr_T (fun r _ => map simplex_project_columns (k_incr_T r)) ;;;
    cinplacev yincr_ow (fun r _ => vsub (k_incr_ow r) (k_ow r)) ;;;
    cinplace3 yincr_T (fun r _ => tsub (k_incr_T r) (k_T r)) ;;;
    do! step_size <- pc_parameters_line_search fuel c k ;;
    cnewv ydelta_grad_ow (fun r _ => k_grad_ow r) ;;;                              (* :252-253 copies *)
    cnew3 ydelta_grad_T (fun r _ => k_grad_T r) ;;;
    pc_parameters_gradient c k ;;;
    cnewv ydelta_grad_ow (fun r _ => vsub (k_grad_ow r) (k_delta_grad_ow r)) ;;;
    cnew3 ydelta_grad_T (fun r _ => tsub (k_grad_T r) (k_delta_grad_T r)) ;;;
    setsc (fun r s =>
      let sksk := nsq step_size * (vinner (k_incr_ow r) (k_incr_ow r) + tinner (k_incr_T r) (k_incr_T r)) in
      let beta := step_size * (vinner (k_incr_ow r) (k_delta_grad_ow r) + tinner (k_incr_T r) (k_delta_grad_T r)) in
      mk_csc (get_next_spg_alpha beta sksk (ls_alpha_min (mc_ls c)) (ls_alpha_max (mc_ls c))) (i_mem s)).

  (** gpnh_convex_coding_crom.py:299-325, with the ValueError of lags.max() for an empty list of
      lags (:132, first reached from :297) as in [pm_iterate] of M_heap_mtd.v *)
  Definition pc_iterate (fuel : nat) (c : mtd_cfg T) (k : nat) (tolerance : T) (max_iterations : nat)
    : prog (T * nat * list T) :=
    match check_max_lag c with
    | Raise e => Throw e
    | Ok _ => p_iterate (pc_cost c k) (cost_increased (mc_monotone c)) [pc_update_parameters fuel c k]
                        tolerance max_iterations
    end.

  (** gpnh_convex_coding_crom.py:102-125 _initialize_parameters_workspace; [junk] as in
      M_heap_gpnh.v *)
  Definition c_workspace (c : mtd_cfg T) (junk : pname -> arr T) : list (cname * (ctat -> csc -> arr T)) :=
    [ (CP yZ, fun r _ => AM (predicted_weights c (k_ow r) (k_T r) (c_Gamma r)));
      (CP yow_old, fun r _ => AV (k_ow r));
      (CP ygrad_ow, fun _ _ => junk ygrad_ow); (CP ydelta_grad_ow, fun _ _ => junk ydelta_grad_ow);
      (CP yincr_ow, fun _ _ => junk yincr_ow);
      (CP yT_old, fun r _ => A3 (k_T r));
      (CP ygrad_T, fun _ _ => junk ygrad_T); (CP ydelta_grad_T, fun _ _ => junk ydelta_grad_T);
      (CP yincr_T, fun _ _ => junk yincr_T) ].
  (** gpnh_convex_coding_crom.py:123-125 *)
  Definition c_sc0 (c : mtd_cfg T) : csc := mk_csc n1 (repeat n0 (mc_memory c)).

  (** The object.  [hc_attr] is None before the first fit that reached gpnh_convex_coding_crom.py:286
      (the arrays of the constructor are uninitialised, see M_crom.v). *)
  Record hcrom := mk_hcrom {
    hc_gpnh : hgpnh T; hc_lags : list Z; hc_attr : option (pname -> nat); hc_sc : csc }.

  (** gpnh_convex_coding_crom.py:286-297: new order_weights and transition_matrices (the division
      and the filling in place are part of making them), then the workspace; [ga] is where the
      GPNH attributes point *)
  Definition hc_setup (c : mtd_cfg T) (junk : pname -> arr T) (m : mem (arr T)) (ga : gname -> nat)
             (pa : pname -> nat) (ow : list T) (Ts : list (mat T)) : st :=
    let s0 := mk_hst (m_heap m) (m_next m) (fun x => match x with CG x => ga x | CP x => pa x end) (c_sc0 c) in
    let s1 := h_new cname_eq (CP yow) (AV ow) s0 in
    let s2 := h_new cname_eq (CP yT) (A3 Ts) s1 in
    h_news cname_eq c_rd (c_workspace c junk) s2.

  (** gpnh_convex_coding_crom.py:276-352 fit_transform and _fit_parameters; the result is the array
      self.Gamma itself *)
  Definition hc_fit_transform (fuel : nat) (gjunk : gname -> arr T) (junk : pname -> arr T) (o : hcrom)
             (m : mem (arr T)) (data : nat) (dictionary weights : option nat) (upd_d upd_w : bool)
             (kw : option fs_kwargs) : res nat * hcrom * mem (arr T) :=
    let '(r, g1, m1) := hg_fit_transform fuel gjunk (hc_gpnh o) m data dictionary weights upd_d upd_w kw in
    let o1 := mk_hcrom g1 (hc_lags o) (hc_attr o) (hc_sc o) in
    match r, ho_attr g1 with
    | Raise e, _ => (Raise e, o1, m1)
    | Ok _, None => (Raise AttributeError, o1, m1)
    | Ok _, Some ga =>
        let gc := ho_cfg g1 in
        let c := crom_cfg gc (hc_lags o) in
        match check_params (ho_n_components g1) (gc_max_iterations gc) (gc_tolerance gc) with
        | Raise e => (Raise e, o1, m1)
        | Ok (k, max_iterations, tolerance) =>
            let '(ow, Ts, g') := initialize_parameters_random k (n_lags c) (ho_rng g1) in
            let pa := match hc_attr o with Some a => a | None => fun _ => 0%nat end in
            let s0 := hc_setup c junk m1 ga pa ow Ts in
            let '(x, s1) := run_h cname_eq c_rd (pc_iterate fuel c k tolerance max_iterations) s0 in
            (let! _ := x in Ok (h_attr s1 (CG gGamma)),
             mk_hcrom (mk_hgpnh gc (ho_n_components g1) g' (Some (fun x => h_attr s1 (CG x))) (ho_sc g1)
                         (ho_dictionary_ g1) (ho_cost_ g1) (ho_n_iter_ g1) (ho_n_components_ g1))
                      (hc_lags o) (Some (fun x => h_attr s1 (CP x))) (h_sc s1),
             mk_mem (h_heap s1) (h_next s1))
        end
    end.

  (** gpnh_convex_coding.py:661-680 transform, inherited *)
  Definition hc_transform (fuel : nat) (gjunk : gname -> arr T) (o : hcrom) (m : mem (arr T)) (data : nat)
    : res nat * hcrom * mem (arr T) :=
    let '(r, g1, m1) := hg_transform fuel gjunk (hc_gpnh o) m data in
    (r, mk_hcrom g1 (hc_lags o) (hc_attr o) (hc_sc o), m1).

  (** gpnh_convex_coding_crom.py:369-426 predict, as in M_heap_mtd.v *)
  Definition hc_predict (fuel : nat) (gjunk : gname -> arr T) (o : hcrom) (m : mem (arr T)) (data : nat)
             (horizon : Z) : res nat * hcrom * mem (arr T) :=
    let '(r, o1, m1) := hc_transform fuel gjunk o m data in
    match r, ho_attr (hc_gpnh o1) with
    | Raise e, _ => (Raise e, o1, m1)
    | Ok _, None => (Raise AttributeError, o1, m1)
    | Ok W, Some a =>
        match (if (horizon =? 0)%Z then Ok (W, m1)
               else match hc_attr o1 with
                    | None => Raise AttributeError
                    | Some pa =>
                        let c := crom_cfg (ho_cfg (hc_gpnh o)) (hc_lags o) in
                        let! _ := check_max_lag c in
                        Ok (alloc m1 (AM (mtd_predict_weights c (av (m_heap m1 (pa yow)))
                                            (a3 (m_heap m1 (pa yT))) (am (m_heap m1 W)) horizon)))
                    end) with
        | Raise e => (Raise e, o1, m1)
        | Ok (PW, m2) =>
            let P := am (m_heap m2 PW) in
            let S := am (m_heap m2 (a gS)) in
            if Nat.eqb (nc P) (nr S)
            then let '(Y, m3) := alloc m2 (AM (mmul P S)) in (Ok Y, o1, m3)
            else (Raise ValueError, o1, m2)
        end
    end.
End HCrom.
Arguments ctat : clear implicits.
Arguments csc : clear implicits.
Arguments hcrom : clear implicits.
