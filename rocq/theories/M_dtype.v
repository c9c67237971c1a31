(** Data types of arrays in the convex coding classes.

    The other models read every array as an array of numbers.  numpy arrays also have a dtype, and the
    classes accept integer arrays: check_array only inspects the argument, and
    "self.X = data.copy()" etc. keep the dtype (gpnh_convex_coding.py:596-598,
    archetypal_analysis.py:719-721, mtd_convex_coding.py:821-825).  Here every array carries
    a dtype, int64 or float64, and each method is read once more at the level of dtypes: the
    result is either the dtypes of the attributes or the exception numpy raises.  The values are those of
    the existing models.  Not modelled: other dtypes (float32, bool, ...), and integer overflow. *)
From Coq Require Import List Arith ZArith Bool.
From Verif Require Import Num Mat Py M_simplex M_spg M_iter M_random M_furthest M_gpnh M_aa M_mtd M_crom.
Import ListNotations.

Inductive dtype := DInt | DFloat.

(** dtype of [a + b], [a - b], [a * b], [a.dot(b)].  A Python float factor counts as [DFloat]; a
    Python int factor does not change the dtype. *)
Definition promote (a b : dtype) : dtype := match a with DInt => b | DFloat => DFloat end.
(** [a += b], [a -= b]: the dtype of [a] stays; numpy refuses to cast float64 to int64
    (UFuncTypeError, a TypeError). *)
Definition inplace (a b : dtype) : res dtype :=
  match a, b with DInt, DFloat => Raise TypeError | _, _ => Ok a end.
(** [x.dot(y, out=o)] with a product of dtype [r]: [o] must have exactly that dtype (ValueError) *)
Definition dot_out (r o : dtype) : res dtype :=
  match r, o with DInt, DInt | DFloat, DFloat => Ok o | _, _ => Raise ValueError end.

Record arr (A : Type) : Type := mkarr { dt : dtype; val : A }.
Arguments mkarr {A}. Arguments dt {A}. Arguments val {A}.
Definition oval {A} (a : option (arr A)) : option A := match a with Some x => Some (val x) | None => None end.
(** dtype of an argument that has passed its check; a missing argument never does *)
Definition odt {A} (a : option (arr A)) : dtype := match a with Some x => dt x | None => DFloat end.

(** An update of the attributes: dtypes and values *)
Definition typed {Tg St : Type} (tu : Tg -> res Tg) (u : St -> res St) (p : Tg * St) : res (Tg * St) :=
  let! t := tu (fst p) in
  let! s := u (snd p) in
  Ok (t, s).

Section Dtype.
  Context {T : Type} {N : Num T}.
  Local Open Scope num_scope.

  (** * GPNHConvexCoding *)

  (** dtypes of self.X, self.Gamma, self.S.  GtG, GtX, XSt, SSt are fresh products in every update. *)
  Record gtags := mk_gtags { gt_X : dtype; gt_Gamma : dtype; gt_S : dtype }.

  (** gpnh_convex_coding.py:323-348: [np.zeros_like(self.S)] for one component, otherwise a
      product with the floating-point matrix D; two in-place additions of a float multiple *)
  Definition gt_dictionary_gradient (k : nat) (t : gtags) : res dtype :=
    let g0 := if Nat.eqb k 1 then gt_S t else promote DFloat (gt_S t) in
    let GtX := promote (gt_Gamma t) (gt_X t) in
    let GtG := gt_Gamma t in
    let! g1 := inplace g0 (promote DFloat GtX) in
    inplace g1 (promote DFloat (promote GtG (gt_S t))).
  (** gpnh_convex_coding.py:391-419 and the line search :350-389; alpha_S is a float.  A backtracking
      step binds self.S to [S_old + step_size * incr_S], of the same dtype as the array that
      survived [self.S += self.incr_S]. *)
  Definition gt_update_dictionary (k : nat) (t : gtags) : res gtags :=
    let! grad_S := gt_dictionary_gradient k t in
    let! incr_S := inplace (promote (gt_S t) (promote DFloat grad_S)) (gt_S t) in
    let! S1 := inplace (gt_S t) incr_S in
    let t1 := mk_gtags (gt_X t) (gt_Gamma t) S1 in
    let! _ := gt_dictionary_gradient k t1 in
    Ok t1.
  (** gpnh_convex_coding.py:421-435 *)
  Definition gt_weights_gradient (t : gtags) : res dtype :=
    let g0 := gt_Gamma t in
    let! g1 := inplace g0 (promote DFloat (promote (gt_X t) (gt_S t))) in
    inplace g1 (promote DFloat (promote (gt_Gamma t) (gt_S t))).
  (** gpnh_convex_coding.py:476-504 and the line search :437-474; simplex_project_rows writes
      floats into incr_Gamma, a float array *)
  Definition gt_update_weights (t : gtags) : res gtags :=
    let! grad := gt_weights_gradient t in
    let incr0 := promote (gt_Gamma t) (promote DFloat grad) in
    let! incr := inplace incr0 (gt_Gamma t) in
    let! G1 := inplace (gt_Gamma t) incr in
    let t1 := mk_gtags (gt_X t) G1 (gt_S t) in
    let! _ := gt_weights_gradient t1 in
    Ok t1.

  (** gpnh_convex_coding.py:506-552 _iterate *)
  Definition d_gpnh_iterate (fuel : nat) (c : gpnh_cfg T) (k : nat) (ud uw : bool) (tolerance : T)
             (max_iterations : nat) (p : gtags * gws T) : res (gtags * gws T * T * nat * list T) :=
    iterate (fun q => evaluate_cost c k (snd q)) (cost_increased (gc_monotone c))
      (enabled ud (typed (gt_update_dictionary k) (update_dictionary fuel c k))
         ++ enabled uw (typed gt_update_weights (update_weights fuel c k)))
      tolerance max_iterations p.

  (** dtypes of the initial dictionary and weights chosen at gpnh_convex_coding.py:574-594: the
      furthest-sum dictionary has the dtype of data.dot(data.T) (:73), drawn arrays are float64 *)
  Definition drawn_dictionary (init : init_method) (dX : dtype) : dtype :=
    match init with InitFurthestSum => dX | _ => DFloat end.
  Definition gt_initial (init : init_method) (dX dD dW : dtype) (ud uw : bool) : gtags :=
    match init with
    | InitCustom => mk_gtags dX dW dD
    | _ => if andb (negb ud) uw then mk_gtags dX DFloat dD
           else if andb ud (negb uw) then mk_gtags dX dW (drawn_dictionary init dX)
           else mk_gtags dX DFloat (drawn_dictionary init dX)
    end.

  (** gpnh_convex_coding.py:554-610 _gpnh_convex_coding *)
  Definition d_gpnh_convex_coding (fuel : nat) (o : gpnh T) (data : arr (mat T))
             (dictionary weights : option (arr (mat T))) (ud uw : bool) (kw : option fs_kwargs)
    : res (gtags * gpnh_run T) :=
    let c := go_cfg o in
    let ncomp := resolve_components (go_n_components o) (nc (val data)) in
    let! kmt := check_params ncomp (gc_max_iterations c) (gc_tolerance c) in
    let '(k, max_iterations, tolerance) := kmt in
    let! dwg := choose_initial c k (val data) (oval dictionary) (oval weights) ud uw kw (go_rng o) in
    let '(D, W, g) := dwg in
    let t0 := gt_initial (gc_init c) (dt data) (odt dictionary) (odt weights) ud uw in
    let w_old := match go_ws o with Some w => w | None =>
                   mk_gws (val data) W D (val data) (val data) (val data) (val data) n1 n1 [] [] end in
    let w0 := mk_gws (val data) W D (w_GtG w_old) (w_GtX w_old) (w_XSt w_old) (w_SSt w_old)
                (w_alpha_Gamma w_old) (w_alpha_S w_old) (w_f_S_mem w_old) (w_f_Gamma_mem w_old) in
    let w1 := initialize_workspace c w0 in
    let! r := d_gpnh_iterate fuel c k ud uw tolerance max_iterations (t0, w1) in
    let '(tw, cost, n_iter, log) := r in
    let warned := andb (Nat.eqb n_iter max_iterations) (tolerance >? n0) in
    Ok (fst tw, mk_gpnh_run
          (mk_gpnh c ncomp g (Some (snd tw)) (go_dictionary_ o) (go_cost_ o) (go_n_iter_ o) (go_n_components_ o))
          cost n_iter log warned).

  (** gpnh_convex_coding.py:612-644 fit_transform *)
  Definition d_fit_transform (fuel : nat) (o : gpnh T) (data : arr (mat T))
             (dictionary weights : option (arr (mat T))) (ud uw : bool) (kw : option fs_kwargs)
    : res (gtags * (gpnh_run T * mat T)) :=
    let! tr := d_gpnh_convex_coding fuel o data dictionary weights ud uw kw in
    let '(t, r) := tr in
    let o1 := gr_obj r in
    match go_ws o1 with
    | None => Raise AttributeError
    | Some w =>
        let o2 := mk_gpnh (go_cfg o1) (go_n_components o1) (go_rng o1) (go_ws o1)
                    (Some (w_S w)) (Some (gr_cost r)) (Some (gr_n_iter r)) (Some (nr (w_S w))) in
        Ok (t, (mk_gpnh_run o2 (gr_cost r) (gr_n_iter r) (gr_log r) (gr_warned r), w_Gamma w))
    end.
  (** gpnh_convex_coding.py:661-680 transform; [dS] is the dtype of the stored dictionary *)
  Definition d_transform (fuel : nat) (o : gpnh T) (dS : dtype) (data : arr (mat T))
    : res (gtags * (gpnh_run T * mat T)) :=
    let S := match go_ws o with Some w => Some (mkarr dS (w_S w)) | None => None end in
    let! tr := d_gpnh_convex_coding fuel o data S None false true None in
    let '(t, r) := tr in
    match go_ws (gr_obj r) with
    | None => Raise AttributeError
    | Some w => Ok (t, (r, w_Gamma w))
    end.

  (** * KernelAA and ArchetypalAnalysis *)

  (** dtypes of self.K, self.C, self.S and of the caches that are written through [out=] *)
  Record atags := mk_atags {
    at_K : dtype; at_C : dtype; at_S : dtype; at_CK : dtype; at_CKCt : dtype; at_StS : dtype }.
  (** archetypal_analysis.py:289-298 (alpha is float64) *)
  Definition at_initialize (K S C : dtype) : atags :=
    let CK := promote C K in
    mk_atags K C S CK (promote CK C) S.
  (** archetypal_analysis.py:272-287 _evaluate_cost; [pos] is [self.delta > 0] *)
  Definition at_evaluate_cost (pos : bool) (t : atags) : res atags :=
    let! StS := dot_out (at_S t) (at_StS t) in
    let! CK := dot_out (promote (at_C t) (at_K t)) (at_CK t) in
    let! CK := if pos then dot_out (promote DFloat CK) CK else Ok CK in
    let! CKCt := dot_out (promote CK (at_C t)) (at_CKCt t) in
    let! CKCt := if pos then dot_out (promote CKCt DFloat) CKCt else Ok CKCt in
    Ok (mk_atags (at_K t) (at_C t) (at_S t) CK CKCt StS).
  (** "self.CK = ..., self.CKCt = ..." as in archetypal_analysis.py:386-394 *)
  Definition at_products (pos : bool) (t : atags) (C : dtype) (StS : dtype) : atags :=
    let CK := promote C (at_K t) in
    let CK := if pos then promote DFloat CK else CK in
    let CKCt := promote CK C in
    let CKCt := if pos then promote CKCt DFloat else CKCt in
    mk_atags (at_K t) C (at_S t) CK CKCt StS.
  (** archetypal_analysis.py:325-334 *)
  Definition at_weights_gradient (pos : bool) (t : atags) : res dtype :=
    let g0 := promote (at_K t) (at_C t) in
    let g1 := if pos then promote g0 DFloat else g0 in
    inplace g1 (promote (at_S t) (at_CKCt t)).
  (** archetypal_analysis.py:383-418 and the line search :337-381 *)
  Definition at_update_weights (pos : bool) (t0 : atags) : res atags :=
    let t := at_products pos t0 (at_C t0) (at_StS t0) in
    let! grad := at_weights_gradient pos t in
    let! incr := inplace (promote (at_S t) (promote DFloat grad)) (at_S t) in
    let! S1 := inplace (at_S t) incr in
    let t1 := mk_atags (at_K t) (at_C t) S1 (at_CK t) (at_CKCt t) S1 in
    let! _ := at_weights_gradient pos t1 in
    Ok t1.
  (** archetypal_analysis.py:420-428 *)
  Definition at_dictionary_gradient (pos : bool) (t : atags) : res dtype :=
    let g0 := promote (at_S t) (at_K t) in
    let! g1 := inplace g0 (promote (at_StS t) (at_CK t)) in
    Ok (if pos then promote DFloat g1 else g1).
  (** archetypal_analysis.py:556-623 and the line search :430-488.  For delta > 0 the caches are
      products without the scale factors at the end (:593-595); the gradient of the scale factors
      (:490-500) starts from a float array, as diag_alpha is one. *)
  Definition at_update_dictionary (pos : bool) (t0 : atags) : res atags :=
    let t := at_products pos t0 (at_C t0) (at_S t0) in
    let! grad := at_dictionary_gradient pos t in
    let! incr := inplace (promote (at_C t) (promote DFloat grad)) (at_C t) in
    let! C1 := inplace (at_C t) incr in
    let t1 := at_products pos t C1 (at_StS t) in
    let! _ := at_dictionary_gradient pos t1 in
    if pos then
      let CK := promote (at_C t1) (at_K t1) in
      let CKS := promote CK (at_S t1) in
      let CKCt := promote CK (at_C t1) in
      let! _ := inplace (promote (at_StS t1) (promote DFloat CKCt)) CKS in
      Ok (mk_atags (at_K t1) (at_C t1) (at_S t1) CK CKCt (at_StS t1))
    else Ok t1.

  (** archetypal_analysis.py:625-671 _iterate: the cost is evaluated first and after every update *)
  Definition at_and_cost (pos : bool) (u : atags -> res atags) (t : atags) : res atags :=
    let! t' := u t in at_evaluate_cost pos t'.
  Definition d_aa_iterate (fuel : nat) (c : aa_cfg T) (ud uw : bool) (tolerance : T)
             (max_iterations : nat) (p : atags * aws T) : res (atags * aws T * T * nat * list T) :=
    let pos := ac_delta c >? n0 in
    let! t := at_evaluate_cost pos (fst p) in
    iterate (fun q => aa_evaluate_cost c (snd q)) (cost_increased (ac_monotone c))
      (enabled ud (typed (at_and_cost pos (at_update_dictionary pos)) (and_refresh c (aa_update_dictionary fuel c)))
         ++ enabled uw (typed (at_and_cost pos (at_update_weights pos)) (and_refresh c (aa_update_weights fuel c))))
      tolerance max_iterations (t, aa_refresh c (snd p)).

  (** dtypes of the initial dictionary and weights (archetypal_analysis.py:697-717): the furthest-sum
      dictionary has the dtype of the kernel (:82-83), drawn arrays are float64.  Result: (C, S). *)
  Definition at_drawn_dictionary (init : init_method) (dK : dtype) : dtype :=
    match init with InitRandom => DFloat | _ => dK end.
  Definition at_initial (init : init_method) (dK dD dW : dtype) (ud uw : bool) : dtype * dtype :=
    match init with
    | InitCustom => (dD, dW)
    | _ => if andb (negb ud) uw then (dD, DFloat)
           else if andb ud (negb uw) then (at_drawn_dictionary init dK, dW)
           else (at_drawn_dictionary init dK, DFloat)
    end.

  (** archetypal_analysis.py:673-733 _kernel_aa *)
  Definition d_kernel_aa (fuel : nat) (o : aa T) (kernel : arr (mat T))
             (dictionary weights : option (arr (mat T))) (ud uw : bool) (kw : option fs_kwargs)
    : res (atags * aa_run T) :=
    let c := ao_cfg o in
    if negb (Nat.eqb (nc (val kernel)) (nr (val kernel))) then Raise ValueError else
    let ncomp := resolve_components (ao_n_components o) (nr (val kernel)) in
    let! kmt := check_params ncomp (ac_max_iterations c) (ac_tolerance c) in
    let '(k, max_iterations, tolerance) := kmt in
    let! dwg := aa_choose_initial c k (val kernel) (oval dictionary) (oval weights) ud uw kw (ao_rng o) in
    let '(D, W, g) := dwg in
    let '(dC, dS) := at_initial (ac_init c) (dt kernel) (odt dictionary) (odt weights) ud uw in
    let w0 := aa_initialize_workspace c k (val kernel) W D in
    let! r := d_aa_iterate fuel c ud uw tolerance max_iterations (at_initialize (dt kernel) dS dC, w0) in
    let '(tw, cost, n_iter, log) := r in
    let warned := andb (Nat.eqb n_iter max_iterations) (tolerance >? n0) in
    Ok (fst tw, mk_aa_run
          (mk_aa c ncomp (ao_seeded o) (if ao_seeded o then ao_rng o else g) (Some (snd tw))
             (ao_dictionary_ o) (ao_cost_ o) (ao_n_iter_ o) (ao_n_components_ o))
          cost n_iter log warned).
  (** archetypal_analysis.py:735-767 fit_transform *)
  Definition d_aa_fit_transform (fuel : nat) (o : aa T) (kernel : arr (mat T))
             (dictionary weights : option (arr (mat T))) (ud uw : bool) (kw : option fs_kwargs)
    : res (atags * (aa_run T * mat T)) :=
    let! tr := d_kernel_aa fuel o kernel dictionary weights ud uw kw in
    let! s := aa_set_fitted (snd tr) in
    Ok (fst tr, s).
  (** ArchetypalAnalysis.fit_transform (archetypal_analysis.py:913-949); the default kernel
      data.dot(data.T) has the dtype of the data, that of a kernel_func is [dt] of its result *)
  Definition d_arch_kernel (kf : option (arr (mat T) -> arr (mat T))) (data : arr (mat T)) : arr (mat T) :=
    match kf with
    | None => mkarr (promote (dt data) (dt data)) (mmul (val data) (mtr (val data)))
    | Some f => f data
    end.
  Definition d_arch_fit_transform (fuel : nat) (kf : option (arr (mat T) -> arr (mat T))) (o : aa T)
             (data : arr (mat T)) (dictionary weights : option (arr (mat T))) (ud uw : bool)
             (kw : option fs_kwargs) : res (atags * (aa_run T * mat T)) :=
    d_aa_fit_transform fuel o (d_arch_kernel kf data) dictionary weights ud uw kw.

  (** * MTDConvexCoding *)

  (** dtypes of self.X, self.Gamma, self.S, self.order_weights, self.transition_matrices, self.Z *)
  Record mtags := mk_mtags {
    mt_X : dtype; mt_Gamma : dtype; mt_S : dtype; mt_ow : dtype; mt_T : dtype; mt_Z : dtype }.
  (** mtd_convex_coding.py:317-328 (and gpnh_convex_coding_crom.py:127-138), for at least one lag:
      Z has the dtype of Gamma and receives float or integer terms in place *)
  Definition mt_predicted (dG dow dT : dtype) : res dtype :=
    inplace dG (promote dow (promote dG dT)).
  Definition mt_update_predicted (t : mtags) : res mtags :=
    let! Z := mt_predicted (mt_Gamma t) (mt_ow t) (mt_T t) in
    Ok (mk_mtags (mt_X t) (mt_Gamma t) (mt_S t) (mt_ow t) (mt_T t) Z).
  (** mtd_convex_coding.py:382-407, 409-478: as in GPNHConvexCoding *)
  Definition mt_update_dictionary (k : nat) (t : mtags) : res mtags :=
    let! g := gt_update_dictionary k (mk_gtags (mt_X t) (mt_Gamma t) (mt_S t)) in
    Ok (mk_mtags (mt_X t) (mt_Gamma t) (gt_S g) (mt_ow t) (mt_T t) (mt_Z t)).
  (** mtd_convex_coding.py:480-510: normalization is a float *)
  Definition mt_weights_gradient (t : mtags) : res dtype :=
    let g0 := mt_Gamma t in
    let residual := promote (mt_Gamma t) (mt_Z t) in
    let! g1 := inplace g0 (promote DFloat (promote (mt_ow t) (promote residual (mt_T t)))) in
    let! g2 := inplace g1 (promote DFloat residual) in
    let! g3 := inplace g2 (promote DFloat (promote (mt_X t) (mt_S t))) in
    inplace g3 (promote DFloat (promote (mt_Gamma t) (mt_S t))).
  (** mtd_convex_coding.py:553-581 and the line search :512-551 *)
  Definition mt_update_weights (t : mtags) : res mtags :=
    let! grad := mt_weights_gradient t in
    let! incr := inplace (promote (mt_Gamma t) (promote DFloat grad)) (mt_Gamma t) in
    let! G1 := inplace (mt_Gamma t) incr in
    let! t1 := mt_update_predicted (mk_mtags (mt_X t) G1 (mt_S t) (mt_ow t) (mt_T t) (mt_Z t)) in
    let! _ := mt_weights_gradient t1 in
    Ok t1.
  (** mtd_convex_coding.py:583-700: the gradients have the dtypes of the parameters (a float
      assigned to an entry of an integer array is truncated, no exception); the increments are float *)
  Definition mt_update_parameters (t0 : mtags) : res mtags :=
    let! t := mt_update_predicted t0 in
    let! incr_ow := inplace (promote (mt_ow t) (promote DFloat (mt_ow t))) (mt_ow t) in
    let! incr_T := inplace (promote (mt_T t) (promote DFloat (mt_T t))) (mt_T t) in
    let! ow1 := inplace (mt_ow t) incr_ow in
    let! T1 := inplace (mt_T t) incr_T in
    mt_update_predicted (mk_mtags (mt_X t) (mt_Gamma t) (mt_S t) ow1 T1 (mt_Z t)).

  (** mtd_convex_coding.py:702-756 _iterate *)
  Definition d_mtd_iterate (fuel : nat) (c : mtd_cfg T) (k : nat) (ud uw up : bool) (tolerance : T)
             (max_iterations : nat) (p : mtags * mws T) : res (mtags * mws T * T * nat * list T) :=
    iterate (fun q => mtd_evaluate_cost c k (snd q)) (cost_increased (mc_monotone c))
      (enabled ud (typed (mt_update_dictionary k) (mtd_update_dictionary fuel c k))
         ++ enabled uw (typed mt_update_weights (mtd_update_weights fuel c k))
         ++ enabled up (typed mt_update_parameters (mtd_update_parameters fuel c k)))
      tolerance max_iterations p.

  (** dtypes of the initial values (mtd_convex_coding.py:780-819): drawn weights and order
      weights are float64; the drawn transition matrices are written into an array with the dtype of the
      data (:109-113) *)
  Definition mt_initial (init : init_method) (dX dD dW dow dT : dtype) (ud uw up : bool) : mtags :=
    match init with
    | InitCustom => mk_mtags dX dW dD dow dT dW
    | _ =>
        let dG := if uw then DFloat else dW in
        mk_mtags dX dG (if ud then drawn_dictionary init dX else dD)
                 (if up then DFloat else dow) (if up then dX else dT) dG
    end.
  (** the values written into that array: [trunc] is the conversion of a float64 to int64 *)
  Definition stored_matrices (trunc : T -> T) (init : init_method) (dX : dtype) (up : bool) (Ts : list (mat T))
    : list (mat T) :=
    match init with
    | InitCustom => Ts
    | _ => if up then match dX with DInt => map (mmap trunc) Ts | DFloat => Ts end else Ts
    end.

  (** mtd_convex_coding.py:758-838 _mtd_convex_coding.  With integer transition matrices the values of
      their gradient are truncated too; the update in question always raises, so these values are
      never used. *)
  Definition d_mtd_convex_coding (trunc : T -> T) (fuel : nat) (o : mtd T) (data : arr (mat T))
             (dictionary weights : option (arr (mat T))) (ow : option (arr (list T)))
             (Ts : option (arr (list (mat T)))) (ud uw up : bool) (kw : option fs_kwargs)
    : res (mtags * mtd_run T) :=
    let c := mo_cfg o in
    let ncomp := resolve_components (mo_n_components o) (nc (val data)) in
    let! kmt := check_params ncomp (mc_max_iterations c) (mc_tolerance c) in
    let '(k, max_iterations, tolerance) := kmt in
    let! i := mtd_choose_initial c k (val data) (oval dictionary) (oval weights) (oval ow) (oval Ts)
                ud uw up kw (mo_rng o) in
    let '(D, W, ow0, Ts0, g) := i in
    let t0 := mt_initial (mc_init c) (dt data) (odt dictionary) (odt weights) (odt ow) (odt Ts) ud uw up in
    let Ts1 := stored_matrices trunc (mc_init c) (dt data) up Ts0 in
    let! _ := check_max_lag c in
    let! t1 := mt_update_predicted t0 in
    let w1 := mtd_initialize_workspace c (val data) W D ow0 Ts1 in
    let! r := d_mtd_iterate fuel c k ud uw up tolerance max_iterations (t1, w1) in
    let '(tw, cost, n_iter, log) := r in
    let warned := andb (Nat.eqb n_iter max_iterations) (tolerance >? n0) in
    Ok (fst tw, mk_mtd_run
          (mk_mtd c ncomp g (Some (snd tw)) (mo_dictionary_ o) (mo_cost_ o) (mo_n_iter_ o) (mo_n_components_ o))
          cost n_iter log warned).
  (** mtd_convex_coding.py:840-872 fit_transform *)
  Definition d_mtd_fit_transform (trunc : T -> T) (fuel : nat) (o : mtd T) (data : arr (mat T))
             (dictionary weights : option (arr (mat T))) (ow : option (arr (list T)))
             (Ts : option (arr (list (mat T)))) (ud uw up : bool) (kw : option fs_kwargs)
    : res (mtags * (mtd_run T * mat T)) :=
    let! tr := d_mtd_convex_coding trunc fuel o data dictionary weights ow Ts ud uw up kw in
    let '(t, r) := tr in
    let o1 := mr_obj r in
    match mo_ws o1 with
    | None => Raise AttributeError
    | Some w =>
        let o2 := mk_mtd (mo_cfg o1) (mo_n_components o1) (mo_rng o1) (mo_ws o1)
                    (Some (m_S w)) (Some (mr_cost r)) (Some (mr_n_iter r)) (Some (nr (m_S w))) in
        Ok (t, (mk_mtd_run o2 (mr_cost r) (mr_n_iter r) (mr_log r) (mr_warned r), m_Gamma w))
    end.

  (** * GPNHConvexCodingCROM *)

  (** dtypes of self.Gamma, self.order_weights, self.transition_matrices *)
  Record ctags := mk_ctags { ct_Gamma : dtype; ct_ow : dtype; ct_T : dtype }.
  (** gpnh_convex_coding_crom.py:157-274, as in MTDConvexCoding *)
  Definition ct_update_parameters (t : ctags) : res ctags :=
    let! _ := mt_predicted (ct_Gamma t) (ct_ow t) (ct_T t) in
    let! incr_ow := inplace (promote (ct_ow t) (promote DFloat (ct_ow t))) (ct_ow t) in
    let! incr_T := inplace (promote (ct_T t) (promote DFloat (ct_T t))) (ct_T t) in
    let! ow1 := inplace (ct_ow t) incr_ow in
    let! T1 := inplace (ct_T t) incr_T in
    let! _ := mt_predicted (ct_Gamma t) ow1 T1 in
    Ok (mk_ctags (ct_Gamma t) ow1 T1).

  (** gpnh_convex_coding_crom.py:276-325 _fit_parameters: the transition matrices get the dtype of
      self.X (:290-291) *)
  Definition d_crom_fit_parameters (trunc : T -> T) (fuel : nat) (c : mtd_cfg T) (k n : nat) (dX dG : dtype)
             (G : mat T) (tolerance : T) (max_iterations : nat) (g : rng T)
    : res (ctags * (cws T * rng T * nat * list T)) :=
    let '(ow, Ts, g') := initialize_parameters_random k (n_lags c) g in
    let Ts1 := match dX with DInt => map (mmap trunc) Ts | DFloat => Ts end in
    let! _ := check_max_lag c in
    let! _ := mt_predicted dG DFloat dX in
    let w0 := crom_initialize_workspace c G ow Ts1 in
    let! r := iterate (fun q => crom_fit_residual c k n G (snd q)) (cost_increased (mc_monotone c))
                [typed ct_update_parameters (crom_update_parameters fuel c k n G)] tolerance max_iterations
                (mk_ctags dG DFloat dX, w0) in
    let '(tw, _, n_iter, log) := r in
    Ok (fst tw, (snd tw, g', n_iter, log)).
  (** gpnh_convex_coding_crom.py:327-352 fit_transform *)
  Definition d_crom_fit_transform (trunc : T -> T) (fuel : nat) (o : crom T) (data : arr (mat T))
             (dictionary weights : option (arr (mat T))) (ud uw : bool) (kw : option fs_kwargs)
    : res (ctags * (crom_run T * mat T)) :=
    let! trw := d_fit_transform fuel (co_gpnh o) data dictionary weights ud uw kw in
    let '(t, (r, G)) := trw in
    let gc := go_cfg (gr_obj r) in
    let c := crom_cfg gc (co_lags o) in
    let! kmt := check_params (go_n_components (gr_obj r)) (gc_max_iterations gc) (gc_tolerance gc) in
    let '(k, max_iterations, tolerance) := kmt in
    let! tp := d_crom_fit_parameters trunc fuel c k (nr (val data)) (gt_X t) (gt_Gamma t) G tolerance
                 max_iterations (go_rng (gr_obj r)) in
    let '(t', p) := tp in
    let '(w, g', n_iter, log) := p in
    Ok (t', (mk_crom_run (mk_crom (set_rng g' (gr_obj r)) (co_lags o)
                            (Some (cw_order_weights w, cw_transition_matrices w)))
                         r n_iter log, G)).
End Dtype.
