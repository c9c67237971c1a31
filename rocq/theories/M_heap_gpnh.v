(** GPNHConvexCoding (src/reor/gpnh_convex_coding.py) statement by statement on a heap of arrays:
    which statements make new arrays, which write into existing ones, and which arrays are
    shared with the caller.  The values come from the definitions of M_gpnh.v. *)
From Coq Require Import List Arith ZArith Bool.
From Verif Require Import Num Mat Py M_simplex M_spg M_iter M_random M_furthest M_gpnh Heap M_heap.
Import ListNotations.

(** The attributes holding arrays (gpnh_convex_coding.py:236-254; trace_XtX is a number). *)
Inductive gname :=
| gX | gGamma | gS | gGtG | gGtX | gXSt | gSSt
| gGamma_old | ggrad_Gamma | gdelta_grad_Gamma | gincr_Gamma
| gS_old | ggrad_S | gdelta_grad_S | gincr_S.
Definition gname_eq (x y : gname) : {x = y} + {x <> y}.
Proof. decide equality. Defined.

Section HGpnh.
  Context {T : Type} {N : Num T}.
  Local Open Scope num_scope.
  Local Open Scope prog_scope.

  (** The values of the attributes. *)
  Record gat := mk_gat {
    f_X : mat T; f_Gamma : mat T; f_S : mat T; f_GtG : mat T; f_GtX : mat T; f_XSt : mat T; f_SSt : mat T;
    f_Gamma_old : mat T; f_grad_Gamma : mat T; f_delta_grad_Gamma : mat T; f_incr_Gamma : mat T;
    f_S_old : mat T; f_grad_S : mat T; f_delta_grad_S : mat T; f_incr_S : mat T }.
  Definition g_rd (e : gname -> arr T) : gat :=
    mk_gat (am (e gX)) (am (e gGamma)) (am (e gS)) (am (e gGtG)) (am (e gGtX)) (am (e gXSt)) (am (e gSSt))
           (am (e gGamma_old)) (am (e ggrad_Gamma)) (am (e gdelta_grad_Gamma)) (am (e gincr_Gamma))
           (am (e gS_old)) (am (e ggrad_S)) (am (e gdelta_grad_S)) (am (e gincr_S)).
  (** Attributes that are not arrays (gpnh_convex_coding.py:256-261). *)
  Record gsc := mk_gsc { s_alpha_Gamma : T; s_alpha_S : T; s_f_S_mem : list T; s_f_Gamma_mem : list T }.
  (** The workspace of M_gpnh.v *)
  Definition g_ws (r : gat) (s : gsc) : gws T :=
    mk_gws (f_X r) (f_Gamma r) (f_S r) (f_GtG r) (f_GtX r) (f_XSt r) (f_SSt r)
           (s_alpha_Gamma s) (s_alpha_S s) (s_f_S_mem s) (s_f_Gamma_mem s).

  Notation prog := (prog (arr T) gname gat gsc).
  Notation st := (hst (arr T) gname gsc).

  (** statements on two-dimensional arrays *)
  Definition newm (x : gname) (f : gat -> gsc -> mat T) : prog unit := new x (fun r s => AM (f r s)).
  Definition inplacem (x : gname) (f : gat -> gsc -> mat T) : prog unit := inplace x (fun r s => AM (f r s)).

  (** gpnh_convex_coding.py:317-321; only reads *)
  Definition pg_cost (c : gpnh_cfg T) (k : nat) : prog T :=
    look (fun r s => evaluate_cost c k (g_ws r s)).

  (** gpnh_convex_coding.py:323-348: np.zeros_like / D.dot(...) make a new array, then += twice *)
  Definition pg_dictionary_gradient (c : gpnh_cfg T) (k : nat) : prog unit :=
    newm ggrad_S (fun r s => dictionary_penalty_gradient c k (g_ws r s)) ;;;
    let normalization := fun r => n1 / (nofnat (nc (f_X r)) * nofnat (nr (f_X r))) in
    inplacem ggrad_S (fun r _ => madd (f_grad_S r) (mscale (nofZ (-2) * normalization r) (f_GtX r))) ;;;
    inplacem ggrad_S (fun r _ => madd (f_grad_S r) (mscale (n2 * normalization r) (mmul (f_GtG r) (f_S r)))).

  (** gpnh_convex_coding.py:350-389 *)
  Definition pg_dictionary_line_search (fuel : nat) (c : gpnh_cfg T) (k : nat) : prog T :=
    p_line_search fuel (gc_ls c) (pg_cost c k)
      (newm gS_old (fun r _ => f_S r))                                             (* :355 copy *)
      s_f_S_mem (fun m s => mk_gsc (s_alpha_Gamma s) (s_alpha_S s) m (s_f_Gamma_mem s))
      (fun r => minner (f_incr_S r) (f_grad_S r))
      (inplacem gS (fun r _ => madd (f_S r) (f_incr_S r)) ;;;                      (* :368 += *)
       newm gSSt (fun r _ => mmul (f_S r) (mtr (f_S r))))                          (* :369 *)
      (fun step =>
         newm gS (fun r _ => madd (f_S_old r) (mscale step (f_incr_S r))) ;;;      (* :381 *)
         newm gSSt (fun r _ => mmul (f_S r) (mtr (f_S r)))).                       (* :382 *)

  (** gpnh_convex_coding.py:391-419 *)
  Definition pg_update_dictionary (fuel : nat) (c : gpnh_cfg T) (k : nat) : prog unit :=
    newm gSSt (fun r _ => mmul (f_S r) (mtr (f_S r))) ;;;
    newm gGtX (fun r _ => mmul (mtr (f_Gamma r)) (f_X r)) ;;;
    newm gGtG (fun r _ => mmul (mtr (f_Gamma r)) (f_Gamma r)) ;;;
    pg_dictionary_gradient c k ;;;
    newm gincr_S (fun r s => msub (f_S r) (mscale (s_alpha_S s) (f_grad_S r))) ;;;
    inplacem gincr_S (fun r _ => msub (f_incr_S r) (f_S r)) ;;;
    do! step_size <- pg_dictionary_line_search fuel c k ;;
    newm gdelta_grad_S (fun r _ => f_grad_S r) ;;;                                 (* :405 copy *)
    pg_dictionary_gradient c k ;;;
    newm gdelta_grad_S (fun r _ => msub (f_grad_S r) (f_delta_grad_S r)) ;;;
    setsc (fun r s =>
      let sksk := nsq step_size * minner (f_incr_S r) (f_incr_S r) in
      let beta := step_size * minner (f_incr_S r) (f_delta_grad_S r) in
      mk_gsc (s_alpha_Gamma s)
             (get_next_spg_alpha beta sksk (ls_alpha_min (gc_ls c)) (ls_alpha_max (gc_ls c)))
             (s_f_S_mem s) (s_f_Gamma_mem s)).

  (** gpnh_convex_coding.py:421-435 *)
  Definition pg_weights_gradient : prog unit :=
    newm ggrad_Gamma (fun r _ => mzeros (nr (f_Gamma r)) (nc (f_Gamma r))) ;;;
    let normalization := fun r => n1 / (nofnat (nc (f_X r)) * nofnat (nr (f_X r))) in
    inplacem ggrad_Gamma (fun r _ => madd (f_grad_Gamma r) (mscale (nofZ (-2) * normalization r) (f_XSt r))) ;;;
    inplacem ggrad_Gamma (fun r _ =>
      madd (f_grad_Gamma r) (mscale (n2 * normalization r) (mmul (f_Gamma r) (f_SSt r)))).

  (** gpnh_convex_coding.py:437-474 *)
  Definition pg_weights_line_search (fuel : nat) (c : gpnh_cfg T) (k : nat) : prog T :=
    p_line_search fuel (gc_ls c) (pg_cost c k)
      (newm gGamma_old (fun r _ => f_Gamma r))                                     (* :442 copy *)
      s_f_Gamma_mem (fun m s => mk_gsc (s_alpha_Gamma s) (s_alpha_S s) (s_f_S_mem s) m)
      (fun r => minner (f_incr_Gamma r) (f_grad_Gamma r))
      (inplacem gGamma (fun r _ => madd (f_Gamma r) (f_incr_Gamma r)))             (* :455 += *)
      (fun step =>
         newm gGamma (fun r _ => madd (f_Gamma_old r) (mscale step (f_incr_Gamma r)))).  (* :467 *)

  (** gpnh_convex_coding.py:476-504; simplex_project_rows writes into its argument *)
  Definition pg_update_weights (fuel : nat) (c : gpnh_cfg T) (k : nat) : prog unit :=
    newm gSSt (fun r _ => mmul (f_S r) (mtr (f_S r))) ;;;
    newm gXSt (fun r _ => mmul (f_X r) (mtr (f_S r))) ;;;
    pg_weights_gradient ;;;
    newm gincr_Gamma (fun r s => msub (f_Gamma r) (mscale (s_alpha_Gamma s) (f_grad_Gamma r))) ;;;
    inplacem gincr_Gamma (fun r _ => simplex_project_rows (f_incr_Gamma r)) ;;;
    inplacem gincr_Gamma (fun r _ => msub (f_incr_Gamma r) (f_Gamma r)) ;;;
    do! step_size <- pg_weights_line_search fuel c k ;;
    newm gdelta_grad_Gamma (fun r _ => f_grad_Gamma r) ;;;                         (* :490 copy *)
    pg_weights_gradient ;;;
    newm gdelta_grad_Gamma (fun r _ => msub (f_grad_Gamma r) (f_delta_grad_Gamma r)) ;;;
    setsc (fun r s =>
      let sksk := nsq step_size * minner (f_incr_Gamma r) (f_incr_Gamma r) in
      let beta := step_size * minner (f_incr_Gamma r) (f_delta_grad_Gamma r) in
      mk_gsc (get_next_spg_alpha beta sksk (ls_alpha_min (gc_ls c)) (ls_alpha_max (gc_ls c)))
             (s_alpha_S s) (s_f_S_mem s) (s_f_Gamma_mem s)).

  (** gpnh_convex_coding.py:506-552 *)
  Definition pg_iterate (fuel : nat) (c : gpnh_cfg T) (k : nat) (upd_d upd_w : bool) (tolerance : T)
             (max_iterations : nat) : prog (T * nat * list T) :=
    p_iterate (pg_cost c k) (cost_increased (gc_monotone c))
      (p_enabled upd_d (pg_update_dictionary fuel c k) ++ p_enabled upd_w (pg_update_weights fuel c k))
      tolerance max_iterations.

  (** gpnh_convex_coding.py:263-280: the arrays made by _initialize_workspace.  [junk x] is the
      unspecified contents of the np.empty_like array assigned to x. *)
  Definition g_workspace (junk : gname -> arr T) : list (gname * (gat -> gsc -> arr T)) :=
    [ (gGtG, fun r _ => AM (mmul (mtr (f_Gamma r)) (f_Gamma r)));
      (gGtX, fun r _ => AM (mmul (mtr (f_Gamma r)) (f_X r)));
      (gXSt, fun r _ => AM (mmul (f_X r) (mtr (f_S r))));
      (gSSt, fun r _ => AM (mmul (f_S r) (mtr (f_S r))));
      (gGamma_old, fun r _ => AM (f_Gamma r));
      (ggrad_Gamma, fun _ _ => junk ggrad_Gamma); (gdelta_grad_Gamma, fun _ _ => junk gdelta_grad_Gamma); (gincr_Gamma, fun _ _ => junk gincr_Gamma);
      (gS_old, fun r _ => AM (f_S r));
      (ggrad_S, fun _ _ => junk ggrad_S); (gdelta_grad_S, fun _ _ => junk gdelta_grad_S); (gincr_S, fun _ _ => junk gincr_S) ].
  (** gpnh_convex_coding.py:282-287 *)
  Definition g_sc0 (c : gpnh_cfg T) : gsc := mk_gsc n1 n1 (repeat n0 (gc_memory c)) (repeat n0 (gc_memory c)).

  (** The object: attributes hold addresses.  [ho_attr] is None before the first call that reached
      gpnh_convex_coding.py:596. *)
  Record hgpnh := mk_hgpnh {
    ho_cfg : gpnh_cfg T; ho_n_components : pyval T; ho_rng : rng T;
    ho_attr : option (gname -> nat); ho_sc : gsc;
    ho_dictionary_ : option nat; ho_cost_ : option T; ho_n_iter_ : option nat; ho_n_components_ : option nat }.

  (** gpnh_convex_coding.py:574-594: the local variables [dictionary] and [weights] refer either to
      the caller's arrays or to new ones.  After an exception the arrays made so far are garbage,
      and so is the position reached in the random stream (M_random.v does not report it). *)
  Definition hg_choose (c : gpnh_cfg T) (k : nat) (m : mem (arr T)) (data : nat) (dictionary weights : option nat)
             (upd_d upd_w : bool) (kw : option fs_kwargs) (g : rng T) : res (nat * nat * rng T * mem (arr T)) :=
    let X := am (m_heap m data) in
    let kwv := match kw with Some v => v | None => fs_default end in
    let check_W := check_init_weights (option_map (fun a => am (m_heap m a)) weights) (nr X) k in
    let check_D := check_init_dictionary (option_map (fun a => am (m_heap m a)) dictionary) k (nc X) in
    let given (a : option nat) := match a with Some a => Ok a | None => Raise ValueError end in
    match gc_init c with
    | InitCustom =>
        let! _ := check_W in
        let! _ := check_D in
        let! d := given dictionary in let! w := given weights in
        Ok (d, w, g, m)
    | init =>
        if andb (negb upd_d) upd_w then
          let! _ := check_D in
          let! d := given dictionary in
          match kw with
          | Some _ => Raise TypeError
          | None =>
              let! r := initialize_weights X k init g in
              let '(w, m1) := alloc m (AM (fst r)) in
              Ok (d, w, snd r, m1)
          end
        else if andb upd_d (negb upd_w) then
          let! _ := check_W in
          let! w := given weights in
          let! r := initialize_dictionary X k init kwv g in
          let '(d, m1) := alloc m (AM (fst r)) in
          Ok (d, w, snd r, m1)
        else
          let! r := initialize_dictionary X k init kwv g in
          let '(d, m1) := alloc m (AM (fst r)) in
          let! r2 := initialize_weights X k init (snd r) in
          let '(w, m2) := alloc m1 (AM (fst r2)) in
          Ok (d, w, snd r2, m2)
    end.

  (** gpnh_convex_coding.py:596-600: data.copy(), weights.copy(), dictionary.copy(), then the
      workspace.  [attr] is where the attributes pointed before. *)
  Definition hg_setup (c : gpnh_cfg T) (junk : gname -> arr T) (m : mem (arr T)) (attr : gname -> nat) (data d w : nat) : st :=
    let s0 := mk_hst (m_heap m) (m_next m) attr (g_sc0 c) in
    let s1 := h_new gname_eq gX (h_heap s0 data) s0 in
    let s2 := h_new gname_eq gGamma (h_heap s1 w) s1 in
    let s3 := h_new gname_eq gS (h_heap s2 d) s2 in
    h_news gname_eq g_rd (g_workspace junk) s3.

  (** gpnh_convex_coding.py:554-610 _gpnh_convex_coding *)
  Definition hg_convex_coding (fuel : nat) (junk : gname -> arr T) (o : hgpnh) (m : mem (arr T)) (data : nat)
             (dictionary weights : option nat) (upd_d upd_w : bool) (kw : option fs_kwargs)
    : res (T * nat * list T * bool) * hgpnh * mem (arr T) :=
    let c := ho_cfg o in
    let ncomp := resolve_components (ho_n_components o) (nc (am (m_heap m data))) in
    let obj := fun g attr s => mk_hgpnh c ncomp g attr s (ho_dictionary_ o) (ho_cost_ o)
                                        (ho_n_iter_ o) (ho_n_components_ o) in
    match check_params ncomp (gc_max_iterations c) (gc_tolerance c) with
    | Raise e => (Raise e, obj (ho_rng o) (ho_attr o) (ho_sc o), m)
    | Ok (k, max_iterations, tolerance) =>
        match hg_choose c k m data dictionary weights upd_d upd_w kw (ho_rng o) with
        | Raise e => (Raise e, obj (ho_rng o) (ho_attr o) (ho_sc o), m)
        | Ok (d, w, g, m1) =>
            let attr := match ho_attr o with Some a => a | None => fun _ => 0%nat end in
            let s0 := hg_setup c junk m1 attr data d w in
            let '(r, s1) := run_h gname_eq g_rd (pg_iterate fuel c k upd_d upd_w tolerance max_iterations) s0 in
            (let! x := r in
             let '(cost, n_iter, log) := x in
             Ok (cost, n_iter, log, andb (Nat.eqb n_iter max_iterations) (tolerance >? n0)),
             obj g (Some (h_attr s1)) (h_sc s1), mk_mem (h_heap s1) (h_next s1))
        end
    end.

  (** gpnh_convex_coding.py:612-644 fit_transform: dictionary_ and the result are the attribute
      arrays themselves, not copies *)
  Definition hg_fit_transform (fuel : nat) (junk : gname -> arr T) (o : hgpnh) (m : mem (arr T)) (data : nat)
             (dictionary weights : option nat) (upd_d upd_w : bool) (kw : option fs_kwargs)
    : res nat * hgpnh * mem (arr T) :=
    let '(r, o1, m1) := hg_convex_coding fuel junk o m data dictionary weights upd_d upd_w kw in
    match r, ho_attr o1 with
    | Raise e, _ => (Raise e, o1, m1)
    | Ok _, None => (Raise AttributeError, o1, m1)
    | Ok (cost, n_iter, _, _), Some a =>
        (Ok (a gGamma),
         mk_hgpnh (ho_cfg o1) (ho_n_components o1) (ho_rng o1) (ho_attr o1) (ho_sc o1)
           (Some (a gS)) (Some cost) (Some n_iter) (Some (nr (am (m_heap m1 (a gS))))), m1)
    end.

  (** gpnh_convex_coding.py:661-680 transform: the dictionary argument is the array self.S *)
  Definition hg_transform (fuel : nat) (junk : gname -> arr T) (o : hgpnh) (m : mem (arr T)) (data : nat)
    : res nat * hgpnh * mem (arr T) :=
    let S := match ho_attr o with Some a => Some (a gS) | None => None end in
    let '(r, o1, m1) := hg_convex_coding fuel junk o m data S None false true None in
    match r, ho_attr o1 with
    | Raise e, _ => (Raise e, o1, m1)
    | Ok _, None => (Raise AttributeError, o1, m1)
    | Ok _, Some a => (Ok (a gGamma), o1, m1)
    end.
End HGpnh.
Arguments gat : clear implicits.
Arguments gsc : clear implicits.
Arguments hgpnh : clear implicits.
