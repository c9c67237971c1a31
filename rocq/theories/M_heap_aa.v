(** KernelAA and ArchetypalAnalysis (src/reor/archetypal_analysis.py) statement by statement on a
    heap of arrays, in the style of M_heap_gpnh.v.  The values come from M_aa.v. *)
From Coq Require Import List Arith ZArith Bool.
From Verif Require Import Num Mat Py M_simplex M_spg M_iter M_random M_furthest M_gpnh M_aa Heap M_heap.
Import ListNotations.

(** The attributes holding arrays (archetypal_analysis.py:236-259; trace_K is a number). *)
Inductive aname :=
| aK | aS | aC | aalpha | aCK | aCKCt | aCKS | aStS
| aC_old | agrad_C | adelta_grad_C | aincr_C
| aalpha_old | agrad_alpha | adelta_grad_alpha | aincr_alpha
| aS_old | agrad_S | adelta_grad_S | aincr_S.
Definition aname_eq (x y : aname) : {x = y} + {x <> y}.
Proof. decide equality. Defined.

Section HAA.
  Context {T : Type} {N : Num T}.
  Local Open Scope num_scope.
  Local Open Scope prog_scope.

  (** The values of the attributes.  delta_grad_alpha is a vector after its first assignment and
      is kept broadcast to the shape of incr_alpha after the second (see [pa_update_scale]). *)
  Record aat := mk_aat {
    t_K : mat T; t_S : mat T; t_C : mat T; t_alpha : list T;
    t_CK : mat T; t_CKCt : mat T; t_CKS : mat T; t_StS : mat T;
    t_C_old : mat T; t_grad_C : mat T; t_delta_grad_C : mat T; t_incr_C : mat T;
    t_grad_alpha : list T; t_delta_grad_alpha_v : list T; t_delta_grad_alpha : mat T; t_incr_alpha : mat T;
    t_S_old : mat T; t_grad_S : mat T; t_delta_grad_S : mat T; t_incr_S : mat T }.
  Definition a_rd (e : aname -> arr T) : aat :=
    mk_aat (am (e aK)) (am (e aS)) (am (e aC)) (av (e aalpha))
           (am (e aCK)) (am (e aCKCt)) (am (e aCKS)) (am (e aStS))
           (am (e aC_old)) (am (e agrad_C)) (am (e adelta_grad_C)) (am (e aincr_C))
           (av (e agrad_alpha)) (av (e adelta_grad_alpha)) (am (e adelta_grad_alpha)) (am (e aincr_alpha))
           (am (e aS_old)) (am (e agrad_S)) (am (e adelta_grad_S)) (am (e aincr_S)).
  (** Attributes that are not arrays (archetypal_analysis.py:240, 262-270). *)
  Record asc := mk_asc {
    c_trace_K : T; c_alpha_C : T; c_alpha_S : T; c_alpha_alpha : T;
    c_f_S_mem : list T; c_f_C_mem : list T; c_f_alpha_mem : list T }.
  (** The workspace of M_aa.v *)
  Definition a_ws (r : aat) (s : asc) : aws T :=
    mk_aws (t_K r) (t_S r) (t_C r) (t_alpha r) (c_trace_K s) (t_CK r) (t_CKCt r) (t_CKS r) (t_StS r)
           (c_alpha_C s) (c_alpha_S s) (c_alpha_alpha s) (c_f_S_mem s) (c_f_C_mem s) (c_f_alpha_mem s).

  Notation prog := (prog (arr T) aname aat asc).
  Notation st := (hst (arr T) aname asc).

  (** statements on two-dimensional arrays *)
  Definition anewm (x : aname) (f : aat -> asc -> mat T) : prog unit := new x (fun r s => AM (f r s)).
  Definition ainplacem (x : aname) (f : aat -> asc -> mat T) : prog unit := inplace x (fun r s => AM (f r s)).
  (** "if self.delta > 0: <p>" *)
  Definition when_scaled (c : aa_cfg T) (p : prog unit) : prog unit :=
    if ac_delta c >? n0 then p else skip.

  (** The products CK and CKCt, archetypal_analysis.py:386-394, 451-459, 474-480, 561-568 with
      [store] an assignment to the attribute, and :275-284 with [store] writing with out= into the
      attribute's array.  np.diag(self.alpha) is a new local array. *)
  Definition pa_products (store : aname -> (aat -> asc -> mat T) -> prog unit) (c : aa_cfg T) : prog unit :=
    store aCK (fun r _ => mmul (t_C r) (t_K r)) ;;;
    when_scaled c (store aCK (fun r _ => mmul (mdiag (t_alpha r)) (t_CK r))) ;;;
    store aCKCt (fun r _ => mmul (t_CK r) (mtr (t_C r))) ;;;
    when_scaled c (store aCKCt (fun r _ => mmul (t_CKCt r) (mdiag (t_alpha r)))).

  (** archetypal_analysis.py:272-287 _evaluate_cost: writes StS, CK, CKCt with out= *)
  Definition pa_cost (c : aa_cfg T) : prog T :=
    ainplacem aStS (fun r _ => mmul (mtr (t_S r)) (t_S r)) ;;;
    pa_products ainplacem c ;;;
    look (fun r _ => mtrace (mmul (t_StS r) (t_CKCt r)) - n2 * mtrace (mmul (t_S r) (t_CK r)) + mtrace (t_K r)).
  (** the cost expression of the line searches; only reads *)
  Definition pa_cached_cost : prog T := look (fun r s => aa_cached_cost (a_ws r s)).

  (** archetypal_analysis.py:325-334 *)
  Definition pa_weights_gradient (c : aa_cfg T) : prog unit :=
    anewm agrad_S (fun r _ => mmul (mtr (t_K r)) (mscale (nofZ (-2)) (mtr (t_C r)))) ;;;
    when_scaled c (anewm agrad_S (fun r _ => mmul (t_grad_S r) (mdiag (t_alpha r)))) ;;;
    ainplacem agrad_S (fun r _ => madd (t_grad_S r) (mmul (t_S r) (mscale n2 (t_CKCt r)))).

  (** archetypal_analysis.py:337-381 *)
  Definition pa_weights_line_search (fuel : nat) (c : aa_cfg T) : prog T :=
    p_line_search fuel (ac_ls c) pa_cached_cost
      (anewm aS_old (fun r _ => t_S r))                                            (* :343 copy *)
      c_f_S_mem (fun m s => mk_asc (c_trace_K s) (c_alpha_C s) (c_alpha_S s) (c_alpha_alpha s)
                                   m (c_f_C_mem s) (c_f_alpha_mem s))
      (fun r => minner (t_incr_S r) (t_grad_S r))
      (ainplacem aS (fun r _ => madd (t_S r) (t_incr_S r)) ;;;                     (* :356 += *)
       anewm aStS (fun r _ => mmul (mtr (t_S r)) (t_S r)))                         (* :358 *)
      (fun step =>
         anewm aS (fun r _ => madd (t_S_old r) (mscale step (t_incr_S r))) ;;;     (* :371 *)
         anewm aStS (fun r _ => mmul (mtr (t_S r)) (t_S r))).                      (* :373 *)

  (** archetypal_analysis.py:383-418; simplex_project_rows writes into its argument *)
  Definition pa_update_weights (fuel : nat) (c : aa_cfg T) : prog unit :=
    pa_products anewm c ;;;
    pa_weights_gradient c ;;;
    anewm aincr_S (fun r s => msub (t_S r) (mscale (c_alpha_S s) (t_grad_S r))) ;;;
    ainplacem aincr_S (fun r _ => simplex_project_rows (t_incr_S r)) ;;;
    ainplacem aincr_S (fun r _ => msub (t_incr_S r) (t_S r)) ;;;
    do! step_size <- pa_weights_line_search fuel c ;;
    anewm adelta_grad_S (fun r _ => t_grad_S r) ;;;                                (* :404 copy *)
    pa_weights_gradient c ;;;
    anewm adelta_grad_S (fun r _ => msub (t_grad_S r) (t_delta_grad_S r)) ;;;
    setsc (fun r s =>
      let sksk := nsq step_size * minner (t_incr_S r) (t_incr_S r) in
      let beta := step_size * minner (t_incr_S r) (t_delta_grad_S r) in
      mk_asc (c_trace_K s) (c_alpha_C s)
             (get_next_spg_alpha beta sksk (ls_alpha_min (ac_ls c)) (ls_alpha_max (ac_ls c)))
             (c_alpha_alpha s) (c_f_S_mem s) (c_f_C_mem s) (c_f_alpha_mem s)).

  (** archetypal_analysis.py:420-428 *)
  Definition pa_dictionary_gradient (c : aa_cfg T) : prog unit :=
    anewm agrad_C (fun r _ => mmul (mtr (t_S r)) (mscale (nofZ (-2)) (mtr (t_K r)))) ;;;
    ainplacem agrad_C (fun r _ => madd (t_grad_C r) (mscale n2 (mmul (t_StS r) (t_CK r)))) ;;;
    when_scaled c (anewm agrad_C (fun r _ => mmul (mdiag (t_alpha r)) (t_grad_C r))).

  (** archetypal_analysis.py:430-488 *)
  Definition pa_dictionary_line_search (fuel : nat) (c : aa_cfg T) : prog T :=
    p_line_search fuel (ac_ls c) pa_cached_cost
      (anewm aC_old (fun r _ => t_C r))                                            (* :436 copy *)
      c_f_C_mem (fun m s => mk_asc (c_trace_K s) (c_alpha_C s) (c_alpha_S s) (c_alpha_alpha s)
                                   (c_f_S_mem s) m (c_f_alpha_mem s))
      (fun r => minner (t_incr_C r) (t_grad_C r))
      (ainplacem aC (fun r _ => madd (t_C r) (t_incr_C r)) ;;;                     (* :449 += *)
       pa_products anewm c)
      (fun step =>
         anewm aC (fun r _ => madd (t_C_old r) (mscale step (t_incr_C r))) ;;;     (* :472 *)
         pa_products anewm c).

  (** archetypal_analysis.py:490-500: the diagonal is a (read-only) view of a new array *)
  Definition pa_scale_gradient : prog unit :=
    new agrad_alpha (fun r s => AV (aa_scale_gradient (a_ws r s))).

  (** archetypal_analysis.py:592-621.  _scale_factors_line_search (:502-554) assigns only to local
      variables and appends to f_alpha_mem. *)
  Definition pa_update_scale (fuel : nat) (c : aa_cfg T) : prog unit :=
    anewm aCK (fun r _ => mmul (t_C r) (t_K r)) ;;;
    anewm aCKS (fun r _ => mmul (t_CK r) (t_S r)) ;;;
    anewm aCKCt (fun r _ => mmul (t_CK r) (mtr (t_C r))) ;;;
    pa_scale_gradient ;;;
    anewm aincr_alpha (fun r s =>
      let diag_alpha := mdiag (t_alpha r) in
      mbuild (nr diag_alpha) (nc diag_alpha) (fun i j =>
        mget diag_alpha i j - c_alpha_alpha s * nth j (t_grad_alpha r) n0)) ;;;
    anewm aincr_alpha (fun r _ => mmap (fun x => nfmin x (n1 - ac_delta c)) (t_incr_alpha r)) ;;;
    anewm aincr_alpha (fun r _ => mmap (fun x => nfmax x (n1 + ac_delta c)) (t_incr_alpha r)) ;;;
    ainplacem aincr_alpha (fun r _ => msub (t_incr_alpha r) (mdiag (t_alpha r))) ;;;  (* :602 -= *)
    do! ls <- look (fun r s => aa_scale_line_search fuel c (a_ws r s) (t_grad_alpha r) (t_incr_alpha r)) ;;
    match ls with
    | Raise e => Throw e
    | Ok (step_size, mem) =>
        setsc (fun _ s => mk_asc (c_trace_K s) (c_alpha_C s) (c_alpha_S s) (c_alpha_alpha s)
                                 (c_f_S_mem s) (c_f_C_mem s) mem) ;;;
        new adelta_grad_alpha (fun r _ => AV (t_grad_alpha r)) ;;;                 (* :606 copy *)
        pa_scale_gradient ;;;
        anewm adelta_grad_alpha (fun r _ =>
          mbuild (nr (t_incr_alpha r)) (nc (t_incr_alpha r))
                 (fun _ j => nth j (t_grad_alpha r) n0 - nth j (t_delta_grad_alpha_v r) n0)) ;;;
        setsc (fun r s =>
          let sksk := nsq step_size * minner (t_incr_alpha r) (t_incr_alpha r) in
          let beta := step_size * minner (t_incr_alpha r) (t_delta_grad_alpha r) in
          mk_asc (c_trace_K s) (c_alpha_C s) (c_alpha_S s)
                 (get_next_spg_alpha beta sksk (ls_alpha_min (ac_ls c)) (ls_alpha_max (ac_ls c)))
                 (c_f_S_mem s) (c_f_C_mem s) (c_f_alpha_mem s))
    end.

  (** archetypal_analysis.py:556-623 *)
  Definition pa_update_dictionary (fuel : nat) (c : aa_cfg T) : prog unit :=
    anewm aStS (fun r _ => mmul (mtr (t_S r)) (t_S r)) ;;;
    pa_products anewm c ;;;
    pa_dictionary_gradient c ;;;
    anewm aincr_C (fun r s => msub (t_C r) (mscale (c_alpha_C s) (t_grad_C r))) ;;;
    ainplacem aincr_C (fun r _ => simplex_project_rows (t_incr_C r)) ;;;
    ainplacem aincr_C (fun r _ => msub (t_incr_C r) (t_C r)) ;;;
    do! step_size <- pa_dictionary_line_search fuel c ;;
    anewm adelta_grad_C (fun r _ => t_grad_C r) ;;;                                (* :578 copy *)
    pa_dictionary_gradient c ;;;
    anewm adelta_grad_C (fun r _ => msub (t_grad_C r) (t_delta_grad_C r)) ;;;
    setsc (fun r s =>
      let sksk := nsq step_size * minner (t_incr_C r) (t_incr_C r) in
      let beta := step_size * minner (t_incr_C r) (t_delta_grad_C r) in
      mk_asc (c_trace_K s)
             (get_next_spg_alpha beta sksk (ls_alpha_min (ac_ls c)) (ls_alpha_max (ac_ls c)))
             (c_alpha_S s) (c_alpha_alpha s) (c_f_S_mem s) (c_f_C_mem s) (c_f_alpha_mem s)) ;;;
    when_scaled c (pa_update_scale fuel c).

  (** archetypal_analysis.py:625-671 *)
  Definition pa_iterate (fuel : nat) (c : aa_cfg T) (upd_d upd_w : bool) (tolerance : T)
             (max_iterations : nat) : prog (T * nat * list T) :=
    p_iterate (pa_cost c) (cost_increased (ac_monotone c))
      (p_enabled upd_d (pa_update_dictionary fuel c) ++ p_enabled upd_w (pa_update_weights fuel c))
      tolerance max_iterations.

  (** archetypal_analysis.py:292-313: the arrays made by _initialize_workspace; [junk] as in
      M_heap_gpnh.v, [k] is self.n_components *)
  Definition a_workspace (k : nat) (junk : aname -> arr T) : list (aname * (aat -> asc -> arr T)) :=
    [ (aalpha, fun _ _ => AV (repeat n1 k));
      (aCK, fun r _ => AM (mmul (t_C r) (t_K r)));
      (aCKCt, fun r _ => AM (mmul (t_CK r) (mtr (t_C r))));
      (aCKS, fun r _ => AM (mmul (t_CK r) (t_S r)));
      (aStS, fun r _ => AM (mmul (mtr (t_S r)) (t_S r)));
      (aC_old, fun r _ => AM (t_C r));
      (agrad_C, fun _ _ => junk agrad_C); (adelta_grad_C, fun _ _ => junk adelta_grad_C); (aincr_C, fun _ _ => junk aincr_C);
      (aalpha_old, fun r _ => AV (t_alpha r));
      (agrad_alpha, fun _ _ => junk agrad_alpha); (adelta_grad_alpha, fun _ _ => junk adelta_grad_alpha);
      (aincr_alpha, fun _ _ => junk aincr_alpha);
      (aS_old, fun r _ => AM (t_S r));
      (agrad_S, fun _ _ => junk agrad_S); (adelta_grad_S, fun _ _ => junk adelta_grad_S); (aincr_S, fun _ _ => junk aincr_S) ].
  (** archetypal_analysis.py:294, 315-323 *)
  Definition a_sc0 (c : aa_cfg T) (K : mat T) : asc :=
    mk_asc (mtrace K) n1 n1 n1 (repeat n0 (ac_memory c)) (repeat n0 (ac_memory c)) (repeat n0 (ac_memory c)).

  (** The object: attributes hold addresses.  [hk_attr] is None before the first call that reached
      archetypal_analysis.py:719. *)
  Record haa := mk_haa {
    hk_cfg : aa_cfg T; hk_n_components : pyval T; hk_seeded : bool; hk_rng : rng T;
    hk_attr : option (aname -> nat); hk_sc : asc;
    hk_dictionary_ : option nat; hk_cost_ : option T; hk_n_iter_ : option nat; hk_n_components_ : option nat }.

  (** archetypal_analysis.py:697-717: [dictionary] and [weights] refer either to the caller's
      arrays or to new ones (see [hg_choose] for what is dropped after an exception). *)
  Definition ha_choose (c : aa_cfg T) (k : nat) (m : mem (arr T)) (kernel : nat) (dictionary weights : option nat)
             (upd_d upd_w : bool) (kw : option fs_kwargs) (g : rng T) : res (nat * nat * rng T * mem (arr T)) :=
    let K := am (m_heap m kernel) in
    let kwv := match kw with Some v => v | None => fs_default end in
    let check_W := check_init_weights (option_map (fun a => am (m_heap m a)) weights) (nr K) k in
    let check_D := check_init_aa_dictionary (option_map (fun a => am (m_heap m a)) dictionary) k (nr K) in
    let given (a : option nat) := match a with Some a => Ok a | None => Raise ValueError end in
    match ac_init c with
    | InitCustom =>
        let! _ := check_W in
        let! _ := check_D in
        let! d := given dictionary in let! w := given weights in
        Ok (d, w, g, m)
    | init =>
        if andb (negb upd_d) upd_w then
          let! _ := check_D in
          let! d := given dictionary in
          match kw with
          | Some _ => Raise TypeError
          | None =>
              let! r := aa_initialize_weights K k init g in
              let '(w, m1) := alloc m (AM (fst r)) in
              Ok (d, w, snd r, m1)
          end
        else if andb upd_d (negb upd_w) then
          let! _ := check_W in
          let! w := given weights in
          let! r := aa_initialize_dictionary K k init kwv g in
          let '(d, m1) := alloc m (AM (fst r)) in
          Ok (d, w, snd r, m1)
        else
          let! r := aa_initialize_dictionary K k init kwv g in
          let '(d, m1) := alloc m (AM (fst r)) in
          match kw with
          | Some _ => Raise TypeError
          | None =>
              let! r2 := aa_initialize_weights K k init (snd r) in
              let '(w, m2) := alloc m1 (AM (fst r2)) in
              Ok (d, w, snd r2, m2)
          end
    end.

  (** archetypal_analysis.py:719-723: kernel.copy(), weights.copy(), dictionary.copy(), then the
      workspace *)
  Definition ha_setup (c : aa_cfg T) (k : nat) (junk : aname -> arr T) (m : mem (arr T)) (attr : aname -> nat)
             (kernel d w : nat) : st :=
    let s0 := mk_hst (m_heap m) (m_next m) attr (a_sc0 c (am (m_heap m kernel))) in
    let s1 := h_new aname_eq aK (h_heap s0 kernel) s0 in
    let s2 := h_new aname_eq aS (h_heap s1 w) s1 in
    let s3 := h_new aname_eq aC (h_heap s2 d) s2 in
    h_news aname_eq a_rd (a_workspace k junk) s3.

  (** archetypal_analysis.py:673-733 _kernel_aa *)
  Definition ha_kernel_aa (fuel : nat) (junk : aname -> arr T) (o : haa) (m : mem (arr T)) (kernel : nat)
             (dictionary weights : option nat) (upd_d upd_w : bool) (kw : option fs_kwargs)
    : res (T * nat * list T * bool) * haa * mem (arr T) :=
    let c := hk_cfg o in
    let K := am (m_heap m kernel) in
    if negb (Nat.eqb (nc K) (nr K)) then (Raise ValueError, o, m) else
    let ncomp := resolve_components (hk_n_components o) (nr K) in
    let obj := fun g attr s => mk_haa c ncomp (hk_seeded o) g attr s (hk_dictionary_ o) (hk_cost_ o)
                                      (hk_n_iter_ o) (hk_n_components_ o) in
    match check_params ncomp (ac_max_iterations c) (ac_tolerance c) with
    | Raise e => (Raise e, obj (hk_rng o) (hk_attr o) (hk_sc o), m)
    | Ok (k, max_iterations, tolerance) =>
        match ha_choose c k m kernel dictionary weights upd_d upd_w kw (hk_rng o) with
        | Raise e => (Raise e, obj (hk_rng o) (hk_attr o) (hk_sc o), m)
        | Ok (d, w, g, m1) =>
            let attr := match hk_attr o with Some a => a | None => fun _ => 0%nat end in
            let s0 := ha_setup c k junk m1 attr kernel d w in
            let '(r, s1) := run_h aname_eq a_rd (pa_iterate fuel c upd_d upd_w tolerance max_iterations) s0 in
            (let! x := r in
             let '(cost, n_iter, log) := x in
             Ok (cost, n_iter, log, andb (Nat.eqb n_iter max_iterations) (tolerance >? n0)),
             obj (if hk_seeded o then hk_rng o else g) (Some (h_attr s1)) (h_sc s1),
             mk_mem (h_heap s1) (h_next s1))
        end
    end.

  (** archetypal_analysis.py:735-767 fit_transform: dictionary_ and the result are the attribute
      arrays themselves *)
  Definition ha_fit_transform (fuel : nat) (junk : aname -> arr T) (o : haa) (m : mem (arr T)) (kernel : nat)
             (dictionary weights : option nat) (upd_d upd_w : bool) (kw : option fs_kwargs)
    : res nat * haa * mem (arr T) :=
    let '(r, o1, m1) := ha_kernel_aa fuel junk o m kernel dictionary weights upd_d upd_w kw in
    match r, hk_attr o1 with
    | Raise e, _ => (Raise e, o1, m1)
    | Ok _, None => (Raise AttributeError, o1, m1)
    | Ok (cost, n_iter, _, _), Some a =>
        (Ok (a aS),
         mk_haa (hk_cfg o1) (hk_n_components o1) (hk_seeded o1) (hk_rng o1) (hk_attr o1) (hk_sc o1)
           (Some (a aC)) (Some cost) (Some n_iter) (Some (nr (am (m_heap m1 (a aC))))), m1)
    end.

  (** archetypal_analysis.py:784-803 transform: the dictionary argument is the array self.C *)
  Definition ha_transform (fuel : nat) (junk : aname -> arr T) (o : haa) (m : mem (arr T)) (kernel : nat)
    : res nat * haa * mem (arr T) :=
    let C := match hk_attr o with Some a => Some (a aC) | None => None end in
    let '(r, o1, m1) := ha_kernel_aa fuel junk o m kernel C None false true None in
    match r, hk_attr o1 with
    | Raise e, _ => (Raise e, o1, m1)
    | Ok _, None => (Raise AttributeError, o1, m1)
    | Ok _, Some a => (Ok (a aS), o1, m1)
    end.

  (** archetypal_analysis.py:934-937, 964-967: data.dot(data.T) is a new array; kernel_func is an
      arbitrary callable, which may return an existing array (its argument, say). *)
  Definition ha_arch_kernel (kf : option (mem (arr T) -> nat -> nat * mem (arr T))) (m : mem (arr T)) (data : nat)
    : nat * mem (arr T) :=
    match kf with
    | None => let X := am (m_heap m data) in alloc m (AM (mmul X (mtr X)))
    | Some f => f m data
    end.
  (** archetypal_analysis.py:913-949 *)
  Definition ha_arch_fit_transform (fuel : nat) (junk : aname -> arr T) (kf : option (mem (arr T) -> nat -> nat * mem (arr T)))
             (o : haa) (m : mem (arr T)) (data : nat)
             (dictionary weights : option nat) (upd_d upd_w : bool) (kw : option fs_kwargs)
    : res nat * haa * mem (arr T) :=
    let '(kernel, m1) := ha_arch_kernel kf m data in
    ha_fit_transform fuel junk o m1 kernel dictionary weights upd_d upd_w kw.
  (** archetypal_analysis.py:951-973 *)
  Definition ha_arch_transform (fuel : nat) (junk : aname -> arr T) (kf : option (mem (arr T) -> nat -> nat * mem (arr T)))
             (o : haa) (m : mem (arr T)) (data : nat) : res nat * haa * mem (arr T) :=
    let '(kernel, m1) := ha_arch_kernel kf m data in
    ha_transform fuel junk o m1 kernel.
End HAA.
Arguments aat : clear implicits.
Arguments asc : clear implicits.
Arguments haa : clear implicits.
