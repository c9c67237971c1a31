(** Model of src/reor/fembv.py and src/reor/fembv_kmeans.py.

    Simplifications: dtypes are dropped (the distance matrix has the dtype of the data, so integer
    data truncate the distances, see M_int.v; the index arrays of the constraints are integers even when empty);
    the external LP solver is an oracle that may answer differently at every call;
    [self.distance_matrix] is re-evaluated by the code before every use, so it is a function of the
    component parameters here; [self.Eta] is [None] until the first weights update (np.empty in the
    code; it is never read).  printing and timing are dropped.
    State left behind by a call that raises is not modelled. *)
From Coq Require Import List Arith ZArith Bool.
From Verif Require Import Num Mat Py Lp M_random M_iter M_gpnh.
Import ListNotations.

Section Fembv.
  Context {T : Type} {N : Num T}.
  Local Open Scope num_scope.

  (** constructor arguments that never change (fembv.py:45-58) *)
  Record fembv_cfg := mk_fembv_cfg {
    fc_max_tv_norm : option T;                 (* None or a number *)
    fc_init : init_method;                     (* stored, never read *)
    fc_max_iterations : pyval T;
    fc_tolerance : pyval T;
    fc_monotone : bool }.                      (* require_monotonic_cost_decrease *)

  (** fembv.py:77-78 *)
  Definition has_max_tv_norm_constraint (c : fembv_cfg) : bool :=
    match fc_max_tv_norm c with None => false | Some x => n0 <=? x end.

  (** fembv.py:80-87, for n_samples >= 1 *)
  Definition n_weight_parameters (c : fembv_cfg) (k n : nat) : nat :=
    if has_max_tv_norm_constraint c then k * n + k * (n - 1) else k * n.

  (** A_eq, b_eq, A_ub, b_ub *)
  Definition constraints : Type := csr T * list T * csr T * list T.

  (** fembv.py:94-101 *)
  Definition equality_constraints (c : fembv_cfg) (k n : nat) : res (csr T * list T) :=
    let nw := n_weight_parameters c k n in
    let eq_nnz_rows := np_repeat (np_arange 0 n) k in
    let eq_nnz_cols := np_arange 0 (n * k) in
    let! A_eq := csr_matrix (repeat n1 (n * k)) eq_nnz_rows eq_nnz_cols n nw in
    Ok (A_eq, repeat n1 n).

  (** fembv.py:103-169 *)
  Definition inequality_constraints (c : fembv_cfg) (k n : nat) : res (csr T * list T) :=
    let nw := n_weight_parameters c k n in
    let n_ub := nw in
    let nnz_coeffs := repeat (nopp n1) nw in
    let ub_nnz_rows := np_arange 0 nw in
    let ub_nnz_cols := np_arange 0 nw in
    let ub_values := repeat n0 nw in
    match fc_max_tv_norm c with
    | Some max_tv_norm =>
        if has_max_tv_norm_constraint c then
          let n_aux := (2 * k * (n - 1))%nat in
          let nnz_aux_rows := np_repeat (np_arange n_ub (n_ub + n_aux)) 3 in
          let nnz_aux_cols :=
            np_tile (flat_map (fun t => flat_map (fun i =>
                       [(t + 1) * k + i; t * k + i; k * n + t * k + i]) (seq 0 k)) (seq 0 (n - 1)))%nat 2 in
          let nnz_aux_coeffs :=
            np_tile [n1; nopp n1; nopp n1] (k * (n - 1)) ++ np_tile [nopp n1; n1; nopp n1] (k * (n - 1)) in
          let n_ub2 := (n_ub + n_aux)%nat in
          let ub_values2 := ub_values ++ repeat n0 (2 * k * (n - 1)) in
          let nnz_tv_rows := np_repeat (np_arange n_ub2 (n_ub2 + k)) (n - 1) in
          let nnz_tv_cols := flat_map (fun i => map (fun t => k * n + t * k + i)%nat (seq 0 (n - 1))) (seq 0 k) in
          let nnz_tv_coeffs := repeat n1 (k * (n - 1)) in
          let n_ub3 := (n_ub2 + k)%nat in
          let ub_values3 := ub_values2 ++ repeat max_tv_norm k in
          let! A_ub := csr_matrix (nnz_coeffs ++ nnz_aux_coeffs ++ nnz_tv_coeffs)
                                  (ub_nnz_rows ++ nnz_aux_rows ++ nnz_tv_rows)
                                  (ub_nnz_cols ++ nnz_aux_cols ++ nnz_tv_cols) n_ub3 nw in
          Ok (A_ub, ub_values3)
        else let! A_ub := csr_matrix nnz_coeffs ub_nnz_rows ub_nnz_cols n_ub nw in Ok (A_ub, ub_values)
    | None => let! A_ub := csr_matrix nnz_coeffs ub_nnz_rows ub_nnz_cols n_ub nw in Ok (A_ub, ub_values)
    end.

  (** fembv.py:89-169.  With no samples and a TV constraint, k * (n_samples - 1) is negative and
      np.full raises ValueError.  With one component the attributes keep their values, which are
      the None of the constructor (n_components never changes once it is an integer). *)
  Definition initialize_constraints (c : fembv_cfg) (k n : nat) : res (option constraints) :=
    if Nat.leb k 1 then Ok None
    else if andb (Nat.eqb n 0) (has_max_tv_norm_constraint c) then Raise ValueError
    else
      let! e := equality_constraints c k n in
      let! u := inequality_constraints c k n in
      Ok (Some (fst e, snd e, fst u, snd u)).

  (** What a subclass provides (fembv.py:70-71, 188-190, 246-248): its parameters [P] (with the
      data), their distance matrix, the initial guess (which may leave some attributes of an earlier
      fit in place) and the parameters update.  A distance matrix
      that cannot be evaluated makes the initial guess raise: later calls only repeat that
      evaluation with arrays of the same shapes. *)
  Record fembv_class (P A : Type) := mk_class {
    cl_distance : P -> mat T;
    cl_initialize : nat -> mat T -> A -> init_method -> option P -> rng T -> res (P * rng T);
    cl_update : mat T -> P -> res P }.
  Arguments mk_class {P A}. Arguments cl_distance {P A}. Arguments cl_initialize {P A}. Arguments cl_update {P A}.

  Section Class.
    Context {P A : Type} (cl : fembv_class P A).
    (** external solver: the i-th call of [problem.solve] in a fit *)
    Variable solver : nat -> lp T -> lp_answer T.

    Record fws := mk_fws {
      f_params : P; f_Gamma : mat T; f_Eta : option (mat T); f_cons : option constraints; f_calls : nat }.

    (** fembv.py:73-75 *)
    Definition fembv_cost (w : fws) : T := minner (f_Gamma w) (cl_distance cl (f_params w)).

    (** np.clip(x, 0.0, 1.0); NaN stays NaN *)
    Definition clip01 (x : T) : T := if x <? n0 then n0 else if n1 <? x then n1 else x.

    (** the objective, fembv.py:223-224 *)
    Definition lp_objective (c : fembv_cfg) (k n : nat) (D : mat T) : list T :=
      flat_map (fun t => map (fun i => mget D t i) (seq 0 k)) (seq 0 n)
      ++ repeat n0 (n_weight_parameters c k n - n * k).

    (** fembv.py:207-244 *)
    Definition fembv_update_weights (c : fembv_cfg) (k : nat) (w : fws) : res fws :=
      if Nat.eqb k 1 then Ok w else
      let n := nr (f_Gamma w) in
      let D := cl_distance cl (f_params w) in
      if negb (andb (Nat.eqb (nr D) n) (Nat.eqb (nc D) k)) then Raise AssertionError else
      match f_cons w with
      | None => Raise TypeError
      | Some (A_eq, b_eq, A_ub, b_ub) =>
          match solver (f_calls w) (mk_lp (lp_objective c k n D) A_eq b_eq A_ub b_ub) with
          | LpFailed => Ok (mk_fws (f_params w) (f_Gamma w) (f_Eta w) (f_cons w) (S (f_calls w)))   (* warning *)
          | LpNoValue => Raise TypeError                    (* None is not subscriptable *)
          | LpRaises e => Raise e
          | LpValue sol =>
              (* the variable has n_weight_parameters entries; any other length cannot be reshaped *)
              if negb (Nat.eqb (length sol) (n_weight_parameters c k n)) then Raise ValueError else
              Ok (mk_fws (f_params w) (mbuild n k (fun t i => clip01 (vget sol (t * k + i))))
                    (if has_max_tv_norm_constraint c
                     then Some (mbuild (n - 1) k (fun t i => vget sol (k * n + t * k + i))) else f_Eta w)
                    (f_cons w) (S (f_calls w)))
          end
      end.

    Definition fembv_update_parameters (w : fws) : res fws :=
      let! p := cl_update cl (f_Gamma w) (f_params w) in
      Ok (mk_fws p (f_Gamma w) (f_Eta w) (f_cons w) (f_calls w)).

    (** fembv.py:272-277, 283-288 *)
    Definition fembv_bad (monotone : bool) (tolerance : T) (n_iter : nat) (old_cost new_cost : T) : bool :=
      andb (andb (Nat.ltb 0 n_iter) monotone)
           (andb (new_cost >? old_cost) (nabs (new_cost - old_cost) >? tolerance)).

    (** fembv.py:250-304 *)
    Definition fembv_iterate (c : fembv_cfg) (k : nat) (upd_p upd_w : bool) (tolerance : T) (max_iterations : nat) (w : fws)
      : res (fws * T * nat * list T) :=
      iterate fembv_cost (fembv_bad (fc_monotone c) tolerance)
              (enabled upd_p fembv_update_parameters ++ enabled upd_w (fembv_update_weights c k))
              tolerance max_iterations w.

    (** fembv.py:30-39, 171-181: [init] is the argument of fit, not of the constructor *)
    Definition fembv_initialize_weights (k n : nat) (weights : option (mat T)) (init : init_method) (g : rng T)
      : res (mat T * rng T) :=
      match init, weights with
      | InitCustom, Some W => let! W' := check_init_weights (Some W) n k in Ok (W', g)
      | _, _ => Ok (right_stochastic_matrix n k g)
      end.

    Record fembv := mk_fembv {
      fo_cfg : fembv_cfg; fo_n_components : pyval T; fo_rng : rng T; fo_ws : option fws;
      fo_cost_ : option T; fo_n_iter_ : option nat; fo_n_components_ : option nat }.

    (** result of _fembv_fit: the object, cost, n_iter, the cost at the start and after every
        iteration, and whether the maximum-iterations warning was issued *)
    Record fembv_run := mk_fembv_run {
      fr_obj : fembv; fr_cost : T; fr_n_iter : nat; fr_log : list T; fr_warned : bool }.

    (** fembv.py:192-205 *)
    Definition fembv_initialize (c : fembv_cfg) (k : nat) (old : option P) (data : mat T) (args : A)
               (weights : option (mat T)) (init : init_method) (g : rng T) : res (fws * rng T) :=
      let! pg := cl_initialize cl k data args init old g in
      let '(p, g1) := pg in
      let D := cl_distance cl p in
      if negb (Nat.eqb (nc D) k) then Raise RuntimeError else
      let n := nr D in
      let! wg := fembv_initialize_weights k n weights init g1 in
      let '(W, g2) := wg in
      let! cs := initialize_constraints c k n in
      Ok (mk_fws p W None cs 0, g2).

    (** fembv.py:306-335 *)
    Definition fembv_fit (o : fembv) (data : mat T) (args : A) (weights : option (mat T)) (init : init_method)
               (upd_p upd_w : bool) : res fembv_run :=
      let c := fo_cfg o in
      let ncomp := resolve_components (fo_n_components o) (nc data) in
      let! kmt := check_params ncomp (fc_max_iterations c) (fc_tolerance c) in
      let '(k, max_iterations, tolerance) := kmt in
      let! wg := fembv_initialize c k (option_map f_params (fo_ws o)) data args weights init (fo_rng o) in
      let '(w, g') := wg in
      let! r := fembv_iterate c k upd_p upd_w tolerance max_iterations w in
      let '(w', cost, n_iter, log) := r in
      Ok (mk_fembv_run (mk_fembv c ncomp g' (Some w') (fo_cost_ o) (fo_n_iter_ o) (fo_n_components_ o))
            cost n_iter log (andb (Nat.eqb n_iter max_iterations) (tolerance >? n0))).

    (** fembv.py:337-366; [fit] (368-381) discards the weights *)
    Definition fembv_fit_transform (o : fembv) (data : mat T) (args : A) (weights : option (mat T)) (init : init_method)
               (upd_p upd_w : bool) : res (fembv_run * mat T) :=
      let! r := fembv_fit o data args weights init upd_p upd_w in
      match fo_ws (fr_obj r) with
      | None => Raise AttributeError
      | Some w =>
          let o' := fr_obj r in
          Ok (mk_fembv_run (mk_fembv (fo_cfg o') (fo_n_components o') (fo_rng o') (fo_ws o')
                 (Some (fr_cost r)) (Some (fr_n_iter r)) (Some (nc (f_Gamma w))))
               (fr_cost r) (fr_n_iter r) (fr_log r) (fr_warned r), f_Gamma w)
      end.

    (** fembv.py:383-400: no parameters, weights or init are passed on.  [args] stands for the
        absent keyword arguments of the subclass. *)
    Definition fembv_transform (o : fembv) (data : mat T) (no_args : A) : res (fembv_run * mat T) :=
      let! r := fembv_fit o data no_args None InitNone false true in
      match fo_ws (fr_obj r) with
      | None => Raise AttributeError
      | Some w => Ok (r, f_Gamma w)
      end.

    (** fembv.py:45-68 *)
    Definition fembv_new (c : fembv_cfg) (n_components : pyval T) (g : rng T) : fembv :=
      mk_fembv c n_components g None None None None.
  End Class.

  (** ** fembv_kmeans.py *)
  Record kmeans := mk_kmeans { km_X : mat T; km_Theta : mat T }.

  (** fembv_kmeans.py:136-140; Theta always has n_components rows *)
  Definition kmeans_distance (s : kmeans) : mat T :=
    mbuild (nr (km_X s)) (nr (km_Theta s)) (fun t j =>
      nsq (nsqrt (nsum (nc (km_X s)) (fun f => nsq (mget (km_X s) t f - mget (km_Theta s) j f))))).

  (** fembv_kmeans.py:23-55, 142-163; the arguments are [parameters]; nothing is left of an earlier fit *)
  Definition kmeans_initialize (k : nat) (data : mat T) (parameters : option (mat T)) (init : init_method)
             (old : option kmeans) (g : rng T)
    : res (kmeans * rng T) :=
    match init, parameters with
    | InitCustom, Some Theta =>
        let! _ := check_array_shape Theta k (nc data) in
        Ok (mk_kmeans data Theta, g)
    | _, _ =>
        let! rg := draw_choice (nr data) k g in
        Ok (mk_kmeans data (mbuild k (nc data) (fun j f => mget data (nth j (fst rg) 0) f)), snd rg)
    end.

  (** fembv_kmeans.py:165-172 *)
  Definition kmeans_update (G : mat T) (s : kmeans) : res kmeans :=
    let X := km_X s in
    let Theta := mmul (mtr G) X in
    let normalizations := tab (nc G) (fun j => nsum (nr G) (fun t => mget G t j)) in
    Ok (mk_kmeans X (mbuild (nr Theta) (nc Theta) (fun j f => mget Theta j f / vget normalizations j))).

  Definition kmeans_class : fembv_class kmeans (option (mat T)) :=
    mk_class kmeans_distance kmeans_initialize kmeans_update.
End Fembv.
Arguments fembv_cfg T : clear implicits.
Arguments constraints T : clear implicits.
Arguments fembv_class T P A : clear implicits.
Arguments fws T P : clear implicits.
Arguments fembv T P : clear implicits.
Arguments fembv_run T P : clear implicits.
Arguments kmeans T : clear implicits.
Arguments mk_class {T P A}. Arguments cl_distance {T P A}. Arguments cl_initialize {T P A}. Arguments cl_update {T P A}.
