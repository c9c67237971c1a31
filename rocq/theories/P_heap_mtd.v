(** MTDConvexCoding on the heap: no array is shared between attributes, and the values are those
    of M_mtd.v. *)
From Coq Require Import List Arith ZArith Bool Lia.
From Verif Require Import Num Mat Py M_simplex M_spg M_iter M_random M_furthest M_gpnh M_mtd
  Heap M_heap M_heap_mtd Spec_heap P_heap P_heap_loops.
Import ListNotations.

Section PM.
  Context {T : Type} {N : Num T}.
  Notation run_e := (run_e mname_eq m_rd).
  Notation computes := (computes mname_eq m_rd).
  Notation upd := (upd mname_eq).

  Lemma m_rd_ext (e e' : mname -> arr T) : (forall x, e x = e' x) -> m_rd e = m_rd e'.
  Proof using. intros H. unfold m_rd. rewrite !H. reflexivity. Qed.

  (** ** no aliasing statements *)
  Ltac na := repeat first
    [ match goal with |- noalias (pm_dictionary_line_search _ _ _) => apply noalias_line_search; intros end
    | match goal with |- noalias (pm_weights_line_search _ _ _) => apply noalias_line_search; intros end
    | match goal with |- noalias (pm_parameters_line_search _ _ _) => apply noalias_line_search; intros end
    | match goal with |- noalias (pm_predicted _) => exact I end
    | match goal with |- noalias (pm_parameters_gradient _ _) => exact I end
    | match goal with |- noalias (pm_dictionary_gradient _ _) => exact I end
    | match goal with |- noalias (pm_weights_gradient _ _) => exact I end
    | match goal with |- noalias (pm_cost _ _) => exact (fun _ _ => I) end
    | match goal with |- noalias (mnewm _ _) => exact I end
    | match goal with |- noalias (minplacem _ _) => exact I end
    | match goal with |- noalias (mnewv _ _) => exact I end
    | match goal with |- noalias (minplacev _ _) => exact I end
    | match goal with |- noalias (mnew3 _ _) => exact I end
    | match goal with |- noalias (minplace3 _ _) => exact I end
    | match goal with |- noalias (setsc _) => exact I end
    | apply noalias_bind; [|intros] ].
  Lemma noalias_pm_iterate fuel (c : mtd_cfg T) k ud uw up tol mx : noalias (pm_iterate fuel c k ud uw up tol mx).
  Proof using.
    unfold pm_iterate. destruct (check_max_lag c); [|exact I].
    apply noalias_iterate; [na|]. apply Forall_app. split; [|apply Forall_app; split]; apply noalias_enabled.
    - unfold pm_update_dictionary. na.
    - unfold pm_update_weights. na.
    - unfold pm_update_parameters. na.
  Qed.

  (** ** values *)
  Definition m_rel (e : mname -> arr T) (s : msc T) (w : mws T) : Prop := m_ws (m_rd e) s = w.

  Lemma mcost_fields (c : mtd_cfg T) k (w w' : mws T) :
    m_X w = m_X w' -> m_Gamma w = m_Gamma w' -> m_S w = m_S w' -> m_SSt w = m_SSt w' -> m_Z w = m_Z w' ->
    mtd_evaluate_cost c k w = mtd_evaluate_cost c k w'.
  Proof using.
    intros E1 E2 E3 E4 E5.
    unfold mtd_evaluate_cost, mtd_loss_function, mtd_dictionary_penalty, mtd_weights_penalty, mtd_normalization, mtd_residual.
    rewrite E1, E2, E3, E4, E5. reflexivity.
  Qed.
  Lemma mdgrad_fields (c : mtd_cfg T) k (w w' : mws T) :
    m_X w = m_X w' -> m_S w = m_S w' -> m_GtX w = m_GtX w' -> m_GtG w = m_GtG w' ->
    mtd_dictionary_gradient c k w = mtd_dictionary_gradient c k w'.
  Proof using.
    intros E1 E2 E3 E4. unfold mtd_dictionary_gradient, mtd_dictionary_penalty_gradient.
    rewrite E1, E2, E3, E4. reflexivity.
  Qed.
  Lemma mwpgrad_fields (c : mtd_cfg T) k (w w' : mws T) :
    m_X w = m_X w' -> m_Gamma w = m_Gamma w' -> m_Z w = m_Z w' -> m_order_weights w = m_order_weights w' ->
    m_transition_matrices w = m_transition_matrices w' ->
    mtd_weights_penalty_gradient c k w = mtd_weights_penalty_gradient c k w'.
  Proof using.
    intros E1 E2 E3 E4 E5. unfold mtd_weights_penalty_gradient, mtd_normalization.
    rewrite E1, E2, E3, E4, E5. reflexivity.
  Qed.
  Lemma mwgrad_fields (c : mtd_cfg T) k (w w' : mws T) :
    m_X w = m_X w' -> m_Gamma w = m_Gamma w' -> m_Z w = m_Z w' -> m_order_weights w = m_order_weights w' ->
    m_transition_matrices w = m_transition_matrices w' -> m_XSt w = m_XSt w' -> m_SSt w = m_SSt w' ->
    mtd_weights_gradient c k w = mtd_weights_gradient c k w'.
  Proof using.
    intros E1 E2 E3 E4 E5 E6 E7. unfold mtd_weights_gradient.
    rewrite (mwpgrad_fields c k w w' E1 E2 E3 E4 E5), E1, E2, E6, E7. reflexivity.
  Qed.
  Lemma mograd_fields (c : mtd_cfg T) k (w w' : mws T) :
    m_X w = m_X w' -> m_Gamma w = m_Gamma w' -> m_Z w = m_Z w' -> m_transition_matrices w = m_transition_matrices w' ->
    mtd_order_gradient c k w = mtd_order_gradient c k w'.
  Proof using.
    intros E1 E2 E3 E4. unfold mtd_order_gradient, mtd_normalization, mtd_residual. rewrite E1, E2, E3, E4. reflexivity.
  Qed.
  Lemma mtgrad_fields (c : mtd_cfg T) k (w w' : mws T) :
    m_X w = m_X w' -> m_Gamma w = m_Gamma w' -> m_Z w = m_Z w' -> m_order_weights w = m_order_weights w' ->
    mtd_transition_gradient c k w = mtd_transition_gradient c k w'.
  Proof using.
    intros E1 E2 E3 E4. unfold mtd_transition_gradient, mtd_normalization, mtd_residual. rewrite E1, E2, E3, E4. reflexivity.
  Qed.

  Lemma run_mcost (c : mtd_cfg T) k e s : run_e (pm_cost c k) e s = (Ok (mtd_evaluate_cost c k (m_ws (m_rd e) s)), (e, s)).
  Proof using. reflexivity. Qed.
  Lemma run_predicted (c : mtd_cfg T) e s : exists e', run_e (pm_predicted c) e s = (Ok tt, (e', s)) /\
    e' xZ = AM (predicted_weights c (av (e xow)) (a3 (e xT)) (am (e xGamma))) /\ (forall x, x <> xZ -> e' x = e x).
  Proof using.
    eexists. split; [reflexivity|]. split; [reflexivity|]. intros x Hx. rewrite !upd_other by exact Hx. reflexivity.
  Qed.
  Lemma run_mdgrad (c : mtd_cfg T) k e s : exists e', run_e (pm_dictionary_gradient c k) e s = (Ok tt, (e', s)) /\
    e' xgrad_S = AM (mtd_dictionary_gradient c k (m_ws (m_rd e) s)) /\ (forall x, x <> xgrad_S -> e' x = e x).
  Proof using.
    eexists. split; [reflexivity|]. split; [reflexivity|]. intros x Hx. rewrite !upd_other by exact Hx. reflexivity.
  Qed.
  Lemma run_mwgrad (c : mtd_cfg T) k e s : exists e', run_e (pm_weights_gradient c k) e s = (Ok tt, (e', s)) /\
    e' xgrad_Gamma = AM (mtd_weights_gradient c k (m_ws (m_rd e) s)) /\ (forall x, x <> xgrad_Gamma -> e' x = e x).
  Proof using.
    eexists. split; [reflexivity|]. split; [reflexivity|]. intros x Hx. rewrite !upd_other by exact Hx. reflexivity.
  Qed.
  Lemma run_mpgrad (c : mtd_cfg T) k e s : exists e', run_e (pm_parameters_gradient c k) e s = (Ok tt, (e', s)) /\
    e' xgrad_ow = AV (mtd_order_gradient c k (m_ws (m_rd e) s)) /\
    e' xgrad_T = A3 (mtd_transition_gradient c k (m_ws (m_rd e) s)) /\
    (forall x, x <> xgrad_ow -> x <> xgrad_T -> e' x = e x).
  Proof using.
    eexists. split; [reflexivity|]. split; [reflexivity|]. split; [reflexivity|].
    intros x Hx Hy. rewrite !upd_other by assumption. reflexivity.
  Qed.

  Ltac simp_in H := cbn [m_rd q_X q_Gamma q_S q_ow q_T q_GtG q_GtX q_XSt q_SSt q_Z
        q_Gamma_old q_grad_Gamma q_delta_grad_Gamma q_incr_Gamma q_S_old q_grad_S q_delta_grad_S q_incr_S
        q_ow_old q_grad_ow q_delta_grad_ow q_incr_ow q_T_old q_grad_T q_delta_grad_T q_incr_T
        z_alpha_Gamma z_alpha_S z_alpha_parameters z_f_S_mem z_f_Gamma_mem z_f_parameters_mem am av a3] in H.
  Ltac simp := cbn [m_rd q_X q_Gamma q_S q_ow q_T q_GtG q_GtX q_XSt q_SSt q_Z
        q_Gamma_old q_grad_Gamma q_delta_grad_Gamma q_incr_Gamma q_S_old q_grad_S q_delta_grad_S q_incr_S
        q_ow_old q_grad_ow q_delta_grad_ow q_incr_ow q_T_old q_grad_T q_delta_grad_T q_incr_T
        z_alpha_Gamma z_alpha_S z_alpha_parameters z_f_S_mem z_f_Gamma_mem z_f_parameters_mem am av a3].
  Ltac flds := cbn [m_ws m_X m_Gamma m_S m_order_weights m_transition_matrices m_GtG m_GtX m_XSt m_SSt m_Z
        m_alpha_Gamma m_alpha_S m_alpha_parameters m_f_S_mem m_f_Gamma_mem m_f_parameters_mem
        mtd_set_S mtd_set_Gamma mtd_set_parameters]; simp.
  Ltac step e H O := let Hrun := fresh "Hrun" in
    match goal with
    | |- P_heap_loops.computes _ _ (pbind (mnewm ?x ?f) _) ?E ?S _ _ =>
        destruct (run_new mname_eq m_rd x (fun r s => AM (f r s)) E S) as (e & Hrun & H & O)
    | |- P_heap_loops.computes _ _ (pbind (minplacem ?x ?f) _) ?E ?S _ _ =>
        destruct (run_inplace mname_eq m_rd x (fun r s => AM (f r s)) E S) as (e & Hrun & H & O)
    | |- P_heap_loops.computes _ _ (pbind (mnewv ?x ?f) _) ?E ?S _ _ =>
        destruct (run_new mname_eq m_rd x (fun r s => AV (f r s)) E S) as (e & Hrun & H & O)
    | |- P_heap_loops.computes _ _ (pbind (minplacev ?x ?f) _) ?E ?S _ _ =>
        destruct (run_inplace mname_eq m_rd x (fun r s => AV (f r s)) E S) as (e & Hrun & H & O)
    | |- P_heap_loops.computes _ _ (pbind (mnew3 ?x ?f) _) ?E ?S _ _ =>
        destruct (run_new mname_eq m_rd x (fun r s => A3 (f r s)) E S) as (e & Hrun & H & O)
    | |- P_heap_loops.computes _ _ (pbind (minplace3 ?x ?f) _) ?E ?S _ _ =>
        destruct (run_inplace mname_eq m_rd x (fun r s => A3 (f r s)) E S) as (e & Hrun & H & O)
    end; eapply computes_step; [exact Hrun|]; clear Hrun; simp_in H.

  Lemma sim_mtd_update_dictionary fuel (c : mtd_cfg T) k e s w : m_rel e s w ->
    computes (pm_update_dictionary fuel c k) e s (mtd_update_dictionary fuel c k w) (fun _ e' s' w' => m_rel e' s' w').
  Proof using.
    intros <-. unfold pm_update_dictionary.
    step x1 V1 O1. step x2 V2 O2. step x3 V3 O3.
    destruct (run_mdgrad c k x3 s) as (x4 & E4 & V4 & O4). eapply computes_step; [exact E4|]. clear E4.
    step x5 V5 O5. step e1 V6 O6.
    unfold mtd_update_dictionary. cbv zeta.
    set (w1 := mk_mws _ _ _ _ _ _ _ _ _ _ _ _ _ _ _ _).
    assert (Ew3 : m_ws (m_rd x3) s = w1).
    { unfold w1, m_ws, m_rd. simp. rewrite V3. rewrite !O3 by discriminate. rewrite V2. rewrite !O2 by discriminate.
      rewrite V1. rewrite !O1 by discriminate. reflexivity. }
    assert (J4 : forall x, x <> xincr_S -> e1 x = x4 x)
      by (intros; rewrite O6, O5 by assumption; reflexivity).
    assert (Ew1 : m_ws (m_rd e1) s = w1).
    { rewrite <- Ew3. unfold m_ws, m_rd. simp. rewrite !J4, !O4 by discriminate. reflexivity. }
    assert (Eg : mtd_dictionary_gradient c k w1 = am (e1 xgrad_S)).
    { rewrite J4 by discriminate. rewrite V4, Ew3. reflexivity. }
    rewrite Eg.
    assert (Ei : msub (msub (m_S w1) (mscale (m_alpha_S w1) (am (e1 xgrad_S)))) (m_S w1) = am (e1 xincr_S)).
    { rewrite V6, V5. rewrite <- Ew1. flds. rewrite !O5 by discriminate. rewrite !J4 by discriminate. reflexivity. }
    rewrite Ei. clearbody w1. clear Eg Ei Ew3 J4 V1 V2 V3 V4 V5 V6 O1 O2 O3 O4 O5 O6 x1 x2 x3 x4 x5 e. subst w1.
    eapply computes_bind.
    - unfold pm_dictionary_line_search, mtd_dictionary_line_search.
      eapply (computes_line_search mname_eq m_rd
        (fun m e' s' w' => s' = mk_msc (z_alpha_Gamma s) (z_alpha_S s) (z_alpha_parameters s) m (z_f_Gamma_mem s) (z_f_parameters_mem s) /\
           w' = mtd_set_S (am (e' xS)) (m_ws (m_rd e1) s) /\ am (e' xSSt) = mmul (am (e' xS)) (mtr (am (e' xS))) /\
           am (e' xS_old) = am (e1 xS) /\
           (forall x, x <> xS -> x <> xSSt -> x <> xS_old -> e' x = e1 x))).
      + intros m e' s' w' (-> & -> & ESS & EO & EX). rewrite run_mcost.
        f_equal. f_equal. apply mcost_fields; flds; auto; rewrite EX by discriminate; reflexivity.
      + intros m step e' s' w' (-> & -> & ESS & EO & EX). eexists. eexists. split; [reflexivity|].
        split; [reflexivity|]. split; [|split; [reflexivity|split; [exact EO|]]].
        * cbn. rewrite EO, (EX xincr_S) by discriminate. reflexivity.
        * intros x H1 H2 H3. rewrite !upd_other by assumption. auto.
      + reflexivity.
      + reflexivity.
      + reflexivity.
      + reflexivity.
      + intros m. eexists. eexists. split; [reflexivity|].
        split; [reflexivity|]. split; [reflexivity|]. split; [reflexivity|]. split; [reflexivity|].
        intros x H1 H2 H3. rewrite !upd_other by assumption. reflexivity.
    - intros step e2 s2 [[w2 step'] m] (Est & -> & Ew2 & ESS & EO & EX). cbn [fst snd] in *. subst w2 step'.
      step y1 U1 P1.
      match goal with |- computes _ ?E ?S0 _ _ => destruct (run_mdgrad c k E S0) as (y2 & E3 & U2 & P2) end.
      eapply computes_step; [exact E3|]. clear E3. step y3 U3 P3.
      exists tt. eexists. eexists. split; [reflexivity|]. unfold m_rel.
      assert (F : forall x, x <> xS -> x <> xSSt -> x <> xS_old -> x <> xdelta_grad_S -> x <> xgrad_S -> y3 x = e1 x)
        by (intros; rewrite P3, P2, P1 by assumption; auto).
      assert (FS : y3 xS = e2 xS) by (rewrite P3, P2, P1 by discriminate; reflexivity).
      assert (FSS : y3 xSSt = e2 xSSt) by (rewrite P3, P2, P1 by discriminate; reflexivity).
      assert (FD : am (y3 xdelta_grad_S) = msub (mtd_dictionary_gradient c k (mtd_set_S (am (e2 xS)) (m_ws (m_rd e1) s)))
                                                (am (e1 xgrad_S))).
      { rewrite U3. simp. rewrite (P2 xdelta_grad_S) by discriminate. rewrite U1, U2. simp. rewrite (EX xgrad_S) by discriminate.
        f_equal. apply mdgrad_fields; flds; rewrite ?P1 by discriminate; auto; rewrite EX by discriminate; reflexivity. }
      simp. rewrite FD, (F xincr_S) by discriminate.
      set (A := get_next_spg_alpha _ _ _ _).
      unfold mtd_set_S_mem, mtd_set_S, m_ws, m_rd. cbn. rewrite FS, FSS, ESS, !F by discriminate. reflexivity.
  Qed.

  Lemma sim_mtd_update_weights fuel (c : mtd_cfg T) k e s w : m_rel e s w ->
    computes (pm_update_weights fuel c k) e s (mtd_update_weights fuel c k w) (fun _ e' s' w' => m_rel e' s' w').
  Proof using.
    intros <-. unfold pm_update_weights.
    step x1 V1 O1. step x2 V2 O2.
    destruct (run_mwgrad c k x2 s) as (x4 & E4 & V4 & O4). eapply computes_step; [exact E4|]. clear E4.
    step x5 V5 O5. step x6 V6 O6. step e1 V7 O7.
    unfold mtd_update_weights. cbv zeta.
    set (w1 := mk_mws _ _ _ _ _ _ _ _ _ _ _ _ _ _ _ _).
    assert (Ew3 : m_ws (m_rd x2) s = w1).
    { unfold w1, m_ws, m_rd. simp. rewrite V2. rewrite !O2 by discriminate.
      rewrite V1. rewrite !O1 by discriminate. reflexivity. }
    assert (J4 : forall x, x <> xincr_Gamma -> e1 x = x4 x)
      by (intros; rewrite O7, O6, O5 by assumption; reflexivity).
    assert (Ew1 : m_ws (m_rd e1) s = w1).
    { rewrite <- Ew3. unfold m_ws, m_rd. simp. rewrite !J4, !O4 by discriminate. reflexivity. }
    assert (Eg : mtd_weights_gradient c k w1 = am (e1 xgrad_Gamma)).
    { rewrite J4 by discriminate. rewrite V4, Ew3. reflexivity. }
    rewrite Eg.
    assert (Ei : msub (simplex_project_rows (msub (m_Gamma w1) (mscale (m_alpha_Gamma w1) (am (e1 xgrad_Gamma))))) (m_Gamma w1)
                 = am (e1 xincr_Gamma)).
    { rewrite V7, V6, V5. rewrite <- Ew1. flds. rewrite !O6, !O5 by discriminate. rewrite !J4 by discriminate. reflexivity. }
    rewrite Ei. clearbody w1. clear Eg Ei Ew3 J4 V1 V2 V4 V5 V6 V7 O1 O2 O4 O5 O6 O7 x1 x2 x4 x5 x6 e. subst w1.
    eapply computes_bind.
    - unfold pm_weights_line_search, mtd_weights_line_search.
      eapply (computes_line_search mname_eq m_rd
        (fun m e' s' w' => s' = mk_msc (z_alpha_Gamma s) (z_alpha_S s) (z_alpha_parameters s) (z_f_S_mem s) m (z_f_parameters_mem s) /\
           w' = mtd_set_Gamma c (am (e' xGamma)) (m_ws (m_rd e1) s) /\
           am (e' xZ) = predicted_weights c (av (e1 xow)) (a3 (e1 xT)) (am (e' xGamma)) /\
           am (e' xGamma_old) = am (e1 xGamma) /\
           (forall x, x <> xGamma -> x <> xZ -> x <> xGamma_old -> e' x = e1 x))).
      + intros m e' s' w' (-> & -> & EZ & EO & EX). rewrite run_mcost.
        f_equal. f_equal. apply mcost_fields; flds; auto; rewrite EX by discriminate; reflexivity.
      + intros m step e' s' w' (-> & -> & EZ & EO & EX). eexists. eexists. split; [reflexivity|].
        split; [reflexivity|]. split; [|split; [|split; [exact EO|]]].
        * cbn. rewrite EO, (EX xincr_Gamma) by discriminate. reflexivity.
        * cbn. rewrite (EX xow), (EX xT) by discriminate. reflexivity.
        * intros x H1 H2 H3. rewrite !upd_other by assumption. auto.
      + reflexivity.
      + reflexivity.
      + reflexivity.
      + reflexivity.
      + intros m. eexists. eexists. split; [reflexivity|].
        split; [reflexivity|]. split; [reflexivity|]. split; [reflexivity|]. split; [reflexivity|].
        intros x H1 H2 H3. rewrite !upd_other by assumption. reflexivity.
    - intros step e2 s2 [[w2 step'] m] (Est & -> & Ew2 & EZ & EO & EX). cbn [fst snd] in *. subst w2 step'.
      step y1 U1 P1.
      match goal with |- computes _ ?E ?S0 _ _ => destruct (run_mwgrad c k E S0) as (y2 & E3 & U2 & P2) end.
      eapply computes_step; [exact E3|]. clear E3. step y3 U3 P3.
      exists tt. eexists. eexists. split; [reflexivity|]. unfold m_rel.
      assert (F : forall x, x <> xGamma -> x <> xZ -> x <> xGamma_old -> x <> xdelta_grad_Gamma -> x <> xgrad_Gamma -> y3 x = e1 x)
        by (intros; rewrite P3, P2, P1 by assumption; auto).
      assert (FS : y3 xGamma = e2 xGamma) by (rewrite P3, P2, P1 by discriminate; reflexivity).
      assert (FZ : y3 xZ = e2 xZ) by (rewrite P3, P2, P1 by discriminate; reflexivity).
      assert (FD : am (y3 xdelta_grad_Gamma)
                   = msub (mtd_weights_gradient c k (mtd_set_Gamma c (am (e2 xGamma)) (m_ws (m_rd e1) s))) (am (e1 xgrad_Gamma))).
      { rewrite U3. simp. rewrite (P2 xdelta_grad_Gamma) by discriminate. rewrite U1, U2. simp. rewrite (EX xgrad_Gamma) by discriminate.
        f_equal. apply mwgrad_fields; flds; rewrite ?P1 by discriminate; auto; rewrite EX by discriminate; reflexivity. }
      simp. rewrite FD, (F xincr_Gamma) by discriminate.
      set (A := get_next_spg_alpha _ _ _ _).
      unfold mtd_set_Gamma_mem, mtd_set_Gamma, m_ws, m_rd. cbn. rewrite FS, FZ, EZ, !F by discriminate. reflexivity.
  Qed.

  Lemma sim_mtd_update_parameters fuel (c : mtd_cfg T) k e s w : m_rel e s w ->
    computes (pm_update_parameters fuel c k) e s (mtd_update_parameters fuel c k w) (fun _ e' s' w' => m_rel e' s' w').
  Proof using.
    intros <-. unfold pm_update_parameters.
    destruct (run_predicted c e s) as (x1 & E1 & V1 & O1). eapply computes_step; [exact E1|]. clear E1.
    destruct (run_mpgrad c k x1 s) as (x2 & E2 & V2 & V2' & O2). eapply computes_step; [exact E2|]. clear E2.
    step x3 V3 O3. step x4 V4 O4. step x5 V5 O5. step x6 V6 O6. step x7 V7 O7. step e1 V8 O8.
    unfold mtd_update_parameters. cbv zeta.
    set (w1 := mtd_set_parameters c _ _ _).
    assert (Ew3 : m_ws (m_rd x1) s = w1).
    { unfold w1, mtd_set_parameters, m_ws, m_rd. cbn. rewrite V1. rewrite !O1 by discriminate. reflexivity. }
    assert (J4 : forall x, x <> xincr_ow -> x <> xincr_T -> e1 x = x2 x)
      by (intros; rewrite O8, O7, O6, O5, O4, O3 by assumption; reflexivity).
    assert (Ew1 : m_ws (m_rd e1) s = w1).
    { rewrite <- Ew3. unfold m_ws, m_rd. simp. rewrite !J4, !O2 by discriminate. reflexivity. }
    assert (Eg : mtd_order_gradient c k w1 = av (e1 xgrad_ow)).
    { rewrite J4 by discriminate. rewrite V2, Ew3. reflexivity. }
    assert (Eh : mtd_transition_gradient c k w1 = a3 (e1 xgrad_T)).
    { rewrite J4 by discriminate. rewrite V2', Ew3. reflexivity. }
    rewrite Eg, Eh.
    assert (Ei : vsub (simplex_project_vector (vsub (m_order_weights w1) (vscale (m_alpha_parameters w1) (av (e1 xgrad_ow)))))
                      (m_order_weights w1) = av (e1 xincr_ow)).
    { rewrite (O8 xincr_ow) by discriminate. rewrite V7. simp. rewrite (O6 xincr_ow) by discriminate. rewrite V5. simp.
      rewrite (O4 xincr_ow) by discriminate. rewrite V3. simp. rewrite <- Ew1. flds.
      rewrite !O6, !O5, !O4, !O3 by discriminate. rewrite !J4 by discriminate. reflexivity. }
    assert (Ej : tsub (map simplex_project_columns (tsub (m_transition_matrices w1) (tscale (m_alpha_parameters w1) (a3 (e1 xgrad_T)))))
                      (m_transition_matrices w1) = a3 (e1 xincr_T)).
    { rewrite V8. simp. rewrite !O7 by discriminate. rewrite V6. simp. rewrite (O5 xincr_T) by discriminate. rewrite V4. simp.
      rewrite <- Ew1. flds. rewrite !O6, !O5, !O4, !O3 by discriminate. rewrite !J4 by discriminate. reflexivity. }
    rewrite Ei, Ej. clearbody w1.
    clear Eg Eh Ei Ej Ew3 J4 V1 V2 V2' V3 V4 V5 V6 V7 V8 O1 O2 O3 O4 O5 O6 O7 O8 x1 x2 x3 x4 x5 x6 x7 e. subst w1.
    eapply computes_bind.
    - unfold pm_parameters_line_search, mtd_parameters_line_search.
      eapply (computes_line_search mname_eq m_rd
        (fun m e' s' w' => s' = mk_msc (z_alpha_Gamma s) (z_alpha_S s) (z_alpha_parameters s) (z_f_S_mem s) (z_f_Gamma_mem s) m /\
           w' = mtd_set_parameters c (av (e' xow)) (a3 (e' xT)) (m_ws (m_rd e1) s) /\
           am (e' xZ) = predicted_weights c (av (e' xow)) (a3 (e' xT)) (am (e1 xGamma)) /\
           av (e' xow_old) = av (e1 xow) /\ a3 (e' xT_old) = a3 (e1 xT) /\
           (forall x, x <> xow -> x <> xT -> x <> xZ -> x <> xow_old -> x <> xT_old -> e' x = e1 x))).
      + intros m e' s' w' (-> & -> & EZ & EO & EP & EX). rewrite run_mcost.
        f_equal. f_equal. apply mcost_fields; flds; auto; rewrite EX by discriminate; reflexivity.
      + intros m step e' s' w' (-> & -> & EZ & EO & EP & EX). eexists. eexists. split; [reflexivity|].
        split; [reflexivity|]. split; [|split; [|split; [exact EO|split; [exact EP|]]]].
        * cbn. rewrite EO, EP, (EX xincr_ow), (EX xincr_T) by discriminate. reflexivity.
        * cbn. rewrite (EX xGamma) by discriminate. reflexivity.
        * intros x H1 H2 H3 H4 H5. rewrite !upd_other by assumption. auto.
      + reflexivity.
      + reflexivity.
      + reflexivity.
      + reflexivity.
      + intros m. eexists. eexists. split; [reflexivity|].
        split; [reflexivity|]. split; [reflexivity|]. split; [reflexivity|]. split; [reflexivity|]. split; [reflexivity|].
        intros x H1 H2 H3 H4 H5. rewrite !upd_other by assumption. reflexivity.
    - intros step e2 s2 [[w2 step'] m] (Est & -> & Ew2 & EZ & EO & EP & EX). cbn [fst snd] in *. subst w2 step'.
      step y0 U0 P0. step y1 U1 P1.
      match goal with |- computes _ ?E ?S0 _ _ => destruct (run_mpgrad c k E S0) as (y2 & E3 & U2 & U2' & P2) end.
      eapply computes_step; [exact E3|]. clear E3. step y3 U3 P3. step y4 U4 P4.
      exists tt. eexists. eexists. split; [reflexivity|]. unfold m_rel.
      assert (F : forall x, x <> xow -> x <> xT -> x <> xZ -> x <> xow_old -> x <> xT_old -> x <> xdelta_grad_ow ->
                 x <> xdelta_grad_T -> x <> xgrad_ow -> x <> xgrad_T -> y4 x = e1 x)
        by (intros; rewrite P4, P3, P2, P1, P0 by assumption; auto).
      assert (F1 : y4 xow = e2 xow) by (rewrite P4, P3, P2, P1, P0 by discriminate; reflexivity).
      assert (F2 : y4 xT = e2 xT) by (rewrite P4, P3, P2, P1, P0 by discriminate; reflexivity).
      assert (FZ : y4 xZ = e2 xZ) by (rewrite P4, P3, P2, P1, P0 by discriminate; reflexivity).
      set (W := mtd_set_parameters c (av (e2 xow)) (a3 (e2 xT)) (m_ws (m_rd e1) s)).
      assert (Q : forall x, x <> xdelta_grad_ow -> x <> xdelta_grad_T -> y1 x = e2 x)
        by (intros; rewrite P1, P0 by assumption; reflexivity).
      assert (FD : av (y4 xdelta_grad_ow) = vsub (mtd_order_gradient c k W) (av (e1 xgrad_ow))).
      { rewrite P4 by discriminate. rewrite U3. simp. rewrite (P2 xdelta_grad_ow), (P1 xdelta_grad_ow) by discriminate.
        rewrite U0, U2. simp. rewrite EX by discriminate.
        f_equal. apply mograd_fields; unfold W; flds; rewrite ?Q by discriminate; auto; rewrite EX by discriminate; reflexivity. }
      assert (FE : a3 (y4 xdelta_grad_T) = tsub (mtd_transition_gradient c k W) (a3 (e1 xgrad_T))).
      { rewrite U4. simp. rewrite !P3 by discriminate. rewrite (P2 xdelta_grad_T) by discriminate.
        rewrite U1, U2'. simp. rewrite P0 by discriminate. rewrite EX by discriminate.
        f_equal. apply mtgrad_fields; unfold W; flds; rewrite ?Q by discriminate; auto; rewrite EX by discriminate; reflexivity. }
      simp. rewrite FD, FE, (F xincr_ow), (F xincr_T) by discriminate.
      set (A := get_next_spg_alpha _ _ _ _). unfold W.
      unfold mtd_set_parameters_mem, mtd_set_parameters, m_ws, m_rd. cbn. rewrite F1, F2, FZ, EZ, !F by discriminate. reflexivity.
  Qed.

  Lemma sim_mtd_iterate fuel (c : mtd_cfg T) k ud uw up tol mx e s w : m_rel e s w ->
    computes (pm_iterate fuel c k ud uw up tol mx) e s
      (bind (check_max_lag c) (fun _ => mtd_iterate fuel c k ud uw up tol mx w))
      (fun a e' s' b => let '(c1, n1, l1) := a in
         let '(w2, c2, n2, l2) := b in c1 = c2 /\ n1 = n2 /\ l1 = l2 /\ m_rel e' s' w2).
  Proof using.
    intros HR. unfold pm_iterate. destruct (check_max_lag c) as [u|x]; cbn [bind]; [|reflexivity].
    unfold mtd_iterate, iterate.
    assert (Hcost : forall e s w, m_rel e s w -> run_e (pm_cost c k) e s = (Ok (mtd_evaluate_cost c k w), (e, s)))
      by (intros ? ? ? <-; reflexivity).
    apply (computes_iterate mname_eq m_rd m_rel (pm_cost c k) (mtd_evaluate_cost c k)); [| |reflexivity].
    - assert (Hc : forall pu u,
        (forall e s w, m_rel e s w -> computes pu e s (u w) (fun _ e' s' w' => m_rel e' s' w')) ->
        update_ok mname_eq m_rd m_rel (pm_cost c k) (mtd_evaluate_cost c k) pu u).
      { intros pu u' Hu e0 s0 w0 HR0. specialize (Hu e0 s0 w0 HR0).
        unfold P_heap_loops.computes in *. rewrite run_e_bind. destruct (u' w0) as [w'|x].
        - destruct Hu as (a & e' & s' & E & HR'). rewrite E. rewrite (Hcost _ _ _ HR'). eauto 7.
        - destruct (run_e pu e0 s0) as [[a|y] [e' s']]; cbn in *; congruence. }
      apply Forall2_app; [destruct ud|apply Forall2_app; [destruct uw|destruct up]]; cbn; constructor; try constructor;
        apply Hc; intros.
      + apply sim_mtd_update_dictionary; assumption.
      + apply sim_mtd_update_weights; assumption.
      + apply sim_mtd_update_parameters; assumption.
    - eexists. eexists. eexists. split; [apply (Hcost _ _ _ HR)|]. split; [reflexivity|exact HR].
  Qed.
End PM.
