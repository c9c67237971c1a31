(** The parameter fit of GPNHConvexCodingCROM on the heap: it touches only the attributes of the
    transition model, and the values are those of M_crom.v. *)
From Coq Require Import List Arith ZArith Bool Lia.
From Verif Require Import Num Mat Py M_simplex M_spg M_iter M_random M_furthest M_gpnh M_mtd M_crom
  Heap M_heap M_heap_gpnh M_heap_crom Spec_heap P_heap P_heap_loops P_heap_only P_heap_gpnh.
Import ListNotations.

Section PC.
  Context {T : Type} {N : Num T}.
  Notation run_e := (run_e cname_eq c_rd).
  Notation computes := (computes cname_eq c_rd).
  Notation upd := (upd cname_eq).

  Lemma c_rd_ext (e e' : cname -> arr T) : (forall x, e x = e' x) -> c_rd e = c_rd e'.
  Proof using. intros H. unfold c_rd. rewrite !H. f_equal. apply g_rd_ext. intros x. apply H. Qed.

  (** ** only the attributes of the transition model *)
  Definition is_P (x : cname) : Prop := match x with CP _ => True | CG _ => False end.
  Ltac on := repeat first
    [ match goal with |- only _ (pc_parameters_line_search _ _ _) => apply only_line_search; intros end
    | match goal with |- only _ (pc_predicted _) => repeat split end
    | match goal with |- only _ (pc_parameters_gradient _ _) => repeat split end
    | match goal with |- only _ (pc_cost _ _) => exact (fun _ _ => I) end
    | match goal with |- only _ (cnewm _ _) => split; exact I end
    | match goal with |- only _ (cinplacem _ _) => split; exact I end
    | match goal with |- only _ (cnewv _ _) => split; exact I end
    | match goal with |- only _ (cinplacev _ _) => split; exact I end
    | match goal with |- only _ (cnew3 _ _) => split; exact I end
    | match goal with |- only _ (cinplace3 _ _) => split; exact I end
    | match goal with |- only _ (setsc _) => exact I end
    | apply only_bind; [|intros] ].
  Lemma only_pc_iterate fuel (c : mtd_cfg T) k tol mx : only is_P (pc_iterate fuel c k tol mx).
  Proof using.
    unfold pc_iterate. destruct (check_max_lag c); [|exact I].
    apply only_iterate; [on|]. constructor; [|constructor]. unfold pc_update_parameters. on.
  Qed.

  (** ** values; [e0] are the values of the GPNH attributes *)
  Definition c_rel (G : mat T) (n : nat) (e : cname -> arr T) (s : csc T) (w : cws T) : Prop :=
    c_ws (c_rd e) s = w /\ c_Gamma (c_rd e) = G /\ c_samples (c_rd e) = n.

  Lemma run_predicted (c : mtd_cfg T) e s : exists e', run_e (pc_predicted c) e s = (Ok tt, (e', s)) /\
    e' (CP yZ) = AM (predicted_weights c (av (e (CP yow))) (a3 (e (CP yT))) (c_Gamma (c_rd e))) /\
    (forall x, x <> CP yZ -> e' x = e x).
  Proof using.
    eexists. split; [reflexivity|]. split; [reflexivity|]. intros x Hx. rewrite !upd_other by exact Hx. reflexivity.
  Qed.
  Lemma run_cpgrad (c : mtd_cfg T) k e s : exists e', run_e (pc_parameters_gradient c k) e s = (Ok tt, (e', s)) /\
    e' (CP ygrad_ow) = AV (crom_order_gradient c k (c_samples (c_rd e)) (c_Gamma (c_rd e)) (c_ws (c_rd e) s)) /\
    e' (CP ygrad_T) = A3 (crom_transition_gradient c k (c_samples (c_rd e)) (c_Gamma (c_rd e)) (c_ws (c_rd e) s)) /\
    (forall x, x <> CP ygrad_ow -> x <> CP ygrad_T -> e' x = e x).
  Proof using.
    eexists. split; [reflexivity|]. split; [reflexivity|]. split; [reflexivity|].
    intros x Hx Hy. rewrite !upd_other by assumption. reflexivity.
  Qed.
  Lemma c_Gamma_ext (e e' : cname -> arr T) : (forall x, e' (CG x) = e (CG x)) -> c_Gamma (c_rd e') = c_Gamma (c_rd e).
  Proof using. intros H. unfold c_Gamma, c_rd, g_rd. cbn. rewrite H. reflexivity. Qed.
  Lemma c_samples_ext (e e' : cname -> arr T) : (forall x, e' (CG x) = e (CG x)) -> c_samples (c_rd e') = c_samples (c_rd e).
  Proof using. intros H. unfold c_samples, c_rd, g_rd. cbn. rewrite H. reflexivity. Qed.

  Lemma cres_fields (c : mtd_cfg T) k n G (w w' : cws T) : cw_Z w = cw_Z w' ->
    crom_fit_residual c k n G w = crom_fit_residual c k n G w'.
  Proof using. intros E. unfold crom_fit_residual, crom_residual. rewrite E. reflexivity. Qed.
  Lemma cograd_fields (c : mtd_cfg T) k n G (w w' : cws T) :
    cw_Z w = cw_Z w' -> cw_transition_matrices w = cw_transition_matrices w' ->
    crom_order_gradient c k n G w = crom_order_gradient c k n G w'.
  Proof using. intros E1 E2. unfold crom_order_gradient, crom_residual. rewrite E1, E2. reflexivity. Qed.
  Lemma ctgrad_fields (c : mtd_cfg T) k n G (w w' : cws T) :
    cw_Z w = cw_Z w' -> cw_order_weights w = cw_order_weights w' ->
    crom_transition_gradient c k n G w = crom_transition_gradient c k n G w'.
  Proof using. intros E1 E2. unfold crom_transition_gradient, crom_residual. rewrite E1, E2. reflexivity. Qed.

  Ltac simp_in H := cbn [c_rd k_g k_ow k_T k_Z k_ow_old k_grad_ow k_delta_grad_ow k_incr_ow
     k_T_old k_grad_T k_delta_grad_T k_incr_T i_alpha i_mem am av a3] in H.
  Ltac simp := cbn [c_rd k_g k_ow k_T k_Z k_ow_old k_grad_ow k_delta_grad_ow k_incr_ow
     k_T_old k_grad_T k_delta_grad_T k_incr_T i_alpha i_mem am av a3].
  Ltac flds := cbn [c_ws cw_order_weights cw_transition_matrices cw_Z cw_alpha cw_mem crom_set_parameters]; simp.
  Ltac step e H O := let Hrun := fresh "Hrun" in
    match goal with
    | |- P_heap_loops.computes _ _ (pbind (cnewm ?x ?f) _) ?E ?S _ _ =>
        destruct (run_new cname_eq c_rd (CP x) (fun r s => AM (f r s)) E S) as (e & Hrun & H & O)
    | |- P_heap_loops.computes _ _ (pbind (cinplacem ?x ?f) _) ?E ?S _ _ =>
        destruct (run_inplace cname_eq c_rd (CP x) (fun r s => AM (f r s)) E S) as (e & Hrun & H & O)
    | |- P_heap_loops.computes _ _ (pbind (cnewv ?x ?f) _) ?E ?S _ _ =>
        destruct (run_new cname_eq c_rd (CP x) (fun r s => AV (f r s)) E S) as (e & Hrun & H & O)
    | |- P_heap_loops.computes _ _ (pbind (cinplacev ?x ?f) _) ?E ?S _ _ =>
        destruct (run_inplace cname_eq c_rd (CP x) (fun r s => AV (f r s)) E S) as (e & Hrun & H & O)
    | |- P_heap_loops.computes _ _ (pbind (cnew3 ?x ?f) _) ?E ?S _ _ =>
        destruct (run_new cname_eq c_rd (CP x) (fun r s => A3 (f r s)) E S) as (e & Hrun & H & O)
    | |- P_heap_loops.computes _ _ (pbind (cinplace3 ?x ?f) _) ?E ?S _ _ =>
        destruct (run_inplace cname_eq c_rd (CP x) (fun r s => A3 (f r s)) E S) as (e & Hrun & H & O)
    end; eapply computes_step; [exact Hrun|]; clear Hrun; simp_in H.

  Lemma sim_crom_update fuel (c : mtd_cfg T) k G n e s w : c_rel G n e s w ->
    computes (pc_update_parameters fuel c k) e s (crom_update_parameters fuel c k n G w)
      (fun _ e' s' w' => c_rel G n e' s' w').
  Proof using.
    intros (<- & <- & <-). unfold pc_update_parameters.
    destruct (run_predicted c e s) as (x1 & E1 & V1 & O1). eapply computes_step; [exact E1|]. clear E1.
    destruct (run_cpgrad c k x1 s) as (x2 & E2 & V2 & V2' & O2). eapply computes_step; [exact E2|]. clear E2.
    step x3 V3 O3. step x4 V4 O4. step x5 V5 O5. step x6 V6 O6. step x7 V7 O7. step e1 V8 O8.
    unfold crom_update_parameters. cbv zeta.
    set (w1 := crom_set_parameters c _ _ _ _).
    assert (J1 : forall x, x1 (CG x) = e (CG x)) by (intros x; apply O1; discriminate).
    pose proof (c_Gamma_ext _ _ J1) as JG. pose proof (c_samples_ext _ _ J1) as JS. rewrite JG, JS in V2, V2'.
    assert (Ew3 : c_ws (c_rd x1) s = w1).
    { unfold w1, crom_set_parameters, c_ws, c_rd. cbn. rewrite V1. rewrite !O1 by discriminate. reflexivity. }
    assert (J4 : forall x, x <> CP yincr_ow -> x <> CP yincr_T -> e1 x = x2 x)
      by (intros; rewrite O8, O7, O6, O5, O4, O3 by assumption; reflexivity).
    assert (Ew1 : c_ws (c_rd e1) s = w1).
    { rewrite <- Ew3. unfold c_ws, c_rd. simp. rewrite !J4, !O2 by discriminate. reflexivity. }
    assert (J5 : forall x, e1 (CG x) = e (CG x)) by (intros x; rewrite J4, O2 by discriminate; apply J1).
    rewrite <- (c_Gamma_ext _ _ J5), <- (c_samples_ext _ _ J5) in *.
    assert (Eg : crom_order_gradient c k (c_samples (c_rd e1)) (c_Gamma (c_rd e1)) w1 = av (e1 (CP ygrad_ow))).
    { rewrite J4 by discriminate. rewrite V2, Ew3. reflexivity. }
    assert (Eh : crom_transition_gradient c k (c_samples (c_rd e1)) (c_Gamma (c_rd e1)) w1 = a3 (e1 (CP ygrad_T))).
    { rewrite J4 by discriminate. rewrite V2', Ew3. reflexivity. }
    rewrite Eg, Eh.
    assert (Ei : vsub (simplex_project_vector (vsub (cw_order_weights w1) (vscale (cw_alpha w1) (av (e1 (CP ygrad_ow))))))
                      (cw_order_weights w1) = av (e1 (CP yincr_ow))).
    { rewrite (O8 (CP yincr_ow)) by discriminate. rewrite V7. simp. rewrite (O6 (CP yincr_ow)) by discriminate. rewrite V5. simp.
      rewrite (O4 (CP yincr_ow)) by discriminate. rewrite V3. simp. rewrite <- Ew1. flds.
      rewrite !O6, !O5, !O4, !O3 by discriminate. rewrite !J4 by discriminate. reflexivity. }
    assert (Ej : tsub (map simplex_project_columns (tsub (cw_transition_matrices w1) (tscale (cw_alpha w1) (a3 (e1 (CP ygrad_T))))))
                      (cw_transition_matrices w1) = a3 (e1 (CP yincr_T))).
    { rewrite V8. simp. rewrite !O7 by discriminate. rewrite V6. simp. rewrite (O5 (CP yincr_T)) by discriminate. rewrite V4. simp.
      rewrite <- Ew1. flds. rewrite !O6, !O5, !O4, !O3 by discriminate. rewrite !J4 by discriminate. reflexivity. }
    rewrite Ei, Ej. clearbody w1.
    clear Eg Eh Ei Ej Ew3 J1 J4 J5 JG JS V1 V2 V2' V3 V4 V5 V6 V7 V8 O1 O2 O3 O4 O5 O6 O7 O8 x1 x2 x3 x4 x5 x6 x7 e. subst w1.
    set (G := c_Gamma (c_rd e1)). set (n := c_samples (c_rd e1)).
    eapply computes_bind.
    - unfold pc_parameters_line_search, crom_line_search.
      eapply (computes_line_search cname_eq c_rd
        (fun m e' s' w' => s' = mk_csc (i_alpha s) m /\
           w' = crom_set_parameters c G (av (e' (CP yow))) (a3 (e' (CP yT))) (c_ws (c_rd e1) s) /\
           am (e' (CP yZ)) = predicted_weights c (av (e' (CP yow))) (a3 (e' (CP yT))) G /\
           av (e' (CP yow_old)) = av (e1 (CP yow)) /\ a3 (e' (CP yT_old)) = a3 (e1 (CP yT)) /\
           (forall x, x <> CP yow -> x <> CP yT -> x <> CP yZ -> x <> CP yow_old -> x <> CP yT_old -> e' x = e1 x))).
      + intros m e' s' w' (-> & -> & EZ & EO & EP & EX).
        assert (J : forall x, e' (CG x) = e1 (CG x)) by (intros x; apply EX; discriminate).
        cbn [pc_cost look Heap.run_e]. rewrite (c_Gamma_ext _ _ J), (c_samples_ext _ _ J).
        f_equal. f_equal. apply cres_fields. exact EZ.
      + intros m step e' s' w' (-> & -> & EZ & EO & EP & EX).
        assert (J : forall x, e' (CG x) = e1 (CG x)) by (intros x; apply EX; discriminate).
        eexists. eexists. split; [reflexivity|].
        split; [reflexivity|]. split; [|split; [|split; [exact EO|split; [exact EP|]]]].
        * cbn. rewrite EO, EP, (EX (CP yincr_ow)), (EX (CP yincr_T)) by discriminate. reflexivity.
        * unfold G. rewrite <- (c_Gamma_ext _ _ J). reflexivity.
        * intros x H1 H2 H3 H4 H5. rewrite !upd_other by assumption. auto.
      + reflexivity.
      + reflexivity.
      + reflexivity.
      + reflexivity.
      + intros m. eexists. eexists. split; [reflexivity|].
        split; [reflexivity|]. split; [reflexivity|]. split; [reflexivity|]. split; [reflexivity|]. split; [reflexivity|].
        intros x H1 H2 H3 H4 H5. rewrite !upd_other by assumption. reflexivity.
    - intros step e2 s2 [[w2 step'] m] (Est & -> & Ew2 & EZ & EO & EP & EX). cbn [fst snd] in *. subst w2 step'.
      step y0 U0 P0. step y1 U1 P1.
      match goal with |- computes _ ?E ?S0 _ _ => destruct (run_cpgrad c k E S0) as (y2 & E3 & U2 & U2' & P2) end.
      eapply computes_step; [exact E3|]. clear E3. step y3 U3 P3. step y4 U4 P4.
      assert (F : forall x, x <> CP yow -> x <> CP yT -> x <> CP yZ -> x <> CP yow_old -> x <> CP yT_old -> x <> CP ydelta_grad_ow ->
                 x <> CP ydelta_grad_T -> x <> CP ygrad_ow -> x <> CP ygrad_T -> y4 x = e1 x)
        by (intros; rewrite P4, P3, P2, P1, P0 by assumption; auto).
      assert (F1 : y4 (CP yow) = e2 (CP yow)) by (rewrite P4, P3, P2, P1, P0 by discriminate; reflexivity).
      assert (F2 : y4 (CP yT) = e2 (CP yT)) by (rewrite P4, P3, P2, P1, P0 by discriminate; reflexivity).
      assert (FZ : y4 (CP yZ) = e2 (CP yZ)) by (rewrite P4, P3, P2, P1, P0 by discriminate; reflexivity).
      set (W := crom_set_parameters c G (av (e2 (CP yow))) (a3 (e2 (CP yT))) (c_ws (c_rd e1) s)).
      assert (Q : forall x, x <> CP ydelta_grad_ow -> x <> CP ydelta_grad_T -> y1 x = e2 x)
        by (intros; rewrite P1, P0 by assumption; reflexivity).
      assert (J : forall x, y1 (CG x) = e1 (CG x)) by (intros x; rewrite Q by discriminate; apply EX; discriminate).
      rewrite (c_Gamma_ext _ _ J), (c_samples_ext _ _ J) in U2, U2'. fold G n in U2, U2'.
      assert (FD : av (y4 (CP ydelta_grad_ow)) = vsub (crom_order_gradient c k n G W) (av (e1 (CP ygrad_ow)))).
      { rewrite P4 by discriminate. rewrite U3. simp. rewrite (P2 (CP ydelta_grad_ow)), (P1 (CP ydelta_grad_ow)) by discriminate.
        rewrite U0, U2. simp. rewrite EX by discriminate.
        f_equal. apply cograd_fields; unfold W; flds; rewrite ?Q by discriminate; auto. }
      assert (FE : a3 (y4 (CP ydelta_grad_T)) = tsub (crom_transition_gradient c k n G W) (a3 (e1 (CP ygrad_T)))).
      { rewrite U4. simp. rewrite !P3 by discriminate. rewrite (P2 (CP ydelta_grad_T)) by discriminate.
        rewrite U1, U2'. simp. rewrite P0 by discriminate. rewrite EX by discriminate.
        f_equal. apply ctgrad_fields; unfold W; flds; rewrite ?Q by discriminate; auto. }
      exists tt. eexists. eexists. split; [reflexivity|]. split; [|split].
      + simp. rewrite FD, FE, (F (CP yincr_ow)), (F (CP yincr_T)) by discriminate.
        set (A := get_next_spg_alpha _ _ _ _). unfold W.
        unfold crom_set_parameters, c_ws, c_rd. cbn. rewrite F1, F2, FZ, EZ. reflexivity.
      + apply c_Gamma_ext. intros x. apply F; discriminate.
      + apply c_samples_ext. intros x. apply F; discriminate.
  Qed.

  Lemma sim_crom_iterate fuel (c : mtd_cfg T) k G n tol mx e s w : c_rel G n e s w ->
    computes (pc_iterate fuel c k tol mx) e s
      (bind (check_max_lag c) (fun _ => iterate (crom_fit_residual c k n G) (cost_increased (mc_monotone c))
                [crom_update_parameters fuel c k n G] tol mx w))
      (fun a e' s' b => let '(c1, n1, l1) := a in
         let '(w2, c2, n2, l2) := b in c1 = c2 /\ n1 = n2 /\ l1 = l2 /\ c_rel G n e' s' w2).
  Proof using.
    intros HR. unfold pc_iterate. destruct (check_max_lag c) as [u|x]; cbn [bind]; [|reflexivity].
    unfold iterate.
    assert (Hcost : forall e s w, c_rel G n e s w -> run_e (pc_cost c k) e s = (Ok (crom_fit_residual c k n G w), (e, s)))
      by (intros ? ? ? (<- & <- & <-); reflexivity).
    apply (computes_iterate cname_eq c_rd (c_rel G n) (pc_cost c k) (crom_fit_residual c k n G)); [| |reflexivity].
    - constructor; [|constructor]. intros e0 s0 w0 HR0. pose proof (sim_crom_update fuel c k G n e0 s0 w0 HR0) as Hu.
      unfold P_heap_loops.computes in *. rewrite run_e_bind. destruct (crom_update_parameters fuel c k n G w0) as [w'|x].
      + destruct Hu as (a & e' & s' & E & HR'). rewrite E. rewrite (Hcost _ _ _ HR'). eauto 7.
      + destruct (run_e (pc_update_parameters fuel c k) e0 s0) as [[a|y] [e' s']]; cbn in *; congruence.
    - eexists. eexists. eexists. split; [apply (Hcost _ _ _ HR)|]. split; [reflexivity|exact HR].
  Qed.
End PC.
