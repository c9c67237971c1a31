(** GPNHConvexCoding on the heap: nothing older than the call is written, and the values are those
    of M_gpnh.v. *)
From Coq Require Import List Arith ZArith Bool Lia.
From Verif Require Import Num Mat Py M_simplex M_spg M_iter M_random M_furthest M_gpnh
  Heap M_heap M_heap_gpnh Spec_heap P_heap P_heap_loops.
Import ListNotations.

Section PG.
  Context {T : Type} {N : Num T}.
  Notation run_e := (run_e gname_eq g_rd).
  Notation run_h := (run_h gname_eq g_rd).
  Notation computes := (computes gname_eq g_rd).
  Notation upd := (upd gname_eq).

  Lemma g_rd_ext (e e' : gname -> arr T) : (forall x, e x = e' x) -> g_rd e = g_rd e'.
  Proof using. intros H. unfold g_rd. rewrite !H. reflexivity. Qed.

  Lemma noalias_pg_iterate fuel (c : gpnh_cfg T) k ud uw tol mx : noalias (pg_iterate fuel c k ud uw tol mx).
  Proof using.
    apply noalias_iterate; [cbn; auto|]. apply Forall_app. split; apply noalias_enabled.
    - unfold pg_update_dictionary. repeat (apply noalias_bind; [cbn; auto|intros _]).
      apply noalias_bind.
      + apply noalias_line_search; cbn; auto.
      + intros step. cbn. auto.
    - unfold pg_update_weights. repeat (apply noalias_bind; [cbn; auto|intros _]).
      apply noalias_bind.
      + apply noalias_line_search; cbn; auto.
      + intros step. cbn. auto.
  Qed.

  (** values at an update: the state relation *)
  Definition g_rel (e : gname -> arr T) (s : gsc T) (w : gws T) : Prop := g_ws (g_rd e) s = w.

  Lemma cost_fields (c : gpnh_cfg T) k (w w' : gws T) :
    w_X w = w_X w' -> w_Gamma w = w_Gamma w' -> w_S w = w_S w' -> w_SSt w = w_SSt w' ->
    evaluate_cost c k w = evaluate_cost c k w'.
  Proof using.
    intros E1 E2 E3 E4. unfold evaluate_cost, evaluate_loss_function, evaluate_dictionary_penalty.
    rewrite E1, E2, E3, E4. reflexivity.
  Qed.
  Lemma dgrad_fields (c : gpnh_cfg T) k (w w' : gws T) :
    w_X w = w_X w' -> w_S w = w_S w' -> w_GtG w = w_GtG w' -> w_GtX w = w_GtX w' ->
    dictionary_gradient c k w = dictionary_gradient c k w'.
  Proof using.
    intros E1 E2 E3 E4. unfold dictionary_gradient, dictionary_penalty_gradient.
    rewrite E1, E2, E3, E4. reflexivity.
  Qed.
  Lemma wgrad_fields (w w' : gws T) :
    w_X w = w_X w' -> w_Gamma w = w_Gamma w' -> w_XSt w = w_XSt w' -> w_SSt w = w_SSt w' ->
    weights_gradient w = weights_gradient w'.
  Proof using. intros E1 E2 E3 E4. unfold weights_gradient. rewrite E1, E2, E3, E4. reflexivity. Qed.

  Ltac other := intros; rewrite ?upd_other by congruence; auto.
  (** use [EX : forall x, x <> a -> ... -> e' x = e1 x] everywhere *)
  Ltac fields EX := repeat match goal with |- context [?e ?x] =>
      match type of x with gname => is_constructor x; rewrite (EX x) by discriminate end end.

  Lemma run_dgrad (c : gpnh_cfg T) k e s : exists e', run_e (pg_dictionary_gradient c k) e s = (Ok tt, (e', s)) /\
    e' ggrad_S = AM (dictionary_gradient c k (g_ws (g_rd e) s)) /\ (forall x, x <> ggrad_S -> e' x = e x).
  Proof using.
    eexists. split; [reflexivity|]. split; [reflexivity|]. intros x Hx. rewrite !upd_other by exact Hx. reflexivity.
  Qed.
  Lemma run_wgrad (e : gname -> arr T) s : exists e', run_e pg_weights_gradient e s = (Ok tt, (e', s)) /\
    e' ggrad_Gamma = AM (weights_gradient (g_ws (g_rd e) s)) /\ (forall x, x <> ggrad_Gamma -> e' x = e x).
  Proof using.
    eexists. split; [reflexivity|]. split; [reflexivity|]. intros x Hx. rewrite !upd_other by exact Hx. reflexivity.
  Qed.

  Lemma sim_update_dictionary fuel (c : gpnh_cfg T) k e s w : g_rel e s w ->
    computes (pg_update_dictionary fuel c k) e s (update_dictionary fuel c k w)
      (fun _ e' s' w' => g_rel e' s' w').
  Proof using.
    intros <-. unfold pg_update_dictionary.
    do 3 (eapply computes_step; [reflexivity|]).
    eapply computes_step; [reflexivity|].
    do 2 (eapply computes_step; [reflexivity|]).
    unfold update_dictionary. cbv zeta.
    match goal with |- computes _ ?E _ _ _ => set (e1 := E) end.
    set (w1 := mk_gws _ _ _ _ _ _ _ _ _ _ _).
    assert (Ew1 : g_ws (g_rd e1) s = w1) by reflexivity.
    assert (Eg : dictionary_gradient c k w1 = am (e1 ggrad_S)) by reflexivity.
    rewrite Eg.
    assert (Ei : msub (msub (w_S w1) (mscale (w_alpha_S w1) (am (e1 ggrad_S)))) (w_S w1) = am (e1 gincr_S)) by reflexivity.
    rewrite Ei. clearbody e1 w1. clear Eg Ei. subst w1.
    eapply computes_bind.
    - unfold pg_dictionary_line_search, dictionary_line_search.
      eapply (computes_line_search gname_eq g_rd
        (fun m e' s' w' => s' = mk_gsc (s_alpha_Gamma s) (s_alpha_S s) m (s_f_Gamma_mem s) /\
           w' = set_S_SSt (am (e' gS)) (g_ws (g_rd e1) s) /\ am (e' gSSt) = mmul (am (e' gS)) (mtr (am (e' gS))) /\
           am (e' gS_old) = am (e1 gS) /\
           (forall x, x <> gS -> x <> gSSt -> x <> gS_old -> e' x = e1 x))).
      + intros m e' s' w' (-> & -> & ESS & EO & EX). unfold pg_cost, look. cbn [Heap.run_e].
        f_equal. f_equal. apply cost_fields; cbn; auto; rewrite EX by discriminate; reflexivity.
      + intros m step e' s' w' (-> & -> & ESS & EO & EX). eexists. eexists. split; [reflexivity|].
        split; [reflexivity|]. split; [|split; [reflexivity|split; [exact EO|]]].
        * cbn. rewrite EO, (EX gincr_S) by discriminate. reflexivity.
        * intros x H1 H2 H3. rewrite !upd_other by assumption. auto.
      + reflexivity.
      + reflexivity.
      + reflexivity.
      + reflexivity.
      + intros m. eexists. eexists. split; [reflexivity|].
        split; [reflexivity|]. split; [reflexivity|]. split; [reflexivity|]. split; [reflexivity|].
        intros x H1 H2 H3. rewrite !upd_other by assumption. reflexivity.
    - intros step e2 s2 [[w2 step'] m] (Est & -> & Ew2 & ESS & EO & EX). cbn [fst snd] in *. subst w2 step'.
      eapply computes_step; [reflexivity|].
      match goal with |- computes _ ?E ?S0 _ _ => destruct (run_dgrad c k E S0) as (e3 & E3 & G3 & O3) end.
      eapply computes_step; [exact E3|]. clear E3.
      eapply computes_step; [reflexivity|].
      exists tt. eexists. eexists. split; [reflexivity|]. unfold g_rel.
      cbn [g_rd f_X f_Gamma f_S f_GtG f_GtX f_XSt f_SSt f_grad_S f_delta_grad_S f_incr_S f_grad_Gamma
        f_delta_grad_Gamma f_incr_Gamma s_alpha_Gamma s_alpha_S s_f_S_mem s_f_Gamma_mem
        Heap.upd gname_eq gname_rec gname_rect sumbool_rec sumbool_rect].
      assert (F : forall x, x <> gS -> x <> gSSt -> x <> gS_old -> x <> gdelta_grad_S -> x <> ggrad_S -> e3 x = e1 x)
        by (intros; rewrite O3, upd_other by assumption; auto).
      assert (FS : e3 gS = e2 gS) by (rewrite O3 by discriminate; reflexivity).
      assert (FSS : e3 gSSt = e2 gSSt) by (rewrite O3 by discriminate; reflexivity).
      assert (FD : am (e3 gdelta_grad_S) = am (e1 ggrad_S)) by (rewrite O3 by discriminate; cbn; rewrite EX by discriminate; reflexivity).
      assert (FG : am (e3 ggrad_S) = dictionary_gradient c k (set_S_SSt (am (e2 gS)) (g_ws (g_rd e1) s))).
      { rewrite G3. cbn [am]. apply dgrad_fields; cbn; auto; rewrite EX by discriminate; reflexivity. }
      rewrite FD, FG, (F gincr_S) by discriminate.
      set (A := get_next_spg_alpha _ _ _ _). set (D := msub _ _).
      unfold set_S_mem, set_S_SSt, g_ws, g_rd. cbn. rewrite FS, FSS, ESS, !F by discriminate. reflexivity.
  Qed.

  Lemma sim_update_weights fuel (c : gpnh_cfg T) k e s w : g_rel e s w ->
    computes (pg_update_weights fuel c k) e s (update_weights fuel c k w)
      (fun _ e' s' w' => g_rel e' s' w').
  Proof using.
    intros <-. unfold pg_update_weights.
    do 2 (eapply computes_step; [reflexivity|]).
    eapply computes_step; [reflexivity|].
    do 3 (eapply computes_step; [reflexivity|]).
    unfold update_weights. cbv zeta.
    match goal with |- computes _ ?E _ _ _ => set (e1 := E) end.
    set (w1 := mk_gws _ _ _ _ _ _ _ _ _ _ _).
    assert (Ew1 : g_ws (g_rd e1) s = w1) by reflexivity.
    assert (Eg : weights_gradient w1 = am (e1 ggrad_Gamma)) by reflexivity.
    rewrite Eg.
    assert (Ei : msub (simplex_project_rows (msub (w_Gamma w1) (mscale (w_alpha_Gamma w1) (am (e1 ggrad_Gamma)))))
                      (w_Gamma w1) = am (e1 gincr_Gamma)) by reflexivity.
    rewrite Ei. clearbody e1 w1. clear Eg Ei. subst w1.
    eapply computes_bind.
    - unfold pg_weights_line_search, weights_line_search.
      eapply (computes_line_search gname_eq g_rd
        (fun m e' s' w' => s' = mk_gsc (s_alpha_Gamma s) (s_alpha_S s) (s_f_S_mem s) m /\
           w' = set_Gamma (am (e' gGamma)) (g_ws (g_rd e1) s) /\
           am (e' gGamma_old) = am (e1 gGamma) /\
           (forall x, x <> gGamma -> x <> gGamma_old -> e' x = e1 x))).
      + intros m e' s' w' (-> & -> & EO & EX). unfold pg_cost, look. cbn [Heap.run_e].
        f_equal. f_equal. apply cost_fields; cbn; auto; rewrite EX by discriminate; reflexivity.
      + intros m step e' s' w' (-> & -> & EO & EX). eexists. eexists. split; [reflexivity|].
        split; [reflexivity|]. split; [|split; [exact EO|]].
        * cbn. rewrite EO, (EX gincr_Gamma) by discriminate. reflexivity.
        * intros x H1 H2. rewrite !upd_other by assumption. auto.
      + reflexivity.
      + reflexivity.
      + reflexivity.
      + reflexivity.
      + intros m. eexists. eexists. split; [reflexivity|].
        split; [reflexivity|]. split; [reflexivity|]. split; [reflexivity|].
        intros x H1 H2. rewrite !upd_other by assumption. reflexivity.
    - intros step e2 s2 [[w2 step'] m] (Est & -> & Ew2 & EO & EX). cbn [fst snd] in *. subst w2 step'.
      eapply computes_step; [reflexivity|].
      match goal with |- computes _ ?E ?S0 _ _ => destruct (run_wgrad E S0) as (e3 & E3 & G3 & O3) end.
      eapply computes_step; [exact E3|]. clear E3.
      eapply computes_step; [reflexivity|].
      exists tt. eexists. eexists. split; [reflexivity|]. unfold g_rel.
      cbn [g_rd f_X f_Gamma f_S f_GtG f_GtX f_XSt f_SSt f_grad_S f_delta_grad_S f_incr_S f_grad_Gamma
        f_delta_grad_Gamma f_incr_Gamma s_alpha_Gamma s_alpha_S s_f_S_mem s_f_Gamma_mem
        Heap.upd gname_eq gname_rec gname_rect sumbool_rec sumbool_rect].
      assert (F : forall x, x <> gGamma -> x <> gGamma_old -> x <> gdelta_grad_Gamma -> x <> ggrad_Gamma -> e3 x = e1 x)
        by (intros; rewrite O3, upd_other by assumption; auto).
      assert (FS : e3 gGamma = e2 gGamma) by (rewrite O3 by discriminate; reflexivity).
      assert (FD : am (e3 gdelta_grad_Gamma) = am (e1 ggrad_Gamma)) by (rewrite O3 by discriminate; cbn; rewrite EX by discriminate; reflexivity).
      assert (FG : am (e3 ggrad_Gamma) = weights_gradient (set_Gamma (am (e2 gGamma)) (g_ws (g_rd e1) s))).
      { rewrite G3. cbn [am]. apply wgrad_fields; cbn; auto; rewrite EX by discriminate; reflexivity. }
      rewrite FD, FG, (F gincr_Gamma) by discriminate.
      set (A := get_next_spg_alpha _ _ _ _). set (D := msub _ _).
      unfold set_Gamma_mem, set_Gamma, g_ws, g_rd. cbn. rewrite FS, !F by discriminate. reflexivity.
  Qed.

  Lemma sim_iterate fuel (c : gpnh_cfg T) k ud uw tol mx e s w : g_rel e s w ->
    computes (pg_iterate fuel c k ud uw tol mx) e s (gpnh_iterate fuel c k ud uw tol mx w)
      (fun a e' s' b => let '(c1, n1, l1) := a in
         let '(w2, c2, n2, l2) := b in c1 = c2 /\ n1 = n2 /\ l1 = l2 /\ g_rel e' s' w2).
  Proof using.
    intros HR. unfold pg_iterate, gpnh_iterate, iterate.
    apply (computes_iterate gname_eq g_rd g_rel (pg_cost c k) (evaluate_cost c k)); [| |reflexivity].
    - assert (Hc : forall pu u,
        (forall e s w, g_rel e s w -> computes pu e s (u w) (fun _ e' s' w' => g_rel e' s' w')) ->
        update_ok gname_eq g_rd g_rel (pg_cost c k) (evaluate_cost c k) pu u).
      { intros pu u Hu e0 s0 w0 HR0. specialize (Hu e0 s0 w0 HR0).
        unfold P_heap_loops.computes in *. rewrite run_e_bind.
        destruct (u w0) as [w'|x].
        - destruct Hu as (a & e' & s' & E & HR'). rewrite E. do 3 eexists. split; [reflexivity|].
          rewrite <- HR'. split; reflexivity.
        - destruct (run_e pu e0 s0) as [[a|y] [e' s']]; cbn in *; congruence. }
      apply Forall2_app; [destruct ud|destruct uw]; cbn; constructor; try constructor; apply Hc; intros.
      + apply sim_update_dictionary; assumption.
      + apply sim_update_weights; assumption.
    - rewrite <- HR. do 3 eexists. split; [reflexivity|]. split; reflexivity.
  Qed.
End PG.
