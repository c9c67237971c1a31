(** MTD convex coding of a series shorter than the largest lag: every array over the times from the
    largest lag on is empty, so the run is that of GPNH convex coding and the parameters stay put. *)
From Coq Require Import List Arith Lia ZArith Reals Lra Psatz Bool.
From Verif Require Import Num Mat Py Spec M_simplex M_spg M_iter M_random M_furthest M_gpnh M_mtd.
From Verif Require Import P_lin P_simplex P_spg P_random P_mat P_iter P_gpnh P_gpnh_run P_mtd P_mtd_upd P_mtd_run P_aa_delta.
Import ListNotations.
Local Open Scope R_scope.

(** an update that changes nothing does not change a run *)
Section Noop.
  Context {St : Type}.
  Variables (cost : St -> R) (mono : bool).
  Lemma bad_refl n x : @cost_increased R Num_R mono n x x = false.
  Proof. unfold cost_increased. numR. unfold Rltb. destruct (Rlt_dec x x) as [H|_]; [destruct (Rlt_irrefl _ H)|reflexivity]. Qed.
  Lemma run_updates_noop bad us : forall st x, x = cost st -> bad x = false ->
    run_updates cost bad (us ++ [@Ok St]) st x = run_updates cost bad us st x.
  Proof using Type.
    induction us as [|u us IH]; intros st x E B; cbn [run_updates app]; [cbn [bind]; rewrite <- E, B; reflexivity|].
    destruct (u st) as [st'|e]; cbn [bind]; [|reflexivity]. destruct (bad (cost st')) eqn:B'; [reflexivity|]. apply IH; auto.
  Qed.
  Lemma run_updates_cost bad us : forall st x st' x', x = cost st -> run_updates cost bad us st x = Ok (st', x') -> x' = cost st'.
  Proof using Type.
    induction us as [|u us IH]; intros st x st' x' E; cbn [run_updates]; [intros [= <- <-]; exact E|].
    destruct (u st) as [s|e]; cbn [bind]; [|discriminate]. destruct (bad _); [discriminate|]. apply IH. reflexivity.
  Qed.
  Lemma iterate_loop_noop us tol : forall left n st x log, x = cost st ->
    @iterate_loop R Num_R St cost (cost_increased mono) (us ++ [@Ok St]) tol left n st x log
    = iterate_loop cost (cost_increased mono) us tol left n st x log.
  Proof using Type.
    induction left as [|left IH]; intros n st x log E; cbn [iterate_loop]; [reflexivity|].
    rewrite run_updates_noop by (try exact E; apply bad_refl).
    destruct (run_updates cost _ us st x) as [[st' x']|e] eqn:U; cbn [bind]; [|reflexivity].
    destruct (nltb _ _); [reflexivity|]. apply IH. exact (run_updates_cost _ _ _ _ _ _ E U).
  Qed.
End Noop.

Lemma project_cols_fixed A : wf A -> col_stochastic A -> @simplex_project_columns R Num_R A = A.
Proof.
  intros W S. apply (mat_ext_R (nr A) (nc A)); [apply is_mat_project_cols, is_mat_wf; auto | apply is_mat_wf; auto|].
  intros i j Hi Hj. rewrite project_cols_eq by exact W. rewrite ent_mbuild by assumption.
  assert (P : prob_vec (mcol A j)).
  { destruct (S j Hj) as [S0 S1]. split; rewrite length_mcol.
    - intros a Ha. change (0 <= vget (mcol A j) a). rewrite vget_mcol by exact Ha. apply S0, Ha.
    - rewrite <- S1. apply Sum_ext. intros a Ha. change (vget (mcol A j) a = ent A a j). rewrite vget_mcol by exact Ha. reflexivity. }
  rewrite (proj_fixed _ P), vget_mcol by exact Hi. reflexivity.
Qed.
Lemma vsub_zero v g a : length g = length v -> (forall i, (i < length v)%nat -> at_ g i = 0) -> @vsub R Num_R v (vscale a g) = v.
Proof.
  intros L H. assert (E : length (vsub v (vscale a g)) = length v) by (unfold vsub, vmap2; apply length_tab).
  apply list_ext; [exact E|]. rewrite E. intros i Hi. change (at_ (vsub v (vscale a g)) i = at_ v i).
  rewrite at_vsub, at_vscale, H by lia. ring.
Qed.
Lemma vadd_self v s : @vadd R Num_R v (vscale s (vsub v v)) = v.
Proof.
  assert (E : length (vadd v (vscale s (vsub v v))) = length v) by (unfold vadd, vmap2; apply length_tab).
  assert (F : length (@vsub R Num_R v v) = length v) by (unfold vsub, vmap2; apply length_tab).
  apply list_ext; [exact E|]. rewrite E. intros i Hi. change (at_ (vadd v (vscale s (vsub v v))) i = at_ v i).
  rewrite at_vadd, at_vscale, at_vsub by lia. ring.
Qed.
Lemma vinner_self v g : @vinner R Num_R (vsub v v) g = 0.
Proof.
  unfold vinner. rewrite nsum_Sum. assert (F : length (@vsub R Num_R v v) = length v) by (unfold vsub, vmap2; apply length_tab).
  rewrite (Sum_ext _ _ (fun _ => 0)); [apply Sum_zero; reflexivity|]. intros i Hi. numR. rewrite !vget_at, at_vsub by lia. ring.
Qed.
Lemma stack_eq p k A B : is_stack p k A -> is_stack p k B ->
  (forall i a b, (i < p)%nat -> (a < k)%nat -> (b < k)%nat -> tent A i a b = tent B i a b) -> A = B.
Proof.
  intros [LA SA] [LB SB] H. apply nth_ext with (d := mat0) (d' := mat0); [congruence|]. intros i Hi. rewrite LA in Hi.
  apply (mat_ext_R k k); [apply SA, Hi | apply SB, Hi | intros a b Ha Hb; apply H; assumption].
Qed.

Section Short.
  Variables (X : mat R) (n d k : nat) (c : mtd_cfg R) (fuel : nat) (ow0 : list R) (Ts0 : list (mat R)).
  Hypothesis HX : is_mat n d X.
  Hypothesis HL : (n < max_lag c)%nat.
  Hypothesis Ho : prob_vec ow0.
  Hypothesis Ht : stack_stochastic Ts0.

  Definition srel (g : gws R) (w : mws R) : Prop :=
    g = gw_of w /\ mok c n d k X w /\ m_f_parameters_mem w <> [] /\ m_order_weights w = ow0 /\ m_transition_matrices w = Ts0.

  Lemma short_residual w : mok c n d k X w -> nr (mtd_residual c w) = 0%nat.
  Proof using HL. intros H. destruct (residual_dim c n d k X w H) as [-> _]. lia. Qed.
  Lemma short_cost w : mok c n d k X w -> mtd_evaluate_cost c k w = evaluate_cost (gc_of c) k (gw_of w).
  Proof using HL.
    intros H. assert (P : mtd_weights_penalty c k w = 0).
    { unfold mtd_weights_penalty. destruct (Nat.eqb k 1); [reflexivity|]. cbv zeta. rewrite nsq_mnorm. unfold frob2. rewrite (short_residual w H). cbn [Sum]. numR. ring. }
    unfold mtd_evaluate_cost. rewrite P. unfold evaluate_cost. numR. rewrite Rplus_0_r. reflexivity.
  Qed.
  Lemma short_weights_gradient w : mok c n d k X w -> mtd_weights_gradient c k w = weights_gradient (gw_of w).
  Proof using HL HX.
    intros H. unfold mtd_weights_gradient, weights_gradient. cbn [gw_of w_X w_Gamma w_XSt w_SSt]. cbv zeta.
    replace (mtd_weights_penalty_gradient c k w) with (@mzeros R Num_R (nr (m_Gamma w)) (nc (m_Gamma w))); [reflexivity|].
    pose proof (proj1 (proj2 H)) as (g1 & g2 & _). rewrite g1, g2. symmetry.
    apply (mat_ext_R n k); [apply (weights_penalty_gradient_shape n d k X c w H) | apply is_mat_mbuild|].
    intros t a Ht' Ha. rewrite (weights_penalty_gradient_ent n d k X) by assumption. rewrite ent_mzeros.
    assert (R0 : forall u b, (u < n)%nat -> rs (n_lags c) k (max_lag c) (lag c) (at_ (m_order_weights w)) (tent (m_transition_matrices w)) (ent (m_Gamma w)) u b = 0).
    { intros u b Hu. unfold rs. destruct (Nat.ltb_spec u (max_lag c)); [reflexivity|lia]. }
    unfold mgw, gw.
    rewrite (Sum_ext _ _ (fun _ => 0)); [|intros i Hi; destruct (Nat.ltb_spec t (n - lag c i)); [|reflexivity];
      rewrite (Sum_ext _ _ (fun _ => 0)); [rewrite Sum_zero by reflexivity; ring | intros b Hb; rewrite R0 by lia; ring]].
    rewrite Sum_zero by reflexivity. rewrite R0 by assumption. ring.
  Qed.
  Lemma short_order_gradient w i : mok c n d k X w -> (i < n_lags c)%nat -> at_ (mtd_order_gradient c k w) i = 0.
  Proof using HL HX.
    intros H Hi. rewrite (order_gradient_ent n d k X) by assumption. unfold mgo, go. replace (n - max_lag c)%nat with 0%nat by lia. unfold SS. cbn [Sum]. ring.
  Qed.
  Lemma short_transition_gradient w i a b : mok c n d k X w -> (i < n_lags c)%nat -> (a < k)%nat -> (b < k)%nat -> tent (mtd_transition_gradient c k w) i a b = 0.
  Proof using HL HX.
    intros H Hi Ha Hb. unfold tent. rewrite (transition_gradient_ent n d k X) by assumption. unfold mgt, gt. replace (n - max_lag c)%nat with 0%nat by lia. cbn [Sum]. ring.
  Qed.

  (** the parameters are not moved *)
  Lemma short_parameters g w : srel g w -> exists w', mtd_update_parameters fuel c k w = Ok w' /\ srel g w'.
  Proof using HX HL Ho Ht.
    intros (EG & H & HM & E1 & E2). pose proof H as (_ & _ & _ & _ & LO & SK & _).
    unfold mtd_update_parameters. rewrite (mrefresh_p_eq c n d k X w H).
    assert (PO : simplex_project_vector (vsub (m_order_weights w) (vscale (m_alpha_parameters w) (mtd_order_gradient c k w))) = m_order_weights w).
    { rewrite vsub_zero; [rewrite E1; apply proj_fixed, Ho | rewrite order_gradient_length; congruence |].
      intros i Hi. apply short_order_gradient; [exact H|lia]. }
    pose proof (transition_gradient_stack n d k X c w H) as GS.
    assert (PT : map simplex_project_columns (tsub (m_transition_matrices w) (tscale (m_alpha_parameters w) (mtd_transition_gradient c k w))) = m_transition_matrices w).
    { rewrite (stack_eq (n_lags c) k (tsub _ _) (m_transition_matrices w)).
      - rewrite <- (map_id (m_transition_matrices w)) at 2. apply map_ext_in. intros M HM'. destruct (In_nth _ _ (mkmat 0 0 []) HM') as (i & Hi & <-).
        destruct SK as [SK1 SK2]. apply project_cols_fixed; [apply is_mat_wf with (1 := SK2 i ltac:(lia)) | rewrite E2 in *; apply Ht; exact Hi].
      - apply stack_tsub, SK.
      - exact SK.
      - intros i a b Hi Ha Hb. rewrite (tent_tsub (n_lags c) k) by assumption. rewrite (tent_tscale (n_lags c) k) by assumption. rewrite short_transition_gradient by assumption. ring. }
    cbv zeta. rewrite PO, PT.
    assert (SI : is_stack (n_lags c) k (tsub (m_transition_matrices w) (m_transition_matrices w))) by apply stack_tsub, SK.
    assert (TI : forall g, @tinner R Num_R (tsub (m_transition_matrices w) (m_transition_matrices w)) g = 0).
    { intros G. unfold tinner. rewrite nsum_Sum. rewrite (Sum_ext _ _ (fun _ => 0)); [apply Sum_zero; reflexivity|]. intros i Hi. rewrite (proj1 SI) in Hi.
      rewrite minner_SS. destruct (stack_dim _ _ _ i SI Hi) as [t1 t2]. rewrite t1, t2. apply SS_zero. intros a b Ha Hb.
      change (tent (tsub (m_transition_matrices w) (m_transition_matrices w)) i a b * ent (tmat G i) a b = 0). rewrite (tent_tsub (n_lags c) k) by assumption. ring. }
    assert (TA : tadd (m_transition_matrices w) (tsub (m_transition_matrices w) (m_transition_matrices w)) = m_transition_matrices w).
    { apply (stack_eq (n_lags c) k); [apply stack_tadd, SK | exact SK|]. intros i a b Hi Ha Hb.
      rewrite (tent_tadd (n_lags c) k), (tent_tsub (n_lags c) k) by assumption. ring. }
    assert (TV : vadd (m_order_weights w) (vsub (m_order_weights w) (m_order_weights w)) = m_order_weights w).
    { rewrite <- vadd_vscale_1 by (unfold vsub, vmap2; apply length_tab). apply vadd_self. }
    unfold mtd_parameters_line_search. cbv zeta. rewrite TV, TA, vinner_self, TI, (mrefresh_p_eq c n d k X w H).
    unfold line_search. destruct (m_f_parameters_mem w) as [|m0 rest]; [contradiction|].
    destruct (mem_max (rest ++ [mtd_evaluate_cost c k w])) as [fm|] eqn:EM.
    2:{ destruct (rest ++ [mtd_evaluate_cost c k w]) as [|x l] eqn:EL; [destruct rest; discriminate|]. destruct (mem_max_cons x l) as (m & E). congruence. }
    assert (LE : mtd_evaluate_cost c k w <= fm) by (apply mem_max_spec in EM; apply EM, in_or_app; right; left; reflexivity).
    assert (B : forall tr, backtrack fuel (mc_ls c) (mtd_evaluate_cost c k) tr (nadd 0 0) (mtd_evaluate_cost c k w) fm (nmul (ls_gamma (mc_ls c)) (nadd 0 0)) w n1 (mtd_evaluate_cost c k w) = Ok (w, n1)).
    { intros tr. destruct fuel; cbn [backtrack]; numR; unfold Rltb; (destruct (Rlt_dec _ _) as [Q|_]; [exfalso; revert Q; apply Rle_not_lt; replace (fm + _) with fm by ring; exact LE | reflexivity]). }
    cbv zeta. rewrite B. cbn [bind fst snd]. eexists. split; [reflexivity|].
    split; [rewrite EG; reflexivity|]. split; [exact H|]. split; [|split; [exact E1 | exact E2]]. cbn. destruct rest; discriminate.
  Qed.

  (** the other two updates are those of GPNH convex coding *)
  Lemma short_dictionary g w : srel g w -> res_rel srel (update_dictionary fuel (gc_of c) k g) (mtd_update_dictionary fuel c k w).
  Proof using HX HL Ho Ht.
    intros (-> & H & HM & E1 & E2). destruct (mrefresh_d_ok c n d k X w H) as [H1 _].
    unfold update_dictionary, mtd_update_dictionary. cbv zeta. fold (mrefresh_d w).
    change (mk_gws (w_X (gw_of w)) _ _ _ _ _ _ _ _ _ _) with (gw_of (mrefresh_d w)).
    rewrite (dictionary_gradient_of c k (mrefresh_d w)).
    set (G := dictionary_gradient (gc_of c) k (gw_of (mrefresh_d w))).
    set (I := msub (msub (w_S (gw_of (mrefresh_d w))) (mscale (w_alpha_S (gw_of (mrefresh_d w))) G)) (w_S (gw_of (mrefresh_d w)))).
    change (msub (msub (m_S (mrefresh_d w)) (mscale (m_alpha_S (mrefresh_d w)) G)) (m_S (mrefresh_d w))) with I.
    assert (HI : is_mat k d I) by (apply is_mat_msub; apply H).
    unfold dictionary_line_search, mtd_dictionary_line_search. cbv zeta. rewrite (short_cost (mrefresh_d w) H1).
    pose proof (line_search_sim srel (mc_ls c) (evaluate_cost (gc_of c) k) (mtd_evaluate_cost c k)
      (fun s => set_S_SSt (madd (m_S w) (mscale s I)) (gw_of (mrefresh_d w))) (fun s => mtd_set_S (madd (m_S w) (mscale s I)) (mrefresh_d w))
      (set_S_SSt (madd (m_S w) I) (gw_of (mrefresh_d w))) (mtd_set_S (madd (m_S w) I) (mrefresh_d w))
      (m_f_S_mem w) (evaluate_cost (gc_of c) k (gw_of (mrefresh_d w))) (minner I G) fuel) as SIM.
    assert (TR : forall Z, is_mat k d Z -> srel (set_S_SSt Z (gw_of (mrefresh_d w))) (mtd_set_S Z (mrefresh_d w))).
    { intros Z HZ. split; [reflexivity|]. split; [apply mset_S_ok; assumption|]. split; [exact HM|]. split; assumption. }
    assert (SM : is_mat k d (m_S w)) by apply H. destruct SM as (s1 & s2 & _).
    specialize (SIM (fun s => TR _ (is_mat_madd k d _ _ s1 s2)) (TR _ (is_mat_madd k d _ _ s1 s2))).
    specialize (SIM (fun a b Q => eq_trans (f_equal (evaluate_cost (gc_of c) k) (proj1 Q)) (eq_sym (short_cost b (proj1 (proj2 Q)))))).
    cbn [gc_of gc_ls]. cbn [mrefresh_d m_S m_f_S_mem gw_of w_S w_f_S_mem].
    unfold res_rel in SIM.
    match type of SIM with match ?A with _ => _ end => change A with (line_search fuel (mc_ls c) (evaluate_cost (gc_of c) k)
      (fun s => set_S_SSt (madd (m_S w) (mscale s I)) (gw_of (mrefresh_d w))) (set_S_SSt (madd (m_S w) I) (gw_of (mrefresh_d w))) (m_f_S_mem w)
      (evaluate_cost (gc_of c) k (gw_of (mrefresh_d w))) (minner I G)) in SIM end.
    set (LA := line_search fuel (mc_ls c) (evaluate_cost (gc_of c) k) _ _ _ _ _) in *.
    set (LB := line_search fuel (mc_ls c) (mtd_evaluate_cost c k) _ _ _ _ _) in *.
    match goal with |- res_rel _ (bind ?A _) (bind ?B _) => change A with LA; change B with LB end.
    destruct LA as [[[x s] mem]|e], LB as [[[y s'] mem']|e']; cbn [bind res_rel fst snd] in *; try contradiction; auto.
    destruct SIM as (Q & -> & ->). destruct Q as (-> & Q1 & Q2 & Q3 & Q4).
    rewrite (dictionary_gradient_of c k y). split; [reflexivity|]. split; [exact Q1|]. split; [exact Q2|]. split; assumption.
  Qed.
  Lemma short_weights g w : srel g w -> res_rel srel (update_weights fuel (gc_of c) k g) (mtd_update_weights fuel c k w).
  Proof using HX HL Ho Ht.
    intros (-> & H & HM & E1 & E2). destruct (mrefresh_w_ok c n d k X w H) as [H1 _].
    unfold update_weights, mtd_update_weights. cbv zeta. fold (mrefresh_w w).
    change (mk_gws (w_X (gw_of w)) _ _ _ _ _ _ _ _ _ _) with (gw_of (mrefresh_w w)).
    rewrite (short_weights_gradient (mrefresh_w w) H1).
    set (G := weights_gradient (gw_of (mrefresh_w w))).
    set (I := msub (simplex_project_rows (msub (w_Gamma (gw_of (mrefresh_w w))) (mscale (w_alpha_Gamma (gw_of (mrefresh_w w))) G))) (w_Gamma (gw_of (mrefresh_w w)))).
    change (msub (simplex_project_rows (msub (m_Gamma (mrefresh_w w)) (mscale (m_alpha_Gamma (mrefresh_w w)) G))) (m_Gamma (mrefresh_w w))) with I.
    unfold weights_line_search, mtd_weights_line_search. cbv zeta. rewrite (short_cost (mrefresh_w w) H1).
    pose proof (line_search_sim srel (mc_ls c) (evaluate_cost (gc_of c) k) (mtd_evaluate_cost c k)
      (fun s => set_Gamma (madd (m_Gamma w) (mscale s I)) (gw_of (mrefresh_w w))) (fun s => mtd_set_Gamma c (madd (m_Gamma w) (mscale s I)) (mrefresh_w w))
      (set_Gamma (madd (m_Gamma w) I) (gw_of (mrefresh_w w))) (mtd_set_Gamma c (madd (m_Gamma w) I) (mrefresh_w w))
      (m_f_Gamma_mem w) (evaluate_cost (gc_of c) k (gw_of (mrefresh_w w))) (minner I G) fuel) as SIM.
    assert (TR : forall Z, is_mat n k Z -> srel (set_Gamma Z (gw_of (mrefresh_w w))) (mtd_set_Gamma c Z (mrefresh_w w))).
    { intros Z HZ. split; [reflexivity|]. split; [apply mset_Gamma_ok; assumption|]. split; [exact HM|]. split; assumption. }
    assert (SM : is_mat n k (m_Gamma w)) by apply H. destruct SM as (s1 & s2 & _).
    specialize (SIM (fun s => TR _ (is_mat_madd n k _ _ s1 s2)) (TR _ (is_mat_madd n k _ _ s1 s2))).
    specialize (SIM (fun a b Q => eq_trans (f_equal (evaluate_cost (gc_of c) k) (proj1 Q)) (eq_sym (short_cost b (proj1 (proj2 Q)))))).
    unfold res_rel in SIM.
    set (LA := line_search fuel (mc_ls c) (evaluate_cost (gc_of c) k) _ _ _ _ _) in SIM.
    set (LB := line_search fuel (mc_ls c) (mtd_evaluate_cost c k) _ _ _ _ _) in SIM.
    match goal with |- res_rel _ (bind ?A _) (bind ?B _) => change A with LA; change B with LB end.
    destruct LA as [[[x s] mem]|e], LB as [[[y s'] mem']|e']; cbn [bind res_rel fst snd] in *; try contradiction; auto.
    destruct SIM as (Q & -> & ->). destruct Q as (-> & Q1 & Q2 & Q3 & Q4).
    rewrite (short_weights_gradient y Q1). split; [reflexivity|]. split; [exact Q1|]. split; [exact Q2|]. split; assumption.
  Qed.

  Lemma short_iterate ud uw up tol m g w : srel g w ->
    res_rel (fun x y => srel (fst (fst (fst x))) (fst (fst (fst y))) /\ snd (fst (fst x)) = snd (fst (fst y))
                        /\ snd (fst x) = snd (fst y) /\ snd x = snd y)
      (gpnh_iterate fuel (gc_of c) k ud uw tol m g) (mtd_iterate fuel c k ud uw up tol m w).
  Proof using HX HL Ho Ht.
    intros Q. assert (C : forall a b, srel a b -> evaluate_cost (gc_of c) k a = mtd_evaluate_cost c k b)
      by (intros a b (-> & H & _); symmetry; apply short_cost, H).
    unfold gpnh_iterate, mtd_iterate, iterate. cbv zeta. rewrite <- (C _ _ Q).
    assert (F : Forall2 (fun u v => forall a b, srel a b -> res_rel srel (u a) (v b))
       (enabled ud (update_dictionary fuel (gc_of c) k) ++ enabled uw (update_weights fuel (gc_of c) k))
       (enabled ud (mtd_update_dictionary fuel c k) ++ enabled uw (mtd_update_weights fuel c k))).
    { apply Forall2_app; [destruct ud | destruct uw]; cbn; repeat constructor; intros; [apply short_dictionary | apply short_weights]; assumption. }
    destruct up; cbn [enabled]; rewrite app_assoc.
    - rewrite <- iterate_loop_noop by reflexivity. apply (iterate_loop_sim srel); [exact C| |exact Q].
      apply Forall2_app; [exact F|]. repeat constructor. intros a b QQ. destruct (short_parameters a b QQ) as (w' & -> & Q'). exact Q'.
    - rewrite app_nil_r. apply (iterate_loop_sim srel); assumption.
  Qed.
End Short.
