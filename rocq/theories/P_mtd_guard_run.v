(** Proofs that the monotonicity guard of mtd_convex_coding.py and of the parameter fit of
    gpnh_convex_coding_crom.py never fires when line_search_step_tol is small *)
From Coq Require Import List Arith Lia ZArith Reals Lra Psatz Bool.
From Verif Require Import Num Mat Py Spec M_simplex M_spg M_iter M_random M_furthest M_gpnh M_mtd M_crom.
From Verif Require Import P_lin P_simplex P_spg P_furthest P_random P_mat P_iter P_gpnh P_gpnh_run P_mtd P_mtd_upd P_mtd_run P_crom P_opt_params P_mtd_guard.
Import ListNotations.
Local Open Scope R_scope.


(** ** one component: the weights are fixed and the transition model does not enter the cost *)
Lemma one_component_weights n G G' : is_mat n 1 G -> is_mat n 1 G' -> row_stochastic G -> row_stochastic G' -> G = G'.
Proof.
  intros HG HG' S S'. apply (mat_ext_R n 1); try assumption. intros i j Hi Hj.
  assert (j = 0)%nat by lia. subst j. destruct HG as (a1 & a2 & _), HG' as (b1 & b2 & _).
  destruct (S i ltac:(lia)) as [_ E]. destruct (S' i ltac:(lia)) as [_ E']. rewrite a2 in E. rewrite b2 in E'. cbn [Sum] in E, E'. lra.
Qed.

Lemma mtd_weights_never_increase n d k X fuel c w0 w' m0 a : is_mat n d X -> mok c n d k X w0 ->
  (0 < k)%nat -> (max_lag c < n)%nat -> (0 < d)%nat -> 0 <= mc_eps_weights c ->
  row_stochastic (m_Gamma w0) -> prob_vec (m_order_weights w0) -> stack_stochastic (m_transition_matrices w0) ->
  0 < ls_sigma_one (mc_ls c) -> ls_sigma_two (mc_ls c) < 1 -> 0 <= ls_gamma (mc_ls c) <= 1 ->
  m_f_Gamma_mem w0 = [m0] -> 0 < m_alpha_Gamma w0 <= a ->
  0 < ls_step_tol (mc_ls c) <= ls_sigma_one (mc_ls c) ->
  ls_step_tol (mc_ls c) * (2 * a * mcurv_w c n d k (m_S w0)) <= 1 - ls_gamma (mc_ls c) ->
  mtd_update_weights fuel c k w0 = Ok w' ->
  mtd_evaluate_cost c k w' <= mtd_evaluate_cost c k w0.
Proof.
  intros HX Hw Hk Hl Hd He SG SO ST H1 H2 Hg Hm Ha Ht1 Ht2 H.
  destruct (Nat.eq_dec k 1) as [->|Hk1];
    [|eapply (mtd_update_weights_descends n d k X fuel c w0 w' m0 a); eassumption || lia].
  apply (mtd_update_weights_inv c n d 1 X) in H; try assumption. destruct H as (J1 & G & b & mem & E & HG & _ & _ & JS).
  rewrite (mtd_cost_spec n d 1 X c w' HX J1), (mtd_cost_spec n d 1 X c w0 HX Hw) by lia.
  pose proof Hw as (_ & HG0 & _).
  rewrite E. cbn [m_Gamma m_S m_order_weights m_transition_matrices mtd_set_Gamma_mem mtd_set_Gamma mrefresh_w].
  rewrite (one_component_weights n G (m_Gamma w0) HG HG0 (JS SG) SG). apply Rle_refl.
Qed.
Lemma mtd_parameters_never_increase n d k X fuel c w0 w' m0 a : is_mat n d X -> mok c n d k X w0 ->
  (0 < k)%nat -> (max_lag c < n)%nat -> (0 < d)%nat -> mc_lags c <> [] -> 0 <= mc_eps_weights c ->
  row_stochastic (m_Gamma w0) -> prob_vec (m_order_weights w0) -> stack_stochastic (m_transition_matrices w0) ->
  0 < ls_sigma_one (mc_ls c) -> ls_sigma_two (mc_ls c) < 1 -> 0 <= ls_gamma (mc_ls c) <= 1 ->
  m_f_parameters_mem w0 = [m0] -> 0 < m_alpha_parameters w0 <= a ->
  0 < ls_step_tol (mc_ls c) <= ls_sigma_one (mc_ls c) ->
  ls_step_tol (mc_ls c) * (2 * a * mcurv_p c k) <= 1 - ls_gamma (mc_ls c) ->
  mtd_update_parameters fuel c k w0 = Ok w' ->
  mtd_evaluate_cost c k w' <= mtd_evaluate_cost c k w0.
Proof.
  intros HX Hw Hk Hl Hd Hp He SG SO ST H1 H2 Hg Hm Ha Ht1 Ht2 H.
  destruct (Nat.eq_dec k 1) as [->|Hk1].
  2:{ assert (0 < n_lags c)%nat by (unfold n_lags; destruct (mc_lags c); [congruence | cbn; lia]).
      eapply (mtd_update_parameters_descends n d k X fuel c w0 w' m0 a); eassumption || lia. }
  apply (mtd_update_parameters_inv c n d 1 X) in H; try assumption. destruct H as (J1 & ow & Ts & b & mem & E & _).
  rewrite (mtd_cost_spec n d 1 X c w' HX J1), (mtd_cost_spec n d 1 X c w0 HX Hw) by lia.
  rewrite !objective_split. pose proof Hw as (_ & (_ & EG & _) & _).
  rewrite E. cbn [m_Gamma m_S mtd_set_parameters_mem mtd_set_parameters]. rewrite EG. cbn [Nat.eqb]. apply Rle_refl.
Qed.
Lemma crom_never_increase n k G fuel c w0 w' m0 a : cok c n k G w0 -> mc_eps_weights c = 1 ->
  (0 < k)%nat -> (max_lag c < n)%nat -> mc_lags c <> [] ->
  row_stochastic G -> prob_vec (cw_order_weights w0) -> stack_stochastic (cw_transition_matrices w0) ->
  0 < ls_sigma_one (mc_ls c) -> ls_sigma_two (mc_ls c) < 1 -> 0 <= ls_gamma (mc_ls c) <= 1 ->
  cw_mem w0 = [m0] -> 0 < cw_alpha w0 <= a ->
  0 < ls_step_tol (mc_ls c) <= ls_sigma_one (mc_ls c) ->
  ls_step_tol (mc_ls c) * (2 * a * ((3 * INR (n_lags c) + 10) / INR k)) <= 1 - ls_gamma (mc_ls c) ->
  crom_update_parameters fuel c k n G w0 = Ok w' ->
  crom_fit_residual c k n G w' <= crom_fit_residual c k n G w0.
Proof.
  intros Hw E1 Hk Hl Hp SG SO ST H1 H2 Hg Hm Ha Ht1 Ht2 H.
  destruct (Nat.eq_dec k 1) as [->|Hk1]; [unfold crom_fit_residual; cbn [Nat.eqb]; apply Rle_refl|].
  assert (0 < n_lags c)%nat by (unfold n_lags; destruct (mc_lags c); [congruence | cbn; lia]).
  eapply (crom_update_descends n k G fuel c w0 w' m0 a); eassumption || lia.
Qed.

(** ** a run whose guard never fires *)
Definition mtd_with_step_tol (c : mtd_cfg R) (t : R) : mtd_cfg R :=
  mk_mtd_cfg (mc_lags c) (mc_eps_states c) (mc_eps_weights c) (mc_init c) (mc_tolerance c) (mc_max_iterations c)
    (mk_ls (ls_gamma (mc_ls c)) (ls_alpha_min (mc_ls c)) (ls_alpha_max (mc_ls c)) (ls_sigma_one (mc_ls c)) (ls_sigma_two (mc_ls c)) t)
    (mc_memory c) (mc_monotone c).

Lemma mnm_ge0 c n k : (0 < k)%nat -> (max_lag c < n)%nat -> 0 <= mc_eps_weights c -> 0 <= mnm c n k.
Proof.
  intros Hk Hl He. unfold mnm. assert (0 < INR k) by (apply lt_0_INR; exact Hk). pose proof (lt_INR _ _ Hl).
  apply Rmult_le_pos; [exact He|]. left. apply Rinv_0_lt_compat, Rmult_lt_0_compat; lra.
Qed.

Section MNoGuard.
  Variables (n d k m : nat) (X : mat R) (c : mtd_cfg R) (x B0 : R).
  Hypotheses (HX : is_mat n d X) (Hn : (max_lag c < n)%nat) (Hd : (0 < d)%nat) (Hk : (0 < k)%nat) (Hlags : mc_lags c <> [])
    (Heps : 0 <= mc_eps_states c) (Hepw : 0 <= mc_eps_weights c) (Hx : entries_le X x) (Hx0 : 0 <= x) (HB0 : 0 <= B0)
    (H1 : 0 < ls_sigma_one (mc_ls c)) (H2 : ls_sigma_two (mc_ls c) < 1) (Hg : 0 <= ls_gamma (mc_ls c) < 1)
    (Ha : 0 < ls_alpha_min (mc_ls c) <= ls_alpha_max (mc_ls c)) (Hmem : mc_memory c = 1%nat).

  Let gc := gc_of c.
  Let am := amax gc.
  Let Bs := Bseq n d k gc x B0.
  Definition mC0 : R := C0 n d k m gc x B0 + mnm c n k * (2 + 2 * INR k) + mcurv_p c k.
  Definition mtau : R := Rmin (ls_sigma_one (mc_ls c)) ((1 - ls_gamma (mc_ls c)) / (2 * am * mC0)).
  Lemma extra_parts : 0 <= mnm c n k * (2 + 2 * INR k) /\ 0 <= mcurv_p c k.
  Proof.
    pose proof (mnm_ge0 c n k Hk Hn Hepw). pose proof (pos_INR k). assert (0 < INR k) by (apply lt_0_INR; exact Hk).
    pose proof (pos_INR (n_lags c)). split; [apply Rmult_le_pos; lra|]. unfold mcurv_p.
    apply Rmult_le_pos; [exact Hepw|]. apply Rmult_le_pos; [lra|]. left. apply Rinv_0_lt_compat; lra.
  Qed.
  Lemma mC0_parts : 1 + (1 / INR d + mc_eps_states c * (if Nat.eqb k 1 then 0 else 2 / (INR d * (INR k - 1)))) <= mC0
     /\ INR k * (INR d * Bs m ^ 2) / (INR d * INR n) + mnm c n k * (2 + 2 * INR k) <= mC0 /\ mcurv_p c k <= mC0 /\ 1 <= mC0.
  Proof.
    pose proof extra_parts. pose proof (C0_parts n d k m gc x B0 ltac:(lia) Hd Hk Heps Hmem) as [P1 P2].
    unfold mC0, C0. change (gc_epsilon gc) with (mc_eps_states c) in *. fold Bs. fold Bs in P2. lra.
  Qed.
  Lemma am_one : 1 <= am. Proof. apply amax_pos. Qed.
  Lemma mtau_pos : 0 < mtau.
  Proof.
    pose proof mC0_parts. pose proof am_one. unfold mtau. apply Rmin_glb_lt; [exact H1|].
    apply Rdiv_lt_0_compat; [lra|]. apply Rmult_lt_0_compat; lra.
  Qed.
  Lemma mtau_bound t C : 0 < t <= mtau -> C <= mC0 -> t * (2 * am * C) <= 1 - ls_gamma (mc_ls c).
  Proof.
    intros Ht HC. pose proof mC0_parts. pose proof am_one.
    assert (P : 0 < 2 * am * mC0) by (apply Rmult_lt_0_compat; lra).
    assert (T2 : t <= (1 - ls_gamma (mc_ls c)) / (2 * am * mC0)) by (eapply Rle_trans; [apply Ht | apply Rmin_r]).
    apply Rle_trans with (t * (2 * am * mC0)).
    - apply Rmult_le_compat_l; [lra|]. apply Rmult_le_compat_l; lra.
    - apply Rmult_le_compat_r with (r := 2 * am * mC0) in T2; [|lra].
      replace ((1 - ls_gamma (mc_ls c)) / (2 * am * mC0) * (2 * am * mC0)) with (1 - ls_gamma (mc_ls c)) in T2 by (field; lra).
      exact T2.
  Qed.

  Definition qinv (i : nat) (w : mws R) : Prop :=
    minv c n d k X True True w /\ 0 < m_alpha_S w <= am /\ 0 < m_alpha_Gamma w <= am /\ 0 < m_alpha_parameters w <= am
    /\ entries_le (m_S w) (Bs i).
  Lemma alpha_am a t : alpha_ok (mtd_with_step_tol c t) a -> 0 < a <= am.
  Proof. intros H. specialize (H ltac:(cbn; lra)). cbn in H. pose proof (Rmax_r 1 (ls_alpha_max (mc_ls c))). unfold am, amax, gc. cbn [gc_of gc_ls]. lra. Qed.

  Lemma mdictionary_step_bound t fuel w w' i : qinv i w -> mtd_update_dictionary fuel (mtd_with_step_tol c t) k w = Ok w' -> qinv (S i) w'.
  Proof.
    intros (I & A1 & A2 & A3 & HB) E. pose proof I as (J1 & J2 & J3 & J4 & J5 & J6).
    destruct (mtd_update_dictionary_ok (mtd_with_step_tol c t) n d k X fuel w w' J1 H1 H2 E) as (s & b & Hs & _ & Hne & Ew & Hb).
    assert (I' : minv c n d k X True True w').
    { apply (minv_updates (mtd_with_step_tol c t) n d k X True True true true true fuel Hk Hlags H1 H2
        (mtd_update_dictionary fuel (mtd_with_step_tol c t) k) w w'); [left; reflexivity | exact I | exact E]. }
    split; [exact I'|]. rewrite Ew. cbn [m_alpha_S m_alpha_Gamma m_alpha_parameters mtd_set_S_mem mtd_set_S mrefresh_d].
    split; [apply (alpha_am b t Hb)|]. split; [exact A2|]. split; [exact A3|].
    cbn [m_S mtd_set_S_mem mtd_set_S mrefresh_d].
    destruct (mrefresh_d_ok c n d k X w J1) as [Hr HC].
    pose proof (mok_gok c n d k X _ Hr) as Hgr.
    pose proof (dictionary_gradient_shape n d k X gc _ Hgr) as (q1 & q2 & _).
    pose proof (mdir_d_shape (mtd_with_step_tol c t) n d k X (mrefresh_d w) Hr) as (r1 & r2 & _). destruct J1 as (_ & _ & (s1 & s2 & _) & _).
    intros a j Hi Hj. change (a < nr (m_S w))%nat in Hi. change (j < nc (m_S w))%nat in Hj.
    rewrite ent_madd by assumption. rewrite ent_mscale by lia.
    unfold mdir_d at 1. change (mtd_dictionary_gradient (mtd_with_step_tol c t) k (mrefresh_d w)) with (dictionary_gradient gc k (gw_of (mrefresh_d w))).
    rewrite ent_msub by (mdim; cbn; lia). rewrite ent_msub by (cbn; lia). rewrite ent_mscale by lia.
    pose proof (gradient_bound n d k X gc x HX ltac:(lia) Hd Hk Heps Hx Hmem (gw_of (mrefresh_d w)) (Bs i) Hgr HC (J5 Logic.I) HB
      (proj1 (Bseq_mono n d k gc x B0 ltac:(lia) Hd Hk Heps Hx0 HB0 Hmem i)) a j ltac:(lia) ltac:(lia)) as Gb.
    unfold Bs. cbn [Bseq]. fold Bs. change (m_S (mrefresh_d w)) with (m_S w). change (m_alpha_S (mrefresh_d w)) with (m_alpha_S w).
    set (gr := dictionary_gradient gc k (gw_of (mrefresh_d w))) in *.
    replace (ent (m_S w) a j + s * (ent (m_S w) a j - m_alpha_S w * ent gr a j - ent (m_S w) a j))
      with (ent (m_S w) a j + - (s * m_alpha_S w * ent gr a j)) by ring.
    eapply Rle_trans; [apply Rabs_triang|]. apply Rplus_le_compat; [apply HB; assumption|].
    rewrite Rabs_Ropp, !Rabs_mult, (Rabs_pos_eq s), (Rabs_pos_eq (m_alpha_S w)) by lra.
    apply Rmult_le_compat; try apply Rabs_pos; try assumption.
    - apply Rmult_le_pos; lra.
    - fold am. replace am with (1 * am) by ring. apply Rmult_le_compat; lra.
  Qed.
  Lemma mweights_step_bound t fuel w w' i : qinv i w -> mtd_update_weights fuel (mtd_with_step_tol c t) k w = Ok w' -> qinv i w'.
  Proof.
    intros (I & A1 & A2 & A3 & HB) E. pose proof I as (J1 & _).
    assert (I' : minv c n d k X True True w').
    { apply (minv_updates (mtd_with_step_tol c t) n d k X True True false true true fuel Hk Hlags H1 H2
        (mtd_update_weights fuel (mtd_with_step_tol c t) k) w w'); [left; reflexivity | exact I | exact E]. }
    split; [exact I'|]. apply (mtd_update_weights_inv (mtd_with_step_tol c t) n d k X) in E; try assumption.
    destruct E as (_ & G & b & mem & Ew & _ & Hb & _). rewrite Ew.
    cbn [m_S m_alpha_S m_alpha_Gamma m_alpha_parameters mtd_set_Gamma_mem mtd_set_Gamma mrefresh_w].
    split; [exact A1|]. split; [apply (alpha_am b t Hb)|]. split; [exact A3 | exact HB].
  Qed.
  Lemma mparameters_step_bound t fuel w w' i : qinv i w -> mtd_update_parameters fuel (mtd_with_step_tol c t) k w = Ok w' -> qinv i w'.
  Proof.
    intros (I & A1 & A2 & A3 & HB) E. pose proof I as (J1 & _).
    assert (I' : minv c n d k X True True w').
    { apply (minv_updates (mtd_with_step_tol c t) n d k X True True false false true fuel Hk Hlags H1 H2
        (mtd_update_parameters fuel (mtd_with_step_tol c t) k) w w'); [left; reflexivity | exact I | exact E]. }
    split; [exact I'|]. apply (mtd_update_parameters_inv (mtd_with_step_tol c t) n d k X) in E; try assumption.
    destruct E as (_ & ow & Ts & b & mem & Ew & _ & _ & Hb & _). rewrite Ew.
    cbn [m_S m_alpha_S m_alpha_Gamma m_alpha_parameters mtd_set_parameters_mem mtd_set_parameters].
    split; [exact A1|]. split; [exact A2|]. split; [apply (alpha_am b t Hb) | exact HB].
  Qed.

  Lemma mtd_iterate_no_guard t : 0 < t <= mtau -> exists M, forall fuel, (M <= fuel)%nat -> forall ud uw up tol w, qinv 0 w ->
    exists r, mtd_iterate fuel (mtd_with_step_tol c t) k ud uw up tol m w = Ok r.
  Proof.
    intros Ht. set (ct := mtd_with_step_tol c t).
    assert (Hv : ls_valid (mc_ls ct)) by (repeat split; cbn; [exact H1 | exact H2 | apply Ht]).
    destruct (mtd_update_dictionary_total ct Hv) as [M1 HM1]. destruct (mtd_update_weights_total ct Hv) as [M2 HM2].
    destruct (mtd_update_parameters_total ct Hv) as [M3 HM3].
    exists (max (max M1 M2) M3). intros fuel Hf ud uw up tol w HP. unfold mtd_iterate, iterate.
    assert (Hts : 0 < ls_step_tol (mc_ls ct) <= ls_sigma_one (mc_ls ct)).
    { cbn. pose proof (Rmin_l (ls_sigma_one (mc_ls c)) ((1 - ls_gamma (mc_ls c)) / (2 * am * mC0))) as Q. fold mtau in Q. lra. }
    pose proof mC0_parts as (CP1 & CP2 & CP3 & _).
    assert (Hone : forall (mem : list R), length mem = mc_memory c -> exists m0, mem = [m0]).
    { rewrite Hmem. intros [|m0 [|]]; cbn; try lia. eauto. }
    assert (dp : 0 < INR d) by (apply lt_0_INR; exact Hd). assert (np : 0 < INR n) by (apply lt_0_INR; lia).
    assert (I1 : 0 < / (INR d * INR n)) by (apply Rinv_0_lt_compat, Rmult_lt_0_compat; lra).
    assert (HD : forall i s, (i <= m)%nat -> qinv i s -> exists s', mtd_update_dictionary fuel ct k s = Ok s' /\ qinv (S i) s'
        /\ mtd_evaluate_cost ct k s' <= mtd_evaluate_cost ct k s).
    { intros i s Hi Hs. pose proof Hs as ((J1 & J2 & J3 & J4 & J5 & J6) & A1 & A2 & A3 & HB). destruct (Hone _ J2) as [m0 Em].
      destruct (HM1 fuel k s ltac:(lia)) as [s' E]; [rewrite Em; discriminate|].
      exists s'. split; [exact E|]. split; [eapply mdictionary_step_bound; eassumption|].
      eapply (mtd_update_dictionary_descends n d k X fuel ct s s' m0 am); try eassumption; try lia.
      - cbn. lra.
      - apply mtau_bound; [exact Ht|]. cbn [mc_eps_states mtd_with_step_tol ct]. unfold curv_d.
        assert (F : frob2 (m_Gamma s) <= INR n) by (destruct J1 as (_ & (g1 & g2 & _) & _); eapply stochastic_frob2; eauto; apply J5, Logic.I).
        pose proof (frob2_nonneg (m_Gamma s)).
        assert (Q2 : frob2 (m_Gamma s) / (INR d * INR n) <= 1 / INR d).
        { replace (1 / INR d) with (INR n / (INR d * INR n)) by (field; lra). apply Rmult_le_compat_r; lra. }
        lra. }
    assert (HW : forall i s, (i <= m)%nat -> qinv i s -> exists s', mtd_update_weights fuel ct k s = Ok s' /\ qinv i s'
        /\ mtd_evaluate_cost ct k s' <= mtd_evaluate_cost ct k s).
    { intros i s Hi Hs. pose proof Hs as ((J1 & J2 & J3 & J4 & J5 & J6) & A1 & A2 & A3 & HB). destruct (Hone _ J3) as [m0 Em].
      destruct (HM2 fuel k s ltac:(lia)) as [s' E]; [rewrite Em; discriminate|].
      exists s'. split; [exact E|]. split; [eapply mweights_step_bound; eassumption|].
      destruct (J6 Logic.I) as [JO JT].
      eapply (mtd_weights_never_increase n d k X fuel ct s s' m0 am); try eassumption.
      - apply J5, Logic.I.
      - cbn. lra.
      - apply mtau_bound; [exact Ht|]. unfold mcurv_w. change (mnm ct n k) with (mnm c n k).
        assert (F : frob2 (m_S s) <= INR k * (INR d * Bs m ^ 2)).
        { destruct J1 as (_ & _ & (s1 & s2 & _) & _).
          apply frob2_entries; try assumption; [|apply (Bseq_mono n d k gc x B0); lia || assumption].
          intros a b Ia Ib. eapply Rle_trans; [apply HB; assumption | apply (Bseq_le n d k gc x B0); lia || assumption]. }
        assert (frob2 (m_S s) / (INR d * INR n) <= INR k * (INR d * Bs m ^ 2) / (INR d * INR n)) by (apply Rmult_le_compat_r; lra).
        lra. }
    assert (HPa : forall i s, (i <= m)%nat -> qinv i s -> exists s', mtd_update_parameters fuel ct k s = Ok s' /\ qinv i s'
        /\ mtd_evaluate_cost ct k s' <= mtd_evaluate_cost ct k s).
    { intros i s Hi Hs. pose proof Hs as ((J1 & J2 & J3 & J4 & J5 & J6) & A1 & A2 & A3 & HB). destruct (Hone _ J4) as [m0 Em].
      destruct (HM3 fuel k s ltac:(lia)) as [s' E]; [rewrite Em; discriminate|].
      exists s'. split; [exact E|]. split; [eapply mparameters_step_bound; eassumption|].
      destruct (J6 Logic.I) as [JO JT].
      eapply (mtd_parameters_never_increase n d k X fuel ct s s' m0 am); try eassumption.
      - apply J5, Logic.I.
      - cbn. lra.
      - apply mtau_bound; [exact Ht | exact CP3]. }
    assert (Hnb : forall i a b, b <= a -> cost_increased (mc_monotone ct) i a b = false).
    { intros i a b Hab. unfold cost_increased. numR. rewrite (proj2 (Rltb_false _ _)) by lra. reflexivity. }
    assert (Hlift : forall i s, qinv i s -> qinv (S i) s).
    { intros i s (P1 & P2 & P3 & P4 & P5). split; [exact P1|]. split; [exact P2|]. split; [exact P3|]. split; [exact P4|].
      intros a b Ia Ib. eapply Rle_trans; [apply P5; assumption | apply (Bseq_mono n d k gc x B0); lia || assumption]. }
    apply (iterate_loop_total_idx (mtd_evaluate_cost ct k) (cost_increased (mc_monotone ct)) _ tol qinv m); [|lia | exact HP].
    intros i s Hi Hs.
    assert (S1 : exists s1, qinv (S i) s1 /\ mtd_evaluate_cost ct k s1 <= mtd_evaluate_cost ct k s
       /\ forall rest, run_updates (mtd_evaluate_cost ct k) (cost_increased (mc_monotone ct) i (mtd_evaluate_cost ct k s))
            (enabled ud (mtd_update_dictionary fuel ct k) ++ rest) s (mtd_evaluate_cost ct k s)
          = run_updates (mtd_evaluate_cost ct k) (cost_increased (mc_monotone ct) i (mtd_evaluate_cost ct k s)) rest s1 (mtd_evaluate_cost ct k s1)).
    { destruct ud; [|exists s; split; [auto|]; split; [lra | reflexivity]].
      destruct (HD i s ltac:(lia) Hs) as (s1 & E1 & P1 & L1). exists s1. split; [exact P1|]. split; [exact L1|].
      intros rest. cbn [enabled app run_updates]. rewrite E1; cbn [bind]. rewrite Hnb by exact L1. reflexivity. }
    destruct S1 as (s1 & P1 & L1 & R1). rewrite R1.
    assert (S2 : exists s2, qinv (S i) s2 /\ mtd_evaluate_cost ct k s2 <= mtd_evaluate_cost ct k s
       /\ forall rest, run_updates (mtd_evaluate_cost ct k) (cost_increased (mc_monotone ct) i (mtd_evaluate_cost ct k s))
            (enabled uw (mtd_update_weights fuel ct k) ++ rest) s1 (mtd_evaluate_cost ct k s1)
          = run_updates (mtd_evaluate_cost ct k) (cost_increased (mc_monotone ct) i (mtd_evaluate_cost ct k s)) rest s2 (mtd_evaluate_cost ct k s2)).
    { destruct uw; [|exists s1; split; [auto|]; split; [lra | reflexivity]].
      destruct (HW (S i) s1 ltac:(lia) P1) as (s2 & E2 & P2 & L2). exists s2. split; [exact P2|]. split; [lra|].
      intros rest. cbn [enabled app run_updates]. rewrite E2; cbn [bind]. rewrite Hnb by lra. reflexivity. }
    destruct S2 as (s2 & P2 & L2 & R2). rewrite R2.
    destruct up; cbn [enabled run_updates]; [|eauto].
    destruct (HPa (S i) s2 ltac:(lia) P2) as (s3 & E3 & P3 & L3). rewrite E3; cbn [bind]. rewrite Hnb by lra. eauto.
  Qed.
End MNoGuard.

(** ** whole fits *)
Lemma start_qinv c data W D ow Ts n d k x B : is_mat n d data -> is_mat n k W -> is_mat k d D -> length ow = n_lags c -> is_stack (n_lags c) k Ts ->
  row_stochastic W -> prob_vec ow -> stack_stochastic Ts -> entries_le D B ->
  qinv n d k data c x B 0 (mtd_initialize_workspace c data W D ow Ts).
Proof.
  intros HX HW HD HO HT SW SO ST HB. pose proof (start_minv c data W D ow Ts n d k HX HW HD HO HT) as (A1 & A2 & A3 & A4 & A5 & A6).
  split; [split; [exact A1|]; split; [exact A2|]; split; [exact A3|]; split; [exact A4|]; split; intros _; auto|].
  cbn [mtd_initialize_workspace m_alpha_S m_alpha_Gamma m_alpha_parameters m_S]. pose proof (amax_pos (gc_of c)). numR.
  split; [lra|]. split; [lra|]. split; [lra | exact HB].
Qed.
Lemma mtd_convex_coding_start {T} {N : Num T} (o : mtd T) data Din Win ow Ts ud uw up kw k m t D W ow0 Ts0 g' r fuel :
  comp_count (mo_n_components o) (nc data) k -> (0 < k)%nat -> mc_lags (mo_cfg o) <> [] ->
  mc_max_iterations (mo_cfg o) = PInt (Z.of_nat m) -> (0 < m)%nat -> tol_value (mc_tolerance (mo_cfg o)) t ->
  mtd_choose_initial (mo_cfg o) k data Din Win ow Ts ud uw up kw (mo_rng o) = Ok (D, W, ow0, Ts0, g') ->
  mtd_iterate fuel (mo_cfg o) k ud uw up t m (mtd_initialize_workspace (mo_cfg o) data W D ow0 Ts0) = Ok r ->
  exists r' w, mtd_convex_coding fuel o data Din Win ow Ts ud uw up kw = Ok r' /\ mo_ws (mr_obj r') = Some w.
Proof.
  intros Hc Hk Hl Hm1 Hm2 Ht E1 E2. apply comp_count_resolve in Hc. unfold mtd_convex_coding.
  rewrite Hc, Hm1, (check_params_total k m _ t) by assumption. cbn [bind]. rewrite E1; cbn [bind].
  unfold check_max_lag. destruct (mc_lags (mo_cfg o)); [congruence|]. cbn [bind].
  rewrite E2. cbn [bind]. destruct r as [[[w2 cost] n_iter] log]. do 2 eexists. split; reflexivity.
Qed.

Lemma mtd_fit_no_guard c n d k m tl data Din Win ow Ts ud uw up kw g :
  is_mat n d data -> (max_lag c < n)%nat -> (0 < d)%nat -> (0 < k)%nat -> (0 < m)%nat -> mc_lags c <> [] ->
  mc_max_iterations c = PInt (Z.of_nat m) -> tol_value (mc_tolerance c) tl ->
  wf_opt Din -> wf_opt Win -> wf_stack_opt Ts -> stochastic_opt Win -> prob_opt ow -> stochastic_stack_opt Ts ->
  rng_ok k g -> mrng_ok (n_lags c) k g ->
  0 <= mc_eps_states c -> 0 <= mc_eps_weights c ->
  0 < ls_sigma_one (mc_ls c) -> ls_sigma_two (mc_ls c) < 1 -> 0 <= ls_gamma (mc_ls c) < 1 ->
  0 < ls_alpha_min (mc_ls c) <= ls_alpha_max (mc_ls c) -> mc_memory c = 1%nat ->
  exists tau, 0 < tau /\ forall t, 0 < t <= tau -> exists M, forall fuel, (M <= fuel)%nat ->
    forall o, mo_cfg o = mtd_with_step_tol c t -> comp_count (mo_n_components o) d k -> mo_rng o = g ->
    match mtd_choose_initial c k data Din Win ow Ts ud uw up kw g with
    | Ok _ => exists r, mtd_fit_transform fuel o data Din Win ow Ts ud uw up kw = Ok r
    | Raise e => mtd_fit_transform fuel o data Din Win ow Ts ud uw up kw = Raise e
    end.
Proof.
  intros HX Hn Hd Hk Hm Hl Em Et WD WW WT SW SO ST Hr Hr2 He1 He2 H1 H2 Hg Ha Hmem.
  assert (Ed : nc data = d) by apply HX. assert (En : nr data = n) by apply HX.
  destruct (mtd_choose_initial c k data Din Win ow Ts ud uw up kw g) as [[[[[D W] ow0] Ts0] g']|e] eqn:E1.
  - pose proof E1 as E1'. apply mtd_choose_initial_ok in E1'; try assumption. rewrite En, Ed in E1'.
    destruct E1' as (HD & HW & HO & HT & _ & B1 & B2). specialize (B1 SW Hr). destruct (B2 SO ST Hr2) as [B3 B4].
    destruct (entries_bound_ex data) as (x & Hx0 & Hx). destruct (entries_bound_ex D) as (B & HB0 & HB).
    exists (mtau n d k m c x B). split; [apply mtau_pos; assumption|].
    intros t Ht. destruct (mtd_iterate_no_guard n d k m data c x B HX Hn Hd Hk Hl He1 He2 Hx Hx0 HB0 H1 H2 Hg Ha Hmem t Ht) as [M HM].
    exists M. intros fuel Hf o Eo Ec Eg.
    destruct (HM fuel Hf ud uw up tl (mtd_initialize_workspace c data W D ow0 Ts0)) as [r E2]; [apply start_qinv; assumption|].
    destruct (mtd_convex_coding_start o data Din Win ow Ts ud uw up kw k m tl D W ow0 Ts0 g' r fuel) as (r' & w & E3 & E4);
      rewrite ?Eo; try assumption; [rewrite Ed; exact Ec | rewrite Eg; exact E1|].
    unfold mtd_fit_transform. rewrite E3. cbn [bind]. rewrite E4. eauto.
  - exists 1. split; [lra|]. intros t Ht. exists 0%nat. intros fuel _ o Eo Ec Eg. apply comp_count_resolve in Ec.
    unfold mtd_fit_transform, mtd_convex_coding. rewrite Ed, Ec, Eo, Eg. cbn [mc_max_iterations mc_tolerance mtd_with_step_tol].
    rewrite Em, (check_params_total k m _ tl) by assumption. cbn [bind].
    change (mtd_choose_initial (mtd_with_step_tol c t) k data Din Win ow Ts ud uw up kw g) with (mtd_choose_initial c k data Din Win ow Ts ud uw up kw g).
    rewrite E1. reflexivity.
Qed.

(** ** usable starting values *)
Lemma check_init_order_weights_prob (ow : list R) p : length ow = p -> prob_vec ow -> check_init_order_weights (Some ow) p = Ok ow.
Proof.
  intros L [_ S]. unfold check_init_order_weights. rewrite L, Nat.eqb_refl. unfold check_unit_vec_sum.
  replace (isclose_one (vsum ow)) with true; [reflexivity|]. symmetry. apply isclose_one_R. unfold close1, vsum.
  rewrite nsum_Sum. change (Sum (length ow) (vget ow)) with (Sum (length ow) (at_ ow)). rewrite S.
  rewrite Rminus_diag_eq by reflexivity. rewrite Rabs_R0. lra.
Qed.
Lemma check_init_transition_stochastic (Ts : list (mat R)) p k : is_stack p k Ts -> stack_stochastic Ts ->
  check_init_transition_matrices (Some Ts) p k = Ok Ts.
Proof.
  intros [L HT] S. unfold check_init_transition_matrices. rewrite L, Nat.eqb_refl. cbn [andb].
  assert (Q : forall M, In M Ts -> is_mat k k M /\ col_stochastic M).
  { intros M I. apply (In_nth _ _ (mkmat 0 0 [])) in I. destruct I as (i & Hi & <-). split; [apply HT; lia | apply S, Hi]. }
  replace (forallb (fun M => andb (Nat.eqb (nr M) k) (Nat.eqb (nc M) k)) Ts) with true.
  2:{ symmetry. apply forallb_forall. intros M I. destruct (Q M I) as [(e1 & e2 & _) _]. rewrite e1, e2, Nat.eqb_refl. reflexivity. }
  replace (forallb (fun M => match check_unit_col_sums M with Ok _ => true | Raise _ => false end) Ts) with true; [reflexivity|].
  symmetry. apply forallb_forall. intros M I. destruct (Q M I) as [_ C]. rewrite (proj2 (check_unit_col_sums_ok M)); [reflexivity|].
  intros j Hj. unfold close1. destruct (C j Hj) as [_ E]. rewrite E. rewrite Rminus_diag_eq by reflexivity. rewrite Rabs_R0. lra.
Qed.
(** random initialisation without further keyword arguments, or valid user-supplied values *)
Definition mtd_start_ready (init : init_method) (p n d k : nat) (Din Win : option (mat R)) (ow : option (list R)) (Ts : option (list (mat R)))
  (kw : option fs_kwargs) : Prop :=
  ((init = InitNone \/ init = InitRandom) /\ kw = None) \/
  (init = InitCustom /\ exists W D o M, Win = Some W /\ Din = Some D /\ ow = Some o /\ Ts = Some M
     /\ is_mat n k W /\ row_stochastic W /\ is_mat k d D /\ length o = p /\ prob_vec o /\ is_stack p k M /\ stack_stochastic M).
Lemma mtd_choose_ready c k data n d Din Win ow Ts kw (g : rng R) : is_mat n d data ->
  mtd_start_ready (mc_init c) (n_lags c) n d k Din Win ow Ts kw ->
  exists r, mtd_choose_initial c k data Din Win ow Ts true true true kw g = Ok r.
Proof.
  intros (x1 & x2 & _) [[HI ->]|(EI & W & D & o & M & -> & -> & -> & -> & HW & SW & HD & LO & PO & HM & SM)]; unfold mtd_choose_initial.
  - assert (Q : forall g : rng R, exists o M g', initialize_parameters_random k (n_lags c) g = (o, M, g')).
    { intros g0. destruct (initialize_parameters_random k (n_lags c) g0) as [[o M] g']. eauto. }
    destruct HI as [EI|EI]; rewrite EI; unfold initialize_dictionary, initialize_weights, initialize_parameters; cbn [bind fst snd];
      match goal with |- context [initialize_parameters_random k (n_lags c) ?g0] => destruct (Q g0) as (o & M & g' & ->) end; eauto.
  - rewrite EI, x1, x2, check_init_weights_stochastic by assumption. cbn [bind].
    rewrite (proj2 (check_init_dictionary_iff Num_R D k d (all_finite_R D))) by (split; apply HD). cbn [bind].
    rewrite check_init_order_weights_prob by assumption. cbn [bind].
    rewrite check_init_transition_stochastic by assumption. cbn [bind]. eauto.
Qed.

(** ** transform *)
Lemma mtd_choose_transform_ok c k data n d S ow Ts (g : rng R) : is_mat n d data -> is_mat k d S -> transform_init (mc_init c) ->
  length ow = n_lags c -> prob_vec ow -> is_stack (n_lags c) k Ts -> stack_stochastic Ts ->
  rng_ok k g -> exists W g', mtd_choose_initial c k data (Some S) None (Some ow) (Some Ts) false true false None g = Ok (S, W, ow, Ts, g')
    /\ is_mat n k W /\ row_stochastic W.
Proof.
  intros (x1 & x2 & x3) HS Hi LO PO HT ST Hg. unfold mtd_choose_initial.
  assert (E : check_init_dictionary (Some S) k (nc data) = Ok S).
  { apply (check_init_dictionary_iff Num_R); [apply all_finite_R|]. rewrite x2. split; apply HS. }
  exists (fst (right_stochastic_matrix (nr data) k g)), (snd (right_stochastic_matrix (nr data) k g)).
  rewrite <- x1. split; [|apply right_stochastic_rng, Hg].
  destruct Hi as [->|[->| ->]]; rewrite E; cbn [bind fst snd]; unfold initialize_weights; cbn [bind];
    rewrite check_init_order_weights_prob by assumption; cbn [bind];
    rewrite check_init_transition_stochastic by assumption; reflexivity.
Qed.
Lemma mtd_transform_no_guard c n d k m tl data S ow Ts g : is_mat n d data -> is_mat k d S ->
  length ow = n_lags c -> prob_vec ow -> is_stack (n_lags c) k Ts -> stack_stochastic Ts ->
  (max_lag c < n)%nat -> (0 < d)%nat -> (0 < k)%nat -> (0 < m)%nat -> mc_lags c <> [] ->
  mc_max_iterations c = PInt (Z.of_nat m) -> tol_value (mc_tolerance c) tl -> transform_init (mc_init c) -> rng_ok k g ->
  0 <= mc_eps_weights c ->
  0 < ls_sigma_one (mc_ls c) -> ls_sigma_two (mc_ls c) < 1 -> 0 <= ls_gamma (mc_ls c) <= 1 ->
  0 < ls_alpha_min (mc_ls c) <= ls_alpha_max (mc_ls c) -> mc_memory c = 1%nat ->
  0 < ls_step_tol (mc_ls c) <= ls_sigma_one (mc_ls c) ->
  ls_step_tol (mc_ls c) * (2 * Rmax 1 (ls_alpha_max (mc_ls c)) * mcurv_w c n d k S) <= 1 - ls_gamma (mc_ls c) ->
  exists M, forall fuel, (M <= fuel)%nat -> forall o w, mo_cfg o = c -> comp_count (mo_n_components o) d k -> mo_rng o = g ->
    mo_ws o = Some w -> m_S w = S -> m_order_weights w = ow -> m_transition_matrices w = Ts ->
    exists r, mtd_transform fuel o data = Ok r.
Proof.
  intros HX HS LO PO HT ST Hn Hd Hk Hm Hl Em Et Hi Hg He H1 H2 Hga Ha Hmem Hts Hb.
  destruct (mtd_choose_transform_ok c k data n d S ow Ts g HX HS Hi LO PO HT ST Hg) as (W & g' & E1 & HW & SW).
  assert (Hv : ls_valid (mc_ls c)) by (repeat split; [exact H1 | exact H2 | apply Hts]).
  destruct (mtd_update_weights_total c Hv) as [M HM].
  exists M. intros fuel Hf o w Eo Ec Eg Ew ES EO ET.
  set (P := fun (_ : nat) (s : mws R) => minv c n d k data True True s /\ m_S s = S /\ 0 < m_alpha_Gamma s <= Rmax 1 (ls_alpha_max (mc_ls c))).
  set (st := mtd_initialize_workspace c data W S ow Ts).
  assert (H0 : P 0%nat st).
  { pose proof (start_minv c data W S ow Ts n d k HX HW HS LO HT) as (A1 & A2 & A3 & A4 & A5 & A6).
    split; [split; [exact A1|]; split; [exact A2|]; split; [exact A3|]; split; [exact A4|]; split; intros _; auto|]. split; [reflexivity|].
    cbn [st mtd_initialize_workspace m_alpha_Gamma]. pose proof (Rmax_l 1 (ls_alpha_max (mc_ls c))). numR. lra. }
  destruct (iterate_loop_total_idx (mtd_evaluate_cost c k) (cost_increased (mc_monotone c)) [mtd_update_weights fuel c k] tl P m) with
    (left := m) (n := 0%nat) (st := st) (log := [mtd_evaluate_cost c k st]) as [r E2]; [|lia | exact H0 |].
  - intros i s Hi2 ((J1 & J2 & J3 & J4 & J5 & J6) & ESs & Ha2). cbn [run_updates].
    assert (exists m0, m_f_Gamma_mem s = [m0]) as [m0 Emm].
    { rewrite Hmem in J3. destruct (m_f_Gamma_mem s) as [|m0 [|]]; cbn in J3; try lia. eauto. }
    destruct (HM fuel k s Hf) as [s' E]; [rewrite Emm; discriminate|]. rewrite E; cbn [bind]. destruct (J6 Logic.I) as [JO JT].
    assert (L : mtd_evaluate_cost c k s' <= mtd_evaluate_cost c k s).
    { eapply (mtd_weights_never_increase n d k data fuel c s s' m0); try eassumption; [apply J5, Logic.I|]. rewrite ESs. exact Hb. }
    unfold cost_increased at 1. replace (nltb (mtd_evaluate_cost c k s) (mtd_evaluate_cost c k s')) with false
      by (symmetry; numR; apply Rltb_false; lra). cbn [andb].
    eexists s', _. split; [reflexivity|]. split; [reflexivity|].
    assert (I' : minv c n d k data True True s').
    { apply (minv_updates c n d k data True True false true true fuel Hk Hl H1 H2 (mtd_update_weights fuel c k) s s');
        [left; reflexivity | exact (conj J1 (conj J2 (conj J3 (conj J4 (conj J5 J6))))) | exact E]. }
    split; [exact I'|]. apply (mtd_update_weights_inv c n d k data) in E; try assumption.
    destruct E as (_ & G & b & mem & Es & _ & Hab & _). rewrite Es.
    cbn [m_S m_alpha_Gamma mtd_set_Gamma_mem mtd_set_Gamma mrefresh_w]. split; [exact ESs|].
    specialize (Hab ltac:(lra)). pose proof (Rmax_r 1 (ls_alpha_max (mc_ls c))). lra.
  - assert (Ed : nc data = d) by apply HX.
    destruct (mtd_convex_coding_start o data (Some S) None (Some ow) (Some Ts) false true false None k m tl S W ow Ts g' r fuel) as (r' & w2 & E3 & E4);
      rewrite ?Eo; try assumption; [rewrite Ed; exact Ec | rewrite Eg; exact E1|].
    unfold mtd_transform. rewrite Ew, ES, EO, ET, E3. cbn [bind]. rewrite E4. eauto.
Qed.

(** ** the parameter fit of the reduced-order model *)
Lemma crom_parameters_no_guard c : ls_valid (mc_ls c) -> mc_lags c <> [] -> mc_eps_weights c = 1 ->
  0 <= ls_gamma (mc_ls c) <= 1 -> 0 < ls_alpha_min (mc_ls c) <= ls_alpha_max (mc_ls c) -> mc_memory c = 1%nat ->
  0 < ls_step_tol (mc_ls c) <= ls_sigma_one (mc_ls c) ->
  exists M, forall fuel, (M <= fuel)%nat -> forall n k G t m g, (0 < k)%nat -> is_mat n k G -> (max_lag c < n)%nat ->
   row_stochastic G -> mrng_ok (n_lags c) k g ->
   ls_step_tol (mc_ls c) * (2 * Rmax 1 (ls_alpha_max (mc_ls c)) * ((3 * INR (n_lags c) + 10) / INR k)) <= 1 - ls_gamma (mc_ls c) ->
   exists r, crom_fit_parameters fuel c k n G t m g = Ok r.
Proof.
  intros Hv Hl E1 Hga Ha Hmem Hts. destruct (crom_update_total c Hv) as [M HM]. destruct Hv as (H1 & H2 & _).
  exists M. intros fuel Hf n k G t m g Hk HG Hn SG Hg Hb.
  unfold crom_fit_parameters. destruct (initialize_parameters_random k (n_lags c) g) as [[ow Ts] g'] eqn:E0.
  apply initialize_random_ok in E0. destruct E0 as (LO & HT & _ & S0). destruct (S0 Hg) as [SO ST].
  unfold check_max_lag. destruct (mc_lags c) as [|l0 ls] eqn:EL; [congruence|]. rewrite <- EL in Hl. cbn [bind].
  set (P := fun (_ : nat) (s : cws R) => cinv c n k G True s /\ 0 < cw_alpha s <= Rmax 1 (ls_alpha_max (mc_ls c))).
  set (st := crom_initialize_workspace c G ow Ts).
  assert (H0 : P 0%nat st).
  { pose proof (start_cinv c k n G ow Ts HG LO HT) as (A1 & A2 & A3).
    split; [split; [exact A1|]; split; [exact A2|]; intros _; auto|].
    cbn [st crom_initialize_workspace cw_alpha]. pose proof (Rmax_l 1 (ls_alpha_max (mc_ls c))). numR. lra. }
  destruct (iterate_loop_total_idx (crom_fit_residual c k n G) (cost_increased (mc_monotone c)) [crom_update_parameters fuel c k n G] t P m) with
    (left := m) (n := 0%nat) (st := st) (log := [crom_fit_residual c k n G st]) as [r E2]; [|lia | exact H0 |].
  - intros i s Hi2 ((J1 & J2 & J3) & Ha2). cbn [run_updates].
    assert (exists m0, cw_mem s = [m0]) as [m0 Emm].
    { rewrite Hmem in J2. destruct (cw_mem s) as [|m0 [|]]; cbn in J2; try lia. eauto. }
    destruct (HM fuel k n G s Hf) as [s' E]; [rewrite Emm; discriminate|]. rewrite E; cbn [bind]. destruct (J3 Logic.I) as [JO JT].
    assert (L : crom_fit_residual c k n G s' <= crom_fit_residual c k n G s).
    { eapply (crom_never_increase n k G fuel c s s' m0); try eassumption. }
    unfold cost_increased at 1. replace (nltb (crom_fit_residual c k n G s) (crom_fit_residual c k n G s')) with false
      by (symmetry; numR; apply Rltb_false; lra). cbn [andb].
    eexists s', _. split; [reflexivity|]. split; [reflexivity|].
    split; [eapply crom_update_inv; try eassumption; exact (conj J1 (conj J2 J3))|].
    destruct (crom_update_ok c n k G fuel s s' J1 H1 H2 E) as (s0 & b & _ & _ & -> & Hab). cbn [cw_alpha].
    specialize (Hab ltac:(lra)). pose proof (Rmax_r 1 (ls_alpha_max (mc_ls c))). lra.
  - unfold iterate. fold st. rewrite E2. cbn [bind]. destruct r as [[[w2 cost] n_iter] log]. eauto.
Qed.
