(** Projected-gradient steps of the order weights and the transition matrices. *)
From Coq Require Import List Arith Lia Reals Lra.
From Verif Require Import Num Mat Spec M_simplex M_gpnh M_mtd P_lin P_simplex P_mat P_gpnh P_mtd P_mtd_upd P_opt.
Import ListNotations.
Local Open Scope R_scope.

(** a convex function on a set, a projected point and its slope *)
Lemma stationary_abstract {T : Type} (C : T -> Prop) (f lin q : T -> R) (w p : T) (a dd : R) (same : Prop) :
  0 < a -> (forall v, C v -> f v = f w + lin v + q v) -> (forall v, C v -> 0 <= q v) ->
  (same -> forall v, C v -> 0 <= lin v) ->
  (forall s, 0 < s <= 1 -> exists v, C v /\ lin v = s * lin p /\ q v = s * s * q p) ->
  lin p <= - dd / a -> 0 <= dd -> (dd = 0 -> same) ->
  (same <-> forall v, C v -> f w <= f v).
Proof.
  intros Ha E Q0 VI Seg SL D0 DS. split.
  - intros S v Hv. rewrite (E v Hv). pose proof (Q0 v Hv). pose proof (VI S v Hv). lra.
  - intros O. apply DS.
    assert (F : 0 <= lin p).
    { apply (first_order _ (q p)). intros s Hs. destruct (Seg s Hs) as (v & Hv & E1 & E2).
      pose proof (O v Hv) as L. rewrite (E v Hv), E1, E2 in L. lra. }
    assert (0 <= dd / a) by (apply Rmult_le_pos; [exact D0|left; apply Rinv_0_lt_compat; exact Ha]).
    assert (Z : dd / a = 0) by (unfold Rdiv in *; lra).
    replace dd with (dd / a * a) by (field; lra). rewrite Z. ring.
Qed.

(** ** vectors *)
Lemma vdot_zero v : vdot v v = 0 -> forall i, (i < length v)%nat -> at_ v i = 0.
Proof.
  intros H i Hi. unfold vdot in H.
  assert (N : forall j, (j < length v)%nat -> 0 <= at_ v j * at_ v j) by (intros; nra).
  pose proof (Sum_ge_term (length v) (fun j => at_ v j * at_ v j) i N Hi) as L. cbv beta in L. rewrite H in L. nra.
Qed.
Lemma vdot_self_nonneg v : 0 <= vdot v v.
Proof. apply Sum_nonneg; intros; nra. Qed.

Section Vector.
  Variables (p : nat) (w g : list R) (a : R).
  Hypothesis Hw : length w = p.
  Hypothesis Hg : length g = p.
  Hypothesis Hp : (0 < p)%nat.
  Hypothesis Ha : 0 < a.
  Hypothesis Sw : prob_vec w.
  Let P := @simplex_project_vector R Num_R (vsub w (vscale a g)).
  Let dir := @vsub R Num_R P w.
  Lemma vP_length : length P = p.
  Proof using Hw. unfold P. rewrite proj_length. unfold vsub, vmap2. rewrite length_tab. exact Hw. Qed.
  Lemma vdir_length : length dir = p.
  Proof using Hw. unfold dir, vsub, vmap2. rewrite length_tab. apply vP_length. Qed.
  Lemma vP_prob : prob_vec P.
  Proof using Hw Hp.
    clear Hg.
    apply proj_prob. intros E. apply (f_equal (@length R)) in E. unfold vsub, vmap2 in E. rewrite length_tab in E. cbn in E. lia.
  Qed.
  Lemma v_vi v : length v = p -> prob_vec v ->
    0 <= Sum p (fun i => (at_ w i - a * at_ g i - at_ P i) * (at_ P i - at_ v i)).
  Proof using Hw Hg Hp.
    intros Lv Pv. set (x := @vsub R Num_R w (vscale a g)).
    assert (Lx : length x = p) by (unfold x, vsub, vmap2; rewrite length_tab; exact Hw).
    assert (Nx : x <> []) by (intros E; rewrite E in Lx; cbn in Lx; lia).
    pose proof (proj_vi x v Nx ltac:(lia) Pv) as V. rewrite Lx in V. eapply Rle_trans; [exact V|]. right.
    apply Sum_ext; intros i Hi. unfold x at 1. rewrite at_vsub by lia. rewrite at_vscale by lia. reflexivity.
  Qed.
  (** the direction is a descent direction *)
  Lemma v_direction : vdot g dir <= - vdot dir dir / a.
  Proof using Hw Hg Hp Ha Sw.
    pose proof (v_vi w Hw Sw) as V. unfold vdot. rewrite Hg, vdir_length.
    assert (E : Sum p (fun i => (at_ w i - a * at_ g i - at_ P i) * (at_ P i - at_ w i))
       = - Sum p (fun i => at_ dir i * at_ dir i) - a * Sum p (fun i => at_ g i * at_ dir i)).
    { rewrite <- Sum_scal_l. replace (- Sum p (fun i => at_ dir i * at_ dir i)) with (Sum p (fun i => - 1 * (at_ dir i * at_ dir i)))
        by (rewrite Sum_scal_l; ring). rewrite <- Sum_minus. apply Sum_ext; intros i Hi. unfold dir.
      rewrite at_vsub by (rewrite vP_length; exact Hi). ring. }
    rewrite E in V. apply Rmult_le_reg_l with a; [exact Ha|].
    replace (a * (- Sum p (fun i => at_ dir i * at_ dir i) / a)) with (- Sum p (fun i => at_ dir i * at_ dir i)) by (field; lra). lra.
  Qed.
  Lemma v_step_zero s : 0 < s -> (@vadd R Num_R w (vscale s dir) = w <-> forall i, (i < p)%nat -> at_ dir i = 0).
  Proof using Hw.
    clear Hg Hp. intros Hs. pose proof vdir_length as Ld. split.
    - intros E i Hi. apply (f_equal (fun x => at_ x i)) in E. rewrite at_vadd, at_vscale in E by lia.
      assert (Z : s * at_ dir i = 0) by lra. apply Rmult_integral in Z. destruct Z; [lra|assumption].
    - intros Z. apply nth_ext with 0 0; [unfold vadd, vmap2; apply length_tab|]. intros i Hi. unfold vadd at 1, vmap2 in Hi. rewrite length_tab in Hi.
      change (at_ (@vadd R Num_R w (vscale s dir)) i = at_ w i). rewrite at_vadd, at_vscale, Z by lia. ring.
  Qed.
  Lemma stationary_vector (f : list R -> R) (Q : list R -> R) :
    (forall h, length h = p -> 0 <= Q h) -> (forall s h, length h = p -> Q (@vscale R Num_R s h) = s * s * Q h) ->
    (forall h, length h = p -> f (@vadd R Num_R w h) = f w + vdot g h + Q h) ->
    ((forall i, (i < p)%nat -> at_ dir i = 0) <-> (forall v, length v = p -> prob_vec v -> f w <= f v)).
  Proof using Hw Hg Hp Ha Sw.
    intros Q0 Q2 EQ. pose proof vdir_length as Ld. pose proof vP_length as LP.
    assert (Lsub : forall v, length v = p -> length (@vsub R Num_R v w) = p) by (intros v Lv; unfold vsub, vmap2; rewrite length_tab; exact Lv).
    assert (Esub : forall v, length v = p -> @vadd R Num_R w (vsub v w) = v).
    { intros v Lv. apply nth_ext with 0 0; [unfold vadd, vmap2; rewrite length_tab; congruence|]. intros i Hi.
      unfold vadd at 1, vmap2 in Hi. rewrite length_tab in Hi.
      change (at_ (@vadd R Num_R w (vsub v w)) i = at_ v i). rewrite at_vadd, at_vsub by lia. ring. }
    rewrite (stationary_abstract (fun v => length v = p /\ prob_vec v) f (fun v => vdot g (@vsub R Num_R v w)) (fun v => Q (@vsub R Num_R v w))
      w P a (vdot dir dir) (forall i, (i < p)%nat -> at_ dir i = 0) Ha).
    - split; [intros H v Lv Pv; apply H; split; assumption | intros H v [Lv Pv]; apply H; assumption].
    - intros v [Lv Pv]. rewrite <- (Esub v Lv) at 1. apply EQ, Lsub, Lv.
    - intros v [Lv Pv]. apply Q0, Lsub, Lv.
    - intros Z v [Lv Pv]. pose proof (v_vi v Lv Pv) as V.
      assert (E : Sum p (fun i => (at_ w i - a * at_ g i - at_ P i) * (at_ P i - at_ v i)) = a * vdot g (@vsub R Num_R v w)).
      { unfold vdot. rewrite Hg, <- Sum_scal_l. apply Sum_ext; intros i Hi. rewrite at_vsub by lia. specialize (Z i Hi). unfold dir in Z.
        rewrite at_vsub in Z by lia. replace (at_ P i) with (at_ w i) by lra. ring. }
      rewrite E in V. apply Rmult_le_reg_l with a; lra.
    - intros s Hs. exists (@vadd R Num_R w (vscale s dir)).
      assert (Ls : length (@vadd R Num_R w (vscale s dir)) = p) by (unfold vadd, vmap2; rewrite length_tab; exact Hw).
      assert (Es : @vsub R Num_R (vadd w (vscale s dir)) w = vscale s dir).
      { apply nth_ext with 0 0; [rewrite Lsub by exact Ls; unfold vscale; rewrite map_length; congruence|]. intros i Hi. rewrite Lsub in Hi by exact Ls.
        change (at_ (@vsub R Num_R (vadd w (vscale s dir)) w) i = at_ (@vscale R Num_R s dir) i).
        rewrite at_vsub, at_vadd by lia. ring. }
      split; [split; [exact Ls|]|].
      + apply prob_vec_step; [congruence|exact Sw|exact vP_prob|lra].
      + rewrite Es. fold dir. split; [|apply Q2, Ld]. unfold vdot. rewrite Hg, <- Sum_scal_l. apply Sum_ext; intros i Hi.
        rewrite at_vscale by lia. ring.
    - apply v_direction.
    - apply vdot_self_nonneg.
    - intros Z i Hi. apply vdot_zero; [exact Z|lia].
  Qed.
End Vector.

(** ** lists of matrices with stochastic columns *)
Lemma project_cols_vi k A W : is_mat k k A -> is_mat k k W -> col_stochastic W -> (0 < k)%nat ->
  0 <= SS k k (fun i j => (ent A i j - ent (@simplex_project_columns R Num_R A) i j)
                          * (ent (simplex_project_columns A) i j - ent W i j)).
Proof.
  intros HA HW SW Hk. pose proof HA as (a1 & a2 & _). pose proof HW as (w1 & w2 & _).
  assert (HAt : is_mat k k (@mtr R Num_R A)) by (rewrite <- a2 at 1; rewrite <- a1; apply (is_mat_mbuild (nc A) (nr A))).
  assert (HWt : is_mat k k (@mtr R Num_R W)) by (rewrite <- w2 at 1; rewrite <- w1; apply (is_mat_mbuild (nc W) (nr W))).
  assert (SWt : row_stochastic (@mtr R Num_R W)).
  { intros j Hj. pose proof HWt as (u1 & u2 & _). rewrite u1 in Hj. rewrite u2. destruct (SW j ltac:(lia)) as [S0 S1]. rewrite w1 in *. split.
    - intros i Hi. rewrite ent_mtr by lia. apply S0, Hi.
    - rewrite <- S1. apply Sum_ext; intros i Hi. rewrite ent_mtr by lia. reflexivity. }
  pose proof (project_rows_vi k k _ _ HAt HWt SWt Hk) as V. rewrite SS_swap. eapply Rle_trans; [exact V|]. right.
  pose proof (is_mat_project_cols k k A HA) as (p1 & p2 & _).
  rewrite <- project_cols_tr by (apply is_mat_wf in HA; apply HA).
  apply SS_ext; intros i j Hi Hj. rewrite !ent_mtr by lia. reflexivity.
Qed.
Lemma stack_ext p k A B : is_stack p k A -> is_stack p k B ->
  (forall i a b, (i < p)%nat -> (a < k)%nat -> (b < k)%nat -> tent A i a b = tent B i a b) -> A = B.
Proof.
  intros [LA SA] [LB SB] E. apply nth_ext with (mkmat 0 0 []) (mkmat 0 0 []); [congruence|]. intros i Hi. rewrite LA in Hi.
  apply mat_ext_R with k k; [apply SA, Hi|apply SB, Hi|]. intros a b Ha Hb. apply (E i a b Hi Ha Hb).
Qed.
Section Stack.
  Variables (p k : nat) (W g : list (mat R)) (a : R).
  Hypothesis HW : is_stack p k W.
  Hypothesis Hg : is_stack p k g.
  Hypothesis Hk : (0 < k)%nat.
  Hypothesis Ha : 0 < a.
  Hypothesis SW : stack_stochastic W.
  Let P := map (@simplex_project_columns R Num_R) (tsub W (tscale a g)).
  Let dir := @tsub R Num_R P W.
  Notation SSS f := (Sum p (fun i => SS k k (f i))).
  Lemma tP_stack : is_stack p k P /\ stack_stochastic P.
  Proof using HW Hk. apply project_stack_stochastic; [apply stack_tsub, HW|exact Hk]. Qed.
  Lemma tdir_stack : is_stack p k dir.
  Proof using HW Hk. apply stack_tsub, tP_stack. Qed.
  Lemma t_vi V : is_stack p k V -> stack_stochastic V ->
    0 <= SSS (fun i x y => (tent W i x y - a * tent g i x y - tent P i x y) * (tent P i x y - tent V i x y)).
  Proof using HW Hg Hk.
    intros HV SV. apply Sum_nonneg; intros i Hi.
    pose proof (stack_tsub p k W (tscale a g) HW) as HA. pose proof HA as [LA SA]. pose proof HV as [LV SV'].
    pose proof (project_cols_vi k _ _ (SA i Hi) (SV' i Hi) (SV i ltac:(lia)) Hk) as I. eapply Rle_trans; [exact I|]. right.
    apply SS_ext; intros x y Hx Hy.
    assert (E1 : ent (simplex_project_columns (nth i (tsub W (tscale a g)) (mkmat 0 0 []))) x y = tent P i x y).
    { unfold tent, P. rewrite tmat_map by lia. reflexivity. }
    rewrite E1. change (ent (nth i (tsub W (tscale a g)) (mkmat 0 0 [])) x y) with (tent (@tsub R Num_R W (tscale a g)) i x y).
    rewrite (tent_tsub p k) by assumption. rewrite (tent_tscale p k) by assumption. reflexivity.
  Qed.
  Lemma t_dir_ent i x y : (i < p)%nat -> (x < k)%nat -> (y < k)%nat -> tent dir i x y = tent P i x y - tent W i x y.
  Proof using HW Hk. intros Hi Hx Hy. apply (tent_tsub p k); try assumption. apply tP_stack. Qed.
  Lemma SSS_scal c f : SSS (fun i x y => c * f i x y) = c * SSS f.
  Proof. rewrite <- Sum_scal_l. apply Sum_ext; intros i _. apply SS_scal. Qed.
  Lemma SSS_ext f h : (forall i x y, (i < p)%nat -> (x < k)%nat -> (y < k)%nat -> f i x y = h i x y) -> SSS f = SSS h.
  Proof. intros E. apply Sum_ext; intros i Hi. apply SS_ext; intros. apply E; assumption. Qed.
  Lemma t_direction : stack_dot g dir <= - stack_dot dir dir / a.
  Proof using HW Hg Hk Ha SW.
    pose proof (t_vi W HW SW) as V. rewrite !(stack_dot_tent p k) by (apply Hg || apply tdir_stack).
    set (D := SSS (fun i x y => tent dir i x y * tent dir i x y)). set (L := SSS (fun i x y => tent g i x y * tent dir i x y)).
    assert (E : SSS (fun i x y => (tent W i x y - a * tent g i x y - tent P i x y) * (tent P i x y - tent W i x y)) = - D - a * L).
    { unfold D, L. rewrite <- SSS_scal.
      replace (- SSS (fun i x y => tent dir i x y * tent dir i x y)) with (SSS (fun i x y => - 1 * (tent dir i x y * tent dir i x y)))
        by (rewrite SSS_scal; ring). rewrite <- Sum_minus. apply Sum_ext; intros i Hi. rewrite <- SS_minus. apply SS_ext; intros x y Hx Hy.
      rewrite t_dir_ent by assumption. ring. }
    cbv beta in V, E. rewrite E in V. apply Rmult_le_reg_l with a; [exact Ha|]. replace (a * (- D / a)) with (- D) by (field; lra). lra.
  Qed.
  Lemma t_step_zero s : 0 < s ->
    (@tadd R Num_R W (tscale s dir) = W <-> forall i x y, (i < p)%nat -> (x < k)%nat -> (y < k)%nat -> tent dir i x y = 0).
  Proof using HW Hk.
    intros Hs. pose proof tdir_stack as Hd. split.
    - intros E i x y Hi Hx Hy. apply (f_equal (fun M => tent M i x y)) in E. rewrite (tent_tadd p k) in E by assumption.
      rewrite (tent_tscale p k) in E by assumption. assert (Z : s * tent dir i x y = 0) by lra. apply Rmult_integral in Z. destruct Z; [lra|assumption].
    - intros Z. apply (stack_ext p k); [apply stack_tadd, HW|exact HW|]. intros i x y Hi Hx Hy.
      rewrite (tent_tadd p k), (tent_tscale p k), Z by assumption. ring.
  Qed.
  Lemma stationary_stack (f : list (mat R) -> R) (Q : list (mat R) -> R) :
    (forall h, is_stack p k h -> 0 <= Q h) -> (forall s h, is_stack p k h -> Q (@tscale R Num_R s h) = s * s * Q h) ->
    (forall h, is_stack p k h -> f (@tadd R Num_R W h) = f W + stack_dot g h + Q h) ->
    ((forall i x y, (i < p)%nat -> (x < k)%nat -> (y < k)%nat -> tent dir i x y = 0)
     <-> (forall V, is_stack p k V -> stack_stochastic V -> f W <= f V)).
  Proof using HW Hg Hk Ha SW.
    intros Q0 Q2 EQ. pose proof tdir_stack as Hd. destruct tP_stack as [HP SP].
    assert (Esub : forall V, is_stack p k V -> @tadd R Num_R W (tsub V W) = V).
    { intros V HV. apply (stack_ext p k); [apply stack_tadd, HW|exact HV|]. intros i x y Hi Hx Hy.
      rewrite (tent_tadd p k), (tent_tsub p k) by assumption. ring. }
    rewrite (stationary_abstract (fun V => is_stack p k V /\ stack_stochastic V) f (fun V => stack_dot g (@tsub R Num_R V W)) (fun V => Q (@tsub R Num_R V W))
      W P a (stack_dot dir dir) (forall i x y, (i < p)%nat -> (x < k)%nat -> (y < k)%nat -> tent dir i x y = 0) Ha).
    - split; [intros H V HV PV; apply H; split; assumption | intros H V [HV PV]; apply H; assumption].
    - intros V [HV PV]. rewrite <- (Esub V HV) at 1. apply EQ, stack_tsub, HV.
    - intros V [HV PV]. apply Q0, stack_tsub, HV.
    - intros Z V [HV PV]. pose proof (t_vi V HV PV) as I. rewrite (stack_dot_tent p k) by exact Hg. cbv beta in I.
      rewrite (SSS_ext _ (fun i x y => a * (tent g i x y * tent (@tsub R Num_R V W) i x y))), SSS_scal in I; [apply Rmult_le_reg_l with a; lra|].
      intros i x y Hi Hx Hy. rewrite (tent_tsub p k) by assumption. specialize (Z i x y Hi Hx Hy). rewrite t_dir_ent in Z by assumption.
      replace (tent P i x y) with (tent W i x y) by lra. ring.
    - intros s Hs. exists (@tadd R Num_R W (tscale s dir)).
      pose proof (stack_tadd p k W (tscale s dir) HW) as Ls.
      assert (Es : @tsub R Num_R (tadd W (tscale s dir)) W = tscale s dir).
      { apply (stack_ext p k); [apply stack_tsub, Ls|apply stack_tscale, Hd|]. intros i x y Hi Hx Hy.
        rewrite (tent_tsub p k), (tent_tadd p k) by assumption. ring. }
      split; [split; [exact Ls|]|].
      + apply (stack_stochastic_step p k); try assumption; lra.
      + rewrite Es. fold dir. split; [|apply Q2, Hd]. rewrite !(stack_dot_tent p k) by exact Hg. rewrite <- SSS_scal.
        apply SSS_ext; intros i x y Hi Hx Hy. rewrite (tent_tscale p k) by assumption. ring.
    - apply t_direction.
    - rewrite (stack_dot_tent p k) by exact Hd. apply Sum_nonneg; intros i Hi. apply SS_nonneg; intros; nra.
    - intros Z i x y Hi Hx Hy. rewrite (stack_dot_tent p k) in Z by exact Hd.
      assert (N : forall j, (j < p)%nat -> 0 <= SS k k (fun x y => tent dir j x y * tent dir j x y)) by (intros; apply SS_nonneg; intros; nra).
      pose proof (Sum_ge_term p (fun j => SS k k (fun x y => tent dir j x y * tent dir j x y)) i N Hi) as L. cbv beta in L. rewrite Z in L.
      pose proof (SS_zero_inv k k (fun x y => tent dir i x y * tent dir i x y) ltac:(intros; nra) ltac:(pose proof (N i Hi); lra) x y Hx Hy) as Z'.
      cbv beta in Z'. nra.
  Qed.
End Stack.

(** ** the objective of the MTD convex coding, in the order weights and in the transition matrices *)
Lemma fc_zero_M p k lg w Ts G t a : is_stack p k Ts -> (a < k)%nat -> fc p k lg w (tent (@tscale R Num_R 0 Ts)) G t a = 0.
Proof.
  intros HT Ha. rewrite (fc_ext p k lg w w _ (fun i a b => 0 * tent Ts i a b)); [rewrite fc_scale_M; ring|reflexivity|].
  intros i b Hi Hb. apply (tent_tscale p k); assumption.
Qed.
Lemma fc_zero_w p k lg w M G t a : length w = p -> fc p k lg (at_ (@vscale R Num_R 0 w)) M G t a = 0.
Proof.
  intros Hw. rewrite (fc_ext p k lg _ (fun i => 0 * at_ w i) _ M); [rewrite fc_scale_w; ring| |reflexivity].
  intros i Hi. apply at_vscale. lia.
Qed.
Lemma tadd_zero p k Ts : is_stack p k Ts -> @tadd R Num_R Ts (tscale 0 Ts) = Ts.
Proof.
  intros HT. apply (stack_ext p k); [apply stack_tadd, HT|exact HT|]. intros i x y Hi Hx Hy.
  rewrite (tent_tadd p k), (tent_tscale p k) by assumption. ring.
Qed.
Lemma vadd_zero w : @vadd R Num_R w (vscale 0 w) = w.
Proof.
  apply nth_ext with 0 0; [unfold vadd, vmap2; apply length_tab|]. intros i Hi. unfold vadd, vmap2 in Hi. rewrite length_tab in Hi.
  change (at_ (@vadd R Num_R w (vscale 0 w)) i = at_ w i). rewrite at_vadd, at_vscale by lia. ring.
Qed.
Lemma stack_dot_zero p k g Ts : is_stack p k g -> is_stack p k Ts -> stack_dot g (@tscale R Num_R 0 Ts) = 0.
Proof.
  intros Hg HT. rewrite (stack_dot_tent p k) by exact Hg. rewrite (Sum_ext p _ (fun _ => 0 * 0)); [rewrite Sum_scal_l; ring|].
  intros i Hi. rewrite (SS_ext k k _ (fun x y => 0 * 0)); [rewrite SS_scal; ring|]. intros x y Hx Hy.
  rewrite (tent_tscale p k) by assumption. ring.
Qed.
Lemma vdot_zero_r g w : length g = length w -> vdot g (@vscale R Num_R 0 w) = 0.
Proof.
  intros Hg. unfold vdot. rewrite (Sum_ext _ _ (fun _ => 0 * 0)); [rewrite Sum_scal_l; ring|]. intros i Hi. rewrite at_vscale by lia. ring.
Qed.

Section MtdParams.
  Variables (n d k : nat) (X : mat R) (c : mtd_cfg R) (w : mws R).
  Hypothesis HX : is_mat n d X.
  Hypothesis Hw : mok c n d k X w.
  Hypothesis Hk : (2 <= k)%nat.
  Hypothesis Hl : (max_lag c < n)%nat.
  Hypothesis He : 0 <= mc_eps_weights c.
  Let obj ow Ts := mtd_objective (mc_eps_states c) (mc_eps_weights c) (mc_lags c) X (m_Gamma w) (m_S w) ow Ts.
  Let ow := m_order_weights w.
  Let Ts := m_transition_matrices w.
  Let Qo (h : list R) := mnm c n k * SS (n - max_lag c) k (fun q a => fc (n_lags c) k (lag c) (at_ h) (tent Ts) (ent (m_Gamma w)) (max_lag c + q) a ^ 2).
  Let Qt (h : list (mat R)) := mnm c n k * SS (n - max_lag c) k (fun q a => fc (n_lags c) k (lag c) (at_ ow) (tent h) (ent (m_Gamma w)) (max_lag c + q) a ^ 2).
  Lemma mnm_nonneg : 0 <= mnm c n k.
  Proof using Hk Hl He.
    unfold mnm. apply Rmult_le_pos; [exact He|]. left. apply Rinv_0_lt_compat, Rmult_lt_0_compat; [apply lt_0_INR; lia|].
    apply lt_INR in Hl. lra.
  Qed.
  Lemma mtd_expands_order :
    (forall h, length h = n_lags c -> 0 <= Qo h)
    /\ (forall s h, length h = n_lags c -> Qo (@vscale R Num_R s h) = s * s * Qo h)
    /\ (forall h, length h = n_lags c -> obj (@vadd R Num_R ow h) Ts = obj ow Ts + vdot (mtd_order_gradient c k w) h + Qo h).
  Proof using HX Hw Hk Hl He.
    pose proof Hw as (_ & _ & _ & _ & HO & HT & _). fold ow in HO. fold Ts in HT. split; [|split].
    - intros h Hh. apply Rmult_le_pos; [apply mnm_nonneg|]. apply SS_nonneg; intros; apply pow2_ge_0.
    - intros s h Hh. unfold Qo.
      rewrite (SS_ext _ _ _ (fun q a => s * s * fc (n_lags c) k (lag c) (at_ h) (tent Ts) (ent (m_Gamma w)) (max_lag c + q) a ^ 2)); [rewrite SS_scal; ring|].
      intros q a Hq Ha. rewrite (fc_ext _ _ _ _ (fun i => s * at_ h i) _ (tent Ts)); [rewrite fc_scale_w; ring| |reflexivity].
      intros i Hi. apply at_vscale. lia.
    - intros h Hh. pose proof (mtd_objective_params n d k X c w h (tscale 0 Ts) HX Hw Hk Hh (stack_tscale _ _ _ _ HT)) as E.
      fold ow Ts in E. rewrite (tadd_zero (n_lags c) k Ts HT) in E. fold (obj (@vadd R Num_R ow h) Ts) (obj ow Ts) in E. rewrite E.
      rewrite (stack_dot_zero (n_lags c) k) by (first [exact HT | apply (transition_gradient_stack n d k X); exact Hw]).
      assert (EM : mrem c n k ow Ts (m_Gamma w) h (tscale 0 Ts)
         = SS (n - max_lag c) k (fun q a => fc (n_lags c) k (lag c) (at_ h) (tent Ts) (ent (m_Gamma w)) (max_lag c + q) a ^ 2)).
      { unfold mrem. cbv zeta.
        rewrite (SS_ext _ _ (fun s a => (ent (m_Gamma w) (max_lag c + s) a - mfc c k ow Ts (m_Gamma w) (max_lag c + s) a) * _) (fun _ _ => 0 * 0))
          by (intros q a Hq Ha; rewrite fc_zero_M by assumption; ring).
        rewrite SS_scal, Rmult_0_l, Rmult_0_r, Rminus_0_r. apply SS_ext; intros q a Hq Ha. unfold lin. rewrite !fc_zero_M by assumption. ring. }
      rewrite EM. unfold Qo. ring.
  Qed.
  Lemma mtd_expands_transition :
    (forall h, is_stack (n_lags c) k h -> 0 <= Qt h)
    /\ (forall s h, is_stack (n_lags c) k h -> Qt (@tscale R Num_R s h) = s * s * Qt h)
    /\ (forall h, is_stack (n_lags c) k h -> obj ow (@tadd R Num_R Ts h) = obj ow Ts + stack_dot (mtd_transition_gradient c k w) h + Qt h).
  Proof using HX Hw Hk Hl He.
    pose proof Hw as (_ & _ & _ & _ & HO & HT & _). fold ow in HO. fold Ts in HT. split; [|split].
    - intros h Hh. apply Rmult_le_pos; [apply mnm_nonneg|]. apply SS_nonneg; intros; apply pow2_ge_0.
    - intros s h Hh. unfold Qt.
      rewrite (SS_ext _ _ _ (fun q a => s * s * fc (n_lags c) k (lag c) (at_ ow) (tent h) (ent (m_Gamma w)) (max_lag c + q) a ^ 2)); [rewrite SS_scal; ring|].
      intros q a Hq Ha. rewrite (fc_ext _ _ _ _ (at_ ow) _ (fun i a b => s * tent h i a b)); [rewrite fc_scale_M; ring|reflexivity|].
      intros i b Hi Hb. apply (tent_tscale (n_lags c) k); assumption.
    - intros h Hh.
      assert (L0 : length (@vscale R Num_R 0 ow) = n_lags c) by (unfold vscale; rewrite map_length; exact HO).
      pose proof (mtd_objective_params n d k X c w (vscale 0 ow) h HX Hw Hk L0 Hh) as E.
      fold ow Ts in E. rewrite vadd_zero in E. fold (obj ow (@tadd R Num_R Ts h)) (obj ow Ts) in E. rewrite E.
      rewrite vdot_zero_r by (rewrite order_gradient_length; congruence).
      assert (EM : mrem c n k ow Ts (m_Gamma w) (vscale 0 ow) h
         = SS (n - max_lag c) k (fun q a => fc (n_lags c) k (lag c) (at_ ow) (tent h) (ent (m_Gamma w)) (max_lag c + q) a ^ 2)).
      { unfold mrem. cbv zeta.
        rewrite (SS_ext _ _ (fun s a => (ent (m_Gamma w) (max_lag c + s) a - mfc c k ow Ts (m_Gamma w) (max_lag c + s) a) * _) (fun _ _ => 0 * 0))
          by (intros q a Hq Ha; rewrite fc_zero_w by assumption; ring).
        rewrite SS_scal, Rmult_0_l, Rmult_0_r, Rminus_0_r. apply SS_ext; intros q a Hq Ha. unfold lin. rewrite !fc_zero_w by assumption. ring. }
      rewrite EM. unfold Qt. ring.
  Qed.
  (** the parameters are left where they are exactly when each block is optimal for the other *)
  Lemma mtd_params_stationary a s : 0 < a -> 0 < s -> (0 < n_lags c)%nat -> prob_vec ow -> stack_stochastic Ts ->
    let go := mtd_order_gradient c k w in let gT := mtd_transition_gradient c k w in
    let do := @vsub R Num_R (simplex_project_vector (vsub ow (vscale a go))) ow in
    let dT := @tsub R Num_R (map simplex_project_columns (tsub Ts (tscale a gT))) Ts in
    (@vadd R Num_R ow (vscale s do) = ow /\ @tadd R Num_R Ts (tscale s dT) = Ts
     <-> (forall v, length v = n_lags c -> prob_vec v -> obj ow Ts <= obj v Ts)
         /\ (forall V, is_stack (n_lags c) k V -> stack_stochastic V -> obj ow Ts <= obj ow V)).
  Proof using HX Hw Hk Hl He.
    intros Ha Hs Hp So ST go gT do dT. pose proof Hw as (_ & _ & _ & _ & HO & HT & _). fold ow in HO. fold Ts in HT.
    assert (Lg : length go = n_lags c) by apply order_gradient_length.
    assert (Hg : is_stack (n_lags c) k gT) by (apply (transition_gradient_stack n d k X); exact Hw).
    destruct mtd_expands_order as (A1 & A2 & A3). destruct mtd_expands_transition as (B1 & B2 & B3).
    rewrite <- (stationary_vector (n_lags c) ow go a HO Lg Hp Ha So (fun v => obj v Ts) Qo A1 A2 A3).
    rewrite <- (stationary_stack (n_lags c) k Ts gT a HT Hg ltac:(lia) Ha ST (fun V => obj ow V) Qt B1 B2 B3).
    unfold do, dT. rewrite (v_step_zero (n_lags c) ow go a HO s Hs). rewrite (t_step_zero (n_lags c) k Ts gT a HT ltac:(lia) s Hs). reflexivity.
  Qed.
End MtdParams.
