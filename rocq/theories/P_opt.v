(** Projected-gradient steps vanish exactly at the minimisers of a convex quadratic. *)
From Coq Require Import List Arith Lia Reals Lra.
From Verif Require Import Num Mat Spec M_simplex M_gpnh M_mtd P_lin P_mat P_gpnh P_mtd.
Import ListNotations.
Local Open Scope R_scope.

(** [f] is quadratic at [W] with gradient [g] and a non-negative second-order term *)
Definition expands (n k : nat) (f : mat R -> R) (W g : mat R) : Prop :=
  exists Q : mat R -> R, (forall H, is_mat n k H -> 0 <= Q H)
    /\ (forall s H, is_mat n k H -> Q (@mscale R Num_R s H) = s * s * Q H)
    /\ forall H, is_mat n k H -> f (@madd R Num_R W H) = f W + frob g H + Q H.

Lemma madd_zero n k W H : is_mat n k W -> is_mat n k H -> (forall i j, (i < n)%nat -> (j < k)%nat -> ent H i j = 0) ->
  @madd R Num_R W H = W.
Proof.
  intros HW HH Z. apply mat_ext_R with n k; [apply is_mat_madd; apply HW|exact HW|]. destruct HW as (w1 & w2 & _), HH as (h1 & h2 & _).
  intros i j Hi Hj. rewrite ent_madd by lia. rewrite Z by assumption. ring.
Qed.
Lemma madd_step_zero n k W H s : is_mat n k W -> is_mat n k H -> 0 < s ->
  @madd R Num_R W (mscale s H) = W <-> (forall i j, (i < n)%nat -> (j < k)%nat -> ent H i j = 0).
Proof.
  intros HW HH Hs. pose proof HW as (w1 & w2 & _). pose proof HH as (h1 & h2 & _). split.
  - intros E i j Hi Hj. apply (f_equal (fun M => ent M i j)) in E. rewrite ent_madd in E by lia. rewrite ent_mscale in E by lia.
    assert (s * ent H i j = 0) by lra. apply Rmult_integral in H0. destruct H0; [lra|assumption].
  - intros Z. apply (madd_zero n k); [exact HW|apply is_mat_mscale; assumption|]. intros i j Hi Hj. rewrite ent_mscale by lia. rewrite Z by assumption. ring.
Qed.
Lemma frob2_zero n k A : is_mat n k A -> frob2 A = 0 -> forall i j, (i < n)%nat -> (j < k)%nat -> ent A i j = 0.
Proof.
  intros (a1 & a2 & _) F i j Hi Hj. rewrite frob2_SS, a1, a2 in F.
  pose proof (SS_zero_inv n k (fun i j => ent A i j ^ 2) ltac:(intros; apply pow2_ge_0) F i j Hi Hj) as Z. cbn in Z.
  apply Rmult_integral in Z. destruct Z as [Z|Z]; [exact Z|]. rewrite Rmult_1_r in Z. exact Z.
Qed.
(** a linear term that is not beaten by any small multiple of a quadratic one is non-negative *)
Lemma first_order a q : (forall s, 0 < s <= 1 -> 0 <= s * a + s * s * q) -> 0 <= a.
Proof.
  intros H. destruct (Rle_or_lt 0 a) as [L|L]; [exact L|exfalso].
  pose proof (H 1 ltac:(lra)) as H1. assert (Q : 0 < q) by lra.
  assert (S : 0 < - a / (2 * q) <= 1).
  { split; [apply Rmult_lt_0_compat; [lra|apply Rinv_0_lt_compat; lra]|].
    apply Rmult_le_reg_r with (2 * q); [lra|]. unfold Rdiv. rewrite Rmult_assoc, Rinv_l by lra. lra. }
  specialize (H _ S). replace (- a / (2 * q) * a + - a / (2 * q) * (- a / (2 * q)) * q) with (- (a * a) / (4 * q)) in H by (field; lra).
  assert (0 < a * a) by nra. assert (0 < / (4 * q)) by (apply Rinv_0_lt_compat; lra).
  assert (0 < a * a * / (4 * q)) by (apply Rmult_lt_0_compat; assumption). unfold Rdiv in H. lra.
Qed.

Section Stationary.
  Variables (n k : nat) (f : mat R -> R) (W g : mat R) (a : R).
  Hypothesis HW : is_mat n k W.
  Hypothesis Hg : is_mat n k g.
  Hypothesis Ha : 0 < a.
  Hypothesis HE : expands n k f W g.

  (** row-stochastic matrices *)
  Lemma stationary_rows : row_stochastic W -> (0 < k)%nat ->
    let dir := @msub R Num_R (simplex_project_rows (msub W (mscale a g))) W in
    (forall i j, (i < n)%nat -> (j < k)%nat -> ent dir i j = 0)
    <-> (forall V, is_mat n k V -> row_stochastic V -> f W <= f V).
  Proof using HW Hg Ha HE.
    intros SW Hk dir. destruct HE as (Q & Q0 & Q2 & EQ). set (A := @msub R Num_R W (mscale a g)) in *.
    assert (HA : is_mat n k A) by (apply is_mat_msub; apply HW).
    set (P := simplex_project_rows A) in *. assert (HP : is_mat n k P) by (apply is_mat_project; exact HA).
    assert (Hd : is_mat n k dir) by (apply is_mat_msub; apply HP).
    pose proof HW as (w1 & w2 & _). pose proof Hg as (g1 & g2 & _). pose proof HP as (p1 & p2 & _). pose proof Hd as (d1 & d2 & _). split.
    - intros Z V HV SV. pose proof HV as (v1 & v2 & _).
      assert (EP : forall i j, (i < n)%nat -> (j < k)%nat -> ent P i j = ent W i j).
      { intros i j Hi Hj. specialize (Z i j Hi Hj). unfold dir in Z. rewrite ent_msub in Z by lia. lra. }
      pose proof (project_rows_vi n k A V HA HV SV Hk) as VI. fold P in VI.
      assert (E : SS n k (fun i j => (ent A i j - ent P i j) * (ent P i j - ent V i j)) = a * frob g (msub V W)).
      { rewrite frob_SS, g1, g2, <- SS_scal. apply SS_ext; intros i j Hi Hj. rewrite EP by assumption. unfold A.
        rewrite !ent_msub by lia. rewrite ent_mscale by lia. ring. }
      rewrite E in VI. assert (0 <= frob g (msub V W)) by (apply Rmult_le_reg_l with a; lra).
      assert (HVW : is_mat n k (@msub R Num_R V W)) by (apply is_mat_msub; assumption).
      rewrite <- (row_stochastic_full n k W V HW HV). rewrite (EQ _ HVW). pose proof (Q0 _ HVW). lra.
    - intros Hopt.
      pose proof (project_direction n k W g a HW Hg SW Hk Ha) as S. cbv zeta in S. fold A P dir in S.
      assert (SP : row_stochastic P) by (apply is_mat_wf in HA as (_ & a2 & a3); apply P_simplex.project_rows_stochastic; [exact a3|lia]).
      assert (F : 0 <= frob g dir).
      { apply (first_order _ (Q dir)). intros s Hs. assert (HsD : is_mat n k (@mscale R Num_R s dir)) by (apply is_mat_mscale; assumption).
        pose proof (Hopt _ (is_mat_madd n k W (mscale s dir) w1 w2) (row_stochastic_step n k W P s HW HP SW SP ltac:(lra))) as O.
        rewrite (EQ _ HsD), (Q2 _ _ Hd), frob_mscale_r in O by lia. lra. }
      assert (N : 0 <= frob2 dir) by apply frob2_nonneg.
      assert (0 <= frob2 dir / a) by (apply Rmult_le_pos; [exact N|left; apply Rinv_0_lt_compat; exact Ha]).
      assert (Z0 : frob2 dir / a = 0) by (unfold Rdiv in *; lra).
      apply (frob2_zero n k); [exact Hd|]. replace (frob2 dir) with (frob2 dir / a * a) by (field; lra). rewrite Z0. ring.
  Qed.

  (** unconstrained matrices *)
  Lemma stationary_free :
    let dir := @msub R Num_R (msub W (mscale a g)) W in
    (forall i j, (i < n)%nat -> (j < k)%nat -> ent dir i j = 0) <-> (forall V, is_mat n k V -> f W <= f V).
  Proof using HW Hg Ha HE.
    intros dir. destruct HE as (Q & Q0 & Q2 & EQ).
    assert (Hd : is_mat n k dir) by (apply is_mat_msub; cbn; apply HW).
    pose proof HW as (w1 & w2 & _). pose proof Hg as (g1 & g2 & _). pose proof Hd as (d1 & d2 & _).
    assert (ED : forall i j, (i < n)%nat -> (j < k)%nat -> ent dir i j = - a * ent g i j).
    { intros i j Hi Hj. unfold dir. rewrite !ent_msub by (cbn [nr nc msub mmap2 mbuild]; lia). rewrite ent_mscale by lia. ring. }
    split.
    - intros Z V HV. assert (HVW : is_mat n k (@msub R Num_R V W)) by (apply is_mat_msub; apply HV).
      rewrite <- (row_stochastic_full n k W V HW HV). rewrite (EQ _ HVW). pose proof (Q0 _ HVW).
      assert (E : frob g (msub V W) = 0).
      { rewrite frob_SS, g1, g2. rewrite (SS_ext n k _ (fun _ _ => 0 * 0)); [rewrite SS_scal; ring|]. intros i j Hi Hj.
        specialize (Z i j Hi Hj). rewrite ED in Z by assumption. apply Rmult_integral in Z. destruct Z as [Z|Z]; [lra|]. rewrite Z. ring. }
      rewrite E. lra.
    - intros Hopt.
      assert (F : 0 <= frob g dir).
      { apply (first_order _ (Q dir)). intros s Hs. assert (HsD : is_mat n k (@mscale R Num_R s dir)) by (apply is_mat_mscale; assumption).
        pose proof (Hopt _ (is_mat_madd n k W (mscale s dir) w1 w2)) as O.
        rewrite (EQ _ HsD), (Q2 _ _ Hd), frob_mscale_r in O by lia. lra. }
      assert (E : frob g dir = - a * frob2 g).
      { rewrite frob_SS, frob2_SS, g1, g2, <- SS_scal. apply SS_ext; intros i j Hi Hj. rewrite ED by assumption. ring. }
      pose proof (frob2_nonneg g) as N. rewrite E in F. assert (Z : frob2 g = 0) by nra.
      intros i j Hi Hj. rewrite ED by assumption. rewrite (frob2_zero n k g Hg Z i j Hi Hj). ring.
  Qed.
End Stationary.

(** ** the objective of the MTD convex coding, in its dictionary and in its weights *)
Lemma mtd_expands_dict n d k X c w : is_mat n d X -> mok c n d k X w -> mcache_d w -> (0 < n)%nat -> (0 < d)%nat -> (0 < k)%nat ->
  0 <= mc_eps_states c ->
  expands k d (fun D => mtd_objective (mc_eps_states c) (mc_eps_weights c) (mc_lags c) X (m_Gamma w) D (m_order_weights w) (m_transition_matrices w))
    (m_S w) (mtd_dictionary_gradient c k w).
Proof.
  intros HX Hw HC Hn Hd Hk He.
  assert (pn : 0 < INR n) by (apply lt_0_INR; exact Hn). assert (pd : 0 < INR d) by (apply lt_0_INR; exact Hd).
  exists (fun H => SS n d (fun i j => Sum k (fun e => ent (m_Gamma w) i e * ent H e j) ^ 2) / (INR d * INR n) + mc_eps_states c * spread H).
  split; [|split].
  - intros H HH. apply Rplus_le_le_0_compat.
    + apply Rmult_le_pos; [apply SS_nonneg; intros; apply pow2_ge_0|]. left. apply Rinv_0_lt_compat, Rmult_lt_0_compat; assumption.
    + apply Rmult_le_pos; [exact He|]. apply spread_nonneg. destruct HH as (_ & -> & _). exact Hd.
  - intros s H HH. pose proof HH as (h1 & h2 & _). rewrite (spread_scale k d) by exact HH.
    assert (E : SS n d (fun i j => Sum k (fun e => ent (m_Gamma w) i e * ent (@mscale R Num_R s H) e j) ^ 2)
        = s * s * SS n d (fun i j => Sum k (fun e => ent (m_Gamma w) i e * ent H e j) ^ 2)).
    { rewrite <- SS_scal. apply SS_ext; intros i j Hi Hj.
      assert (E1 : Sum k (fun e => ent (m_Gamma w) i e * ent (@mscale R Num_R s H) e j) = s * Sum k (fun e => ent (m_Gamma w) i e * ent H e j)).
      { rewrite <- Sum_scal_l. apply Sum_ext; intros e He'. rewrite ent_mscale by lia. ring. }
      rewrite E1. ring. }
    rewrite E. unfold Rdiv. ring.
  - intros H HH. apply (mtd_objective_dict n d k X); assumption.
Qed.
Lemma mtd_expands_weights n d k X c w : is_mat n d X -> mok c n d k X w -> mcache_w w -> (0 < n)%nat -> (0 < d)%nat -> (2 <= k)%nat ->
  (max_lag c < n)%nat -> 0 <= mc_eps_weights c ->
  expands n k (fun V => mtd_objective (mc_eps_states c) (mc_eps_weights c) (mc_lags c) X V (m_S w) (m_order_weights w) (m_transition_matrices w))
    (m_Gamma w) (mtd_weights_gradient c k w).
Proof.
  intros HX Hw HC Hn Hd Hk Hl He.
  assert (pn : 0 < INR n) by (apply lt_0_INR; exact Hn). assert (pd : 0 < INR d) by (apply lt_0_INR; exact Hd).
  assert (pk : 0 < INR k) by (apply lt_0_INR; lia). assert (pl : INR (max_lag c) < INR n) by (apply lt_INR; exact Hl).
  exists (fun H => SS n d (fun i j => Sum k (fun e => ent H i e * ent (m_S w) e j) ^ 2) / (INR d * INR n)
       + mc_eps_weights c / (INR k * (INR n - INR (max_lag c))) * mmis c k n (m_order_weights w) (m_transition_matrices w) H).
  split; [|split].
  - intros H HH. apply Rplus_le_le_0_compat.
    + apply Rmult_le_pos; [apply SS_nonneg; intros; apply pow2_ge_0|]. left. apply Rinv_0_lt_compat, Rmult_lt_0_compat; assumption.
    + apply Rmult_le_pos; [|apply mis_nonneg]. apply Rmult_le_pos; [exact He|].
      left. apply Rinv_0_lt_compat, Rmult_lt_0_compat; lra.
  - intros s H HH. pose proof HH as (h1 & h2 & _).
    assert (E : SS n d (fun i j => Sum k (fun e => ent (@mscale R Num_R s H) i e * ent (m_S w) e j) ^ 2)
        = s * s * SS n d (fun i j => Sum k (fun e => ent H i e * ent (m_S w) e j) ^ 2)).
    { rewrite <- SS_scal. apply SS_ext; intros i j Hi Hj.
      assert (E1 : Sum k (fun e => ent (@mscale R Num_R s H) i e * ent (m_S w) e j) = s * Sum k (fun e => ent H i e * ent (m_S w) e j)).
      { rewrite <- Sum_scal_l. apply Sum_ext; intros e He'. rewrite ent_mscale by lia. ring. }
      rewrite E1. ring. }
    assert (E2 : mmis c k n (m_order_weights w) (m_transition_matrices w) (@mscale R Num_R s H)
        = s * s * mmis c k n (m_order_weights w) (m_transition_matrices w) H).
    { unfold mmis. rewrite <- mis_scale. unfold mis. apply SS_ext; intros q a Hq Ha. rewrite ent_mscale by lia. f_equal. f_equal.
      unfold fc. apply Sum_ext; intros i Hi. f_equal. apply Sum_ext; intros b Hb. rewrite ent_mscale by lia. reflexivity. }
    rewrite E, E2. unfold Rdiv. ring.
  - intros H HH. apply (mtd_objective_weights n d k X); assumption.
Qed.
