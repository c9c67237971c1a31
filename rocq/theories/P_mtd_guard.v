(** Proofs that the updates of mtd_convex_coding.py and of the parameter fit of
    gpnh_convex_coding_crom.py do not increase the cost *)
From Coq Require Import List Arith Lia ZArith Reals Lra Psatz Bool.
From Verif Require Import Num Mat Py Spec M_simplex M_spg M_iter M_random M_furthest M_gpnh M_mtd M_crom.
From Verif Require Import P_lin P_simplex P_spg P_furthest P_random P_mat P_iter P_gpnh P_gpnh_run P_mtd P_mtd_upd P_mtd_run P_crom P_opt_params.
Import ListNotations.
Local Open Scope R_scope.

(** ** inequalities for sums *)
Lemma Sum_jensen p w x : (forall i, (i < p)%nat -> 0 <= w i) -> Sum p w <= 1 ->
  Sum p (fun i => w i * x i) ^ 2 <= Sum p (fun i => w i * x i ^ 2).
Proof.
  intros W0 W1. set (m := Sum p (fun i => w i * x i)). set (Q := Sum p (fun i => w i * x i ^ 2)).
  assert (E : Sum p (fun i => w i * (x i - m) ^ 2) = Q - 2 * m * m + m ^ 2 * Sum p w).
  { unfold Q. replace (2 * m * m) with (2 * m * Sum p (fun i => w i * x i)) by reflexivity.
    rewrite <- !Sum_scal_l, <- Sum_minus, <- Sum_plus. apply Sum_ext; intros; ring. }
  assert (P : 0 <= Sum p (fun i => w i * (x i - m) ^ 2)).
  { apply Sum_nonneg; intros i Hi. apply Rmult_le_pos; [apply W0, Hi | apply pow2_ge_0]. }
  rewrite E in P. assert (m ^ 2 * Sum p w <= m ^ 2 * 1) by (apply Rmult_le_compat_l; [apply pow2_ge_0 | exact W1]). nra.
Qed.
Lemma Sum_window n o m f : (o + m <= n)%nat -> (forall t, (t < n)%nat -> 0 <= f t) -> Sum m (fun s => f (o + s)%nat) <= Sum n f.
Proof.
  intros H F. replace n with (o + (m + (n - (o + m))))%nat by lia. rewrite Sum_split, Sum_split.
  assert (0 <= Sum o f) by (apply Sum_nonneg; intros; apply F; lia).
  assert (0 <= Sum (n - (o + m)) (fun i => f (o + (m + i))%nat)) by (apply Sum_nonneg; intros; apply F; lia). lra.
Qed.
Lemma Sum_const_le n f C : (forall i, (i < n)%nat -> f i <= C) -> Sum n f <= INR n * C.
Proof. intros H. rewrite <- Sum_const. apply Sum_le, H. Qed.
(** differences of probability vectors *)
Lemma prob_diff_sq k u v : (forall a, (a < k)%nat -> 0 <= u a) -> Sum k u = 1 -> (forall a, (a < k)%nat -> 0 <= v a) -> Sum k v = 1 ->
  Sum k (fun a => (u a - v a) ^ 2) <= 2.
Proof.
  intros U0 U1 V0 V1. replace 2 with (Sum k u + Sum k v) by lra. rewrite <- Sum_plus. apply Sum_le; intros a Ha.
  assert (u a <= 1) by (rewrite <- U1; apply (Sum_ge_term k u); auto).
  assert (v a <= 1) by (rewrite <- V1; apply (Sum_ge_term k v); auto).
  pose proof (U0 a Ha). pose proof (V0 a Ha). nra.
Qed.

(** ** curvature of the forecast error, with functions for arrays *)
Section Curvature.
  Variables (p k n L : nat) (lg : nat -> nat).
  Hypothesis Hlg : forall i, (i < p)%nat -> (lg i <= L)%nat.
  Hypothesis HL : (L <= n)%nat.
  Definition f_prob (w : nat -> R) : Prop := (forall i, (i < p)%nat -> 0 <= w i) /\ Sum p w = 1.
  Definition f_cols (M : nat -> nat -> nat -> R) : Prop :=
    forall i b, (i < p)%nat -> (b < k)%nat -> (forall a, (a < k)%nat -> 0 <= M i a b) /\ Sum k (fun a => M i a b) = 1.
  Definition f_rows (G : nat -> nat -> R) : Prop :=
    forall t, (t < n)%nat -> (forall b, (b < k)%nat -> 0 <= G t b) /\ Sum k (G t) = 1.
  Let F := fc p k lg.

  Lemma col_entry M i a b : f_cols M -> (i < p)%nat -> (a < k)%nat -> (b < k)%nat -> 0 <= M i a b <= 1.
  Proof.
    intros HM Hi Ha Hb. destruct (HM i b Hi Hb) as [A B]. split; [apply A, Ha|]. rewrite <- B. apply (Sum_ge_term k (fun a => M i a b)); auto.
  Qed.
  (** forecasts of a change of the weights *)
  Lemma fc_weights_bound w M H : f_prob w -> f_cols M ->
    SS (n - L) k (fun s a => F w M H (L + s) a ^ 2) <= INR k * SS n k (fun t a => H t a ^ 2).
  Proof using Hlg HL.
    intros [W0 W1] HM. set (h := fun t => Sum k (fun b => H t b ^ 2)).
    assert (h0 : forall t, 0 <= h t) by (intros; apply Sum_sq_nonneg).
    apply Rle_trans with (Sum (n - L) (fun s => Sum p (fun i => w i * (INR k * h (L + s - lg i)%nat)))).
    - apply Sum_le; intros s Hs.
      apply Rle_trans with (Sum k (fun a => Sum p (fun i => w i * (Sum k (fun b => M i a b ^ 2) * h (L + s - lg i)%nat)))).
      + apply Sum_le; intros a Ha. unfold F, fc. eapply Rle_trans; [apply Sum_jensen; [exact W0 | lra]|].
        apply Sum_le; intros i Hi. apply Rmult_le_compat_l; [apply W0, Hi|]. apply Sum_CS.
      + rewrite Sum_swap. apply Sum_le; intros i Hi. rewrite Sum_scal_l. apply Rmult_le_compat_l; [apply W0, Hi|].
        rewrite Sum_scal_r. apply Rmult_le_compat_r; [apply h0|]. rewrite Sum_swap.
        replace (INR k) with (INR k * 1) by ring. apply Sum_const_le; intros b Hb. rewrite <- (proj2 (HM i b Hi Hb)).
        apply Sum_le; intros a Ha. pose proof (col_entry M i a b HM Hi Ha Hb). nra.
    - rewrite Sum_swap.
      apply Rle_trans with (Sum p (fun i => w i * (INR k * Sum n h))).
      + apply Sum_le; intros i Hi. rewrite Sum_scal_l, Sum_scal_l. apply Rmult_le_compat_l; [apply W0, Hi|].
        apply Rmult_le_compat_l; [apply pos_INR|]. specialize (Hlg i Hi).
        rewrite (Sum_ext _ _ (fun s => h ((L - lg i) + s)%nat)) by (intros; f_equal; lia).
        apply Sum_window; [lia | intros; apply h0].
      + rewrite Sum_scal_r, W1. unfold SS. fold h. change (Sum n (fun i => Sum k (fun j => H i j ^ 2))) with (Sum n h). lra.
  Qed.
  Lemma mis_bound w M H : f_prob w -> f_cols M -> mis p k n L lg w M H <= (2 + 2 * INR k) * SS n k (fun t a => H t a ^ 2).
  Proof using Hlg HL.
    intros Hw HM. pose proof (fc_weights_bound w M H Hw HM) as B.
    apply Rle_trans with (2 * SS (n - L) k (fun s a => H (L + s)%nat a ^ 2) + 2 * SS (n - L) k (fun s a => F w M H (L + s) a ^ 2)).
    - rewrite <- !SS_scal, <- SS_plus. unfold mis. apply SS_le; intros s a _ _. change (fc p k lg w M H (L + s) a) with (F w M H (L + s) a).
      pose proof (pow2_ge_0 (H (L + s)%nat a + F w M H (L + s) a)). nra.
    - assert (SS (n - L) k (fun s a => H (L + s)%nat a ^ 2) <= SS n k (fun t a => H t a ^ 2)).
      { unfold SS. apply (Sum_window n L (n - L) (fun t => Sum k (fun a => H t a ^ 2))); [lia | intros; apply Sum_sq_nonneg]. }
      lra.
  Qed.

  (** changes of the parameters, at one time *)
  Variables (w : nat -> R) (M : nat -> nat -> nat -> R) (G : nat -> nat -> R).
  Hypotheses (Hw : f_prob w) (HM : f_cols M) (HG : f_rows G).
  Variables (dw : nat -> R) (dM : nat -> nat -> nat -> R).
  Let N1 := Sum p (fun i => dw i ^ 2).
  Let N2 := Sum p (fun i => SS k k (fun a b => dM i a b ^ 2)).
  Lemma N1_nonneg : 0 <= N1. Proof. apply Sum_sq_nonneg. Qed.
  Lemma N2_nonneg : 0 <= N2. Proof. apply Sum_nonneg; intros; apply SS_nonneg; intros; apply pow2_ge_0. Qed.
  Lemma row_at s i : (s < n - L)%nat -> (i < p)%nat ->
    (forall b, (b < k)%nat -> 0 <= G (L + s - lg i)%nat b) /\ Sum k (G (L + s - lg i)%nat) = 1.
  Proof using HG HL. intros Hs Hi. apply HG. lia. Qed.
  Lemma fc_dw s : (s < n - L)%nat -> Sum k (fun a => F dw M G (L + s) a ^ 2) <= INR p * N1.
  Proof using HM HG HL.
    intros Hs. set (y := fun i a => Sum k (fun b => M i a b * G (L + s - lg i)%nat b)).
    assert (Y0 : forall i a, (i < p)%nat -> (a < k)%nat -> 0 <= y i a).
    { intros i a Hi Ha. apply Sum_nonneg; intros b Hb. apply Rmult_le_pos; [apply (HM i b Hi Hb), Ha | apply (row_at s i Hs Hi), Hb]. }
    assert (Y1 : forall i, (i < p)%nat -> Sum k (y i) = 1).
    { intros i Hi. unfold y. rewrite Sum_swap. rewrite <- (proj2 (row_at s i Hs Hi)). apply Sum_ext; intros b Hb.
      rewrite Sum_scal_r, (proj2 (HM i b Hi Hb)). ring. }
    apply Rle_trans with (Sum k (fun a => N1 * Sum p (fun i => y i a ^ 2))).
    - apply Sum_le; intros a Ha. unfold F, fc. apply Sum_CS.
    - rewrite Sum_scal_l, Rmult_comm. apply Rmult_le_compat_r; [apply N1_nonneg|]. rewrite Sum_swap.
      replace (INR p) with (INR p * 1) by ring. apply Sum_const_le; intros i Hi. rewrite <- (Y1 i Hi). apply Sum_le; intros a Ha.
      pose proof (Y0 i a Hi Ha). assert (y i a <= 1) by (rewrite <- (Y1 i Hi); apply (Sum_ge_term k (y i)); intros; auto). nra.
  Qed.
  Lemma z_bound s : (s < n - L)%nat -> Sum k (fun a => Sum p (fun i => Sum k (fun b => dM i a b * G (L + s - lg i)%nat b) ^ 2)) <= N2.
  Proof using HG HL.
    intros Hs. rewrite Sum_swap. apply Sum_le; intros i Hi. destruct (row_at s i Hs Hi) as [G0 G1]. apply Sum_le; intros a Ha.
    rewrite (Sum_ext k _ (fun b => G (L + s - lg i)%nat b * dM i a b)) by (intros; ring).
    eapply Rle_trans; [apply Sum_jensen; [exact G0 | lra]|]. apply Sum_le; intros b Hb.
    assert (G (L + s - lg i)%nat b <= 1) by (rewrite <- G1; apply (Sum_ge_term k (G (L + s - lg i)%nat)); auto).
    pose proof (G0 b Hb). pose proof (pow2_ge_0 (dM i a b)). nra.
  Qed.
  Lemma fc_dM s : (s < n - L)%nat -> Sum k (fun a => F w dM G (L + s) a ^ 2) <= N2.
  Proof using Hw HG HL.
    intros Hs. destruct Hw as [W0 W1]. eapply Rle_trans; [|apply (z_bound s Hs)]. apply Sum_le; intros a Ha.
    unfold F, fc. eapply Rle_trans; [apply Sum_jensen; [exact W0 | lra]|]. apply Sum_le; intros i Hi.
    set (z := Sum k _). assert (w i <= 1) by (rewrite <- W1; apply (Sum_ge_term p w); auto). pose proof (W0 i Hi). pose proof (pow2_ge_0 z). nra.
  Qed.
  Lemma fc_dwdM s : (s < n - L)%nat -> N1 <= 2 -> Sum k (fun a => F dw dM G (L + s) a ^ 2) <= 2 * N2.
  Proof using HG HL.
    intros Hs H2. apply Rle_trans with (N1 * N2); [|apply Rmult_le_compat_r; [apply N2_nonneg | exact H2]].
    eapply Rle_trans; [|apply Rmult_le_compat_l; [apply N1_nonneg | apply (z_bound s Hs)]]. rewrite <- Sum_scal_l.
    apply Sum_le; intros a Ha. unfold F, fc. apply Sum_CS.
  Qed.
  Lemma residual_sq s : (s < n - L)%nat -> Sum k (fun a => (G (L + s)%nat a - F w M G (L + s) a) ^ 2) <= 2.
  Proof using Hw HM HG HL.
    intros Hs. destruct (HG (L + s)%nat ltac:(lia)) as [G0 G1]. destruct Hw as [W0 W1].
    destruct (fc_prob p k lg w M G (L + s) W0 W1 HM) as [F0 F1]; [intros i Hi; apply (row_at s i Hs Hi)|].
    apply prob_diff_sq; assumption.
  Qed.
  Lemma residual_cross s : (s < n - L)%nat ->
    - 2 * Sum k (fun a => (G (L + s)%nat a - F w M G (L + s) a) * F dw dM G (L + s) a) <= 2 * N1 + N2.
  Proof using Hw HM HG HL.
    intros Hs. pose proof (residual_sq s Hs) as R2. pose proof (z_bound s Hs) as Z.
    set (r := fun a => G (L + s)%nat a - F w M G (L + s) a) in *. set (z := fun i a => Sum k (fun b => dM i a b * G (L + s - lg i)%nat b)) in *.
    assert (E : - 2 * Sum k (fun a => r a * F dw dM G (L + s) a) = Sum k (fun a => Sum p (fun i => - 2 * (r a * dw i * z i a)))).
    { rewrite <- Sum_scal_l. apply Sum_ext; intros a _. unfold F, fc. rewrite <- !Sum_scal_l. apply Sum_ext; intros i _. unfold z. ring. }
    change (- 2 * Sum k (fun a => r a * F dw dM G (L + s) a) <= 2 * N1 + N2). rewrite E.
    apply Rle_trans with (Sum k (fun a => Sum p (fun i => r a ^ 2 * dw i ^ 2)) + Sum k (fun a => Sum p (fun i => z i a ^ 2))).
    - rewrite <- Sum_plus. apply Sum_le; intros a _. rewrite <- Sum_plus. apply Sum_le; intros i _.
      pose proof (pow2_ge_0 (r a * dw i + z i a)). nra.
    - apply Rplus_le_compat; [|exact Z].
      rewrite (Sum_ext k _ (fun a => r a ^ 2 * N1)) by (intros; apply Sum_scal_l). rewrite Sum_scal_r.
      apply Rmult_le_compat_r; [apply N1_nonneg | exact R2].
  Qed.
  (** the part of the misfit of second and higher order *)
  Lemma params_curvature s : 0 <= s <= 1 -> N1 <= 2 ->
    SS (n - L) k (fun q a => (lin p k lg w M dw dM G (L + q) a + s * F dw dM G (L + q) a) ^ 2)
    - 2 * SS (n - L) k (fun q a => (G (L + q)%nat a - F w M G (L + q) a) * F dw dM G (L + q) a)
    <= INR (n - L) * ((3 * INR p + 10) * (N1 + N2)).
  Proof using Hw HM HG HL.
    intros Hs H2. unfold SS.
    replace (2 * Sum (n - L) _) with (Sum (n - L) (fun q => 2 * Sum k (fun a => (G (L + q)%nat a - F w M G (L + q) a) * F dw dM G (L + q) a)))
      by apply Sum_scal_l.
    rewrite <- Sum_minus. apply Sum_const_le; intros q Hq.
    pose proof (fc_dw q Hq) as B1. pose proof (fc_dM q Hq) as B2. pose proof (fc_dwdM q Hq H2) as B3. pose proof (residual_cross q Hq) as B4.
    assert (B : Sum k (fun a => (lin p k lg w M dw dM G (L + q) a + s * F dw dM G (L + q) a) ^ 2)
       <= 3 * Sum k (fun a => F dw M G (L + q) a ^ 2) + 3 * Sum k (fun a => F w dM G (L + q) a ^ 2) + 3 * Sum k (fun a => F dw dM G (L + q) a ^ 2)).
    { rewrite <- !Sum_scal_l, <- !Sum_plus. apply Sum_le; intros a _. unfold lin. change (fc p k lg) with F.
      set (x := F dw M G (L + q) a). set (y := F w dM G (L + q) a). set (u := F dw dM G (L + q) a).
      assert ((s * u) ^ 2 <= u ^ 2).
      { replace ((s * u) ^ 2) with (s ^ 2 * u ^ 2) by ring. rewrite <- (Rmult_1_l (u ^ 2)) at 2.
        apply Rmult_le_compat_r; [apply pow2_ge_0 | nra]. }
      pose proof (pow2_ge_0 (x - y)). pose proof (pow2_ge_0 (x - s * u)). pose proof (pow2_ge_0 (y - s * u)). nra. }
    pose proof N1_nonneg. pose proof N2_nonneg. pose proof (pos_INR p).
    assert (0 <= INR p * N2) by (apply Rmult_le_pos; assumption). nra.
  Qed.
End Curvature.

(** ** the model's arrays *)
Lemma f_prob_of c ow : length ow = n_lags c -> prob_vec ow -> f_prob (@n_lags R c) (at_ ow).
Proof. intros E [A B]. rewrite E in A, B. split; assumption. Qed.
Lemma f_cols_of p k Ts : is_stack p k Ts -> stack_stochastic Ts -> f_cols p k (tent Ts).
Proof.
  intros HT ST i b Hi Hb. destruct (stack_dim _ _ _ i HT Hi) as [t1 t2].
  specialize (ST i ltac:(destruct HT; lia) b). change (nth i Ts (mkmat 0 0 [])) with (tmat Ts i) in ST.
  rewrite t1, t2 in ST. exact (ST Hb).
Qed.
Lemma f_rows_of n k G : is_mat n k G -> row_stochastic G -> f_rows k n (ent G).
Proof. intros (g1 & g2 & _) SG t Ht. specialize (SG t ltac:(lia)). rewrite g2 in SG. exact SG. Qed.
Lemma vinner_vdot a b : @vinner R Num_R a b = vdot a b.
Proof. unfold vinner, vdot. rewrite nsum_Sum. reflexivity. Qed.
Lemma tinner_stack_dot A B : @tinner R Num_R A B = stack_dot A B.
Proof. unfold tinner, stack_dot. rewrite nsum_Sum. apply Sum_ext; intros i Hi. apply minner_frob. Qed.
Lemma vdot_sym a b : length a = length b -> vdot a b = vdot b a.
Proof. intros E. unfold vdot. rewrite E. apply Sum_ext; intros; ring. Qed.
Lemma stack_dot_sym p k A B : is_stack p k A -> is_stack p k B -> stack_dot A B = stack_dot B A.
Proof. intros HA HB. rewrite !(stack_dot_tent p k) by assumption. apply Sum_ext; intros; apply SS_ext; intros; ring. Qed.
Lemma vdot_vscale g h s : length g = length h -> vdot g (@vscale R Num_R s h) = s * vdot g h.
Proof. intros E. unfold vdot. rewrite <- Sum_scal_l. apply Sum_ext; intros i Hi. rewrite at_vscale by lia. ring. Qed.
Lemma stack_dot_tscale p k g h s : is_stack p k g -> is_stack p k h -> stack_dot g (@tscale R Num_R s h) = s * stack_dot g h.
Proof.
  intros Hg Hh. rewrite !(stack_dot_tent p k) by assumption. rewrite <- Sum_scal_l. apply Sum_ext; intros i Hi. rewrite <- SS_scal.
  apply SS_ext; intros a b Ha Hb. rewrite (tent_tscale p k) by assumption. ring.
Qed.

(** curvature of the objective along a change of the weights and of the parameters *)
Definition mcurv_w (c : mtd_cfg R) n d k (S : mat R) : R := frob2 S / (INR d * INR n) + mnm c n k * (2 + 2 * INR k).
Definition mcurv_p (c : mtd_cfg R) k : R := mc_eps_weights c * ((3 * INR (n_lags c) + 10) / INR k).

Lemma mcurv_w_nonneg c n d k S : (2 <= k)%nat -> (max_lag c < n)%nat -> 0 <= mc_eps_weights c -> (0 < d)%nat -> 0 <= mcurv_w c n d k S.
Proof.
  intros Hk Hl He Hd. assert (0 < INR d) by (apply lt_0_INR; exact Hd). assert (0 < INR n) by (apply lt_0_INR; lia). pose proof (pos_INR k).
  apply Rplus_le_le_0_compat; [|apply Rmult_le_pos; [apply mnm_nonneg; assumption | lra]].
  apply Rmult_le_pos; [apply frob2_nonneg|]. left. apply Rinv_0_lt_compat, Rmult_lt_0_compat; lra.
Qed.
Lemma mcurv_p_nonneg c k : (2 <= k)%nat -> 0 <= mc_eps_weights c -> 0 <= mcurv_p c k.
Proof.
  intros Hk He. assert (0 < INR k) by (apply lt_0_INR; lia). pose proof (pos_INR (n_lags c)).
  apply Rmult_le_pos; [exact He|]. apply Rmult_le_pos; [lra|]. left. apply Rinv_0_lt_compat. lra.
Qed.

Section Steps.
  Variables (n d k : nat) (X : mat R) (c : mtd_cfg R) (w : mws R).
  Hypothesis HX : is_mat n d X.
  Hypothesis Hw : mok c n d k X w.
  Hypothesis Hk : (2 <= k)%nat.
  Hypothesis Hl : (max_lag c < n)%nat.
  Hypothesis He : 0 <= mc_eps_weights c.
  Hypothesis Hd : (0 < d)%nat.
  Hypothesis SO : prob_vec (m_order_weights w).
  Hypothesis ST : stack_stochastic (m_transition_matrices w).
  Let obj G ow Ts := mtd_objective (mc_eps_states c) (mc_eps_weights c) (mc_lags c) X G (m_S w) ow Ts.

  Lemma weights_step H s : is_mat n k H -> mcache_w w ->
    obj (@madd R Num_R (m_Gamma w) (mscale s H)) (m_order_weights w) (m_transition_matrices w)
    <= obj (m_Gamma w) (m_order_weights w) (m_transition_matrices w)
       + s * frob H (mtd_weights_gradient c k w) + s * s * (mcurv_w c n d k (m_S w) * frob2 H).
  Proof.
    intros HH HC. unfold obj. pose proof Hw as (_ & _ & HS & _ & HO & HT & _). pose proof HS as (s1 & s2 & _). pose proof HH as (h1 & h2 & _).
    pose proof (mtd_weights_gradient_shape n d k X c w Hw) as (q1 & q2 & _).
    rewrite (mtd_objective_weights n d k X c w (mscale s H)) by (try assumption; apply is_mat_mscale; apply HH).
    rewrite frob_mscale_r by lia. rewrite (frob_sym H) by lia.
    assert (E1 : SS n d (fun i j => Sum k (fun e => ent (mscale s H) i e * ent (m_S w) e j) ^ 2)
       = s * s * SS n d (fun i j => Sum k (fun e => ent H i e * ent (m_S w) e j) ^ 2)).
    { rewrite <- SS_scal. apply SS_ext; intros i j Hi Hj.
      rewrite (Sum_ext k (fun e => ent (mscale s H) i e * ent (m_S w) e j) (fun e => s * (ent H i e * ent (m_S w) e j))).
      - rewrite Sum_scal_l. ring.
      - intros e He'. rewrite ent_mscale by lia. ring. }
    assert (E2 : mmis c k n (m_order_weights w) (m_transition_matrices w) (mscale s H)
       = s * s * mmis c k n (m_order_weights w) (m_transition_matrices w) H).
    { unfold mmis. rewrite <- mis_scale. unfold mis. apply SS_ext; intros q a Hq Ha. rewrite ent_mscale by lia. f_equal. f_equal.
      unfold fc. apply Sum_ext; intros i Hi. f_equal. apply Sum_ext; intros b Hb. rewrite ent_mscale by lia. reflexivity. }
    rewrite E1, E2; clear E1 E2. fold (mnm c n k).
    pose proof (product_bound n d k H (m_S w) h1 h2 s1 s2) as B1.
    pose proof (mis_bound (n_lags c) k n (max_lag c) (lag c) (lag_le c) ltac:(lia) (at_ (m_order_weights w)) (tent (m_transition_matrices w))
      (ent H) (f_prob_of c _ HO SO) (f_cols_of _ _ _ HT ST)) as B2.
    change (mis _ _ _ _ _ _ _ _) with (mmis c k n (m_order_weights w) (m_transition_matrices w) H) in B2.
    replace (SS n k (fun t a => ent H t a ^ 2)) with (frob2 H) in B2 by (rewrite frob2_SS, h1, h2; reflexivity).
    assert (P : 0 < INR d * INR n) by (apply Rmult_lt_0_compat; apply lt_0_INR; lia).
    pose proof (mnm_nonneg n k c Hk Hl He) as N0.
    set (Q := SS n d _) in *. set (U := mmis c k n _ _ H) in *.
    assert (A1 : Q / (INR d * INR n) <= frob2 (m_S w) / (INR d * INR n) * frob2 H).
    { unfold Rdiv. rewrite (Rmult_comm (frob2 (m_S w) * _)), <- Rmult_assoc. apply Rmult_le_compat_r; [|exact B1].
      left; apply Rinv_0_lt_compat, P. }
    assert (A2 : mnm c n k * U <= mnm c n k * (2 + 2 * INR k) * frob2 H) by (rewrite Rmult_assoc; apply Rmult_le_compat_l; assumption).
    assert (0 <= s * s) by nra.
    replace (s * s * Q / (INR d * INR n) + mnm c n k * (s * s * U)) with (s * s * (Q / (INR d * INR n) + mnm c n k * U)) by (unfold Rdiv; ring).
    apply Rplus_le_compat_l, Rmult_le_compat_l; [assumption|]. unfold mcurv_w. lra.
  Qed.

  (** the directions of the parameter update *)
  Hypothesis Hp : (0 < n_lags c)%nat.
  Hypothesis SG : row_stochastic (m_Gamma w).
  Hypothesis Ha : 0 < m_alpha_parameters w.
  Let go := mtd_order_gradient c k w.
  Let gT := mtd_transition_gradient c k w.
  Let dO := mdir_o c k w.
  Let dT := mdir_t c k w.
  Definition psq : R := vdot (mdir_o c k w) (mdir_o c k w) + stack_dot (mdir_t c k w) (mdir_t c k w).
  Definition pslope : R := vdot (mdir_o c k w) (mtd_order_gradient c k w) + stack_dot (mdir_t c k w) (mtd_transition_gradient c k w).
  Lemma psq_nonneg : 0 <= psq.
  Proof.
    unfold psq. rewrite (stack_dot_tent (n_lags c) k) by apply (mdir_t_stack c n d k X w Hw).
    apply Rplus_le_le_0_compat; [apply vdot_self_nonneg|]. apply Sum_nonneg; intros; apply SS_nonneg; intros; nra.
  Qed.
  Lemma params_slope : pslope <= - (psq / m_alpha_parameters w).
  Proof.
    pose proof Hw as (_ & _ & _ & _ & HO & HT & _).
    assert (Lg : length go = n_lags c) by apply order_gradient_length.
    assert (Hg : is_stack (n_lags c) k gT) by (apply (transition_gradient_stack n d k X); exact Hw).
    pose proof (v_direction (n_lags c) (m_order_weights w) go (m_alpha_parameters w) HO Lg Hp Ha SO) as V.
    pose proof (t_direction (n_lags c) k (m_transition_matrices w) gT (m_alpha_parameters w) HT Hg ltac:(lia) Ha ST) as U.
    change (vsub _ (m_order_weights w)) with dO in V. change (tsub _ (m_transition_matrices w)) with dT in U.
    unfold pslope, psq. fold dO dT go gT. rewrite (vdot_sym dO go) by (rewrite Lg; apply (mdir_o_length c n d k X w Hw)).
    rewrite (stack_dot_sym (n_lags c) k dT gT) by (try exact Hg; apply (mdir_t_stack c n d k X w Hw)).
    unfold Rdiv in *. lra.
  Qed.
  Lemma params_step s : 0 <= s <= 1 ->
    obj (m_Gamma w) (vadd (m_order_weights w) (vscale s (mdir_o c k w))) (tadd (m_transition_matrices w) (tscale s (mdir_t c k w)))
    <= obj (m_Gamma w) (m_order_weights w) (m_transition_matrices w) + s * pslope + s * s * (mcurv_p c k * psq).
  Proof.
    intros Hs. unfold obj. pose proof Hw as (_ & HG & _ & _ & HO & HT & _).
    pose proof (mdir_o_length c n d k X w Hw) as Ldo. pose proof (mdir_t_stack c n d k X w Hw) as Hdt.
    assert (Lg : length go = n_lags c) by apply order_gradient_length.
    assert (Hg : is_stack (n_lags c) k gT) by (apply (transition_gradient_stack n d k X); exact Hw).
    fold dO in Ldo |- *. fold dT in Hdt |- *.
    rewrite (mtd_objective_params n d k X c w (vscale s dO) (tscale s dT) HX Hw Hk ltac:(unfold vscale; rewrite map_length; exact Ldo) (stack_tscale _ _ _ _ Hdt)).
    rewrite vdot_vscale by (rewrite order_gradient_length; congruence). rewrite (stack_dot_tscale (n_lags c) k) by assumption.
    rewrite (vdot_sym (mtd_order_gradient c k w)) by (rewrite order_gradient_length; congruence).
    rewrite (stack_dot_sym (n_lags c) k (mtd_transition_gradient c k w)) by assumption.
    rewrite (mrem_scale c n k) by assumption.
    assert (E1 : vdot dO dO = Sum (n_lags c) (fun i => at_ dO i ^ 2)).
    { unfold vdot. rewrite Ldo. apply Sum_ext; intros; ring. }
    assert (E2 : stack_dot dT dT = Sum (n_lags c) (fun i => SS k k (fun a b => tent dT i a b ^ 2))).
    { rewrite (stack_dot_tent (n_lags c) k) by exact Hdt. apply Sum_ext; intros; apply SS_ext; intros; ring. }
    assert (N2 : Sum (n_lags c) (fun i => at_ dO i ^ 2) <= 2).
    { pose proof (vP_prob (n_lags c) (m_order_weights w) go (m_alpha_parameters w) HO Hp) as PP.
      change (simplex_project_vector _) with (mproj_o c k w) in PP.
      destruct (f_prob_of c _ (mproj_o_length c n d k X w Hw) PP) as [P0 P1]. destruct (f_prob_of c _ HO SO) as [O0 O1].
      rewrite (Sum_ext _ _ (fun i => (at_ (mproj_o c k w) i - at_ (m_order_weights w) i) ^ 2)).
      - apply prob_diff_sq; assumption.
      - intros i Hi. unfold dO, mdir_o. rewrite at_vsub by (rewrite (mproj_o_length c n d k X w Hw); exact Hi). reflexivity. }
    pose proof (params_curvature (n_lags c) k n (max_lag c) (lag c) ltac:(lia) (at_ (m_order_weights w)) (tent (m_transition_matrices w)) (ent (m_Gamma w))
      (f_prob_of c _ HO SO) (f_cols_of _ _ _ HT ST) (f_rows_of _ _ _ HG SG) (at_ dO) (tent dT) s Hs N2) as B.
    rewrite <- E1, <- E2 in B. change (vdot dO dO + stack_dot dT dT) with psq in B.
    match type of B with ?l <= _ => set (Q := l) in * end.
    match goal with |- context [mnm c n k * (s * s * ?e)] => change e with Q end.
    unfold pslope. fold dO dT. pose proof (mnm_nonneg n k c Hk Hl He) as M0. assert (0 <= s * s) by nra.
    assert (A : mnm c n k * Q <= mcurv_p c k * psq).
    { eapply Rle_trans; [apply Rmult_le_compat_l; [exact M0 | exact B]|]. right. unfold mnm, mcurv_p. rewrite minus_INR by lia. field.
      split; first [apply not_0_INR; lia | apply lt_INR in Hl; lra]. }
    replace (mnm c n k * (s * s * Q)) with (s * s * (mnm c n k * Q)) by ring.
    apply Rmult_le_compat_l with (r := s * s) in A; [|assumption]. lra.
  Qed.
End Steps.

(** ** the updates do not increase the cost *)
Lemma mtd_update_weights_descends n d k X fuel c w0 w' m0 a : is_mat n d X -> mok c n d k X w0 ->
  (2 <= k)%nat -> (max_lag c < n)%nat -> (0 < d)%nat -> 0 <= mc_eps_weights c ->
  row_stochastic (m_Gamma w0) -> prob_vec (m_order_weights w0) -> stack_stochastic (m_transition_matrices w0) ->
  0 < ls_sigma_one (mc_ls c) -> ls_sigma_two (mc_ls c) < 1 -> 0 <= ls_gamma (mc_ls c) <= 1 ->
  m_f_Gamma_mem w0 = [m0] -> 0 < m_alpha_Gamma w0 <= a ->
  0 < ls_step_tol (mc_ls c) <= ls_sigma_one (mc_ls c) ->
  ls_step_tol (mc_ls c) * (2 * a * mcurv_w c n d k (m_S w0)) <= 1 - ls_gamma (mc_ls c) ->
  mtd_update_weights fuel c k w0 = Ok w' ->
  mtd_evaluate_cost c k w' <= mtd_evaluate_cost c k w0.
Proof.
  intros HX Hw Hk Hl Hd He SG SO ST H1 H2 Hg Hm Ha Ht1 Ht2 H.
  destruct (mtd_update_weights_ok c n d k X fuel w0 w' Hw H1 H2 H) as (s & b & Hs & EL & Hne & -> & _).
  destruct (mrefresh_w_ok c n d k X w0 Hw) as [Hr HC]. set (w := mrefresh_w w0) in *.
  pose proof (mdir_w_shape c n d k X w Hr) as HD. pose proof (mtd_weights_gradient_shape n d k X c w Hr) as HGr.
  rewrite Hm in EL. cbn [tl app] in EL.
  set (tr := fun s => mtd_set_Gamma c (madd (m_Gamma w) (mscale s (mdir_w c k w))) w) in EL.
  change (mtd_set_Gamma c (madd (m_Gamma w) (mscale 1 (mdir_w c k w))) w) with (tr 1) in EL.
  assert (Ecost : forall s, mtd_evaluate_cost c k (tr s)
     = mtd_objective (mc_eps_states c) (mc_eps_weights c) (mc_lags c) X (madd (m_Gamma w) (mscale s (mdir_w c k w))) (m_S w)
         (m_order_weights w) (m_transition_matrices w)).
  { intros t. unfold tr. rewrite (mtd_cost_spec n d k X c) by first [assumption | lia | apply mset_Gamma_ok; [exact Hr | apply is_mat_madd; apply Hr]]. reflexivity. }
  assert (Ew : mtd_evaluate_cost c k w0 = mtd_objective (mc_eps_states c) (mc_eps_weights c) (mc_lags c) X (m_Gamma w) (m_S w)
         (m_order_weights w) (m_transition_matrices w)).
  { rewrite (mtd_cost_spec n d k X c) by first [assumption | lia]. reflexivity. }
  rewrite minner_frob in EL.
  pose proof (project_direction n k (m_Gamma w) (mtd_weights_gradient c k w) (m_alpha_Gamma w)
     (proj1 (proj2 Hr)) HGr SG ltac:(lia) (proj1 Ha)) as Sl. cbv zeta in Sl.
  change (frob (mtd_weights_gradient c k w) (mdir_w c k w) <= - frob2 (mdir_w c k w) / m_alpha_Gamma w) in Sl.
  rewrite frob_sym in Sl by (destruct HGr as (q1 & q2 & _), HD as (r1 & r2 & _); lia).
  apply (spg_descent fuel (mc_ls c) (mtd_evaluate_cost c k) tr m0 _ _ (frob2 (mdir_w c k w)) (mcurv_w c n d k (m_S w)) (m_alpha_Gamma w) a) in EL;
    try assumption.
  - destruct EL as [_ EL]. exact EL.
  - intros t Ht. rewrite Ecost, Ew. apply (weights_step n d k X); assumption.
  - apply frob2_nonneg.
  - apply mcurv_w_nonneg; assumption.
  - unfold Rdiv in *. lra.
Qed.
Lemma mtd_update_dictionary_descends n d k X fuel c w0 w' m0 a : is_mat n d X -> mok c n d k X w0 ->
  (0 < n)%nat -> (0 < k)%nat -> (0 < d)%nat -> 0 <= mc_eps_states c ->
  0 < ls_sigma_one (mc_ls c) -> ls_sigma_two (mc_ls c) < 1 -> 0 <= ls_gamma (mc_ls c) <= 1 ->
  m_f_S_mem w0 = [m0] -> 0 < m_alpha_S w0 <= a ->
  0 < ls_step_tol (mc_ls c) <= ls_sigma_one (mc_ls c) ->
  ls_step_tol (mc_ls c) * (2 * a * curv_d (mc_eps_states c) n d k (m_Gamma w0)) <= 1 - ls_gamma (mc_ls c) ->
  mtd_update_dictionary fuel c k w0 = Ok w' ->
  mtd_evaluate_cost c k w' <= mtd_evaluate_cost c k w0.
Proof.
  intros HX Hw Hn Hk Hd He H1 H2 Hg Hm Ha Ht1 Ht2 H.
  destruct (mtd_update_dictionary_ok c n d k X fuel w0 w' Hw H1 H2 H) as (s & b & Hs & EL & Hne & -> & _).
  destruct (mrefresh_d_ok c n d k X w0 Hw) as [Hr HC]. set (w := mrefresh_d w0) in *.
  pose proof (mdir_d_shape c n d k X w Hr) as HD.
  rewrite Hm in EL. cbn [tl app] in EL.
  set (tr := fun s => mtd_set_S (madd (m_S w) (mscale s (mdir_d c k w))) w) in EL.
  change (mtd_set_S (madd (m_S w) (mscale 1 (mdir_d c k w))) w) with (tr 1) in EL.
  assert (Ecost : forall s, mtd_evaluate_cost c k (tr s)
     = mtd_objective (mc_eps_states c) (mc_eps_weights c) (mc_lags c) X (m_Gamma w) (madd (m_S w) (mscale s (mdir_d c k w)))
         (m_order_weights w) (m_transition_matrices w)).
  { intros t. unfold tr. rewrite (mtd_cost_spec n d k X c) by first [assumption | apply mset_S_ok; [exact Hr | apply is_mat_madd; apply Hr]]. reflexivity. }
  assert (Ew : mtd_evaluate_cost c k w0 = mtd_objective (mc_eps_states c) (mc_eps_weights c) (mc_lags c) X (m_Gamma w) (m_S w)
         (m_order_weights w) (m_transition_matrices w)).
  { rewrite (mtd_cost_spec n d k X c) by assumption. reflexivity. }
  rewrite minner_frob in EL.
  pose proof (dir_d_slope n d k X (gc_of c) (gw_of w) (mok_gok _ _ _ _ _ _ Hr) (proj1 Ha)) as Sl.
  change (frob (mdir_d c k w) (mtd_dictionary_gradient c k w) = - frob2 (mdir_d c k w) / m_alpha_S w) in Sl.
  apply (spg_descent fuel (mc_ls c) (mtd_evaluate_cost c k) tr m0 _ _ (frob2 (mdir_d c k w)) (curv_d (mc_eps_states c) n d k (m_Gamma w)) (m_alpha_S w) a) in EL;
    try assumption.
  - destruct EL as [_ EL]. exact EL.
  - intros t Ht. rewrite Ecost, Ew, !objective_split.
    pose proof (objective_dict_step n d k X (gc_of c) (gw_of w) (mdir_d c k w) t HX (mok_gok _ _ _ _ _ _ Hr) HC HD Hn Hk Hd He) as B.
    cbn [w_Gamma w_S gw_of gc_epsilon gc_of] in B. rewrite <- dictionary_gradient_of in B. lra.
  - apply frob2_nonneg.
  - unfold curv_d. apply Rplus_le_le_0_compat.
    + apply Rmult_le_pos; [apply frob2_nonneg|]. left. apply Rinv_0_lt_compat. apply Rmult_lt_0_compat; apply lt_0_INR; assumption.
    + apply Rmult_le_pos; [exact He|]. destruct (Nat.eqb_spec k 1); [lra|].
      pose proof (INR_pred_pos k ltac:(lia)). assert (0 < INR d) by (apply lt_0_INR; exact Hd).
      apply Rmult_le_pos; [lra|]. left; apply Rinv_0_lt_compat, Rmult_lt_0_compat; lra.
  - unfold Rdiv in *. lra.
Qed.
Lemma mtd_update_parameters_descends n d k X fuel c w0 w' m0 a : is_mat n d X -> mok c n d k X w0 ->
  (2 <= k)%nat -> (max_lag c < n)%nat -> (0 < d)%nat -> (0 < n_lags c)%nat -> 0 <= mc_eps_weights c ->
  row_stochastic (m_Gamma w0) -> prob_vec (m_order_weights w0) -> stack_stochastic (m_transition_matrices w0) ->
  0 < ls_sigma_one (mc_ls c) -> ls_sigma_two (mc_ls c) < 1 -> 0 <= ls_gamma (mc_ls c) <= 1 ->
  m_f_parameters_mem w0 = [m0] -> 0 < m_alpha_parameters w0 <= a ->
  0 < ls_step_tol (mc_ls c) <= ls_sigma_one (mc_ls c) ->
  ls_step_tol (mc_ls c) * (2 * a * mcurv_p c k) <= 1 - ls_gamma (mc_ls c) ->
  mtd_update_parameters fuel c k w0 = Ok w' ->
  mtd_evaluate_cost c k w' <= mtd_evaluate_cost c k w0.
Proof.
  intros HX Hw Hk Hl Hd Hp He SG SO ST H1 H2 Hg Hm Ha Ht1 Ht2 H.
  destruct (mtd_update_parameters_ok c n d k X fuel w0 w' Hw H1 H2 H) as (s & b & Hs & EL & Hne & -> & _).
  rewrite Hm in EL. cbn [tl app] in EL.
  set (tr := fun s => mtd_set_parameters c (vadd (m_order_weights w0) (vscale s (mdir_o c k w0)))
                       (tadd (m_transition_matrices w0) (tscale s (mdir_t c k w0))) w0) in *.
  pose proof Hw as (_ & _ & _ & _ & HO & HT & _).
  assert (Ecost : forall s, mtd_evaluate_cost c k (tr s)
     = mtd_objective (mc_eps_states c) (mc_eps_weights c) (mc_lags c) X (m_Gamma w0) (m_S w0)
         (vadd (m_order_weights w0) (vscale s (mdir_o c k w0))) (tadd (m_transition_matrices w0) (tscale s (mdir_t c k w0)))).
  { intros t. unfold tr. rewrite (mtd_cost_spec n d k X c) by first [assumption | lia | apply mset_parameters_ok;
      [exact Hw | unfold vadd, vmap2; rewrite length_tab; exact HO | apply stack_tadd, HT]]. reflexivity. }
  assert (Ew : mtd_evaluate_cost c k w0 = mtd_objective (mc_eps_states c) (mc_eps_weights c) (mc_lags c) X (m_Gamma w0) (m_S w0)
         (m_order_weights w0) (m_transition_matrices w0)) by (apply (mtd_cost_spec n d k X c); assumption || lia).
  rewrite vinner_vdot, tinner_stack_dot in EL. fold (pslope k c w0) in EL.
  apply (spg_descent fuel (mc_ls c) (mtd_evaluate_cost c k) tr m0 _ _ (psq k c w0) (mcurv_p c k) (m_alpha_parameters w0) a) in EL;
    try assumption.
  - destruct EL as [_ EL]. exact EL.
  - intros t Ht. rewrite Ecost, Ew. apply (params_step n d k X); assumption.
  - apply (psq_nonneg n d k X); assumption.
  - apply mcurv_p_nonneg; assumption.
  - apply (params_slope n d k X); try assumption. apply Ha.
Qed.

(** the parameter fit of the reduced-order class *)
Lemma crom_update_search c n k G fuel w0 w' : cok c n k G w0 ->
  0 < ls_sigma_one (mc_ls c) -> ls_sigma_two (mc_ls c) < 1 ->
  crom_update_parameters fuel c k n G w0 = Ok w' ->
  let tr := fun s => crom_set_parameters c G (vadd (cw_order_weights w0) (vscale s (cdir_o c k n G w0)))
                       (tadd (cw_transition_matrices w0) (tscale s (cdir_t c k n G w0))) w0 in
  exists s, line_search fuel (mc_ls c) (crom_fit_residual c k n G) tr (tr 1) (cw_mem w0) (crom_fit_residual c k n G w0)
      (vdot (cdir_o c k n G w0) (crom_order_gradient c k n G w0) + stack_dot (cdir_t c k n G w0) (crom_transition_gradient c k n G w0))
      = Ok (tr s, s, tl (cw_mem w0) ++ [crom_fit_residual c k n G w0])
    /\ crom_fit_residual c k n G w' = crom_fit_residual c k n G (tr s).
Proof.
  intros Hw H1 H2 H tr. unfold crom_update_parameters in H. cbv zeta in H.
  rewrite (crom_refresh c n k G w0 Hw) in H.
  fold (cproj_o c k n G w0) in H. fold (cdir_o c k n G w0) in H. fold (cproj_t c k n G w0) in H. fold (cdir_t c k n G w0) in H.
  apply bind_ok in H. destruct H as (((w1 & s) & mem) & EL & H). injection H as <-.
  unfold crom_line_search in EL. cbv zeta in EL.
  pose proof (cproj_o_length c n k G w0 Hw) as Lo. pose proof (cproj_t_stack c n k G w0 Hw) as Lt.
  pose proof Hw as (HG & HO & HT & EZ).
  rewrite <- (vadd_vscale_1 (cw_order_weights w0) (cdir_o c k n G w0)) in EL
    by (unfold cdir_o, vsub, vmap2; rewrite length_tab; congruence).
  rewrite <- (tadd_tscale_1 (n_lags c) k (cw_transition_matrices w0) (cdir_t c k n G w0)) in EL
    by (exact HT || (apply stack_tsub, Lt)).
  fold tr in EL. change (crom_set_parameters c G (vadd (cw_order_weights w0) (vscale 1 (cdir_o c k n G w0)))
                       (tadd (cw_transition_matrices w0) (tscale 1 (cdir_t c k n G w0))) w0) with (tr 1) in EL.
  rewrite vinner_vdot, tinner_stack_dot in EL.
  pose proof (line_search_range fuel (mc_ls c) (crom_fit_residual c k n G) tr _ _ _ _ _ _ H1 H2 EL) as (E1 & Hs & Em & Hne).
  exists s. rewrite <- E1, <- Em at 1. split; [exact EL | rewrite <- E1; reflexivity].
Qed.
Lemma crom_update_descends n k G fuel c w0 w' m0 a : cok c n k G w0 -> mc_eps_weights c = 1 ->
  (2 <= k)%nat -> (max_lag c < n)%nat -> (0 < n_lags c)%nat ->
  row_stochastic G -> prob_vec (cw_order_weights w0) -> stack_stochastic (cw_transition_matrices w0) ->
  0 < ls_sigma_one (mc_ls c) -> ls_sigma_two (mc_ls c) < 1 -> 0 <= ls_gamma (mc_ls c) <= 1 ->
  cw_mem w0 = [m0] -> 0 < cw_alpha w0 <= a ->
  0 < ls_step_tol (mc_ls c) <= ls_sigma_one (mc_ls c) ->
  ls_step_tol (mc_ls c) * (2 * a * ((3 * INR (n_lags c) + 10) / INR k)) <= 1 - ls_gamma (mc_ls c) ->
  crom_update_parameters fuel c k n G w0 = Ok w' ->
  crom_fit_residual c k n G w' <= crom_fit_residual c k n G w0.
Proof.
  intros Hw E1 Hk Hl Hp SG SO ST H1 H2 Hg Hm Ha Ht1 Ht2 H.
  destruct (crom_update_search c n k G fuel w0 w' Hw H1 H2 H) as (s & EL & Ew'). rewrite Ew'; clear Ew'.
  rewrite Hm in EL. cbn [tl app] in EL. pose proof (cok_mok c n k G w0 Hw) as Hc. set (v := cemb n k G w0) in *.
  assert (Eo : cdir_o c k n G w0 = mdir_o c k v).
  { unfold cdir_o, mdir_o, cproj_o, mproj_o. rewrite (crom_order_gradient_of c n k G w0 E1). reflexivity. }
  assert (Et : cdir_t c k n G w0 = mdir_t c k v).
  { unfold cdir_t, mdir_t, cproj_t, mproj_t. rewrite (crom_transition_gradient_of c n k G w0 E1). reflexivity. }
  rewrite (crom_order_gradient_of c n k G w0 E1), (crom_transition_gradient_of c n k G w0 E1) in EL.
  rewrite Eo, Et in EL. fold v in EL. fold (pslope k c v) in EL.
  set (tr := fun s => crom_set_parameters c G (vadd (cw_order_weights w0) (vscale s (mdir_o c k v)))
                       (tadd (cw_transition_matrices w0) (tscale s (mdir_t c k v))) w0) in *.
  pose proof Hw as (HG & HO & HT & EZ). pose proof HG as (g1 & g2 & _).
  set (X := @mzeros R Num_R n 1). set (S := @mzeros R Num_R k 1). set (C := gpnh_objective (mc_eps_states c) X G S).
  set (obj := fun ow Ts => mtd_objective (mc_eps_states c) (mc_eps_weights c) (mc_lags c) X G S ow Ts).
  assert (Eobj : forall u, cok c n k G u -> crom_fit_residual c k n G u = obj (cw_order_weights u) (cw_transition_matrices u) - C).
  { intros u Hu. unfold obj. rewrite objective_split, (crom_residual_spec c n k G u Hu), g1, g2, E1. fold C. destruct (Nat.eqb k 1); ring. }
  assert (Htr : forall t, cok c n k G (tr t)).
  { intros t. split; [exact HG|]. split; [unfold tr; cbn [cw_order_weights crom_set_parameters]; unfold vadd, vmap2; rewrite length_tab; exact HO|].
    split; [apply stack_tadd, HT | reflexivity]. }
  assert (He : 0 <= mc_eps_weights c) by lra.
  assert (HX : is_mat n 1 X) by apply is_mat_mbuild.
  apply (spg_descent fuel (mc_ls c) (crom_fit_residual c k n G) tr m0 _ _ (psq k c v) (mcurv_p c k) (cw_alpha w0) a) in EL;
    try assumption.
  - unfold tr in EL |- *. rewrite Eo, Et. apply EL.
  - intros t Ht. rewrite (Eobj (tr t) (Htr t)), (Eobj w0 Hw).
    assert (B : obj (vadd (cw_order_weights w0) (vscale t (mdir_o c k v))) (tadd (cw_transition_matrices w0) (tscale t (mdir_t c k v)))
       <= obj (cw_order_weights w0) (cw_transition_matrices w0) + t * pslope k c v + t * t * (mcurv_p c k * psq k c v))
      by (apply (params_step n 1 k X c v); assumption || lia).
    change (cw_order_weights (tr t)) with (vadd (cw_order_weights w0) (vscale t (mdir_o c k v))).
    change (cw_transition_matrices (tr t)) with (tadd (cw_transition_matrices w0) (tscale t (mdir_t c k v))). lra.
  - apply (psq_nonneg n 1 k X); assumption.
  - apply mcurv_p_nonneg; assumption.
  - apply (params_slope n 1 k X); try assumption; try lia. apply Ha.
  - unfold mcurv_p. rewrite E1, Rmult_1_l. exact Ht2.
Qed.
