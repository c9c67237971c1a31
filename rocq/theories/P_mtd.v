(** Proofs about mtd_convex_coding.py: cost, gradients, updates. *)
From Coq Require Import List Arith Lia ZArith Reals Lra Psatz Bool.
From Verif Require Import Num Mat Py Spec M_simplex M_spg M_iter M_random M_furthest M_gpnh M_mtd.
From Verif Require Import P_lin P_simplex P_spg P_random P_mat P_iter P_gpnh.
Import ListNotations.
Local Open Scope R_scope.

(** ** sums *)
Lemma Sum_trunc n m f : (m <= n)%nat -> Sum n (fun t => if Nat.ltb t m then f t else 0) = Sum m f.
Proof.
  intros H. replace n with (m + (n - m))%nat by lia. rewrite Sum_split.
  rewrite (Sum_ext m (fun t => if Nat.ltb t m then f t else 0) f).
  2:{ intros i Hi. destruct (Nat.ltb_spec i m); [reflexivity | lia]. }
  rewrite (Sum_zero (n - m)); [ring|]. intros i Hi. destruct (Nat.ltb_spec (m + i) m); [lia | reflexivity].
Qed.
Lemma Sum_tail n L f : Sum n (fun t => if Nat.ltb t L then 0 else f t) = Sum (n - L) (fun s => f (L + s)%nat).
Proof.
  destruct (Nat.le_gt_cases L n) as [H|H].
  - replace n with (L + (n - L))%nat at 1 by lia. rewrite Sum_split.
    rewrite (Sum_zero L).
    2:{ intros i Hi. destruct (Nat.ltb_spec i L); [reflexivity | lia]. }
    rewrite Rplus_0_l. apply Sum_ext; intros i Hi. destruct (Nat.ltb_spec (L + i) L); [lia | reflexivity].
  - replace (n - L)%nat with 0%nat by lia. apply Sum_zero. intros i Hi. destruct (Nat.ltb_spec i L); [reflexivity | lia].
Qed.
(** the terms of a sum with an offset *)
Lemma Sum_offset n L l f : (l <= L)%nat -> (forall u, (u < L)%nat -> f u = 0) ->
  Sum (n - L) (fun s => f (L + s)%nat) = Sum (n - l) (fun t => f (t + l)%nat).
Proof.
  intros H1 Hz. destruct (Nat.le_gt_cases L n) as [H2|H2].
  - replace (n - l)%nat with ((L - l) + (n - L))%nat by lia. rewrite Sum_split.
    rewrite (Sum_zero (L - l)) by (intros; apply Hz; lia). rewrite Rplus_0_l.
    apply Sum_ext; intros; f_equal; lia.
  - replace (n - L)%nat with 0%nat by lia. symmetry. apply Sum_zero. intros i Hi. apply Hz. lia.
Qed.

(** ** the forecast error, with functions for arrays *)
Section Misfit.
  Variables (p k n L : nat) (lg : nat -> nat).
  Hypothesis Hlg : forall i, (i < p)%nat -> (lg i <= L)%nat.

  Definition fc (w : nat -> R) (M : nat -> nat -> nat -> R) (G : nat -> nat -> R) (t a : nat) : R :=
    Sum p (fun i => w i * Sum k (fun b => M i a b * G (t - lg i)%nat b)).
  Definition mis w M G : R := SS (n - L) k (fun s a => (G (L + s)%nat a - fc w M G (L + s) a) ^ 2).

  Lemma fc_plus w M G H t a : fc w M (fun t b => G t b + H t b) t a = fc w M G t a + fc w M H t a.
  Proof.
    unfold fc. rewrite <- Sum_plus. apply Sum_ext; intros i _.
    rewrite <- Rmult_plus_distr_l, <- Sum_plus. f_equal. apply Sum_ext; intros; ring.
  Qed.
  Lemma fc_scale w M s G t a : fc w M (fun t b => s * G t b) t a = s * fc w M G t a.
  Proof.
    unfold fc. rewrite <- Sum_scal_l. apply Sum_ext; intros i _.
    rewrite (Sum_ext k _ (fun b => s * (M i a b * G (t - lg i)%nat b))) by (intros; ring). rewrite Sum_scal_l. ring.
  Qed.
  Lemma mis_scale w M s G : mis w M (fun t b => s * G t b) = s * s * mis w M G.
  Proof. unfold mis. rewrite <- SS_scal. apply SS_ext; intros. rewrite fc_scale. ring. Qed.
  Lemma mis_nonneg w M G : 0 <= mis w M G.
  Proof. apply SS_nonneg; intros; apply pow2_ge_0. Qed.

  (** adjoint of the forecast *)
  Lemma fc_adjoint w M H (r : nat -> nat -> R) : (forall u a, (u < L)%nat -> r u a = 0) ->
    SS (n - L) k (fun s a => r (L + s)%nat a * fc w M H (L + s) a)
    = SS n k (fun t b => Sum p (fun i => if Nat.ltb t (n - lg i) then w i * Sum k (fun a => r (t + lg i)%nat a * M i a b) else 0) * H t b).
  Proof using Hlg.
    intros Hr.
    transitivity (Sum p (fun i => Sum (n - L) (fun s => Sum k (fun a => r (L + s)%nat a * (w i * Sum k (fun b => M i a b * H (L + s - lg i)%nat b)))))).
    { unfold SS, fc.
      transitivity (Sum (n - L) (fun s => Sum p (fun i => Sum k (fun a => r (L + s)%nat a * (w i * Sum k (fun b => M i a b * H (L + s - lg i)%nat b)))))).
      - apply Sum_ext; intros s _. rewrite <- (Sum_swap k p). apply Sum_ext; intros a _. rewrite <- Sum_scal_l. reflexivity.
      - apply Sum_swap. }
    transitivity (Sum p (fun i => SS n k (fun t b => (if Nat.ltb t (n - lg i) then w i * Sum k (fun a => r (t + lg i)%nat a * M i a b) else 0) * H t b))).
    - apply Sum_ext; intros i Hi.
      rewrite (Sum_offset n L (lg i) (fun u => Sum k (fun a => r u a * (w i * Sum k (fun b => M i a b * H (u - lg i)%nat b))))).
      2: apply Hlg, Hi.
      2:{ intros u Hu. apply Sum_zero; intros a _. rewrite Hr by exact Hu. ring. }
      unfold SS.
      rewrite (Sum_ext n _ (fun t => if Nat.ltb t (n - lg i) then
           Sum k (fun b => w i * Sum k (fun a => r (t + lg i)%nat a * M i a b) * H t b) else 0)).
      2:{ intros t Ht. destruct (Nat.ltb t (n - lg i)); [reflexivity|]. apply Sum_zero; intros; ring. }
      rewrite (Sum_trunc n (n - lg i)) by lia. apply Sum_ext; intros t Ht.
      replace (t + lg i - lg i)%nat with t by lia.
      transitivity (w i * Sum k (fun a => r (t + lg i)%nat a * Sum k (fun b => M i a b * H t b))).
      { rewrite <- Sum_scal_l. apply Sum_ext; intros; ring. }
      rewrite <- (Sum_assoc k k (fun a => r (t + lg i)%nat a) (fun a b => M i a b) (fun b => H t b)).
      rewrite <- Sum_scal_l. apply Sum_ext; intros; ring.
    - unfold SS. rewrite (Sum_swap p n). apply Sum_ext; intros t _. rewrite (Sum_swap p k).
      apply Sum_ext; intros b _. apply Sum_scal_r.
  Qed.

  (** residual at every time, zero before the first forecast *)
  Definition rs w M G (u a : nat) : R := if Nat.ltb u L then 0 else G u a - fc w M G u a.
  Definition gw w M G (t b : nat) : R :=
    2 * (rs w M G t b - Sum p (fun i => if Nat.ltb t (n - lg i) then w i * Sum k (fun a => rs w M G (t + lg i) a * M i a b) else 0)).
  Lemma mis_weights w M G H : mis w M (fun t b => G t b + H t b) = mis w M G + SS n k (fun t b => gw w M G t b * H t b) + mis w M H.
  Proof using Hlg.
    assert (E : SS n k (fun t b => gw w M G t b * H t b)
      = 2 * SS (n - L) k (fun s a => (G (L + s)%nat a - fc w M G (L + s) a) * (H (L + s)%nat a - fc w M H (L + s) a))).
    { unfold gw.
      rewrite (SS_ext n k _ (fun t b => 2 * (rs w M G t b * H t b - Sum p (fun i => if Nat.ltb t (n - lg i) then w i * Sum k (fun a => rs w M G (t + lg i) a * M i a b) else 0) * H t b))) by (intros; ring).
      rewrite SS_scal, SS_minus. f_equal.
      rewrite <- (fc_adjoint w M H (rs w M G)).
      2:{ intros u a Hu. unfold rs. destruct (Nat.ltb_spec u L); [reflexivity | lia]. }
      assert (E1 : SS n k (fun t b => rs w M G t b * H t b) = SS (n - L) k (fun s a => (G (L + s)%nat a - fc w M G (L + s) a) * H (L + s)%nat a)).
      { unfold SS. rewrite <- (Sum_tail n L (fun t => Sum k (fun a => (G t a - fc w M G t a) * H t a))).
        apply Sum_ext; intros t _. unfold rs. destruct (Nat.ltb t L); [apply Sum_zero; intros; ring | reflexivity]. }
      assert (E2 : SS (n - L) k (fun s a => rs w M G (L + s) a * fc w M H (L + s) a) = SS (n - L) k (fun s a => (G (L + s)%nat a - fc w M G (L + s) a) * fc w M H (L + s) a)).
      { apply SS_ext; intros s a _ _. unfold rs. destruct (Nat.ltb_spec (L + s) L); [lia | reflexivity]. }
      rewrite E1, E2, <- SS_minus. apply SS_ext; intros; ring. }
    rewrite E. unfold mis. rewrite <- SS_scal, <- !SS_plus. apply SS_ext; intros. rewrite fc_plus. ring.
  Qed.

  (** ** dependence on the parameters *)
  Definition go w M G (i : nat) : R :=
    - 2 * SS (n - L) k (fun s a => (G (L + s)%nat a - fc w M G (L + s) a) * Sum k (fun b => M i a b * G (L + s - lg i)%nat b)).
  Definition gt w M G (i a b : nat) : R :=
    - 2 * w i * Sum (n - L) (fun s => (G (L + s)%nat a - fc w M G (L + s) a) * G (L + s - lg i)%nat b).
  Definition lin w M dw dM G (t a : nat) : R := fc dw M G t a + fc w dM G t a.

  Lemma fc_params w M dw dM G t a :
    fc (fun i => w i + dw i) (fun i a b => M i a b + dM i a b) G t a = fc w M G t a + (lin w M dw dM G t a + fc dw dM G t a).
  Proof.
    unfold lin, fc. rewrite <- !Sum_plus. apply Sum_ext; intros i _.
    rewrite (Sum_ext k _ (fun b => M i a b * G (t - lg i)%nat b + dM i a b * G (t - lg i)%nat b)) by (intros; ring).
    rewrite Sum_plus. ring.
  Qed.
  Lemma lin_adjoint w M dw dM G :
    - 2 * SS (n - L) k (fun s a => (G (L + s)%nat a - fc w M G (L + s) a) * lin w M dw dM G (L + s) a)
    = Sum p (fun i => go w M G i * dw i) + Sum p (fun i => SS k k (fun a b => gt w M G i a b * dM i a b)).
  Proof.
    set (r := fun s a => G (L + s)%nat a - fc w M G (L + s) a).
    assert (E1 : SS (n - L) k (fun s a => r s a * fc dw M G (L + s) a)
       = Sum p (fun i => dw i * SS (n - L) k (fun s a => r s a * Sum k (fun b => M i a b * G (L + s - lg i)%nat b)))).
    { unfold fc, SS.
      transitivity (Sum (n - L) (fun s => Sum p (fun i => Sum k (fun a => dw i * (r s a * Sum k (fun b => M i a b * G (L + s - lg i)%nat b)))))).
      - apply Sum_ext; intros s _. rewrite <- (Sum_swap k p). apply Sum_ext; intros a _. rewrite <- Sum_scal_l. apply Sum_ext; intros; ring.
      - rewrite Sum_swap. apply Sum_ext; intros i _. rewrite <- Sum_scal_l. apply Sum_ext; intros s _. apply Sum_scal_l. }
    assert (E2 : SS (n - L) k (fun s a => r s a * fc w dM G (L + s) a)
       = Sum p (fun i => w i * SS k k (fun a b => Sum (n - L) (fun s => r s a * G (L + s - lg i)%nat b) * dM i a b))).
    { unfold fc, SS.
      transitivity (Sum (n - L) (fun s => Sum p (fun i => Sum k (fun a => w i * (r s a * Sum k (fun b => dM i a b * G (L + s - lg i)%nat b)))))).
      - apply Sum_ext; intros s _. rewrite <- (Sum_swap k p). apply Sum_ext; intros a _. rewrite <- Sum_scal_l. apply Sum_ext; intros; ring.
      - rewrite Sum_swap. apply Sum_ext; intros i _.
        transitivity (w i * Sum (n - L) (fun s => Sum k (fun a => r s a * Sum k (fun b => dM i a b * G (L + s - lg i)%nat b)))).
        + rewrite <- Sum_scal_l. apply Sum_ext; intros s _. apply Sum_scal_l.
        + f_equal. rewrite Sum_swap. apply Sum_ext; intros a _.
          transitivity (Sum (n - L) (fun s => Sum k (fun b => r s a * G (L + s - lg i)%nat b * dM i a b))).
          * apply Sum_ext; intros s _. rewrite <- Sum_scal_l. apply Sum_ext; intros; ring.
          * rewrite Sum_swap. apply Sum_ext; intros b _. apply Sum_scal_r. }
    unfold lin. rewrite (SS_ext (n - L) k _ (fun s a => r s a * fc dw M G (L + s) a + r s a * fc w dM G (L + s) a)) by (intros; unfold r; ring).
    rewrite SS_plus, E1, E2, Rmult_plus_distr_l, <- !Sum_scal_l. f_equal; apply Sum_ext; intros i _.
    - unfold go. fold (SS (n - L) k (fun s a => r s a * Sum k (fun b => M i a b * G (L + s - lg i)%nat b))). subst r. cbv beta. ring.
    - rewrite <- SS_scal, <- SS_scal. apply SS_ext; intros. unfold gt. subst r. cbv beta. ring.
  Qed.
  Lemma mis_params w M dw dM G :
    mis (fun i => w i + dw i) (fun i a b => M i a b + dM i a b) G
    = mis w M G + (Sum p (fun i => go w M G i * dw i) + Sum p (fun i => SS k k (fun a b => gt w M G i a b * dM i a b)))
      + (SS (n - L) k (fun s a => (lin w M dw dM G (L + s) a + fc dw dM G (L + s) a) ^ 2)
         - 2 * SS (n - L) k (fun s a => (G (L + s)%nat a - fc w M G (L + s) a) * fc dw dM G (L + s) a)).
  Proof.
    rewrite <- lin_adjoint. unfold mis.
    replace (- 2 * SS (n - L) k (fun s a => (G (L + s)%nat a - fc w M G (L + s) a) * lin w M dw dM G (L + s) a))
      with (SS (n - L) k (fun s a => - 2 * ((G (L + s)%nat a - fc w M G (L + s) a) * lin w M dw dM G (L + s) a))) by apply SS_scal.
    rewrite <- (SS_scal (n - L) k 2). unfold Rminus. rewrite <- !SS_plus.
    replace (- SS (n - L) k (fun s a => 2 * ((G (L + s)%nat a + - fc w M G (L + s) a) * fc dw dM G (L + s) a)))
      with (SS (n - L) k (fun s a => -1 * (2 * ((G (L + s)%nat a + - fc w M G (L + s) a) * fc dw dM G (L + s) a)))) by (rewrite SS_scal; ring).
    rewrite <- !SS_plus. apply SS_ext; intros. rewrite fc_params. ring.
  Qed.
End Misfit.

(** ** the model's arrays *)
Lemma lag_le c i : (i < n_lags c)%nat -> (lag c i <= @max_lag R c)%nat.
Proof.
  intros Hi. unfold max_lag, lag. pose proof (proj1 (list_max_le (mc_lags c) (list_max (mc_lags c))) (le_n _)) as H.
  rewrite Forall_forall in H. apply H, nth_In, Hi.
Qed.
Lemma max_of_lag c : max_of (mc_lags c) = @max_lag R c. Proof. reflexivity. Qed.

(** arrays as functions *)
Definition tent (Ts : list (mat R)) (i a b : nat) : R := ent (tmat Ts i) a b.
Definition mfc (c : mtd_cfg R) k ow Ts G := fc (n_lags c) k (lag c) (at_ ow) (tent Ts) (ent G).
Definition mmis (c : mtd_cfg R) k n ow Ts G := mis (n_lags c) k n (max_lag c) (lag c) (at_ ow) (tent Ts) (ent G).

Lemma forecast_fc c k ow Ts G t a : nc G = k -> mtd_forecast (mc_lags c) ow Ts G t a = mfc c k ow Ts G t a.
Proof. intros <-. reflexivity. Qed.
Lemma misfit_mis c n k ow Ts G : nr G = n -> nc G = k -> mtd_misfit (mc_lags c) ow Ts G = mmis c k n ow Ts G.
Proof. intros <- <-. reflexivity. Qed.

Lemma lagged_ent c n k i G s b : is_mat n k G -> (i < n_lags c)%nat -> (s < n - max_lag c)%nat -> (b < k)%nat ->
  ent (@lagged R Num_R c i G) s b = ent G (max_lag c + s - lag c i) b.
Proof.
  intros (g1 & g2 & _) Hi Hs Hb. pose proof (lag_le c i Hi) as Hl. unfold lagged, mslice. rewrite g1, g2.
  rewrite ent_mbuild by lia. rewrite mget_ent. f_equal. lia.
Qed.
Lemma lagged_dim c n k i G : is_mat n k G -> (i < n_lags c)%nat ->
  nr (@lagged R Num_R c i G) = (n - max_lag c)%nat /\ nc (@lagged R Num_R c i G) = k.
Proof.
  intros (g1 & g2 & _) Hi. pose proof (lag_le c i Hi) as Hl. unfold lagged, mslice. mdim. rewrite g1, g2. split; [lia|reflexivity].
Qed.
Lemma stack_dim p k Ts i : is_stack p k Ts -> (i < p)%nat -> nr (tmat Ts i) = k /\ nc (tmat Ts i) = k.
Proof. intros (H & S) Hi. destruct (S i Hi) as (a & b & _). split; assumption. Qed.

Lemma predicted_ent c n k ow Ts G t a : is_mat n k G -> is_stack (n_lags c) k Ts -> (t < n)%nat -> (a < k)%nat ->
  ent (@predicted_weights R Num_R c ow Ts G) t a
  = if Nat.ltb t (max_lag c) then ent G t a else mfc c k ow Ts G t a.
Proof.
  intros HG HT Ht Ha. unfold predicted_weights. pose proof HG as (g1 & g2 & _). rewrite g1, g2, ent_mbuild by assumption.
  destruct (Nat.ltb_spec t (max_lag c)) as [H|H]; [reflexivity|].
  rewrite nsum_Sum. unfold mfc, fc. apply Sum_ext; intros i Hi. numR. rewrite vget_at. f_equal.
  destruct (lagged_dim c n k i G HG Hi) as [l1 l2]. destruct (stack_dim _ _ _ i HT Hi) as [t1 t2].
  rewrite mget_ent, ent_mmul by (mdim; lia). rewrite l2. apply Sum_ext; intros b Hb.
  rewrite (lagged_ent c n k) by (try assumption; lia). rewrite ent_mtr by lia. unfold tent.
  replace (max_lag c + (t - max_lag c) - lag c i)%nat with (t - lag c i)%nat by lia. ring.
Qed.
Lemma predicted_shape c n k ow Ts G : is_mat n k G -> is_mat n k (@predicted_weights R Num_R c ow Ts G).
Proof. intros (<- & <- & _). apply is_mat_mbuild. Qed.

(** shape and cache invariant *)
Definition mok (c : mtd_cfg R) (n d k : nat) (X : mat R) (w : mws R) : Prop :=
  m_X w = X /\ is_mat n k (m_Gamma w) /\ is_mat k d (m_S w) /\ m_SSt w = mmul (m_S w) (mtr (m_S w))
  /\ length (m_order_weights w) = n_lags c /\ is_stack (n_lags c) k (m_transition_matrices w)
  /\ m_Z w = predicted_weights c (m_order_weights w) (m_transition_matrices w) (m_Gamma w).

(** the part shared with GPNH convex coding *)
Definition gw_of (w : mws R) : gws R :=
  mk_gws (m_X w) (m_Gamma w) (m_S w) (m_GtG w) (m_GtX w) (m_XSt w) (m_SSt w)
         (m_alpha_Gamma w) (m_alpha_S w) (m_f_S_mem w) (m_f_Gamma_mem w).
Definition gc_of (c : mtd_cfg R) : gpnh_cfg R :=
  mk_gpnh_cfg (mc_eps_states c) (mc_init c) (mc_tolerance c) (mc_max_iterations c) (mc_ls c) (mc_memory c) (mc_monotone c).
Lemma mok_gok c n d k X w : mok c n d k X w -> gok n d k X (gw_of w).
Proof. intros (A & B & C & D & _). exact (conj A (conj B (conj C D))). Qed.

Lemma normalization_R c k n (w : mws R) : nr (m_X w) = n ->
  mtd_normalization c k w = 1 / (INR k * (INR n - INR (max_lag c))).
Proof.
  intros E. unfold mtd_normalization. rewrite E, nofnat_INR. numR. rewrite minus_IZR, <- !INR_IZR_INZ. reflexivity.
Qed.
Lemma residual_dim c n d k X w : mok c n d k X w ->
  nr (mtd_residual c w) = (n - max_lag c)%nat /\ nc (mtd_residual c w) = k.
Proof. intros (A & (g1 & g2 & _) & _). unfold mtd_residual, msub, mmap2, mslice; mdim. rewrite g1, g2. split; [lia|reflexivity]. Qed.
Lemma residual_ent c n d k X w s a : mok c n d k X w -> (s < n - max_lag c)%nat -> (a < k)%nat ->
  ent (mtd_residual c w) s a = ent (m_Gamma w) (max_lag c + s) a
    - mfc c k (m_order_weights w) (m_transition_matrices w) (m_Gamma w) (max_lag c + s) a.
Proof.
  intros Hw Hs Ha. destruct (residual_dim c n d k X w Hw) as [r1 r2]. destruct Hw as (A & HG & HS & ES & HO & HT & EZ).
  pose proof HG as (g1 & g2 & _). pose proof (predicted_shape c n k (m_order_weights w) (m_transition_matrices w) _ HG) as (z1 & z2 & _).
  unfold mtd_residual. unfold mtd_residual, msub, mmap2 in r1, r2. rewrite ent_msub by (mdim; mdim; lia).
  rewrite EZ. unfold mslice. rewrite g1, g2, z1, z2, !ent_mbuild by lia. rewrite !mget_ent.
  rewrite (predicted_ent c n k) by (try assumption; lia). destruct (Nat.ltb_spec (max_lag c + s) (max_lag c)); [lia|]. reflexivity.
Qed.

(** ** cost *)
Lemma mtd_cost_spec n d k X c w : is_mat n d X -> mok c n d k X w -> (0 < k)%nat -> (0 < d)%nat -> (0 < n)%nat ->
  mtd_evaluate_cost c k w
  = mtd_objective (mc_eps_states c) (mc_eps_weights c) (mc_lags c) X (m_Gamma w) (m_S w) (m_order_weights w) (m_transition_matrices w).
Proof.
  intros HX Hw Hk Hd Hn. unfold mtd_evaluate_cost, mtd_objective.
  pose proof (cost_spec n d k X (gc_of c) (gw_of w) HX (mok_gok _ _ _ _ _ _ Hw) Hk Hd Hn) as Ec.
  unfold gpnh_objective in Ec. cbn [gc_epsilon gc_of w_Gamma w_S gw_of] in Ec.
  change (nadd (mtd_loss_function w) (mtd_dictionary_penalty c k w)) with (evaluate_cost (gc_of c) k (gw_of w)).
  rewrite Ec. numR. f_equal. pose proof Hw as (A & HG & _). pose proof HG as (g1 & g2 & _). rewrite g1, g2.
  unfold mtd_weights_penalty. destruct (Nat.eqb k 1); [reflexivity|].
  rewrite nsq_mnorm, (normalization_R c k n) by (rewrite A; apply HX). rewrite (misfit_mis c n k) by assumption.
  rewrite max_of_lag. destruct (residual_dim c n d k X w Hw) as [r1 r2].
  assert (E : frob2 (mtd_residual c w) = mmis c k n (m_order_weights w) (m_transition_matrices w) (m_Gamma w)).
  { rewrite frob2_SS, r1, r2. unfold mmis, mis. apply SS_ext; intros s a Hs Ha.
    rewrite (residual_ent c n d k X) by assumption. reflexivity. }
  rewrite E. numR. unfold Rdiv. ring.
Qed.

(** ** gradients *)
Definition mcache_d (w : mws R) : Prop :=
  m_GtG w = mmul (mtr (m_Gamma w)) (m_Gamma w) /\ m_GtX w = mmul (mtr (m_Gamma w)) (m_X w).
Definition mcache_w (w : mws R) : Prop := m_XSt w = mmul (m_X w) (mtr (m_S w)).
Lemma dictionary_gradient_of c k (w : mws R) : mtd_dictionary_gradient c k w = dictionary_gradient (gc_of c) k (gw_of w).
Proof. reflexivity. Qed.

Lemma objective_split es ew lags X W D ow Ts :
  mtd_objective es ew lags X W D ow Ts = gpnh_objective es X W D + (if Nat.eqb (nc W) 1 then 0 else
     ew * (mtd_misfit lags ow Ts W / (INR (nc W) * (INR (nr W) - INR (max_of lags))))).
Proof. reflexivity. Qed.

Lemma mtd_objective_dict n d k X c w H : is_mat n d X -> mok c n d k X w -> mcache_d w -> is_mat k d H ->
  (0 < n)%nat -> (0 < k)%nat -> (0 < d)%nat ->
  mtd_objective (mc_eps_states c) (mc_eps_weights c) (mc_lags c) X (m_Gamma w) (@madd R Num_R (m_S w) H) (m_order_weights w) (m_transition_matrices w)
  = mtd_objective (mc_eps_states c) (mc_eps_weights c) (mc_lags c) X (m_Gamma w) (m_S w) (m_order_weights w) (m_transition_matrices w)
    + frob (mtd_dictionary_gradient c k w) H
    + (SS n d (fun i j => Sum k (fun e => ent (m_Gamma w) i e * ent H e j) ^ 2) / (INR d * INR n) + mc_eps_states c * spread H).
Proof.
  intros HX Hw HC HH Hn Hk Hd. rewrite !objective_split, dictionary_gradient_of.
  pose proof (objective_dict n d k X (gc_of c) (gw_of w) H HX (mok_gok _ _ _ _ _ _ Hw) HC HH Hn Hk Hd) as E.
  cbn [gc_epsilon gc_of w_Gamma w_S gw_of] in E. rewrite E. ring.
Qed.

(** *** weights *)
Definition mgw (c : mtd_cfg R) n k ow Ts G := gw (n_lags c) k n (max_lag c) (lag c) (at_ ow) (tent Ts) (ent G).
Definition wpen_step (c : mtd_cfg R) (k : nat) (w : mws R) (g : mat R) (i : nat) : mat R :=
  let n := nr (m_Gamma w) in
  mbuild n (nc (m_Gamma w)) (fun t a =>
    if Nat.ltb t (n - lag c i)
    then mget g t a + -2 * mc_eps_weights c * mtd_normalization c k w * vget (m_order_weights w) i
         * mget (mmul (mslice (lag c i) n (msub (m_Gamma w) (m_Z w))) (tmat (m_transition_matrices w) i)) t a
    else mget g t a).
Lemma wpen_fold c k (w : mws R) n m (t a : nat) : nr (m_Gamma w) = n -> nc (m_Gamma w) = k -> (t < n)%nat -> (a < k)%nat ->
  ent (fold_left (wpen_step c k w) (seq 0 m) (mzeros n k)) t a
  = Sum m (fun i => if Nat.ltb t (n - lag c i) then -2 * mc_eps_weights c * mtd_normalization c k w * at_ (m_order_weights w) i
       * ent (mmul (mslice (lag c i) n (msub (m_Gamma w) (m_Z w))) (tmat (m_transition_matrices w) i)) t a else 0).
Proof.
  intros g1 g2 Ht Ha. induction m as [|m IH]; [cbn [seq fold_left Sum]; apply ent_mzeros|].
  rewrite seq_S, fold_left_app, Nat.add_0_l. cbn [fold_left Sum]. rewrite <- IH. unfold wpen_step at 1. cbv zeta.
  rewrite g1, g2, ent_mbuild by assumption. rewrite !mget_ent, vget_at. destruct (Nat.ltb t (n - lag c m)); [reflexivity | ring].
Qed.
Lemma fold_dim c k (w : mws R) n m : nr (m_Gamma w) = n -> nc (m_Gamma w) = k ->
  is_mat n k (fold_left (wpen_step c k w) (seq 0 m) (mzeros n k)).
Proof.
  intros g1 g2. destruct m as [|m]; [apply is_mat_mbuild|].
  rewrite seq_S, fold_left_app, Nat.add_0_l. cbn [fold_left]. unfold wpen_step at 1. cbv zeta. rewrite g1, g2. apply is_mat_mbuild.
Qed.
Lemma weights_penalty_gradient_shape n d k X c w : mok c n d k X w -> is_mat n k (mtd_weights_penalty_gradient c k w).
Proof. intros (A & (g1 & g2 & _) & _). unfold mtd_weights_penalty_gradient. cbv zeta. rewrite g1, g2. apply is_mat_mbuild. Qed.
Lemma full_residual_ent n d k X c w u a : mok c n d k X w -> (u < n)%nat -> (a < k)%nat ->
  ent (msub (m_Gamma w) (m_Z w)) u a
  = rs (n_lags c) k (max_lag c) (lag c) (at_ (m_order_weights w)) (tent (m_transition_matrices w)) (ent (m_Gamma w)) u a.
Proof.
  intros (A & HG & HS & ES & HO & HT & EZ) Hu Ha. pose proof HG as (g1 & g2 & _).
  rewrite ent_msub by lia. rewrite EZ, (predicted_ent c n k) by assumption. unfold rs, mfc.
  destruct (Nat.ltb u (max_lag c)); ring.
Qed.
Lemma weights_penalty_gradient_ent n d k X c w t a : is_mat n d X -> mok c n d k X w -> (t < n)%nat -> (a < k)%nat ->
  ent (mtd_weights_penalty_gradient c k w) t a
  = mc_eps_weights c / (INR k * (INR n - INR (max_lag c)))
    * mgw c n k (m_order_weights w) (m_transition_matrices w) (m_Gamma w) t a.
Proof.
  intros HX Hw Ht Ha. pose proof Hw as (A & HG & HS & ES & HO & HT & EZ). pose proof HG as (g1 & g2 & _).
  unfold mtd_weights_penalty_gradient. cbv zeta. rewrite g1, g2, ent_mbuild by assumption.
  rewrite !mget_ent.
  replace (fold_left _ (seq 0 (n_lags c)) (mzeros n k)) with (fold_left (wpen_step c k w) (seq 0 (n_lags c)) (mzeros n k))
    by (unfold wpen_step; cbv zeta; rewrite g1, g2; reflexivity).
  rewrite (wpen_fold c k w n) by assumption.
  assert (Er : forall u b, (u < n)%nat -> (b < k)%nat -> ent (m_Gamma w) u b - ent (m_Z w) u b
      = rs (n_lags c) k (max_lag c) (lag c) (at_ (m_order_weights w)) (tent (m_transition_matrices w)) (ent (m_Gamma w)) u b).
  { intros u b Hu Hb. rewrite <- (full_residual_ent n d k X c) by assumption. rewrite ent_msub by lia. reflexivity. }
  rewrite (normalization_R c k n) by (rewrite A; apply HX).
  set (nm := 1 / (INR k * (INR n - INR (max_lag c)))).
  replace (mc_eps_weights c / (INR k * (INR n - INR (max_lag c)))) with (mc_eps_weights c * nm) by (unfold nm, Rdiv; ring).
  unfold mgw, gw.
  set (P := Sum (n_lags c) (fun i => if Nat.ltb t (n - lag c i) then _ else 0)).
  set (Q := Sum (n_lags c) (fun i => if Nat.ltb t (n - lag c i) then at_ (m_order_weights w) i * _ else 0)).
  assert (EP : P = -2 * (mc_eps_weights c * nm) * Q).
  { unfold P, Q. rewrite <- Sum_scal_l. apply Sum_ext; intros i Hi. destruct (Nat.ltb_spec t (n - lag c i)) as [Hlt|]; [|ring].
    destruct (stack_dim _ _ _ i HT Hi) as [t1 t2].
    rewrite ent_mmul by (unfold mslice; mdim; lia).
    replace (nc (mslice (lag c i) n (msub (m_Gamma w) (m_Z w)))) with k by (unfold mslice, msub, mmap2; mdim; lia).
    rewrite (Sum_ext k (fun b => ent (mslice (lag c i) n (msub (m_Gamma w) (m_Z w))) t b * _) (fun b => rs (n_lags c) k (max_lag c) (lag c) (at_ (m_order_weights w)) (tent (m_transition_matrices w)) (ent (m_Gamma w)) (t + lag c i) b * tent (m_transition_matrices w) i b a)).
    - ring.
    - intros b Hb. unfold mslice. rewrite ent_mbuild by (unfold msub, mmap2; mdim; lia). rewrite mget_ent, (full_residual_ent n d k X c) by (assumption || lia).
      rewrite (Nat.add_comm (lag c i)). reflexivity. }
  rewrite EP, <- (Er t a) by assumption.
  destruct (Nat.ltb_spec t (max_lag c)).
  - rewrite EZ, (predicted_ent c n k) by assumption. destruct (Nat.ltb_spec t (max_lag c)); [|lia]. ring.
  - numR. change (@mget R Num_R) with ent. ring.
Qed.
Lemma mtd_weights_gradient_shape n d k X c w : mok c n d k X w -> is_mat n k (mtd_weights_gradient c k w).
Proof.
  intros Hw. pose proof (weights_penalty_gradient_shape n d k X c w Hw) as (q1 & q2 & _).
  unfold mtd_weights_gradient, madd, mmap2; mdim. rewrite q1, q2. apply is_mat_mbuild.
Qed.
Lemma mtd_weights_gradient_entry n d k X c w t a : is_mat n d X -> mok c n d k X w -> mcache_w w -> (t < n)%nat -> (a < k)%nat ->
  ent (mtd_weights_gradient c k w) t a
  = ent (weights_gradient (gw_of w)) t a
    + mc_eps_weights c / (INR k * (INR n - INR (max_lag c))) * mgw c n k (m_order_weights w) (m_transition_matrices w) (m_Gamma w) t a.
Proof.
  intros HX Hw HC Ht Ha. rewrite <- (weights_penalty_gradient_ent n d k X) by assumption.
  pose proof (weights_penalty_gradient_shape n d k X c w Hw) as (q1 & q2 & _).
  pose proof Hw as (A & HG & _). pose proof HG as (g1 & g2 & _).
  unfold mtd_weights_gradient, weights_gradient. cbn [gw_of w_X w_Gamma w_XSt w_SSt].
  rewrite !ent_madd by (unfold madd, mmap2; mdim; lia). rewrite ent_mzeros. ring.
Qed.
Lemma mtd_objective_weights n d k X c w H : is_mat n d X -> mok c n d k X w -> mcache_w w -> is_mat n k H -> (2 <= k)%nat ->
  mtd_objective (mc_eps_states c) (mc_eps_weights c) (mc_lags c) X (@madd R Num_R (m_Gamma w) H) (m_S w) (m_order_weights w) (m_transition_matrices w)
  = mtd_objective (mc_eps_states c) (mc_eps_weights c) (mc_lags c) X (m_Gamma w) (m_S w) (m_order_weights w) (m_transition_matrices w)
    + frob (mtd_weights_gradient c k w) H
    + (SS n d (fun i j => Sum k (fun e => ent H i e * ent (m_S w) e j) ^ 2) / (INR d * INR n)
       + mc_eps_weights c / (INR k * (INR n - INR (max_lag c))) * mmis c k n (m_order_weights w) (m_transition_matrices w) H).
Proof.
  intros HX Hw HC HH Hk. rewrite !objective_split.
  pose proof (objective_weights n d k X (mc_eps_states c) (gw_of w) H HX (mok_gok _ _ _ _ _ _ Hw) HC HH) as E.
  cbn [w_Gamma w_S gw_of] in E. rewrite E; clear E.
  pose proof Hw as (A & HG & HS & ES & HO & HT & EZ). pose proof HG as (g1 & g2 & _). pose proof HH as (h1 & h2 & _).
  pose proof (mtd_weights_gradient_shape n d k X c w Hw) as (q1 & q2 & _).
  pose proof (weights_gradient_shape n d k X _ (mok_gok _ _ _ _ _ _ Hw)) as (r1 & r2 & _).
  pose proof (is_mat_madd n k (m_Gamma w) H g1 g2) as (b1 & b2 & _).
  rewrite !(misfit_mis c n k) by assumption. rewrite b1, b2, g1, g2, max_of_lag. destruct (Nat.eqb_spec k 1); [lia|].
  assert (Em : mmis c k n (m_order_weights w) (m_transition_matrices w) (madd (m_Gamma w) H)
     = mmis c k n (m_order_weights w) (m_transition_matrices w) (m_Gamma w)
       + SS n k (fun t b => mgw c n k (m_order_weights w) (m_transition_matrices w) (m_Gamma w) t b * ent H t b)
       + mmis c k n (m_order_weights w) (m_transition_matrices w) H).
  { unfold mmis, mgw. rewrite <- mis_weights by apply lag_le.
    unfold mis. apply SS_ext; intros s a Hs Ha. rewrite ent_madd by lia. f_equal. f_equal.
    unfold fc. apply Sum_ext; intros i Hi. f_equal. apply Sum_ext; intros b Hb. rewrite ent_madd by lia. reflexivity. }
  rewrite Em, !frob_SS, q1, q2, r1, r2.
  erewrite (SS_ext n k (fun i j => ent (mtd_weights_gradient c k w) i j * ent H i j)).
  2:{ intros t a Ht Ha. rewrite (mtd_weights_gradient_entry n d k X) by assumption. rewrite Rmult_plus_distr_r, Rmult_assoc. reflexivity. }
  rewrite SS_plus, SS_scal. unfold Rdiv. ring.
Qed.

(** *** parameters *)
Definition mgo (c : mtd_cfg R) n k ow Ts G := go (n_lags c) k n (max_lag c) (lag c) (at_ ow) (tent Ts) (ent G).
Definition mgt (c : mtd_cfg R) n k ow Ts G := gt (n_lags c) k n (max_lag c) (lag c) (at_ ow) (tent Ts) (ent G).
Definition mnm (c : mtd_cfg R) n k : R := mc_eps_weights c / (INR k * (INR n - INR (max_lag c))).

Lemma order_gradient_length (c : mtd_cfg R) k w : length (mtd_order_gradient c k w) = n_lags c.
Proof. apply length_tab. Qed.
Lemma transition_gradient_stack n d k X c w : mok c n d k X w -> is_stack (n_lags c) k (mtd_transition_gradient c k w).
Proof.
  intros Hw. split; [apply length_tab|]. intros i Hi. unfold mtd_transition_gradient. rewrite nth_tab by exact Hi.
  destruct (residual_dim c n d k X w Hw) as [r1 r2]. destruct (lagged_dim c n k i (m_Gamma w) (proj1 (proj2 Hw)) Hi) as [l1 l2].
  apply is_mat_mscale; mdim; lia.
Qed.
Lemma order_gradient_ent n d k X c w i : is_mat n d X -> mok c n d k X w -> (i < n_lags c)%nat ->
  at_ (mtd_order_gradient c k w) i = mnm c n k * mgo c n k (m_order_weights w) (m_transition_matrices w) (m_Gamma w) i.
Proof.
  intros HX Hw Hi. destruct (residual_dim c n d k X w Hw) as [r1 r2]. pose proof Hw as (A & HG & HS & ES & HO & HT & EZ).
  destruct (lagged_dim c n k i (m_Gamma w) HG Hi) as [l1 l2]. destruct (stack_dim _ _ _ i HT Hi) as [t1 t2].
  unfold mtd_order_gradient, at_. rewrite nth_tab by exact Hi. rewrite (normalization_R c k n) by (rewrite A; apply HX).
  rewrite mtrace_Sum; mdim. rewrite r1, l1, Nat.min_id. unfold mnm, mgo, go. numR.
  rewrite (Sum_ext _ _ (fun s => Sum k (fun a => (ent (m_Gamma w) (max_lag c + s) a
      - mfc c k (m_order_weights w) (m_transition_matrices w) (m_Gamma w) (max_lag c + s) a)
      * Sum k (fun b => tent (m_transition_matrices w) i a b * ent (m_Gamma w) (max_lag c + s - lag c i) b)))).
  - unfold SS, mfc, Rdiv. ring.
  - intros s Hs. rewrite ent_mmul by (mdim; lia). mdim. rewrite t2.
    rewrite <- (Sum_assoc k k (fun a => ent (m_Gamma w) (max_lag c + s) a - mfc c k (m_order_weights w) (m_transition_matrices w) (m_Gamma w) (max_lag c + s) a)
       (fun a b => tent (m_transition_matrices w) i a b) (fun b => ent (m_Gamma w) (max_lag c + s - lag c i) b)).
    apply Sum_ext; intros b Hb. rewrite ent_mmul by (mdim; lia). rewrite ent_mtr by lia. rewrite r2.
    rewrite (lagged_ent c n k) by assumption. f_equal. apply Sum_ext; intros a Ha. rewrite (residual_ent c n d k X) by assumption. reflexivity.
Qed.
Lemma transition_gradient_ent n d k X c w i a b : is_mat n d X -> mok c n d k X w -> (i < n_lags c)%nat -> (a < k)%nat -> (b < k)%nat ->
  ent (tmat (mtd_transition_gradient c k w) i) a b
  = mnm c n k * mgt c n k (m_order_weights w) (m_transition_matrices w) (m_Gamma w) i a b.
Proof.
  intros HX Hw Hi Ha Hb. destruct (residual_dim c n d k X w Hw) as [r1 r2]. pose proof Hw as (A & HG & HS & ES & HO & HT & EZ).
  destruct (lagged_dim c n k i (m_Gamma w) HG Hi) as [l1 l2].
  unfold mtd_transition_gradient, tmat. rewrite nth_tab by exact Hi. rewrite (normalization_R c k n) by (rewrite A; apply HX).
  rewrite ent_mscale by (mdim; lia). rewrite ent_mmul by (mdim; lia). mdim. rewrite r1. unfold mnm, mgt, gt. numR. rewrite vget_at.
  rewrite (Sum_ext _ _ (fun s => (ent (m_Gamma w) (max_lag c + s) a
      - mfc c k (m_order_weights w) (m_transition_matrices w) (m_Gamma w) (max_lag c + s) a)
      * ent (m_Gamma w) (max_lag c + s - lag c i) b)).
  - unfold mfc, Rdiv. ring.
  - intros s Hs. rewrite ent_mtr by lia. rewrite (residual_ent c n d k X), (lagged_ent c n k) by assumption. reflexivity.
Qed.

(** second and higher order part of the misfit along a change of the parameters *)
Definition mrem (c : mtd_cfg R) n k ow Ts G dw dT : R :=
  let p := n_lags c in let L := max_lag c in
  SS (n - L) k (fun s a => (lin p k (lag c) (at_ ow) (tent Ts) (at_ dw) (tent dT) (ent G) (L + s) a
                            + fc p k (lag c) (at_ dw) (tent dT) (ent G) (L + s) a) ^ 2)
  - 2 * SS (n - L) k (fun s a => (ent G (L + s) a - mfc c k ow Ts G (L + s) a)
                            * fc p k (lag c) (at_ dw) (tent dT) (ent G) (L + s) a).

Lemma at_vadd a b i : (i < length a)%nat -> at_ (@vadd R Num_R a b) i = at_ a i + at_ b i.
Proof. intros H. unfold vadd, vmap2, at_. rewrite nth_tab by exact H. reflexivity. Qed.
Lemma at_vsub a b i : (i < length a)%nat -> at_ (@vsub R Num_R a b) i = at_ a i - at_ b i.
Proof. intros H. unfold vsub, vmap2, at_. rewrite nth_tab by exact H. reflexivity. Qed.
Lemma at_vscale s a i : (i < length a)%nat -> at_ (@vscale R Num_R s a) i = s * at_ a i.
Proof. intros H. exact (@vget_map R Num_R (fun x => nmul s x) a i H). Qed.
Lemma tmat_tadd A B i : (i < length A)%nat -> tmat (@tadd R Num_R A B) i = madd (tmat A i) (tmat B i).
Proof. intros H. unfold tadd. unfold tmat at 1. rewrite nth_tab by exact H. reflexivity. Qed.
Lemma tmat_tsub A B i : (i < length A)%nat -> tmat (@tsub R Num_R A B) i = msub (tmat A i) (tmat B i).
Proof. intros H. unfold tsub. unfold tmat at 1. rewrite nth_tab by exact H. reflexivity. Qed.
Lemma tmat_map (f : mat R -> mat R) (A : list (mat R)) i : (i < length A)%nat -> tmat (map f A) i = f (tmat A i).
Proof.
  intros H. unfold tmat. rewrite nth_indep with (d' := f (@mat0 R)) by (rewrite map_length; exact H). apply map_nth.
Qed.
Lemma stack_tadd p k A B : is_stack p k A -> is_stack p k (@tadd R Num_R A B).
Proof.
  intros (H & S). split; [unfold tadd; rewrite length_tab; exact H|]. intros i Hi.
  change (nth i (tadd A B) (mkmat 0 0 [])) with (tmat (tadd A B) i). rewrite tmat_tadd by lia. apply is_mat_madd; apply (S i Hi).
Qed.
Lemma stack_tsub p k A B : is_stack p k A -> is_stack p k (@tsub R Num_R A B).
Proof.
  intros (H & S). split; [unfold tsub; rewrite length_tab; exact H|]. intros i Hi.
  change (nth i (tsub A B) (mkmat 0 0 [])) with (tmat (tsub A B) i). rewrite tmat_tsub by lia. apply is_mat_msub; apply (S i Hi).
Qed.
Lemma stack_map p k f A : is_stack p k A -> (forall M, is_mat k k M -> is_mat k k (f M)) -> is_stack p k (map f A).
Proof.
  intros (H & S) F. split; [rewrite map_length; exact H|]. intros i Hi.
  change (nth i (map f A) (mkmat 0 0 [])) with (tmat (map f A) i). rewrite tmat_map by lia. apply F, (S i Hi).
Qed.
Lemma stack_tscale p k s A : is_stack p k A -> is_stack p k (@tscale R Num_R s A).
Proof. intros H. apply stack_map; [exact H|]. intros M HM. apply is_mat_mscale; apply HM. Qed.
Lemma tent_tadd p k A B i a b : is_stack p k A -> (i < p)%nat -> (a < k)%nat -> (b < k)%nat ->
  tent (@tadd R Num_R A B) i a b = tent A i a b + tent B i a b.
Proof.
  intros HA Hi Ha Hb. unfold tent. rewrite tmat_tadd by (destruct HA; lia).
  destruct (stack_dim _ _ _ i HA Hi). rewrite ent_madd by lia. reflexivity.
Qed.
Lemma tent_tsub p k A B i a b : is_stack p k A -> (i < p)%nat -> (a < k)%nat -> (b < k)%nat ->
  tent (@tsub R Num_R A B) i a b = tent A i a b - tent B i a b.
Proof.
  intros HA Hi Ha Hb. unfold tent. rewrite tmat_tsub by (destruct HA; lia).
  destruct (stack_dim _ _ _ i HA Hi). rewrite ent_msub by lia. reflexivity.
Qed.
Lemma tent_tscale p k s A i a b : is_stack p k A -> (i < p)%nat -> (a < k)%nat -> (b < k)%nat ->
  tent (@tscale R Num_R s A) i a b = s * tent A i a b.
Proof.
  intros HA Hi Ha Hb. unfold tent, tscale. rewrite tmat_map by (destruct HA; lia).
  destruct (stack_dim _ _ _ i HA Hi). rewrite ent_mscale by lia. reflexivity.
Qed.
Lemma stack_dot_tent p k A B : is_stack p k A -> stack_dot A B = Sum p (fun i => SS k k (fun a b => tent A i a b * tent B i a b)).
Proof.
  intros HA. unfold stack_dot. destruct HA as [<- S]. apply Sum_ext; intros i Hi. rewrite frob_SS.
  destruct (S i Hi) as (a & b & _). rewrite a, b. reflexivity.
Qed.
Lemma fc_ext p k lg w w' M M' G t a : (forall i, (i < p)%nat -> w i = w' i) ->
  (forall i b, (i < p)%nat -> (b < k)%nat -> M i a b = M' i a b) -> fc p k lg w M G t a = fc p k lg w' M' G t a.
Proof.
  intros H1 H2. unfold fc. apply Sum_ext; intros i Hi. rewrite H1 by exact Hi. f_equal. apply Sum_ext; intros b Hb.
  rewrite H2 by assumption. reflexivity.
Qed.

Lemma mtd_objective_params n d k X c w dw dT : is_mat n d X -> mok c n d k X w -> (2 <= k)%nat ->
  length dw = n_lags c -> is_stack (n_lags c) k dT ->
  mtd_objective (mc_eps_states c) (mc_eps_weights c) (mc_lags c) X (m_Gamma w) (m_S w)
     (vadd (m_order_weights w) dw) (tadd (m_transition_matrices w) dT)
  = mtd_objective (mc_eps_states c) (mc_eps_weights c) (mc_lags c) X (m_Gamma w) (m_S w) (m_order_weights w) (m_transition_matrices w)
    + (vdot (mtd_order_gradient c k w) dw + stack_dot (mtd_transition_gradient c k w) dT)
    + mnm c n k * mrem c n k (m_order_weights w) (m_transition_matrices w) (m_Gamma w) dw dT.
Proof.
  intros HX Hw Hk Hdw HdT. rewrite !objective_split.
  pose proof Hw as (A & HG & HS & ES & HO & HT & EZ). pose proof HG as (g1 & g2 & _).
  rewrite !(misfit_mis c n k) by assumption. rewrite g1, g2, max_of_lag. destruct (Nat.eqb_spec k 1); [lia|].
  assert (Em : mmis c k n (vadd (m_order_weights w) dw) (tadd (m_transition_matrices w) dT) (m_Gamma w)
     = mmis c k n (m_order_weights w) (m_transition_matrices w) (m_Gamma w)
      + (Sum (n_lags c) (fun i => mgo c n k (m_order_weights w) (m_transition_matrices w) (m_Gamma w) i * at_ dw i)
         + Sum (n_lags c) (fun i => SS k k (fun a b => mgt c n k (m_order_weights w) (m_transition_matrices w) (m_Gamma w) i a b * tent dT i a b)))
      + mrem c n k (m_order_weights w) (m_transition_matrices w) (m_Gamma w) dw dT).
  { unfold mmis, mgo, mgt, mrem, mfc. cbv zeta. rewrite <- mis_params. unfold mis. apply SS_ext; intros s a Hs Ha.
    f_equal. f_equal. apply fc_ext; [intros i Hi; apply at_vadd; lia|].
    intros i b Hi Hb. apply (tent_tadd (n_lags c) k); assumption. }
  rewrite Em. unfold vdot. rewrite order_gradient_length.
  rewrite (stack_dot_tent (n_lags c) k) by (apply (transition_gradient_stack n d k X); exact Hw).
  rewrite (Sum_ext (n_lags c) (fun i => at_ (mtd_order_gradient c k w) i * at_ dw i)
    (fun i => mnm c n k * (mgo c n k (m_order_weights w) (m_transition_matrices w) (m_Gamma w) i * at_ dw i))).
  2:{ intros i Hi. rewrite (order_gradient_ent n d k X) by assumption. ring. }
  rewrite (Sum_ext (n_lags c) (fun i => SS k k (fun a b => tent (mtd_transition_gradient c k w) i a b * tent dT i a b))
    (fun i => mnm c n k * SS k k (fun a b => mgt c n k (m_order_weights w) (m_transition_matrices w) (m_Gamma w) i a b * tent dT i a b))).
  2:{ intros i Hi. rewrite <- SS_scal. apply SS_ext; intros a b Ha Hb. unfold tent at 1.
      rewrite (transition_gradient_ent n d k X) by assumption. ring. }
  rewrite !Sum_scal_l. unfold mnm, Rdiv. ring.
Qed.

(** along a line *)
Lemma fc_scale_w p k lg s w M G t a : fc p k lg (fun i => s * w i) M G t a = s * fc p k lg w M G t a.
Proof. unfold fc. rewrite <- Sum_scal_l. apply Sum_ext; intros; ring. Qed.
Lemma fc_scale_M p k lg s w M G t a : fc p k lg w (fun i a b => s * M i a b) G t a = s * fc p k lg w M G t a.
Proof.
  unfold fc. rewrite <- Sum_scal_l. apply Sum_ext; intros i _.
  rewrite (Sum_ext k _ (fun b => s * (M i a b * G (t - lg i)%nat b))) by (intros; ring). rewrite Sum_scal_l. ring.
Qed.
Lemma mrem_scale c n k ow Ts G dw dT s : length dw = n_lags c -> is_stack (n_lags c) k dT ->
  mrem c n k ow Ts G (vscale s dw) (tscale s dT)
  = s * s * (SS (n - max_lag c) k (fun q a => (lin (n_lags c) k (lag c) (at_ ow) (tent Ts) (at_ dw) (tent dT) (ent G) (max_lag c + q) a
                            + s * fc (n_lags c) k (lag c) (at_ dw) (tent dT) (ent G) (max_lag c + q) a) ^ 2)
             - 2 * SS (n - max_lag c) k (fun q a => (ent G (max_lag c + q) a - mfc c k ow Ts G (max_lag c + q) a)
                            * fc (n_lags c) k (lag c) (at_ dw) (tent dT) (ent G) (max_lag c + q) a)).
Proof.
  intros Hw HT. unfold mrem. cbv zeta.
  assert (E1 : forall t a, (a < k)%nat -> fc (n_lags c) k (lag c) (at_ (vscale s dw)) (tent (tscale s dT)) (ent G) t a
     = s * s * fc (n_lags c) k (lag c) (at_ dw) (tent dT) (ent G) t a).
  { intros t a Ha. rewrite (fc_ext _ _ _ _ (fun i => s * at_ dw i) _ (fun i a b => s * tent dT i a b)).
    - rewrite fc_scale_w, fc_scale_M. ring.
    - intros i Hi. apply at_vscale. lia.
    - intros i b Hi Hb. apply (tent_tscale (n_lags c) k); assumption. }
  assert (E2 : forall t a, (a < k)%nat -> lin (n_lags c) k (lag c) (at_ ow) (tent Ts) (at_ (vscale s dw)) (tent (tscale s dT)) (ent G) t a
     = s * lin (n_lags c) k (lag c) (at_ ow) (tent Ts) (at_ dw) (tent dT) (ent G) t a).
  { intros t a Ha. unfold lin. rewrite (fc_ext _ _ _ (at_ (vscale s dw)) (fun i => s * at_ dw i) (tent Ts) (tent Ts)).
    - rewrite (fc_ext _ _ _ (at_ ow) (at_ ow) (tent (tscale s dT)) (fun i a b => s * tent dT i a b)).
      + rewrite fc_scale_w, fc_scale_M. ring.
      + reflexivity.
      + intros i b Hi Hb. apply (tent_tscale (n_lags c) k); assumption.
    - intros i Hi. apply at_vscale. lia.
    - reflexivity. }
  rewrite Rmult_minus_distr_l, <- !SS_scal. f_equal.
  - apply SS_ext; intros q a Hq Ha. rewrite E1, E2 by exact Ha. ring.
  - apply SS_ext; intros q a Hq Ha. rewrite E1 by exact Ha. ring.
Qed.
