(** Proofs about gpnh_convex_coding.py *)
From Coq Require Import List Arith Lia ZArith Reals Lra Psatz Bool.
From Verif Require Import Num Mat Py Spec M_simplex M_spg M_iter M_random M_furthest M_gpnh.
From Verif Require Import P_lin P_simplex P_spg P_random P_mat P_iter.
Import ListNotations.
Local Open Scope R_scope.

(** admissible line-search settings *)
Definition ls_valid (p : ls_params R) : Prop :=
  0 < ls_sigma_one p /\ ls_sigma_two p < 1 /\ 0 < ls_step_tol p.

(** shape and cache invariant of the workspace *)
Definition gok (n d k : nat) (X : mat R) (w : gws R) : Prop :=
  w_X w = X /\ is_mat n k (w_Gamma w) /\ is_mat k d (w_S w) /\ w_SSt w = mmul (w_S w) (mtr (w_S w)).

(** ** cost *)
Lemma penalty_quad k d (s : nat -> nat -> R) :
  Sum k (fun a => Sum k (fun b => Sum d (fun j => (s a j - s b j) ^ 2)))
  = 2 * (INR k * SS k d (fun a j => s a j ^ 2) - Sum d (fun j => Sum k (fun a => s a j) ^ 2)).
Proof.
  transitivity (Sum d (fun j => Sum k (fun a => Sum k (fun b => (s a j - s b j) ^ 2)))).
  { transitivity (Sum k (fun a => Sum d (fun j => Sum k (fun b => (s a j - s b j) ^ 2)))).
    - apply Sum_ext; intros; apply Sum_swap.
    - apply Sum_swap. }
  rewrite (SS_swap k d). unfold SS.
  rewrite <- Sum_scal_l, <- Sum_minus, <- Sum_scal_l.
  apply Sum_ext; intros j _. apply pair_diff_sum.
Qed.
Lemma trace_gram k d S : is_mat k d S -> @mtrace R Num_R (mmul S (mtr S)) = SS k d (fun a j => ent S a j ^ 2).
Proof.
  intros (s1 & s2 & _). rewrite mtrace_Sum; mdim. rewrite s1, Nat.min_id. apply Sum_ext; intros i Hi.
  rewrite ent_mmul by (mdim; lia). rewrite s2. apply Sum_ext; intros j Hj. rewrite ent_mtr by lia. ring.
Qed.
Lemma sum_gram k d S : is_mat k d S -> @msum R Num_R (mmul S (mtr S)) = Sum d (fun j => Sum k (fun a => ent S a j) ^ 2).
Proof.
  intros (s1 & s2 & _). rewrite msum_SS; mdim. rewrite s1.
  transitivity (Sum k (fun a => Sum k (fun b => Sum d (fun j => ent S a j * ent S b j)))).
  { apply SS_ext; intros a b Ha Hb. rewrite ent_mmul by (mdim; lia). rewrite s2.
    apply Sum_ext; intros j Hj. rewrite ent_mtr by lia. reflexivity. }
  transitivity (Sum k (fun a => Sum d (fun j => Sum k (fun b => ent S a j * ent S b j)))).
  { apply Sum_ext; intros; apply Sum_swap. }
  rewrite Sum_swap. apply Sum_ext; intros j _. symmetry. apply Sum_sq.
Qed.

Lemma INR_pred_pos k : (2 <= k)%nat -> 1 <= INR k - 1.
Proof. intros H. apply le_INR in H. cbn in H. lra. Qed.

Lemma penalty_spec n d k X c w : is_mat n d X -> gok n d k X w -> (0 < k)%nat -> (0 < d)%nat ->
  evaluate_dictionary_penalty c k w = gc_epsilon c * spread (w_S w).
Proof.
  intros HX (EX & HG & HS & ES) Hk Hd. unfold evaluate_dictionary_penalty, spread.
  destruct HS as (s1 & s2 & s3). pose proof (conj s1 (conj s2 s3) : is_mat k d (w_S w)) as HS. rewrite s1, s2.
  destruct (Nat.eqb_spec k 1) as [->|K1]; [numR; ring|].
  rewrite ES, (trace_gram k d), (sum_gram k d) by exact HS. unfold row_dist2. rewrite s2, penalty_quad.
  rewrite !nofnat_INR. rewrite EX. destruct HX as (x1 & x2 & _). rewrite x2. numR.
  assert (1 <= INR k - 1) by (apply INR_pred_pos; lia).
  assert (0 < INR d) by (apply lt_0_INR; exact Hd).
  field. repeat split; lra.
Qed.

Lemma sq_error_SS n d k X W D : nr X = n -> nc X = d -> nc W = k ->
  sq_error X W D = SS n d (fun i j => (ent X i j - Sum k (fun c => ent W i c * ent D c j)) ^ 2).
Proof. intros <- <- <-. reflexivity. Qed.
Lemma frob2_residual n d k X W D : is_mat n d X -> is_mat n k W -> is_mat k d D ->
  frob2 (@msub R Num_R X (mmul W D)) = sq_error X W D.
Proof.
  intros (x1 & x2 & _) (w1 & w2 & _) (d1 & d2 & _). rewrite (sq_error_SS n d k) by assumption.
  rewrite frob2_SS. unfold msub, mmap2; mdim. rewrite x1, x2. apply SS_ext; intros i j Hi Hj.
  rewrite ent_mbuild by assumption. numR. rewrite !mget_ent, ent_mmul by lia. rewrite w2. reflexivity.
Qed.
Lemma cost_spec n d k X c w : is_mat n d X -> gok n d k X w -> (0 < k)%nat -> (0 < d)%nat -> (0 < n)%nat ->
  evaluate_cost c k w = gpnh_objective (gc_epsilon c) X (w_Gamma w) (w_S w).
Proof.
  intros HX HW Hk Hd Hn. unfold evaluate_cost, gpnh_objective. rewrite (penalty_spec n d k X) by assumption.
  destruct HW as (EX & HG & HS & ES). unfold evaluate_loss_function. rewrite nsq_mnorm, EX.
  rewrite (frob2_residual n d k) by assumption. rewrite !nofnat_INR. numR. f_equal.
  unfold Rdiv. destruct HX as (x1 & x2 & _). rewrite x1, x2. ring.
Qed.

Lemma sq_error_nonneg X W D : 0 <= sq_error X W D.
Proof. apply SS_nonneg; intros; apply pow2_ge_0. Qed.
Lemma spread_nonneg D : (0 < nc D)%nat -> 0 <= spread D.
Proof.
  intros Hd. unfold spread. destruct (Nat.eqb_spec (nr D) 1); [lra|].
  destruct (Nat.eq_dec (nr D) 0) as [->|]; [cbn; unfold Rdiv; rewrite Rmult_0_l; lra|].
  apply Rmult_le_pos.
  - apply SS_nonneg; intros. apply Sum_nonneg; intros; apply pow2_ge_0.
  - left. apply Rinv_0_lt_compat. pose proof (INR_pred_pos (nr D) ltac:(lia)).
    assert (0 < INR (nc D)) by (apply lt_0_INR; exact Hd).
    apply Rmult_lt_0_compat; [apply Rmult_lt_0_compat|]; lra.
Qed.
Lemma spread_zero D : (0 < nc D)%nat ->
  (spread D = 0 <-> forall a b j, (a < nr D)%nat -> (b < nr D)%nat -> (j < nc D)%nat -> ent D a j = ent D b j).
Proof.
  intros Hd. unfold spread. split.
  - destruct (Nat.eqb_spec (nr D) 1) as [E|N1]; [intros _ a b j Ha Hb _; f_equal; lia|].
    intros H a b j Ha Hb Hj.
    assert (P : 0 < INR (nr D) * INR (nc D) * (INR (nr D) - 1)).
    { pose proof (INR_pred_pos (nr D) ltac:(lia)). assert (0 < INR (nc D)) by (apply lt_0_INR; exact Hd).
      apply Rmult_lt_0_compat; [apply Rmult_lt_0_compat|]; lra. }
    assert (Z : SS (nr D) (nr D) (row_dist2 D) = 0).
    { unfold SS. apply Rmult_eq_reg_r with (/ (INR (nr D) * INR (nc D) * (INR (nr D) - 1))).
      - rewrite Rmult_0_l. exact H.
      - apply Rinv_neq_0_compat; lra. }
    pose proof (SS_zero_inv _ _ _ ltac:(intros; apply Sum_nonneg; intros; apply pow2_ge_0) Z a b Ha Hb) as E.
    pose proof (Sum_nonneg_0 (nc D) (fun j => (ent D a j - ent D b j) ^ 2) j ltac:(intros; apply pow2_ge_0) E Hj) as E2.
    cbv beta in E2. assert (ent D a j - ent D b j = 0) by (apply Rsqr_0_uniq; unfold Rsqr; lra). lra.
  - intros H. destruct (Nat.eqb_spec (nr D) 1) as [E|N1]; [reflexivity|].
    assert (E : Sum (nr D) (fun a => Sum (nr D) (fun b => row_dist2 D a b)) = 0).
    { apply SS_zero. intros a b Ha Hb. apply Sum_zero. intros j Hj. rewrite (H a b j) by assumption. ring. }
    rewrite E. unfold Rdiv; ring.
Qed.

(** ** gradients *)
(** expansion of the squared error in the dictionary and in the weights *)
Lemma sq_error_dict n d k X W D H : is_mat n d X -> is_mat n k W -> is_mat k d D -> is_mat k d H ->
  sq_error X W (@madd R Num_R D H) = sq_error X W D
   + SS k d (fun c j => -2 * Sum n (fun i => ent W i c * (ent X i j - Sum k (fun e => ent W i e * ent D e j))) * ent H c j)
   + SS n d (fun i j => Sum k (fun c => ent W i c * ent H c j) ^ 2).
Proof.
  intros (x1 & x2 & _) (w1 & w2 & _) (d1 & d2 & _) (h1 & h2 & _).
  rewrite !(sq_error_SS n d k) by assumption.
  set (r := fun i j => ent X i j - Sum k (fun c => ent W i c * ent D c j)).
  pose proof (SS_adj_l n d k r (ent W) (ent H)) as A.
  transitivity (SS n d (fun i j => r i j ^ 2 + -2 * (r i j * Sum k (fun c => ent W i c * ent H c j))
                 + Sum k (fun c => ent W i c * ent H c j) ^ 2)).
  { apply SS_ext; intros i j Hi Hj. unfold r.
    rewrite (Sum_ext k (fun c => ent W i c * ent (madd D H) c j) (fun c => ent W i c * ent D c j + ent W i c * ent H c j)).
    - rewrite Sum_plus. ring.
    - intros c Hc. rewrite ent_madd by lia. ring. }
  rewrite !SS_plus, SS_scal, A. f_equal. f_equal. rewrite <- SS_scal. apply SS_ext; intros; unfold r; ring.
Qed.
Lemma sq_error_weights n d k X W D H : is_mat n d X -> is_mat n k W -> is_mat k d D -> is_mat n k H ->
  sq_error X (@madd R Num_R W H) D = sq_error X W D
   + SS n k (fun i c => -2 * Sum d (fun j => (ent X i j - Sum k (fun e => ent W i e * ent D e j)) * ent D c j) * ent H i c)
   + SS n d (fun i j => Sum k (fun c => ent H i c * ent D c j) ^ 2).
Proof.
  intros (x1 & x2 & _) (w1 & w2 & _) (d1 & d2 & _) (h1 & h2 & _).
  rewrite !(sq_error_SS n d k); try assumption.
  set (r := fun i j => ent X i j - Sum k (fun c => ent W i c * ent D c j)).
  pose proof (SS_adj_r n d k r (ent H) (ent D)) as A.
  transitivity (SS n d (fun i j => r i j ^ 2 + -2 * (r i j * Sum k (fun c => ent H i c * ent D c j))
                 + Sum k (fun c => ent H i c * ent D c j) ^ 2)).
  { apply SS_ext; intros i j Hi Hj. unfold r.
    rewrite (Sum_ext k (fun c => ent (madd W H) i c * ent D c j) (fun c => ent W i c * ent D c j + ent H i c * ent D c j)).
    - rewrite Sum_plus. ring.
    - intros c Hc. rewrite ent_madd by lia. ring. }
  rewrite !SS_plus, SS_scal, A. f_equal. f_equal. rewrite <- SS_scal. apply SS_ext; intros; unfold r; ring.
Qed.

Lemma spread_expand k d D H : is_mat k d D -> is_mat k d H -> (2 <= k)%nat -> (0 < d)%nat ->
  spread (@madd R Num_R D H) = spread D
   + SS k d (fun c j => 4 / (INR d * INR k * (INR k - 1)) * (INR k * ent D c j - Sum k (fun a => ent D a j)) * ent H c j)
   + spread H.
Proof.
  intros HD HH Hk Hd. destruct HD as (d1 & d2 & _), HH as (h1 & h2 & _).
  pose proof (INR_pred_pos k Hk). assert (0 < INR d) by (apply lt_0_INR; exact Hd).
  unfold spread, row_dist2. replace (nr (madd D H)) with k by (rewrite <- d1; reflexivity).
  replace (nc (madd D H)) with d by (rewrite <- d2; reflexivity).
  rewrite d1, d2, h1, h2. destruct (Nat.eqb_spec k 1); [lia|].
  rewrite !penalty_quad.
  assert (E1 : SS k d (fun a j => ent (madd D H) a j ^ 2) =
     SS k d (fun a j => ent D a j ^ 2) + 2 * SS k d (fun a j => ent D a j * ent H a j) + SS k d (fun a j => ent H a j ^ 2)).
  { rewrite <- SS_scal, <- !SS_plus. apply SS_ext; intros. rewrite ent_madd by lia. ring. }
  assert (E2 : Sum d (fun j => Sum k (fun a => ent (madd D H) a j) ^ 2) =
     Sum d (fun j => Sum k (fun a => ent D a j) ^ 2)
     + 2 * SS k d (fun a j => Sum k (fun b => ent D b j) * ent H a j) + Sum d (fun j => Sum k (fun a => ent H a j) ^ 2)).
  { rewrite (SS_swap k d). unfold SS. rewrite <- Sum_scal_l, <- !Sum_plus. apply Sum_ext; intros j Hj.
    rewrite (Sum_ext k (fun a => ent (madd D H) a j) (fun a => ent D a j + ent H a j)) by (intros; rewrite ent_madd by lia; reflexivity).
    rewrite Sum_plus, Sum_scal_l. ring. }
  rewrite E1, E2.
  assert (E3 : SS k d (fun c j => 4 / (INR d * INR k * (INR k - 1)) * (INR k * ent D c j - Sum k (fun a => ent D a j)) * ent H c j)
     = 4 / (INR d * INR k * (INR k - 1)) * (INR k * SS k d (fun a j => ent D a j * ent H a j)
        - SS k d (fun a j => Sum k (fun b => ent D b j) * ent H a j))).
  { rewrite <- (SS_scal k d (INR k)), <- SS_minus, <- SS_scal. apply SS_ext; intros; ring. }
  rewrite E3. field. lra.
Qed.

(** caches used by the dictionary / weights gradient are up to date *)
Definition gcache_d (w : gws R) : Prop :=
  w_GtG w = mmul (mtr (w_Gamma w)) (w_Gamma w) /\ w_GtX w = mmul (mtr (w_Gamma w)) (w_X w).
Definition gcache_w (w : gws R) : Prop := w_XSt w = mmul (w_X w) (mtr (w_S w)).

Lemma dictionary_gradient_shape n d k X c w : gok n d k X w -> is_mat k d (dictionary_gradient c k w).
Proof.
  intros (EX & HG & HS & ES). unfold dictionary_gradient, madd, mmap2; mdim. unfold dictionary_penalty_gradient.
  destruct HS as (s1 & s2 & _).
  destruct (Nat.eqb k 1); mdim; rewrite ?s1, ?s2; apply is_mat_mbuild.
Qed.
Lemma dictionary_gradient_entry n d k X c w a j : is_mat n d X -> gok n d k X w -> gcache_d w ->
  (a < k)%nat -> (j < d)%nat ->
  ent (dictionary_gradient c k w) a j
  = (if Nat.eqb k 1 then 0 else
       gc_epsilon c * (4 / (INR d * INR k * (INR k - 1)) * (INR k * ent (w_S w) a j - Sum k (fun b => ent (w_S w) b j))))
    + 1 / (INR d * INR n) * (-2 * Sum n (fun i => ent (w_Gamma w) i a * (ent X i j - Sum k (fun e => ent (w_Gamma w) i e * ent (w_S w) e j)))).
Proof.
  intros HX (EX & HG & HS & ES) (C1 & C2) Ha Hj.
  destruct HX as (x1 & x2 & _), HG as (g1 & g2 & _), HS as (s1 & s2 & _).
  unfold dictionary_gradient.
  assert (Edim : nr (dictionary_penalty_gradient c k w) = k /\ nc (dictionary_penalty_gradient c k w) = d).
  { unfold dictionary_penalty_gradient. destruct (Nat.eqb k 1); mdim; auto. }
  destruct Edim as [e1 e2].
  rewrite ent_madd by (mdim; lia). rewrite ent_madd by (mdim; lia).
  rewrite C1, C2, EX, x1, x2, !nofnat_INR.
  rewrite !ent_mscale by (mdim; lia). rewrite !ent_mmul by (mdim; lia). mdim. rewrite g1, g2.
  assert (Ep : ent (dictionary_penalty_gradient c k w) a j = (if Nat.eqb k 1 then 0 else
       gc_epsilon c * (4 / (INR d * INR k * (INR k - 1)) * (INR k * ent (w_S w) a j - Sum k (fun b => ent (w_S w) b j))))).
  { unfold dictionary_penalty_gradient. destruct (Nat.eqb k 1); [apply ent_mzeros|].
    rewrite EX, x2, !nofnat_INR. rewrite ent_mmul by (mdim; lia). mdim.
    transitivity (Sum k (fun b => 4 * gc_epsilon c / (INR d * INR k * (INR k - 1)) *
       ((if Nat.eqb b a then INR k * ent (w_S w) b j else 0) - ent (w_S w) b j))).
    - apply Sum_ext; intros b Hb. unfold mmap, mscale, mmap, meye.
      rewrite !ent_mbuild by (mdim; lia).  numR. rewrite mget_ent.
      rewrite (Nat.eqb_sym a b). destruct (Nat.eqb b a); ring.
    - rewrite Sum_scal_l, Sum_minus, (Sum_delta k a (fun b => INR k * ent (w_S w) b j)) by exact Ha.
      unfold Rdiv; ring. }
  rewrite Ep.
  assert (EXj : Sum n (fun i => ent (mtr (w_Gamma w)) a i * ent X i j) = Sum n (fun i => ent (w_Gamma w) i a * ent X i j)).
  { apply Sum_ext; intros i Hi. rewrite ent_mtr by lia. reflexivity. }
  assert (EGj : Sum k (fun e => ent (mmul (mtr (w_Gamma w)) (w_Gamma w)) a e * ent (w_S w) e j)
       = Sum n (fun i => ent (w_Gamma w) i a * Sum k (fun e => ent (w_Gamma w) i e * ent (w_S w) e j))).
  { rewrite <- (Sum_assoc n k (fun i => ent (w_Gamma w) i a) (ent (w_Gamma w)) (fun e => ent (w_S w) e j)).
    apply Sum_ext; intros e He. f_equal. rewrite ent_mmul by (mdim; lia). mdim. rewrite g1.
    apply Sum_ext; intros i Hi. rewrite ent_mtr by lia. reflexivity. }
  rewrite EXj, EGj. numR.
  assert (EM : Sum n (fun i => ent (w_Gamma w) i a * (ent X i j - Sum k (fun e => ent (w_Gamma w) i e * ent (w_S w) e j)))
    = Sum n (fun i => ent (w_Gamma w) i a * ent X i j)
      - Sum n (fun i => ent (w_Gamma w) i a * Sum k (fun e => ent (w_Gamma w) i e * ent (w_S w) e j))).
  { rewrite <- Sum_minus. apply Sum_ext; intros; ring. }
  rewrite EM. ring.
Qed.

Lemma weights_gradient_shape n d k X w : gok n d k X w -> is_mat n k (weights_gradient w).
Proof.
  intros (EX & HG & HS & ES). destruct HG as (g1 & g2 & _). unfold weights_gradient, madd, mmap2; mdim.
  rewrite g1, g2. apply is_mat_mbuild.
Qed.
Lemma weights_gradient_entry n d k X w i a : is_mat n d X -> gok n d k X w -> gcache_w w ->
  (i < n)%nat -> (a < k)%nat ->
  ent (weights_gradient w) i a
  = 1 / (INR d * INR n) * (-2 * Sum d (fun j => (ent X i j - Sum k (fun e => ent (w_Gamma w) i e * ent (w_S w) e j)) * ent (w_S w) a j)).
Proof.
  intros HX (EX & HG & HS & ES) C1 Hi Ha.
  destruct HX as (x1 & x2 & _), HG as (g1 & g2 & _), HS as (s1 & s2 & _).
  unfold weights_gradient. unfold gcache_w in C1. rewrite C1, ES, EX, x1, x2, g1, g2, !nofnat_INR.
  rewrite ent_madd by (mdim; lia). rewrite ent_madd by (mdim; lia). rewrite ent_mzeros.
  rewrite !ent_mscale by (mdim; lia). rewrite !ent_mmul by (mdim; lia). mdim. rewrite x2, g2.
  assert (EXj : Sum d (fun j => ent X i j * ent (mtr (w_S w)) j a) = Sum d (fun j => ent X i j * ent (w_S w) a j)).
  { apply Sum_ext; intros j Hj. rewrite ent_mtr by lia. reflexivity. }
  assert (EGj : Sum k (fun e => ent (w_Gamma w) i e * ent (mmul (w_S w) (mtr (w_S w))) e a)
       = Sum d (fun j => Sum k (fun e => ent (w_Gamma w) i e * ent (w_S w) e j) * ent (w_S w) a j)).
  { rewrite (Sum_assoc k d (ent (w_Gamma w) i) (ent (w_S w)) (fun j => ent (w_S w) a j)).
    apply Sum_ext; intros e He. f_equal. rewrite ent_mmul by (mdim; lia). rewrite s2.
    apply Sum_ext; intros j Hj. rewrite ent_mtr by lia. reflexivity. }
  rewrite EXj, EGj. numR.
  assert (EM : Sum d (fun j => (ent X i j - Sum k (fun e => ent (w_Gamma w) i e * ent (w_S w) e j)) * ent (w_S w) a j)
    = Sum d (fun j => ent X i j * ent (w_S w) a j)
      - Sum d (fun j => Sum k (fun e => ent (w_Gamma w) i e * ent (w_S w) e j) * ent (w_S w) a j)).
  { rewrite <- Sum_minus. apply Sum_ext; intros; ring. }
  rewrite EM. ring.
Qed.

Lemma objective_dict n d k X c w H : is_mat n d X -> gok n d k X w -> gcache_d w -> is_mat k d H ->
  (0 < n)%nat -> (0 < k)%nat -> (0 < d)%nat ->
  gpnh_objective (gc_epsilon c) X (w_Gamma w) (@madd R Num_R (w_S w) H)
  = gpnh_objective (gc_epsilon c) X (w_Gamma w) (w_S w)
    + frob (dictionary_gradient c k w) H
    + (SS n d (fun i j => Sum k (fun e => ent (w_Gamma w) i e * ent H e j) ^ 2) / (INR d * INR n) + gc_epsilon c * spread H).
Proof.
  intros HX Hw HC HH Hn Hk Hd.
  pose proof (dictionary_gradient_shape n d k X c w Hw) as HDG.
  destruct Hw as (EX & HG & HS & ES).
  unfold gpnh_objective. rewrite (sq_error_dict n d k X (w_Gamma w) (w_S w) H) by assumption.
  rewrite frob_SS. destruct HDG as (q1 & q2 & _). rewrite q1, q2.
  erewrite (SS_ext k d (fun i j => ent (dictionary_gradient c k w) i j * ent H i j)).
  2:{ intros a j Ha Hj. rewrite (dictionary_gradient_entry n d k X) by (try assumption; split; auto). reflexivity. }
  pose proof HX as (x1 & x2 & _). rewrite x1, x2.
  set (A := SS k d (fun c0 j => -2 * Sum n (fun i => ent (w_Gamma w) i c0 * (ent X i j - Sum k (fun e => ent (w_Gamma w) i e * ent (w_S w) e j))) * ent H c0 j)).
  set (Q := SS n d (fun i j => Sum k (fun e => ent (w_Gamma w) i e * ent H e j) ^ 2)).
  destruct (Nat.eqb_spec k 1) as [->|K1].
  - assert (Z : forall D, is_mat 1 d D -> spread D = 0).
    { intros D (z1 & _). unfold spread. rewrite z1. reflexivity. }
    rewrite !Z; try assumption; [|apply is_mat_madd; apply HS].
    erewrite (SS_ext 1 d _ (fun a j => / (INR d * INR n) * (-2 * Sum n (fun i => ent (w_Gamma w) i a * (ent X i j - Sum 1 (fun e => ent (w_Gamma w) i e * ent (w_S w) e j))) * ent H a j))).
    + rewrite SS_scal. fold A. unfold Rdiv. ring.
    + intros; unfold Rdiv; ring.
  - rewrite (spread_expand k d (w_S w) H) by (assumption || lia).
    set (B := SS k d (fun c0 j => 4 / (INR d * INR k * (INR k - 1)) * (INR k * ent (w_S w) c0 j - Sum k (fun a => ent (w_S w) a j)) * ent H c0 j)).
    erewrite (SS_ext k d _ (fun a j => gc_epsilon c * (4 / (INR d * INR k * (INR k - 1)) * (INR k * ent (w_S w) a j - Sum k (fun b => ent (w_S w) b j)) * ent H a j)
       + / (INR d * INR n) * (-2 * Sum n (fun i => ent (w_Gamma w) i a * (ent X i j - Sum k (fun e => ent (w_Gamma w) i e * ent (w_S w) e j))) * ent H a j))).
    + rewrite SS_plus, !SS_scal. fold A B. unfold Rdiv. ring.
    + intros; unfold Rdiv; ring.
Qed.
Lemma objective_weights n d k X eps w H : is_mat n d X -> gok n d k X w -> gcache_w w -> is_mat n k H ->
  gpnh_objective eps X (@madd R Num_R (w_Gamma w) H) (w_S w)
  = gpnh_objective eps X (w_Gamma w) (w_S w)
    + frob (weights_gradient w) H
    + SS n d (fun i j => Sum k (fun e => ent H i e * ent (w_S w) e j) ^ 2) / (INR d * INR n).
Proof.
  intros HX Hw HC HH.
  pose proof (weights_gradient_shape n d k X w Hw) as HDG. pose proof Hw as Hw'.
  destruct Hw as (EX & HG & HS & ES).
  unfold gpnh_objective. rewrite (sq_error_weights n d k X (w_Gamma w) (w_S w) H) by assumption.
  rewrite frob_SS. destruct HDG as (q1 & q2 & _). rewrite q1, q2.
  erewrite (SS_ext n k (fun i j => ent (weights_gradient w) i j * ent H i j)
    (fun i a => / (INR d * INR n) * (-2 * Sum d (fun j => (ent X i j - Sum k (fun e => ent (w_Gamma w) i e * ent (w_S w) e j)) * ent (w_S w) a j) * ent H i a))).
  2:{ intros i a Hi Ha. rewrite (weights_gradient_entry n d k X) by assumption. unfold Rdiv. ring. }
  pose proof HX as (x1 & x2 & _). rewrite x1, x2. rewrite SS_scal. unfold Rdiv. ring.
Qed.

(** ** line search directions *)
Lemma spread_scale k d s H : is_mat k d H -> spread (@mscale R Num_R s H) = s * s * spread H.
Proof.
  intros (h1 & h2 & _). unfold spread. replace (nr (mscale s H)) with k by (rewrite <- h1; reflexivity).
  replace (nc (mscale s H)) with d by (rewrite <- h2; reflexivity). rewrite h1, h2.
  destruct (Nat.eqb k 1); [ring|]. unfold Rdiv. rewrite <- Rmult_assoc. f_equal.
  rewrite <- Sum_scal_l. apply Sum_ext; intros a Ha. rewrite <- Sum_scal_l. apply Sum_ext; intros b Hb.
  unfold row_dist2. replace (nc (mscale s H)) with d by (rewrite <- h2; reflexivity). rewrite h2.
  rewrite <- Sum_scal_l. apply Sum_ext; intros j Hj. rewrite !ent_mscale by lia. ring.
Qed.
Lemma spread_bound k d H : is_mat k d H -> (0 < d)%nat -> (0 < k)%nat ->
  spread H <= (if Nat.eqb k 1 then 0 else 2 / (INR d * (INR k - 1))) * frob2 H.
Proof.
  intros HH Hd Hk. destruct HH as (h1 & h2 & _). unfold spread. rewrite h1, h2.
  destruct (Nat.eqb_spec k 1); [lra|]. unfold row_dist2. rewrite h2, penalty_quad.
  pose proof (INR_pred_pos k ltac:(lia)). assert (0 < INR d) by (apply lt_0_INR; exact Hd).
  assert (Z : 0 <= Sum d (fun j => Sum k (fun a => ent H a j) ^ 2)) by (apply Sum_nonneg; intros; apply pow2_ge_0).
  rewrite frob2_SS, h1, h2. set (F := SS k d (fun i j => ent H i j ^ 2)) in *. set (G := Sum d _) in *.
  assert (E : 2 / (INR d * (INR k - 1)) * F - 2 * (INR k * F - G) / (INR k * INR d * (INR k - 1))
     = 2 * G / (INR k * INR d * (INR k - 1))) by (field; lra).
  assert (0 <= 2 * G / (INR k * INR d * (INR k - 1))).
  { apply Rmult_le_pos; [lra|]. left. apply Rinv_0_lt_compat.
    apply Rmult_lt_0_compat; [apply Rmult_lt_0_compat|]; lra. }
  lra.
Qed.

(** curvature bounds along a direction *)
Definition curv_d (eps : R) (n d k : nat) (W : mat R) : R :=
  frob2 W / (INR d * INR n) + eps * (if Nat.eqb k 1 then 0 else 2 / (INR d * (INR k - 1))).
Definition curv_w (n d : nat) (D : mat R) : R := frob2 D / (INR d * INR n).

Lemma objective_dict_step n d k X c w H s : is_mat n d X -> gok n d k X w -> gcache_d w -> is_mat k d H ->
  (0 < n)%nat -> (0 < k)%nat -> (0 < d)%nat -> 0 <= gc_epsilon c ->
  gpnh_objective (gc_epsilon c) X (w_Gamma w) (@madd R Num_R (w_S w) (mscale s H))
  <= gpnh_objective (gc_epsilon c) X (w_Gamma w) (w_S w)
    + s * frob H (dictionary_gradient c k w) + s * s * (curv_d (gc_epsilon c) n d k (w_Gamma w) * frob2 H).
Proof.
  intros HX Hw HC HH Hn Hk Hd He.
  pose proof (dictionary_gradient_shape n d k X c w Hw) as HDG.
  rewrite (objective_dict n d k X c w (mscale s H)) by (try assumption; apply is_mat_mscale; apply HH).
  rewrite frob_mscale_r by (destruct HH as (h1 & h2 & _), HDG as (q1 & q2 & _); lia).
  rewrite (frob_sym H) by (destruct HH as (h1 & h2 & _), HDG as (q1 & q2 & _); lia).
  rewrite (spread_scale k d) by exact HH.
  destruct Hw as (EX & HG & HS & ES). destruct HG as (g1 & g2 & _). pose proof HH as (h1 & h2 & _).
  assert (E : SS n d (fun i j => Sum k (fun e => ent (w_Gamma w) i e * ent (mscale s H) e j) ^ 2)
     = s * s * SS n d (fun i j => Sum k (fun e => ent (w_Gamma w) i e * ent H e j) ^ 2)).
  { rewrite <- SS_scal. apply SS_ext; intros i j Hi Hj.
    rewrite (Sum_ext k (fun e => ent (w_Gamma w) i e * ent (mscale s H) e j) (fun e => s * (ent (w_Gamma w) i e * ent H e j))).
    - rewrite Sum_scal_l. ring.
    - intros e He'. rewrite ent_mscale by lia. ring. }
  rewrite E; clear E.
  pose proof (product_bound n d k (w_Gamma w) H g1 g2 h1 h2) as B1.
  pose proof (spread_bound k d H HH Hd Hk) as B2.
  assert (P : 0 < INR d * INR n) by (apply Rmult_lt_0_compat; apply lt_0_INR; assumption).
  set (Q := SS n d _) in *.
  assert (Q / (INR d * INR n) + gc_epsilon c * spread H <= curv_d (gc_epsilon c) n d k (w_Gamma w) * frob2 H).
  { unfold curv_d. rewrite Rmult_plus_distr_r. apply Rplus_le_compat.
    - unfold Rdiv. rewrite (Rmult_comm (frob2 (w_Gamma w) * _)), <- Rmult_assoc. apply Rmult_le_compat_r.
      + left; apply Rinv_0_lt_compat, P.
      + rewrite Rmult_comm. exact B1.
    - rewrite Rmult_assoc. apply Rmult_le_compat_l; assumption. }
  assert (0 <= s * s) by nra.
  assert (s * s * Q / (INR d * INR n) + gc_epsilon c * (s * s * spread H)
     = s * s * (Q / (INR d * INR n) + gc_epsilon c * spread H)) by (unfold Rdiv; ring).
  rewrite H2. apply Rplus_le_compat_l. apply Rmult_le_compat_l; assumption.
Qed.
Lemma objective_weights_step n d k X eps w H s : is_mat n d X -> gok n d k X w -> gcache_w w -> is_mat n k H ->
  (0 < n)%nat -> (0 < d)%nat ->
  gpnh_objective eps X (@madd R Num_R (w_Gamma w) (mscale s H)) (w_S w)
  <= gpnh_objective eps X (w_Gamma w) (w_S w)
    + s * frob H (weights_gradient w) + s * s * (curv_w n d (w_S w) * frob2 H).
Proof.
  intros HX Hw HC HH Hn Hd.
  pose proof (weights_gradient_shape n d k X w Hw) as HDG.
  rewrite (objective_weights n d k X eps w (mscale s H)) by (try assumption; apply is_mat_mscale; apply HH).
  rewrite frob_mscale_r by (destruct HH as (h1 & h2 & _), HDG as (q1 & q2 & _); lia).
  rewrite (frob_sym H) by (destruct HH as (h1 & h2 & _), HDG as (q1 & q2 & _); lia).
  destruct Hw as (EX & HG & HS & ES). pose proof HS as (s1 & s2 & _). pose proof HH as (h1 & h2 & _).
  assert (E : SS n d (fun i j => Sum k (fun e => ent (mscale s H) i e * ent (w_S w) e j) ^ 2)
     = s * s * SS n d (fun i j => Sum k (fun e => ent H i e * ent (w_S w) e j) ^ 2)).
  { rewrite <- SS_scal. apply SS_ext; intros i j Hi Hj.
    rewrite (Sum_ext k (fun e => ent (mscale s H) i e * ent (w_S w) e j) (fun e => s * (ent H i e * ent (w_S w) e j))).
    - rewrite Sum_scal_l. ring.
    - intros e He'. rewrite ent_mscale by lia. ring. }
  rewrite E; clear E.
  pose proof (product_bound n d k H (w_S w) h1 h2 s1 s2) as B1.
  assert (P : 0 < INR d * INR n) by (apply Rmult_lt_0_compat; apply lt_0_INR; assumption).
  set (Q := SS n d _) in *.
  assert (Q / (INR d * INR n) <= curv_w n d (w_S w) * frob2 H).
  { unfold curv_w, Rdiv. rewrite (Rmult_comm (frob2 (w_S w) * _)), <- Rmult_assoc. apply Rmult_le_compat_r; [|exact B1].
    left; apply Rinv_0_lt_compat, P. }
  assert (0 <= s * s) by nra.
  assert (s * s * Q / (INR d * INR n) = s * s * (Q / (INR d * INR n))) by (unfold Rdiv; ring).
  rewrite H2. apply Rplus_le_compat_l. apply Rmult_le_compat_l; assumption.
Qed.

(** ** the two updates *)
Definition refresh_d (w0 : gws R) : gws R :=
  mk_gws (w_X w0) (w_Gamma w0) (w_S w0)
     (mmul (mtr (w_Gamma w0)) (w_Gamma w0)) (mmul (mtr (w_Gamma w0)) (w_X w0))
     (w_XSt w0) (mmul (w_S w0) (mtr (w_S w0)))
     (w_alpha_Gamma w0) (w_alpha_S w0) (w_f_S_mem w0) (w_f_Gamma_mem w0).
Definition refresh_w (w0 : gws R) : gws R :=
  mk_gws (w_X w0) (w_Gamma w0) (w_S w0) (w_GtG w0) (w_GtX w0)
     (mmul (w_X w0) (mtr (w_S w0))) (mmul (w_S w0) (mtr (w_S w0)))
     (w_alpha_Gamma w0) (w_alpha_S w0) (w_f_S_mem w0) (w_f_Gamma_mem w0).
Definition dir_d c k (w : gws R) : mat R :=
  msub (msub (w_S w) (mscale (w_alpha_S w) (dictionary_gradient c k w))) (w_S w).
Definition dir_w (w : gws R) : mat R :=
  msub (simplex_project_rows (msub (w_Gamma w) (mscale (w_alpha_Gamma w) (weights_gradient w)))) (w_Gamma w).

Lemma refresh_d_ok n d k X w : gok n d k X w -> gok n d k X (refresh_d w) /\ gcache_d (refresh_d w).
Proof. intros (A & B & C & D). split; [repeat split; try apply B; try apply C; assumption | split; reflexivity]. Qed.
Lemma refresh_w_ok n d k X w : gok n d k X w -> gok n d k X (refresh_w w) /\ gcache_w (refresh_w w).
Proof. intros (A & B & C & D). split; [repeat split; try apply B; try apply C; assumption | reflexivity]. Qed.
Lemma refresh_cost n d k X c w : gok n d k X w ->
  evaluate_cost c k (refresh_d w) = evaluate_cost c k w /\ evaluate_cost c k (refresh_w w) = evaluate_cost c k w.
Proof.
  intros (A & B & C & D).
  split; unfold evaluate_cost, evaluate_loss_function, evaluate_dictionary_penalty, refresh_d, refresh_w;
    cbn [w_X w_Gamma w_S w_SSt]; rewrite D; reflexivity.
Qed.

Lemma dir_d_shape n d k X c w : gok n d k X w -> is_mat k d (dir_d c k w).
Proof. intros (A & B & C & D). apply is_mat_msub; apply C. Qed.
Lemma dir_w_shape n d k X w : gok n d k X w -> is_mat n k (dir_w w).
Proof.
  intros (A & B & C & D). apply is_mat_msub; apply (is_mat_project n k); apply is_mat_msub; apply B.
Qed.
Lemma set_S_ok n d k X w S : gok n d k X w -> is_mat k d S -> gok n d k X (set_S_SSt S w).
Proof. intros (A & B & C & D) HS. repeat split; try apply B; try apply HS; assumption. Qed.
Lemma set_Gamma_ok n d k X w G : gok n d k X w -> is_mat n k G -> gok n d k X (set_Gamma G w).
Proof. intros (A & B & C & D) HS. repeat split; try apply C; try apply HS; assumption. Qed.

(** what a successful dictionary update did *)
Lemma update_dictionary_ok n d k X fuel c w0 w' : gok n d k X w0 ->
  0 < ls_sigma_one (gc_ls c) -> ls_sigma_two (gc_ls c) < 1 ->
  update_dictionary fuel c k w0 = Ok w' ->
  let w := refresh_d w0 in
  exists s a, 0 < s <= 1
    /\ line_search fuel (gc_ls c) (evaluate_cost c k) (fun s => set_S_SSt (madd (w_S w) (mscale s (dir_d c k w))) w)
         (set_S_SSt (madd (w_S w) (mscale 1 (dir_d c k w))) w)
         (w_f_S_mem w0) (evaluate_cost c k w0) (minner (dir_d c k w) (dictionary_gradient c k w))
       = Ok (set_S_SSt (madd (w_S w) (mscale s (dir_d c k w))) w, s, tl (w_f_S_mem w0) ++ [evaluate_cost c k w0])
    /\ w_f_S_mem w0 <> []
    /\ w' = set_S_mem a (tl (w_f_S_mem w0) ++ [evaluate_cost c k w0]) (set_S_SSt (madd (w_S w) (mscale s (dir_d c k w))) w)
    /\ (ls_alpha_min (gc_ls c) <= ls_alpha_max (gc_ls c) -> ls_alpha_min (gc_ls c) <= a <= ls_alpha_max (gc_ls c)).
Proof.
  intros Hw H1 H2 H w. unfold update_dictionary in H. cbv zeta in H. fold (refresh_d w0) in H. fold w in H.
  fold (dir_d c k w) in H. apply bind_ok in H. destruct H as (((w1 & s) & mem) & EL & H). injection H as <-.
  unfold dictionary_line_search in EL. cbv zeta in EL.
  destruct (refresh_cost n d k X c w0 Hw) as [Ec _]. fold w in Ec. rewrite Ec in EL.
  change (w_f_S_mem w) with (w_f_S_mem w0) in EL.
  rewrite <- (madd_mscale_1 (w_S w) (dir_d c k w)) in EL by apply wf_msub.
  pose proof (line_search_range fuel (gc_ls c) (evaluate_cost c k)
    (fun s => set_S_SSt (madd (w_S w) (mscale s (dir_d c k w))) w) _ _ _ _ _ _ H1 H2 EL) as (E1 & Hs & Em & Hne).
  exists s. eexists. split; [exact Hs|]. rewrite E1, Em in EL. split; [exact EL|]. split; [exact Hne|].
  split; [rewrite Em, E1; reflexivity|]. intros Hm. apply alpha_bounds, Hm.
Qed.
Lemma update_weights_ok n d k X fuel c w0 w' : gok n d k X w0 ->
  0 < ls_sigma_one (gc_ls c) -> ls_sigma_two (gc_ls c) < 1 ->
  update_weights fuel c k w0 = Ok w' ->
  let w := refresh_w w0 in
  exists s a, 0 < s <= 1
    /\ line_search fuel (gc_ls c) (evaluate_cost c k) (fun s => set_Gamma (madd (w_Gamma w) (mscale s (dir_w w))) w)
         (set_Gamma (madd (w_Gamma w) (mscale 1 (dir_w w))) w)
         (w_f_Gamma_mem w0) (evaluate_cost c k w0) (minner (dir_w w) (weights_gradient w))
       = Ok (set_Gamma (madd (w_Gamma w) (mscale s (dir_w w))) w, s, tl (w_f_Gamma_mem w0) ++ [evaluate_cost c k w0])
    /\ w_f_Gamma_mem w0 <> []
    /\ w' = set_Gamma_mem a (tl (w_f_Gamma_mem w0) ++ [evaluate_cost c k w0]) (set_Gamma (madd (w_Gamma w) (mscale s (dir_w w))) w)
    /\ (ls_alpha_min (gc_ls c) <= ls_alpha_max (gc_ls c) -> ls_alpha_min (gc_ls c) <= a <= ls_alpha_max (gc_ls c)).
Proof.
  intros Hw H1 H2 H w. unfold update_weights in H. cbv zeta in H. fold (refresh_w w0) in H. fold w in H.
  fold (dir_w w) in H. apply bind_ok in H. destruct H as (((w1 & s) & mem) & EL & H). injection H as <-.
  unfold weights_line_search in EL. cbv zeta in EL.
  destruct (refresh_cost n d k X c w0 Hw) as [_ Ec]. fold w in Ec. rewrite Ec in EL.
  change (w_f_Gamma_mem w) with (w_f_Gamma_mem w0) in EL.
  rewrite <- (madd_mscale_1 (w_Gamma w) (dir_w w)) in EL by apply wf_msub.
  pose proof (line_search_range fuel (gc_ls c) (evaluate_cost c k)
    (fun s => set_Gamma (madd (w_Gamma w) (mscale s (dir_w w))) w) _ _ _ _ _ _ H1 H2 EL) as (E1 & Hs & Em & Hne).
  exists s. eexists. split; [exact Hs|]. rewrite E1, Em in EL. split; [exact EL|]. split; [exact Hne|].
  split; [rewrite Em, E1; reflexivity|]. intros Hm. apply alpha_bounds, Hm.
Qed.

Lemma update_dictionary_inv n d k X fuel c w0 w' : gok n d k X w0 ->
  0 < ls_sigma_one (gc_ls c) -> ls_sigma_two (gc_ls c) < 1 ->
  update_dictionary fuel c k w0 = Ok w' ->
  gok n d k X w' /\ w_Gamma w' = w_Gamma w0 /\ w_alpha_Gamma w' = w_alpha_Gamma w0
  /\ length (w_f_S_mem w') = length (w_f_S_mem w0) /\ w_f_Gamma_mem w' = w_f_Gamma_mem w0
  /\ (ls_alpha_min (gc_ls c) <= ls_alpha_max (gc_ls c) -> ls_alpha_min (gc_ls c) <= w_alpha_S w' <= ls_alpha_max (gc_ls c)).
Proof.
  intros Hw H1 H2 H. destruct (update_dictionary_ok n d k X fuel c w0 w' Hw H1 H2 H) as (s & a & Hs & _ & Hne & -> & Ha).
  destruct (refresh_d_ok n d k X w0 Hw) as [Hr _].
  split.
  - apply (set_S_ok n d k X _ (madd (w_S (refresh_d w0)) (mscale s (dir_d c k (refresh_d w0))))) in Hr.
    + destruct Hr as (A & B & C & D). repeat split; try apply B; try apply C; assumption.
    + apply is_mat_madd; apply Hr.
  - split; [reflexivity|]. split; [reflexivity|]. split.
    + cbn [w_f_S_mem set_S_mem]. rewrite app_length. destruct (w_f_S_mem w0); [congruence|]. cbn; lia.
    + split; [reflexivity|exact Ha].
Qed.
Lemma update_weights_inv n d k X fuel c w0 w' : gok n d k X w0 -> (0 < k)%nat ->
  0 < ls_sigma_one (gc_ls c) -> ls_sigma_two (gc_ls c) < 1 ->
  update_weights fuel c k w0 = Ok w' ->
  gok n d k X w' /\ w_S w' = w_S w0 /\ w_alpha_S w' = w_alpha_S w0
  /\ length (w_f_Gamma_mem w') = length (w_f_Gamma_mem w0) /\ w_f_S_mem w' = w_f_S_mem w0
  /\ (ls_alpha_min (gc_ls c) <= ls_alpha_max (gc_ls c) -> ls_alpha_min (gc_ls c) <= w_alpha_Gamma w' <= ls_alpha_max (gc_ls c))
  /\ (row_stochastic (w_Gamma w0) -> row_stochastic (w_Gamma w')).
Proof.
  intros Hw Hk H1 H2 H. destruct (update_weights_ok n d k X fuel c w0 w' Hw H1 H2 H) as (s & a & Hs & _ & Hne & -> & Ha).
  destruct (refresh_w_ok n d k X w0 Hw) as [Hr _].
  assert (HG : is_mat n k (madd (w_Gamma (refresh_w w0)) (mscale s (dir_w (refresh_w w0))))) by (apply is_mat_madd; apply Hr).
  split; [|split; [reflexivity|split; [reflexivity|split; [|split; [reflexivity|split; [exact Ha|]]]]]].
  - apply (set_Gamma_ok n d k X _ (madd (w_Gamma (refresh_w w0)) (mscale s (dir_w (refresh_w w0))))) in Hr; [|exact HG].
    destruct Hr as (A & B & C & D). repeat split; try apply B; try apply C; assumption.
  - cbn [w_f_Gamma_mem set_Gamma_mem]. rewrite app_length. destruct (w_f_Gamma_mem w0); [congruence|]. cbn; lia.
  - intros SG. cbn [w_Gamma set_Gamma_mem set_Gamma]. destruct Hr as (A & B & C & D).
    apply (row_stochastic_step n k); try assumption; try lra.
    + apply is_mat_project, is_mat_msub; apply B.
    + apply project_rows_stochastic; [apply wf_msub|]. cbn [nc msub mmap2 mbuild]. destruct B as (_ & -> & _). exact Hk.
Qed.

Lemma update_dictionary_total c : ls_valid (gc_ls c) -> exists M, forall fuel k w0, (M <= fuel)%nat ->
  w_f_S_mem w0 <> [] -> exists w', update_dictionary fuel c k w0 = Ok w'.
Proof.
  intros (H1 & H2 & H3). destruct (line_search_terminates (gc_ls c) H1 H2 H3) as [M HM].
  exists M. intros fuel k w0 Hf Hne. unfold update_dictionary, dictionary_line_search. cbv zeta.
  match goal with |- context [@line_search ?T ?N ?St fuel ?p ?co ?tr ?fu ?me ?cc ?sl] =>
    destruct (HM St co tr fu me cc sl fuel Hne Hf) as (((w1 & s) & mem) & E) end.
  rewrite E; cbn [bind]. eauto.
Qed.
Lemma update_weights_total c : ls_valid (gc_ls c) -> exists M, forall fuel k w0, (M <= fuel)%nat ->
  w_f_Gamma_mem w0 <> [] -> exists w', update_weights fuel c k w0 = Ok w'.
Proof.
  intros (H1 & H2 & H3). destruct (line_search_terminates (gc_ls c) H1 H2 H3) as [M HM].
  exists M. intros fuel k w0 Hf Hne. unfold update_weights, weights_line_search. cbv zeta.
  match goal with |- context [@line_search ?T ?N ?St fuel ?p ?co ?tr ?fu ?me ?cc ?sl] =>
    destruct (HM St co tr fu me cc sl fuel Hne Hf) as (((w1 & s) & mem) & E) end.
  rewrite E; cbn [bind]. eauto.
Qed.

(** ** descent *)
Lemma dir_d_slope n d k X c w : gok n d k X w -> 0 < w_alpha_S w ->
  frob (dir_d c k w) (dictionary_gradient c k w) = - frob2 (dir_d c k w) / w_alpha_S w.
Proof.
  intros Hw Ha. pose proof (dictionary_gradient_shape n d k X c w Hw) as (q1 & q2 & _).
  pose proof (dir_d_shape n d k X c w Hw) as (r1 & r2 & _). destruct Hw as (A & B & (s1 & s2 & _) & D).
  rewrite frob_SS, frob2_SS, r1, r2.
  assert (E : forall i j, (i < k)%nat -> (j < d)%nat -> ent (dir_d c k w) i j = - w_alpha_S w * ent (dictionary_gradient c k w) i j).
  { intros i j Hi Hj. unfold dir_d. rewrite ent_msub by (mdim; lia). rewrite ent_msub by lia. rewrite ent_mscale by lia. ring. }
  erewrite SS_ext; [|intros i j Hi Hj; rewrite E by assumption; reflexivity].
  erewrite (SS_ext k d (fun i j => ent (dir_d c k w) i j ^ 2)); [|intros i j Hi Hj; rewrite E by assumption; reflexivity].
  transitivity (- w_alpha_S w * SS k d (fun i j => ent (dictionary_gradient c k w) i j ^ 2)).
  - rewrite <- SS_scal. apply SS_ext; intros; ring.
  - transitivity (- (w_alpha_S w * w_alpha_S w * SS k d (fun i j => ent (dictionary_gradient c k w) i j ^ 2)) / w_alpha_S w).
    + field; lra.
    + f_equal. f_equal. rewrite <- SS_scal. apply SS_ext; intros; ring.
Qed.

Lemma update_weights_descends n d k X fuel c w0 w' m0 a : is_mat n d X -> gok n d k X w0 ->
  (0 < n)%nat -> (0 < k)%nat -> (0 < d)%nat -> row_stochastic (w_Gamma w0) ->
  0 < ls_sigma_one (gc_ls c) -> ls_sigma_two (gc_ls c) < 1 -> 0 <= ls_gamma (gc_ls c) <= 1 ->
  w_f_Gamma_mem w0 = [m0] -> 0 < w_alpha_Gamma w0 <= a ->
  0 < ls_step_tol (gc_ls c) <= ls_sigma_one (gc_ls c) ->
  ls_step_tol (gc_ls c) * (2 * a * curv_w n d (w_S w0)) <= 1 - ls_gamma (gc_ls c) ->
  update_weights fuel c k w0 = Ok w' ->
  evaluate_cost c k w' <= evaluate_cost c k w0.
Proof.
  intros HX Hw Hn Hk Hd SG H1 H2 Hg Hm Ha Ht1 Ht2 H.
  destruct (update_weights_ok n d k X fuel c w0 w' Hw H1 H2 H) as (s & b & Hs & EL & Hne & -> & _).
  destruct (refresh_w_ok n d k X w0 Hw) as [Hr HC]. set (w := refresh_w w0) in *.
  pose proof (dir_w_shape n d k X w Hr) as HD. pose proof (weights_gradient_shape n d k X w Hr) as HGr.
  rewrite Hm in EL. cbn [tl app] in EL.
  set (tr := fun s => set_Gamma (madd (w_Gamma w) (mscale s (dir_w w))) w) in EL.
  change (set_Gamma (madd (w_Gamma w) (mscale 1 (dir_w w))) w) with (tr 1) in EL.
  assert (Ecost : forall s, evaluate_cost c k (tr s) = gpnh_objective (gc_epsilon c) X (madd (w_Gamma w) (mscale s (dir_w w))) (w_S w)).
  { intros t. unfold tr. rewrite (cost_spec n d k X c) by first [assumption | apply set_Gamma_ok; [exact Hr | apply is_mat_madd; apply Hr]]. reflexivity. }
  assert (Ew : evaluate_cost c k w0 = gpnh_objective (gc_epsilon c) X (w_Gamma w) (w_S w)).
  { rewrite (cost_spec n d k X c) by assumption. reflexivity. }
  rewrite minner_frob in EL.
  pose proof (project_direction n k (w_Gamma w) (weights_gradient w) (w_alpha_Gamma w)
     (proj1 (proj2 Hr)) HGr SG Hk (proj1 Ha)) as Sl. cbv zeta in Sl. fold (dir_w w) in Sl.
  rewrite frob_sym in Sl by (destruct HGr as (q1 & q2 & _), HD as (r1 & r2 & _); lia).
  pose proof (frob2_nonneg (dir_w w)) as F0. set (F := frob2 (dir_w w)) in *.
  set (sl := frob (dir_w w) (weights_gradient w)) in *.
  assert (Ia : 0 < / w_alpha_Gamma w) by (apply Rinv_0_lt_compat; exact (proj1 Ha)).
  assert (Fa : 0 <= F / w_alpha_Gamma w) by (unfold Rdiv; nra).
  assert (Sl' : sl <= - (F / w_alpha_Gamma w)) by (unfold Rdiv in *; lra).
  apply (line_search_descent fuel (gc_ls c) (evaluate_cost c k) tr m0 (evaluate_cost c k w0) sl (curv_w n d (w_S w) * F)) in EL;
    try assumption; try lra.
  - destruct EL as [_ EL]. exact EL.
  - intros t Ht. rewrite Ecost, Ew. apply (objective_weights_step n d k X); assumption.
  - assert (Ht3 : ls_step_tol (gc_ls c) * (2 * curv_w n d (w_S w)) * w_alpha_Gamma w <= 1 - ls_gamma (gc_ls c)).
    { eapply Rle_trans; [|exact Ht2]. change (w_S w0) with (w_S w).
      assert (0 <= curv_w n d (w_S w)).
      { unfold curv_w. apply Rmult_le_pos; [apply frob2_nonneg|]. left. apply Rinv_0_lt_compat.
        apply Rmult_lt_0_compat; apply lt_0_INR; assumption. }
      replace (ls_step_tol (gc_ls c) * (2 * a * curv_w n d (w_S w))) with (ls_step_tol (gc_ls c) * (2 * curv_w n d (w_S w)) * a) by ring.
      apply Rmult_le_compat_l; [|exact (proj2 Ha)]. apply Rmult_le_pos; lra. }
    assert (Ht4 : ls_step_tol (gc_ls c) * (2 * curv_w n d (w_S w)) <= (1 - ls_gamma (gc_ls c)) * / w_alpha_Gamma w).
    { apply Rmult_le_reg_r with (w_alpha_Gamma w); [exact (proj1 Ha)|].
      replace ((1 - ls_gamma (gc_ls c)) * / w_alpha_Gamma w * w_alpha_Gamma w) with (1 - ls_gamma (gc_ls c))
        by (field; apply Rgt_not_eq; exact (proj1 Ha)). lra. }
    replace (ls_step_tol (gc_ls c) * (2 * (curv_w n d (w_S w) * F))) with (ls_step_tol (gc_ls c) * (2 * curv_w n d (w_S w)) * F) by ring.
    apply Rle_trans with ((1 - ls_gamma (gc_ls c)) * / w_alpha_Gamma w * F).
    + apply Rmult_le_compat_r; assumption.
    + rewrite Rmult_assoc. apply Rmult_le_compat_l; [lra|]. unfold Rdiv in *. lra.
Qed.
Lemma update_dictionary_descends n d k X fuel c w0 w' m0 a : is_mat n d X -> gok n d k X w0 ->
  (0 < n)%nat -> (0 < k)%nat -> (0 < d)%nat -> 0 <= gc_epsilon c ->
  0 < ls_sigma_one (gc_ls c) -> ls_sigma_two (gc_ls c) < 1 -> 0 <= ls_gamma (gc_ls c) <= 1 ->
  w_f_S_mem w0 = [m0] -> 0 < w_alpha_S w0 <= a ->
  0 < ls_step_tol (gc_ls c) <= ls_sigma_one (gc_ls c) ->
  ls_step_tol (gc_ls c) * (2 * a * curv_d (gc_epsilon c) n d k (w_Gamma w0)) <= 1 - ls_gamma (gc_ls c) ->
  update_dictionary fuel c k w0 = Ok w' ->
  evaluate_cost c k w' <= evaluate_cost c k w0.
Proof.
  intros HX Hw Hn Hk Hd He H1 H2 Hg Hm Ha Ht1 Ht2 H.
  destruct (update_dictionary_ok n d k X fuel c w0 w' Hw H1 H2 H) as (s & b & Hs & EL & Hne & -> & _).
  destruct (refresh_d_ok n d k X w0 Hw) as [Hr HC]. set (w := refresh_d w0) in *.
  pose proof (dir_d_shape n d k X c w Hr) as HD. pose proof (dictionary_gradient_shape n d k X c w Hr) as HGr.
  rewrite Hm in EL. cbn [tl app] in EL.
  set (tr := fun s => set_S_SSt (madd (w_S w) (mscale s (dir_d c k w))) w) in EL.
  change (set_S_SSt (madd (w_S w) (mscale 1 (dir_d c k w))) w) with (tr 1) in EL.
  assert (Ecost : forall s, evaluate_cost c k (tr s) = gpnh_objective (gc_epsilon c) X (w_Gamma w) (madd (w_S w) (mscale s (dir_d c k w)))).
  { intros t. unfold tr. rewrite (cost_spec n d k X c) by first [assumption | apply set_S_ok; [exact Hr | apply is_mat_madd; apply Hr]]. reflexivity. }
  assert (Ew : evaluate_cost c k w0 = gpnh_objective (gc_epsilon c) X (w_Gamma w) (w_S w)).
  { rewrite (cost_spec n d k X c) by assumption. reflexivity. }
  rewrite minner_frob in EL.
  pose proof (dir_d_slope n d k X c w Hr (proj1 Ha)) as Sl.
  pose proof (frob2_nonneg (dir_d c k w)) as F0. set (F := frob2 (dir_d c k w)) in *.
  set (sl := frob (dir_d c k w) (dictionary_gradient c k w)) in *.
  assert (Ia : 0 < / w_alpha_S w) by (apply Rinv_0_lt_compat; exact (proj1 Ha)).
  assert (Fa : 0 <= F / w_alpha_S w) by (unfold Rdiv; nra).
  assert (Sl' : sl <= - (F / w_alpha_S w)) by (unfold Rdiv in *; lra).
  set (L := curv_d (gc_epsilon c) n d k (w_Gamma w)) in *.
  apply (line_search_descent fuel (gc_ls c) (evaluate_cost c k) tr m0 (evaluate_cost c k w0) sl (L * F)) in EL;
    try assumption; try lra.
  - destruct EL as [_ EL]. exact EL.
  - intros t Ht. rewrite Ecost, Ew. apply (objective_dict_step n d k X); assumption.
  - assert (Ht3 : ls_step_tol (gc_ls c) * (2 * L) * w_alpha_S w <= 1 - ls_gamma (gc_ls c)).
    { eapply Rle_trans; [|exact Ht2]. change (curv_d (gc_epsilon c) n d k (w_Gamma w0)) with L.
      assert (0 <= L).
      { unfold L, curv_d. apply Rplus_le_le_0_compat.
        - apply Rmult_le_pos; [apply frob2_nonneg|]. left. apply Rinv_0_lt_compat.
          apply Rmult_lt_0_compat; apply lt_0_INR; assumption.
        - apply Rmult_le_pos; [exact He|]. destruct (Nat.eqb_spec k 1); [lra|].
          pose proof (INR_pred_pos k ltac:(lia)). assert (0 < INR d) by (apply lt_0_INR; exact Hd).
          apply Rmult_le_pos; [lra|]. left; apply Rinv_0_lt_compat, Rmult_lt_0_compat; lra. }
      replace (ls_step_tol (gc_ls c) * (2 * a * L)) with (ls_step_tol (gc_ls c) * (2 * L) * a) by ring.
      apply Rmult_le_compat_l; [|exact (proj2 Ha)]. apply Rmult_le_pos; lra. }
    assert (Ht4 : ls_step_tol (gc_ls c) * (2 * L) <= (1 - ls_gamma (gc_ls c)) * / w_alpha_S w).
    { apply Rmult_le_reg_r with (w_alpha_S w); [exact (proj1 Ha)|].
      replace ((1 - ls_gamma (gc_ls c)) * / w_alpha_S w * w_alpha_S w) with (1 - ls_gamma (gc_ls c))
        by (field; apply Rgt_not_eq; exact (proj1 Ha)). lra. }
    replace (ls_step_tol (gc_ls c) * (2 * (L * F))) with (ls_step_tol (gc_ls c) * (2 * L) * F) by ring.
    apply Rle_trans with ((1 - ls_gamma (gc_ls c)) * / w_alpha_S w * F).
    + apply Rmult_le_compat_r; assumption.
    + rewrite Rmult_assoc. apply Rmult_le_compat_l; [lra|]. unfold Rdiv in *. lra.
Qed.
