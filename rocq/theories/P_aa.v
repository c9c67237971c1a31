(** Proofs about archetypal_analysis.py: costs, gradients, updates *)
From Coq Require Import List Arith Lia ZArith Reals Lra Psatz Bool.
From Verif Require Import Num Mat Py Spec M_simplex M_spg M_iter M_random M_furthest M_gpnh M_aa.
From Verif Require Import P_lin P_simplex P_spg P_random P_mat P_iter P_gpnh.
Import ListNotations.
Local Open Scope R_scope.

(** ** the kernel error as a function of the coefficients *)
Definition kresid (K : mat R) (b : nat -> nat -> R) (i j : nat) : R :=
  - 2 * ent K j i + 2 * Sum (nr K) (fun l => b i l * ent K l j).
Definition kquad (K : mat R) (e : nat -> nat -> R) : R :=
  Sum (nr K) (fun i => Sum (nr K) (fun j => Sum (nr K) (fun l => e i j * ent K j l * e i l))).

Lemma kernel_error_ext K b b' : (forall i j, (i < nr K)%nat -> (j < nr K)%nat -> b i j = b' i j) ->
  kernel_error_of K b = kernel_error_of K b'.
Proof.
  intros H. unfold kernel_error_of. apply Sum_ext; intros i Hi. f_equal; [f_equal; f_equal|].
  - apply Sum_ext; intros j Hj. rewrite H by assumption. reflexivity.
  - apply Sum_ext; intros j Hj; apply Sum_ext; intros l Hl. rewrite !H by assumption. reflexivity.
Qed.

Lemma kernel_error_expand K b e : symmetric K ->
  kernel_error_of K (fun i j => b i j + e i j)
  = kernel_error_of K b + SS (nr K) (nr K) (fun i j => kresid K b i j * e i j) + kquad K e.
Proof.
  intros HK. unfold kernel_error_of, kquad, SS. rewrite <- !Sum_plus. apply Sum_ext; intros i Hi.
  set (n := nr K) in *.
  assert (E1 : Sum n (fun j => (b i j + e i j) * ent K j i)
    = Sum n (fun j => b i j * ent K j i) + Sum n (fun j => e i j * ent K j i)).
  { rewrite <- Sum_plus. apply Sum_ext; intros; ring. }
  assert (E2 : Sum n (fun j => Sum n (fun l => (b i j + e i j) * ent K j l * (b i l + e i l)))
    = Sum n (fun j => Sum n (fun l => b i j * ent K j l * b i l))
      + (2 * Sum n (fun j => Sum n (fun l => b i l * ent K l j) * e i j)
      + Sum n (fun j => Sum n (fun l => e i j * ent K j l * e i l)))).
  { transitivity (SS n n (fun j l => b i j * ent K j l * b i l) + (SS n n (fun j l => b i l * ent K l j * e i j)
        + SS n n (fun l j => b i l * ent K l j * e i j) + SS n n (fun j l => e i j * ent K j l * e i l))).
    - rewrite <- !SS_plus. apply SS_ext; intros j l Hj Hl. rewrite (HK l j) by assumption. ring.
    - rewrite (SS_swap n n (fun l j => b i l * ent K l j * e i j)).
      assert (E : SS n n (fun j l => b i l * ent K l j * e i j) = Sum n (fun j => Sum n (fun l => b i l * ent K l j) * e i j)).
      { apply Sum_ext; intros j _. rewrite <- Sum_scal_r. reflexivity. }
      rewrite E. unfold SS. lra. }
  rewrite E1, E2. unfold kresid. fold n.
  assert (E3 : Sum n (fun j => (- 2 * ent K j i + 2 * Sum n (fun l => b i l * ent K l j)) * e i j)
     = - 2 * Sum n (fun j => e i j * ent K j i) + 2 * Sum n (fun j => Sum n (fun l => b i l * ent K l j) * e i j)).
  { rewrite <- !Sum_scal_l, <- Sum_plus. apply Sum_ext; intros; ring. }
  rewrite E3. ring.
Qed.
Lemma kquad_scal K s e : kquad K (fun i j => s * e i j) = s * s * kquad K e.
Proof.
  unfold kquad. rewrite <- Sum_scal_l. apply Sum_ext; intros. rewrite <- Sum_scal_l. apply Sum_ext; intros.
  rewrite <- Sum_scal_l. apply Sum_ext; intros. ring.
Qed.
Lemma kquad_ext K e e' : (forall i j, (i < nr K)%nat -> (j < nr K)%nat -> e i j = e' i j) -> kquad K e = kquad K e'.
Proof.
  intros H. unfold kquad. apply Sum_ext; intros; apply Sum_ext; intros; apply Sum_ext; intros.
  rewrite !H by assumption. reflexivity.
Qed.
Lemma kquad_psd K e : psd K -> 0 <= kquad K e.
Proof. intros H. apply Sum_nonneg; intros i _. apply H. Qed.
Lemma kquad_bound K e B : 0 <= B -> (forall j l, (j < nr K)%nat -> (l < nr K)%nat -> Rabs (ent K j l) <= B) ->
  kquad K e <= B * INR (nr K) * SS (nr K) (nr K) (fun i j => e i j ^ 2).
Proof.
  intros HB HK. unfold kquad, SS. rewrite <- Sum_scal_l. apply Sum_le; intros i Hi. set (n := nr K) in *.
  apply Rle_trans with (SS n n (fun j l => B / 2 * (e i j ^ 2) + B / 2 * (e i l ^ 2))).
  - apply SS_le; intros j l Hj Hl. specialize (HK j l Hj Hl).
    assert (E : e i j * ent K j l * e i l <= Rabs (ent K j l) * (Rabs (e i j) * Rabs (e i l))).
    { eapply Rle_trans; [apply Rle_abs|]. rewrite !Rabs_mult. right; ring. }
    assert (Rabs (e i j) * Rabs (e i l) <= (e i j ^ 2 + e i l ^ 2) / 2).
    { pose proof (pow2_ge_0 (Rabs (e i j) - Rabs (e i l))).
      pose proof (pow2_abs (e i j)). pose proof (pow2_abs (e i l)). nra. }
    assert (0 <= Rabs (e i j) * Rabs (e i l)) by (apply Rmult_le_pos; apply Rabs_pos).
    assert (Rabs (ent K j l) * (Rabs (e i j) * Rabs (e i l)) <= B * (Rabs (e i j) * Rabs (e i l)))
      by (apply Rmult_le_compat_r; assumption).
    assert (B * (Rabs (e i j) * Rabs (e i l)) <= B * ((e i j ^ 2 + e i l ^ 2) / 2)) by (apply Rmult_le_compat_l; assumption).
    lra.
  - rewrite SS_plus. rewrite (SS_swap n n (fun j l => B / 2 * e i l ^ 2)).
    assert (E : SS n n (fun j _ => B / 2 * e i j ^ 2) = INR n * (B / 2 * Sum n (fun j => e i j ^ 2))).
    { unfold SS. rewrite <- !Sum_scal_l. apply Sum_ext; intros. apply Sum_const. }
    rewrite E. lra.
Qed.

Lemma coef_k k S C i j : nc S = k -> coef S C i j = Sum k (fun a => ent S i a * ent C a j).
Proof. intros <-; reflexivity. Qed.

(** ** costs from the cached products *)
Lemma gram3 n k (s : nat -> R) (D K : nat -> nat -> R) :
  Sum n (fun j => Sum n (fun l => Sum k (fun b => s b * D b j) * K j l * Sum k (fun a => s a * D a l)))
  = Sum k (fun a => Sum k (fun b => s a * s b * Sum n (fun l => Sum n (fun j => D b j * K j l) * D a l))).
Proof.
  transitivity (Sum n (fun l => Sum k (fun b => s b * Sum n (fun j => D b j * K j l)) * Sum k (fun a => s a * D a l))).
  { rewrite Sum_swap. apply Sum_ext; intros l _. rewrite Sum_scal_r. f_equal. apply Sum_assoc. }
  transitivity (Sum n (fun l => Sum k (fun a => Sum k (fun b => s a * s b * (Sum n (fun j => D b j * K j l) * D a l))))).
  { apply Sum_ext; intros l _. rewrite Sum_mult, Sum_swap. apply Sum_ext; intros; apply Sum_ext; intros. ring. }
  rewrite Sum_swap. apply Sum_ext; intros a _. rewrite Sum_swap. apply Sum_ext; intros b _. apply Sum_scal_l.
Qed.
Lemma trace_product n m A B : nr A = n -> nc A = m -> nc B = n ->
  @mtrace R Num_R (mmul A B) = SS n m (fun i a => ent A i a * ent B a i).
Proof.
  intros <- <- H. rewrite mtrace_Sum; mdim. rewrite H, Nat.min_id. apply Sum_ext; intros i Hi.
  apply ent_mmul; lia.
Qed.
Lemma kernel_cost n k K S D : is_mat n n K -> is_mat n k S -> is_mat k n D ->
  @mtrace R Num_R K - 2 * mtrace (mmul S (mmul D K)) + mtrace (mmul (mmul (mtr S) S) (mmul (mmul D K) (mtr D)))
  = kernel_error K S D.
Proof.
  intros (k1 & k2 & _) (s1 & s2 & _) (d1 & d2 & _).
  rewrite (trace_product n k S (mmul D K)) by (mdim; assumption).
  rewrite (trace_product k k (mmul (mtr S) S)) by (mdim; assumption).
  rewrite mtrace_Sum, k1, k2, Nat.min_id.
  unfold kernel_error, kernel_error_of. rewrite k1, Sum_plus, Sum_minus, Sum_scal_l. f_equal; [f_equal; f_equal|].
  - apply Sum_ext; intros i Hi.
    transitivity (Sum n (fun j => Sum k (fun a => ent S i a * ent D a j) * ent K j i)).
    + rewrite Sum_assoc. apply Sum_ext; intros a Ha. rewrite ent_mmul by lia. rewrite d2. reflexivity.
    + apply Sum_ext; intros j Hj. rewrite (coef_k k) by assumption. reflexivity.
  - transitivity (SS k k (fun a b => Sum n (fun i => ent S i a * ent S i b) *
       Sum n (fun l => Sum n (fun j => ent D b j * ent K j l) * ent D a l))).
    + apply SS_ext; intros a b Ha Hb. rewrite !ent_mmul by (mdim; lia). mdim. rewrite s1, k2. f_equal.
      * apply Sum_ext; intros i Hi. rewrite ent_mtr by lia. reflexivity.
      * apply Sum_ext; intros l Hl. rewrite ent_mmul by lia. rewrite ent_mtr by lia. rewrite d2. reflexivity.
    + transitivity (Sum n (fun i => SS k k (fun a b => ent S i a * ent S i b *
        Sum n (fun l => Sum n (fun j => ent D b j * ent K j l) * ent D a l)))).
      * unfold SS. rewrite (Sum_swap n k). apply Sum_ext; intros a _. rewrite (Sum_swap n k). apply Sum_ext; intros b _.
        symmetry; apply Sum_scal_r.
      * apply Sum_ext; intros i _. unfold SS. rewrite <- gram3. apply Sum_ext; intros j _; apply Sum_ext; intros l _.
        rewrite !(coef_k k) by assumption. reflexivity.
Qed.
(** K = X X^T: the error in input space *)
Lemma gram_error n d X S C : is_mat n d X -> kernel_error (@mmul R Num_R X (mtr X)) S C = archetype_error X S C.
Proof.
  intros (x1 & x2 & _). unfold kernel_error, kernel_error_of, archetype_error; mdim. rewrite x1, x2.
  assert (EK : forall i j, (i < n)%nat -> (j < n)%nat -> ent (@mmul R Num_R X (mtr X)) i j = Sum d (fun f => ent X i f * ent X j f)).
  { intros i j Hi Hj. rewrite ent_mmul by (mdim; lia). rewrite x2. apply Sum_ext; intros f Hf. rewrite ent_mtr by lia. reflexivity. }
  apply Sum_ext; intros i Hi. set (b := coef S C i).
  rewrite EK by assumption.
  transitivity (Sum d (fun f => ent X i f * ent X i f) - 2 * Sum d (fun f => Sum n (fun j => b j * ent X j f) * ent X i f)
     + Sum d (fun f => Sum n (fun j => b j * ent X j f) * Sum n (fun l => b l * ent X l f))).
  { f_equal; [f_equal; f_equal|].
    - rewrite Sum_assoc. apply Sum_ext; intros j Hj. rewrite EK by assumption. reflexivity.
    - transitivity (Sum n (fun j => Sum n (fun l => Sum d (fun f => (b j * ent X j f) * (b l * ent X l f))))).
      + apply Sum_ext; intros j Hj; apply Sum_ext; intros l Hl. rewrite EK by assumption.
        rewrite (Rmult_comm (b j)), Rmult_assoc, <- Sum_scal_r. apply Sum_ext; intros; ring.
      + transitivity (Sum n (fun j => Sum d (fun f => Sum n (fun l => b j * ent X j f * (b l * ent X l f))))).
        { apply Sum_ext; intros; apply Sum_swap. }
        rewrite Sum_swap. apply Sum_ext; intros f _. symmetry; apply Sum_mult. }
  rewrite <- Sum_scal_l, <- Sum_minus, <- Sum_plus. apply Sum_ext; intros; ring.
Qed.
Lemma gram_symmetric X : symmetric (@mmul R Num_R X (mtr X)).
Proof.
  intros i j Hi Hj; mdim. rewrite !ent_mmul by (mdim; assumption). apply Sum_ext; intros f Hf.
  rewrite !ent_mtr by assumption. ring.
Qed.
Lemma gram_psd X : psd (@mmul R Num_R X (mtr X)).
Proof.
  intros v; mdim. set (n := nr X). set (d := nc X).
  replace (Sum n (fun j => Sum n (fun l => v j * ent (mmul X (mtr X)) j l * v l)))
    with (Sum d (fun f => Sum n (fun j => v j * ent X j f) ^ 2)).
  { apply Sum_sq_nonneg. }
  transitivity (Sum d (fun f => Sum n (fun j => Sum n (fun l => (v j * ent X j f) * (v l * ent X l f))))).
  { apply Sum_ext; intros. apply Sum_sq. }
  rewrite Sum_swap. apply Sum_ext; intros j Hj. rewrite Sum_swap. apply Sum_ext; intros l Hl.
  rewrite ent_mmul by (mdim; assumption). fold d.
  rewrite (Rmult_comm (v j)), Rmult_assoc, <- Sum_scal_r. apply Sum_ext; intros f Hf. rewrite ent_mtr by assumption. ring.
Qed.

(** ** gradients *)
Definition gradS (k n : nat) (K S D : mat R) (i a : nat) : R := Sum n (fun j => kresid K (coef S D) i j * ent D a j).
Definition gradD (n : nat) (K S D : mat R) (a j : nat) : R := Sum n (fun i => ent S i a * kresid K (coef S D) i j).

Lemma coef_K n k K S D i j : is_mat n n K -> nc S = k -> nr D = k -> nc D = n -> (i < n)%nat -> (j < n)%nat ->
  Sum n (fun l => coef S D i l * ent K l j) = Sum k (fun b => ent S i b * ent (@mmul R Num_R D K) b j).
Proof.
  intros (k1 & k2 & _) s2 d1 d2 Hi Hj.
  transitivity (Sum n (fun l => Sum k (fun b => ent S i b * ent D b l) * ent K l j)).
  { apply Sum_ext; intros. rewrite (coef_k k) by assumption. reflexivity. }
  rewrite Sum_assoc. apply Sum_ext; intros b Hb. rewrite ent_mmul by lia. rewrite d2. reflexivity.
Qed.
Lemma gradS_entry n k K S D i a : is_mat n n K -> is_mat n k S -> is_mat k n D -> (i < n)%nat -> (a < k)%nat ->
  gradS k n K S D i a = - 2 * Sum n (fun j => ent K j i * ent D a j)
     + 2 * Sum k (fun b => ent S i b * ent (@mmul R Num_R (mmul D K) (mtr D)) b a).
Proof.
  intros HK HS HD Hi Ha. pose proof HK as (k1 & k2 & _). pose proof HS as (s1 & s2 & _). pose proof HD as (d1 & d2 & _).
  unfold gradS, kresid. rewrite k1.
  transitivity (Sum n (fun j => - 2 * (ent K j i * ent D a j) + 2 * (Sum k (fun b => ent S i b * ent (@mmul R Num_R D K) b j) * ent D a j))).
  { apply Sum_ext; intros j Hj. rewrite (coef_K n k) by assumption. ring. }
  rewrite Sum_plus, !Sum_scal_l. do 2 f_equal. rewrite Sum_assoc. apply Sum_ext; intros b Hb. f_equal.
  rewrite ent_mmul by (mdim; lia). mdim. rewrite k2. apply Sum_ext; intros l Hl. rewrite ent_mtr by lia. reflexivity.
Qed.
Lemma gradD_entry n k K S D a j : is_mat n n K -> is_mat n k S -> is_mat k n D -> (a < k)%nat -> (j < n)%nat ->
  gradD n K S D a j = - 2 * Sum n (fun i => ent S i a * ent K j i)
     + 2 * Sum k (fun b => ent (@mmul R Num_R (mtr S) S) a b * ent (@mmul R Num_R D K) b j).
Proof.
  intros HK HS HD Ha Hj. pose proof HK as (k1 & k2 & _). pose proof HS as (s1 & s2 & _). pose proof HD as (d1 & d2 & _).
  unfold gradD, kresid. rewrite k1.
  transitivity (Sum n (fun i => - 2 * (ent S i a * ent K j i) + 2 * (ent S i a * Sum k (fun b => ent S i b * ent (@mmul R Num_R D K) b j)))).
  { apply Sum_ext; intros i Hi. rewrite (coef_K n k) by assumption. ring. }
  rewrite Sum_plus, !Sum_scal_l. do 2 f_equal. rewrite <- Sum_assoc. apply Sum_ext; intros b Hb. f_equal.
  rewrite ent_mmul by (mdim; lia). mdim. rewrite s1. apply Sum_ext; intros l Hl. rewrite ent_mtr by lia. reflexivity.
Qed.

(** exact second-order expansions along a direction *)
Lemma expand_S n k K S D H s : is_mat n n K -> is_mat n k S -> is_mat k n D -> is_mat n k H -> symmetric K ->
  kernel_error K (@madd R Num_R S (mscale s H)) D
  = kernel_error K S D + s * SS n k (fun i a => gradS k n K S D i a * ent H i a) + s * s * kquad K (coef H D).
Proof.
  intros HK HS HD HH Hsym. pose proof HK as (k1 & k2 & _). pose proof HS as (s1 & s2 & _). pose proof HD as (d1 & d2 & _).
  pose proof HH as (h1 & h2 & _). unfold kernel_error.
  rewrite (kernel_error_ext K _ (fun i j => coef S D i j + s * coef H D i j)).
  2:{ intros i j Hi Hj. rewrite k1 in *. rewrite !(coef_k k) by (mdim; assumption).
      rewrite <- Sum_scal_l, <- Sum_plus. apply Sum_ext; intros a Ha. rewrite ent_madd by lia. rewrite ent_mscale by lia. ring. }
  rewrite kernel_error_expand, kquad_scal, k1 by assumption. do 2 f_equal.
  transitivity (s * SS n n (fun i j => kresid K (coef S D) i j * Sum k (fun a => ent H i a * ent D a j))).
  { rewrite <- SS_scal. apply SS_ext; intros i j _ _. rewrite (coef_k k) by assumption. ring. }
  f_equal. rewrite SS_adj_r. reflexivity.
Qed.
Lemma expand_D n k K S D H s : is_mat n n K -> is_mat n k S -> is_mat k n D -> is_mat k n H -> symmetric K ->
  kernel_error K S (@madd R Num_R D (mscale s H))
  = kernel_error K S D + s * SS k n (fun a j => gradD n K S D a j * ent H a j) + s * s * kquad K (coef S H).
Proof.
  intros HK HS HD HH Hsym. pose proof HK as (k1 & k2 & _). pose proof HS as (s1 & s2 & _). pose proof HD as (d1 & d2 & _).
  pose proof HH as (h1 & h2 & _). unfold kernel_error.
  rewrite (kernel_error_ext K _ (fun i j => coef S D i j + s * coef S H i j)).
  2:{ intros i j Hi Hj. rewrite k1 in *. rewrite !(coef_k k) by (mdim; assumption).
      rewrite <- Sum_scal_l, <- Sum_plus. apply Sum_ext; intros a Ha. rewrite ent_madd by lia. rewrite ent_mscale by lia. ring. }
  rewrite kernel_error_expand, kquad_scal, k1 by assumption. do 2 f_equal.
  transitivity (s * SS n n (fun i j => kresid K (coef S D) i j * Sum k (fun a => ent S i a * ent H a j))).
  { rewrite <- SS_scal. apply SS_ext; intros i j _ _. rewrite (coef_k k) by assumption. ring. }
  f_equal. rewrite SS_adj_l. reflexivity.
Qed.

(** ** scaled dictionaries *)
Definition effD (c : aa_cfg R) (alpha : list R) (C : mat R) : mat R :=
  if Rltb 0 (ac_delta c) then scale_rows alpha C else C.
Definition eff_scale (c : aa_cfg R) (alpha : list R) (a : nat) : R :=
  if Rltb 0 (ac_delta c) then at_ alpha a else 1.

Lemma ent_effD k n c alpha C a j : is_mat k n C -> (a < k)%nat -> (j < n)%nat ->
  ent (effD c alpha C) a j = eff_scale c alpha a * ent C a j.
Proof.
  intros (c1 & c2 & _) Ha Hj. unfold effD, eff_scale. destruct (Rltb _ _); [|ring].
  unfold scale_rows. rewrite ent_mbuild by lia. reflexivity.
Qed.
Lemma is_mat_effD k n c alpha C : is_mat k n C -> is_mat k n (effD c alpha C).
Proof.
  intros H. unfold effD. destruct (Rltb _ _); [|exact H]. destruct H as (<- & <- & _). apply is_mat_mbuild.
Qed.
Lemma ent_mdiag v i j : (i < length v)%nat -> (j < length v)%nat ->
  ent (@mdiag R Num_R v) i j = if Nat.eqb j i then at_ v j else 0.
Proof.
  intros Hi Hj. unfold mdiag. rewrite ent_mbuild by assumption. rewrite Nat.eqb_sym. destruct (Nat.eqb_spec j i); [subst|]; reflexivity.
Qed.
Lemma ent_mdiag_l v A i j : (i < length v)%nat -> (j < nc A)%nat ->
  ent (@mmul R Num_R (mdiag v) A) i j = at_ v i * ent A i j.
Proof.
  intros Hi Hj. rewrite ent_mmul by (mdim; assumption). mdim.
  rewrite <- (Sum_delta (length v) i (fun a => at_ v a * ent A a j)) by assumption.
  apply Sum_ext; intros a Ha. rewrite ent_mdiag by assumption. destruct (Nat.eqb a i); ring.
Qed.
Lemma ent_mdiag_r A v i j : nc A = length v -> (i < nr A)%nat -> (j < length v)%nat ->
  ent (@mmul R Num_R A (mdiag v)) i j = ent A i j * at_ v j.
Proof.
  intros E Hi Hj. rewrite ent_mmul by (mdim; assumption). rewrite E.
  rewrite <- (Sum_delta (length v) j (fun a => ent A i a * at_ v j)) by assumption.
  apply Sum_ext; intros a Ha. rewrite ent_mdiag by assumption. rewrite (Nat.eqb_sym j a).
  destruct (Nat.eqb a j); ring.
Qed.
Lemma scaled_CK_eff k n c alpha C K : is_mat n n K -> is_mat k n C -> length alpha = k ->
  @scaled_CK R Num_R c alpha C K = mmul (effD c alpha C) K.
Proof.
  intros HK HC Hl. pose proof HK as (k1 & k2 & _). pose proof HC as (c1 & c2 & _).
  unfold scaled_CK, effD; numR. destruct (Rltb _ _) eqn:Ed; [|reflexivity].
  apply mat_ext_R with k n; try (apply is_mat_mmul; mdim; unfold scale_rows; mdim; assumption).
  intros a j Ha Hj. rewrite ent_mdiag_l by (mdim; lia). rewrite !ent_mmul by (unfold scale_rows; mdim; lia).
  unfold scale_rows; mdim. rewrite <- Sum_scal_l. apply Sum_ext; intros l Hl'. rewrite ent_mbuild by lia. ring.
Qed.
Lemma scaled_CKCt_eff k n c alpha C K : is_mat n n K -> is_mat k n C -> length alpha = k ->
  @scaled_CKCt R Num_R c alpha (mmul (effD c alpha C) K) C = mmul (mmul (effD c alpha C) K) (mtr (effD c alpha C)).
Proof.
  intros HK HC Hl. pose proof HK as (k1 & k2 & _). pose proof HC as (c1 & c2 & _).
  pose proof (is_mat_effD k n c alpha C HC) as (e1 & e2 & _).
  unfold scaled_CKCt; numR. destruct (Rltb 0 (ac_delta c)) eqn:Ed.
  2:{ unfold effD; rewrite Ed; reflexivity. }
  apply mat_ext_R with k k; try (apply is_mat_mmul; mdim; assumption).
  intros a b Ha Hb. rewrite ent_mdiag_r by (mdim; lia). rewrite !(ent_mmul (mmul _ _)) by (mdim; lia). mdim.
  rewrite <- Sum_scal_r. apply Sum_ext; intros l Hl'. rewrite !ent_mtr by lia.
  rewrite (ent_effD k n c alpha C b l) by (assumption || lia). unfold eff_scale. rewrite Ed. ring.
Qed.
Lemma at_repeat k a (x : R) : (a < k)%nat -> at_ (repeat x k) a = x.
Proof. revert a; induction k as [|k IH]; intros [|a] H; cbn; try lia; try reflexivity. apply IH; lia. Qed.
Lemma effD_ones k n c C : is_mat k n C -> effD c (repeat 1 k) C = C.
Proof.
  intros H. apply mat_ext_R with k n; try assumption; [apply is_mat_effD; assumption|].
  intros a j Ha Hj. rewrite (ent_effD k n) by assumption. unfold eff_scale. destruct (Rltb _ _); [rewrite at_repeat by assumption|]; ring.
Qed.
Lemma scaled_CK_ones k n c C K : is_mat n n K -> is_mat k n C ->
  @scaled_CK R Num_R c (repeat 1 k) C K = mmul C K.
Proof. intros HK HC. rewrite (scaled_CK_eff k n) by (assumption || apply repeat_length). rewrite (effD_ones k n) by assumption. reflexivity. Qed.
Lemma scaled_CKCt_ones k n c C K : is_mat n n K -> is_mat k n C ->
  @scaled_CKCt R Num_R c (repeat 1 k) (mmul C K) C = mmul (mmul C K) (mtr C).
Proof.
  intros HK HC. pose proof (scaled_CKCt_eff k n c (repeat 1 k) C K HK HC (repeat_length _ _)) as E.
  rewrite (effD_ones k n) in E by assumption. exact E.
Qed.

(** ** gradients computed by the code *)
(** a workspace whose caches are those of its factors (what _evaluate_cost leaves) *)
Definition caches (c : aa_cfg R) (w : aws R) : Prop :=
  a_trace_K w = mtrace (a_K w) /\ a_StS w = mmul (mtr (a_S w)) (a_S w) /\
  a_CK w = scaled_CK c (a_alpha w) (a_C w) (a_K w) /\
  a_CKCt w = scaled_CKCt c (a_alpha w) (a_CK w) (a_C w).
Definition shapes (n k : nat) (w : aws R) : Prop :=
  is_mat n n (a_K w) /\ is_mat n k (a_S w) /\ is_mat k n (a_C w) /\ length (a_alpha w) = k.

Lemma cached_cost_error n k c w : shapes n k w -> caches c w ->
  @aa_cached_cost R Num_R w = kernel_error (a_K w) (a_S w) (effD c (a_alpha w) (a_C w)).
Proof.
  intros (HK & HS & HC & Ha) (E1 & E2 & E3 & E4). unfold aa_cached_cost. rewrite E4, E3, E2, E1.
  rewrite (scaled_CK_eff k n), (scaled_CKCt_eff k n) by assumption.
  apply (kernel_cost n k); try assumption. apply is_mat_effD; assumption.
Qed.
Lemma evaluate_cost_error n k c w : shapes n k w ->
  @aa_evaluate_cost R Num_R c w = kernel_error (a_K w) (a_S w) (effD c (a_alpha w) (a_C w)).
Proof.
  intros (HK & HS & HC & Ha). unfold aa_evaluate_cost, aa_refresh; cbn [a_K a_S a_CK a_CKCt a_StS].
  rewrite (scaled_CK_eff k n), (scaled_CKCt_eff k n) by assumption.
  rewrite <- (kernel_cost n k) by (try assumption; apply is_mat_effD; assumption). unfold n2; numR. ring.
Qed.
Lemma weights_gradient_shape n k c w : shapes n k w -> is_mat n k (@aa_weights_gradient R Num_R c w).
Proof.
  intros ((k1 & k2 & _) & (s1 & s2 & _) & (c1 & c2 & _) & Ha). unfold aa_weights_gradient.
  destruct (nltb _ _); apply is_mat_madd; mdim; assumption.
Qed.
Lemma weights_gradient_entry n k c w i a : shapes n k w -> caches c w -> (i < n)%nat -> (a < k)%nat ->
  ent (@aa_weights_gradient R Num_R c w) i a = gradS k n (a_K w) (a_S w) (effD c (a_alpha w) (a_C w)) i a.
Proof.
  intros (HK & HS & HC & Hal) (E1 & E2 & E3 & E4) Hi Ha.
  pose proof (is_mat_effD k n c (a_alpha w) (a_C w) HC) as HD.
  rewrite (gradS_entry n k) by assumption.
  pose proof HK as (k1 & k2 & _). pose proof HS as (s1 & s2 & _). pose proof HC as (c1 & c2 & _). pose proof HD as (d1 & d2 & _).
  unfold aa_weights_gradient. rewrite E4, E3, (scaled_CK_eff k n), (scaled_CKCt_eff k n) by assumption.
  set (D := effD c (a_alpha w) (a_C w)) in *.
  set (g0 := mmul (mtr (a_K w)) (mscale (nofZ (-2)) (mtr (a_C w)))).
  assert (G0 : ent g0 i a = -2 * Sum n (fun j => ent (a_K w) j i * ent (a_C w) a j)).
  { unfold g0. rewrite ent_mmul by (mdim; lia). mdim. rewrite k1, <- Sum_scal_l. apply Sum_ext; intros j Hj.
    rewrite ent_mtr by lia. rewrite ent_mscale by (mdim; lia). rewrite ent_mtr by lia. numR. ring. }
  assert (G1 : ent (if Rltb 0 (ac_delta c) then mmul g0 (mdiag (a_alpha w)) else g0) i a
     = -2 * Sum n (fun j => ent (a_K w) j i * ent D a j)).
  { transitivity (eff_scale c (a_alpha w) a * ent g0 i a).
    - unfold eff_scale. destruct (Rltb _ _); [|ring]. rewrite ent_mdiag_r by (unfold g0; mdim; lia). ring.
    - rewrite G0. rewrite <- !Sum_scal_l. apply Sum_ext; intros j Hj.
      unfold D. rewrite (ent_effD k n) by assumption. ring. }
  rewrite ent_madd.
  2,3: numR; destruct (Rltb _ _); unfold g0; mdim; lia.
  f_equal; [exact G1|].
  rewrite ent_mmul by (mdim; lia). rewrite s2, <- Sum_scal_l. apply Sum_ext; intros b Hb.
  rewrite ent_mscale by (mdim; lia). unfold n2; numR. ring.
Qed.
Lemma dictionary_gradient_shape n k c w : shapes n k w -> is_mat k n (@aa_dictionary_gradient R Num_R c w).
Proof.
  intros ((k1 & k2 & _) & (s1 & s2 & _) & (c1 & c2 & _) & Ha). unfold aa_dictionary_gradient.
  destruct (nltb _ _); [apply is_mat_mmul | apply is_mat_madd]; mdim; assumption.
Qed.
Lemma dictionary_gradient_entry n k c w a j : shapes n k w -> caches c w -> (a < k)%nat -> (j < n)%nat ->
  ent (@aa_dictionary_gradient R Num_R c w) a j
  = eff_scale c (a_alpha w) a * gradD n (a_K w) (a_S w) (effD c (a_alpha w) (a_C w)) a j.
Proof.
  intros (HK & HS & HC & Hal) (E1 & E2 & E3 & E4) Ha Hj.
  pose proof (is_mat_effD k n c (a_alpha w) (a_C w) HC) as HD.
  rewrite (gradD_entry n k) by assumption.
  pose proof HK as (k1 & k2 & _). pose proof HS as (s1 & s2 & _). pose proof HC as (c1 & c2 & _). pose proof HD as (d1 & d2 & _).
  unfold aa_dictionary_gradient. rewrite E3, E2, (scaled_CK_eff k n) by assumption.
  set (D := effD c (a_alpha w) (a_C w)) in *.
  set (g1 := madd _ _).
  assert (G1 : ent g1 a j = -2 * Sum n (fun i => ent (a_S w) i a * ent (a_K w) j i)
     + 2 * Sum k (fun b => ent (@mmul R Num_R (mtr (a_S w)) (a_S w)) a b * ent (@mmul R Num_R D (a_K w)) b j)).
  { unfold g1. rewrite ent_madd by (mdim; lia). f_equal.
    - rewrite ent_mmul by (mdim; lia). mdim. rewrite s1, <- Sum_scal_l. apply Sum_ext; intros i Hi.
      rewrite ent_mscale by (mdim; lia). rewrite !ent_mtr by lia. numR. ring.
    - rewrite ent_mscale by (mdim; lia). unfold n2; numR. rewrite (ent_mmul (mmul (mtr (a_S w)) (a_S w))) by (mdim; lia). mdim.
      rewrite s2. f_equal; ring. }
  rewrite <- G1. unfold eff_scale; numR. destruct (Rltb _ _); [|ring].
  rewrite ent_mdiag_l by (unfold g1; mdim; lia). reflexivity.
Qed.
Lemma effD_step k n c alpha C H s : is_mat k n C -> is_mat k n H ->
  effD c alpha (@madd R Num_R C (mscale s H)) = madd (effD c alpha C) (mscale s (effD c alpha H)).
Proof.
  intros HC HH. pose proof (is_mat_effD k n c alpha C HC) as HC'. pose proof (is_mat_effD k n c alpha H HH) as HH'.
  assert (HM : is_mat k n (@madd R Num_R C (mscale s H))) by (apply is_mat_madd; apply HC).
  apply mat_ext_R with k n; [apply is_mat_effD; exact HM | apply is_mat_madd; apply HC'|].
  intros a j Ha Hj. rewrite (ent_effD k n) by assumption.
  pose proof HC as (c1 & c2 & _). pose proof HC' as (c1' & c2' & _). pose proof HH as (h1 & h2 & _). pose proof HH' as (h1' & h2' & _).
  rewrite !ent_madd by lia. rewrite !ent_mscale by lia. rewrite !(ent_effD k n) by assumption. ring.
Qed.
Lemma error_weights_step n k c w H s : shapes n k w -> caches c w -> symmetric (a_K w) -> is_mat n k H ->
  kernel_error (a_K w) (@madd R Num_R (a_S w) (mscale s H)) (effD c (a_alpha w) (a_C w))
  = kernel_error (a_K w) (a_S w) (effD c (a_alpha w) (a_C w)) + s * frob (@aa_weights_gradient R Num_R c w) H
    + s * s * kquad (a_K w) (coef H (effD c (a_alpha w) (a_C w))).
Proof.
  intros Hsh Hca Hsym HH. pose proof Hsh as (HK & HS & HC & Hal).
  rewrite (expand_S n k) by (try assumption; apply is_mat_effD; assumption). do 3 f_equal.
  rewrite frob_SS. destruct (weights_gradient_shape n k c w Hsh) as (-> & -> & _). apply SS_ext; intros i a Hi Ha.
  rewrite (weights_gradient_entry n k) by assumption. reflexivity.
Qed.
Lemma error_dictionary_step n k c w H s : shapes n k w -> caches c w -> symmetric (a_K w) -> is_mat k n H ->
  kernel_error (a_K w) (a_S w) (effD c (a_alpha w) (@madd R Num_R (a_C w) (mscale s H)))
  = kernel_error (a_K w) (a_S w) (effD c (a_alpha w) (a_C w)) + s * frob (@aa_dictionary_gradient R Num_R c w) H
    + s * s * kquad (a_K w) (coef (a_S w) (effD c (a_alpha w) H)).
Proof.
  intros Hsh Hca Hsym HH. pose proof Hsh as (HK & HS & HC & Hal).
  rewrite (effD_step k n) by assumption.
  rewrite (expand_D n k) by (try assumption; apply is_mat_effD; assumption). do 3 f_equal.
  rewrite frob_SS. destruct (dictionary_gradient_shape n k c w Hsh) as (-> & -> & _). apply SS_ext; intros i a Hi Ha.
  rewrite (dictionary_gradient_entry n k) by assumption. rewrite (ent_effD k n) by assumption. ring.
Qed.

(** the scale factors: the workspace as aa_update_scale prepares it *)
Definition scale_caches (w : aws R) : Prop :=
  a_StS w = mmul (mtr (a_S w)) (a_S w) /\ a_CKCt w = mmul (mmul (a_C w) (a_K w)) (mtr (a_C w)) /\
  a_CKS w = mmul (mmul (a_C w) (a_K w)) (a_S w).
Lemma scale_gradient_length n k w : shapes n k w -> scale_caches w -> length (@aa_scale_gradient R Num_R w) = k.
Proof.
  intros ((k1 & k2 & _) & (s1 & s2 & _) & (c1 & c2 & _) & Ha) (E1 & E2 & E3). unfold aa_scale_gradient, mdiagonal.
  rewrite length_tab. rewrite E1, E2. mdim. lia.
Qed.
Lemma scale_rows_step k n v h C s : is_mat k n C -> length v = k -> length h = k ->
  scale_rows (tab k (fun a => at_ v a + s * at_ h a)) C = madd (scale_rows v C) (@mscale R Num_R s (scale_rows h C)).
Proof.
  intros (c1 & c2 & _) Hv Hh.
  apply mat_ext_R with k n; [unfold scale_rows; rewrite c1, c2; apply is_mat_mbuild | apply is_mat_madd; unfold scale_rows; mdim; assumption|].
  intros a j Ha Hj. rewrite ent_madd by (unfold scale_rows; mdim; lia). rewrite ent_mscale by (unfold scale_rows; mdim; lia).
  unfold scale_rows. rewrite !ent_mbuild by lia. unfold at_ at 1. rewrite nth_tab by assumption. ring.
Qed.
Lemma error_scale_step n k w h s : shapes n k w -> scale_caches w -> symmetric (a_K w) -> length h = k ->
  kernel_error (a_K w) (a_S w) (scale_rows (tab k (fun a => at_ (a_alpha w) a + s * at_ h a)) (a_C w))
  = kernel_error (a_K w) (a_S w) (scale_rows (a_alpha w) (a_C w))
    + s * Sum k (fun a => at_ (@aa_scale_gradient R Num_R w) a * at_ h a)
    + s * s * kquad (a_K w) (coef (a_S w) (scale_rows h (a_C w))).
Proof.
  intros Hsh (E1 & E2 & E3) Hsym Hh. pose proof Hsh as (HK & HS & HC & Hal).
  pose proof HK as (k1 & k2 & _). pose proof HS as (s1 & s2 & _). pose proof HC as (c1 & c2 & _).
  rewrite (scale_rows_step k n) by assumption.
  assert (HD : forall v, is_mat k n (scale_rows v (a_C w))) by (intros v; unfold scale_rows; rewrite c1, c2; apply is_mat_mbuild).
  rewrite (expand_D n k) by (try assumption; apply HD). do 3 f_equal.
  apply Sum_ext; intros a Ha.
  transitivity (at_ h a * Sum n (fun j => gradD n (a_K w) (a_S w) (scale_rows (a_alpha w) (a_C w)) a j * ent (a_C w) a j)).
  { rewrite <- Sum_scal_l. apply Sum_ext; intros j Hj. unfold scale_rows at 2. rewrite ent_mbuild by lia. ring. }
  rewrite Rmult_comm. f_equal.
  (* the gradient entry *)
  assert (L : length (@aa_scale_gradient R Num_R w) = k) by (apply (scale_gradient_length n); [assumption | split; [|split]; assumption]).
  unfold aa_scale_gradient, mdiagonal, at_. rewrite nth_tab.
  2:{ rewrite E1, E2; mdim; lia. }
  rewrite mget_ent. rewrite ent_madd by (rewrite E1, ?E2; mdim; lia).
  rewrite ent_mscale by (rewrite ?E3; mdim; lia). rewrite ent_mtr by (rewrite ?E3; mdim; lia).
  rewrite E3. rewrite (ent_mmul (mmul (a_C w) (a_K w))) by (mdim; lia). mdim. rewrite k2.
  rewrite ent_mmul by (rewrite ?E1, ?E2; mdim; lia). rewrite E1; mdim. rewrite s2.
  transitivity (Sum n (fun j => -2 * Sum n (fun i => ent (a_S w) i a * ent (a_K w) j i * ent (a_C w) a j))
    + 2 * Sum k (fun b => ent (@mmul R Num_R (mtr (a_S w)) (a_S w)) a b * (at_ (a_alpha w) b *
          Sum n (fun j => ent (@mmul R Num_R (a_C w) (a_K w)) b j * ent (a_C w) a j)))).
  - transitivity (Sum n (fun j => -2 * Sum n (fun i => ent (a_S w) i a * ent (a_K w) j i * ent (a_C w) a j)
      + 2 * (Sum k (fun b => ent (@mmul R Num_R (mtr (a_S w)) (a_S w)) a b * (at_ (a_alpha w) b * ent (@mmul R Num_R (a_C w) (a_K w)) b j)) * ent (a_C w) a j))).
    + apply Sum_ext; intros j Hj. rewrite (gradD_entry n k) by (try assumption; apply HD).
      rewrite Rmult_plus_distr_r, !Rmult_assoc. f_equal; [f_equal; symmetry; apply Sum_scal_r|].
      do 2 f_equal. apply Sum_ext; intros b Hb. f_equal. rewrite !ent_mmul by (unfold scale_rows; mdim; lia).
      unfold scale_rows; mdim. rewrite <- Sum_scal_l. apply Sum_ext; intros l Hl. rewrite ent_mbuild by lia. ring.
    + rewrite Sum_plus. f_equal. rewrite Sum_scal_l. f_equal. rewrite Sum_assoc. apply Sum_ext; intros b Hb. f_equal.
      rewrite <- Sum_scal_l. apply Sum_ext; intros; ring.
  - rewrite Rplus_comm. f_equal.
    + rewrite <- Sum_scal_l. apply Sum_ext; intros b Hb. rewrite ent_mscale by (rewrite ?E2; mdim; lia).
      rewrite ent_mdiag_l by (rewrite ?E2; mdim; lia). rewrite ent_mtr by (rewrite ?E2; mdim; lia). rewrite E2.
      unfold n2; numR.
      replace (ent (mmul (mmul (a_C w) (a_K w)) (mtr (a_C w))) a b) with (Sum n (fun j => ent (@mmul R Num_R (a_C w) (a_K w)) b j * ent (a_C w) a j)); [ring|].
      rewrite (ent_mmul (mmul _ _)) by (mdim; lia). mdim. rewrite k2.
      (* symmetry of C K C^T *)
      transitivity (SS n n (fun j l => ent (a_C w) b l * ent (a_K w) l j * ent (a_C w) a j)).
      { apply Sum_ext; intros j Hj. rewrite ent_mmul by lia. rewrite c2, <- Sum_scal_r. reflexivity. }
      rewrite SS_swap. apply Sum_ext; intros j Hj. rewrite ent_mtr by lia. rewrite ent_mmul by lia.
      rewrite c2, <- Sum_scal_r. apply Sum_ext; intros l Hl. rewrite (Hsym j l) by lia. ring.
    + rewrite Sum_scal_l. numR. f_equal.
      transitivity (SS n n (fun j i => ent (a_S w) i a * ent (a_K w) j i * ent (a_C w) a j)); [reflexivity|].
      rewrite SS_swap. apply Sum_ext; intros i Hi. rewrite ent_mmul by lia. rewrite c2, <- Sum_scal_r.
      apply Sum_ext; intros; ring.
Qed.
Lemma scale_cost_error n k w v : shapes n k w -> scale_caches w -> a_trace_K w = mtrace (a_K w) -> length v = k ->
  @aa_scale_cost R Num_R w (mdiag v) = kernel_error (a_K w) (a_S w) (scale_rows v (a_C w)).
Proof.
  intros Hsh (E1 & E2 & E3) Et Hv. pose proof Hsh as (HK & HS & HC & Hal).
  pose proof HK as (k1 & k2 & _). pose proof HS as (s1 & s2 & _). pose proof HC as (c1 & c2 & _).
  assert (HD : is_mat k n (scale_rows v (a_C w))) by (unfold scale_rows; rewrite c1, c2; apply is_mat_mbuild).
  rewrite <- (kernel_cost n k) by assumption. unfold aa_scale_cost. rewrite Et. unfold n2; numR.
  set (CK := mmul (a_C w) (a_K w)) in *.
  assert (ECK : mmul (scale_rows v (a_C w)) (a_K w) = mmul (mdiag v) CK).
  { apply mat_ext_R with k n; try (apply is_mat_mmul; unfold scale_rows, CK; mdim; assumption).
    intros a j Ha Hj. rewrite ent_mdiag_l by (unfold CK; mdim; lia). unfold CK. rewrite !ent_mmul by (unfold scale_rows; mdim; lia).
    unfold scale_rows; mdim. rewrite <- Sum_scal_l. apply Sum_ext; intros l Hl'. rewrite ent_mbuild by lia. ring. }
  rewrite ECK. f_equal; [f_equal; f_equal|].
  - rewrite (trace_product k k) by (rewrite ?E3; unfold CK; mdim; assumption).
    rewrite (trace_product n k) by (unfold CK; mdim; assumption).
    rewrite (SS_swap n k). rewrite E3. unfold SS.
    transitivity (Sum k (fun i => ent (mmul CK (a_S w)) i i * at_ v i)).
    + apply Sum_ext; intros i Hi. rewrite <- (Sum_delta k i (fun b => ent (mmul CK (a_S w)) i i * at_ v i)) by assumption.
      apply Sum_ext; intros b Hb. rewrite ent_mdiag by lia. rewrite (Nat.eqb_sym i b). destruct (Nat.eqb_spec b i); [subst|]; ring.
    + apply Sum_ext; intros a Ha. rewrite ent_mmul by (unfold CK; mdim; lia). rewrite <- Sum_scal_r.
      replace (nc CK) with n by (unfold CK; mdim; congruence). apply Sum_ext; intros i Hi.
      rewrite ent_mdiag_l by (unfold CK; mdim; lia). ring.
  - rewrite E1, E2. do 2 f_equal.
    apply mat_ext_R with k k; try (apply is_mat_mmul; unfold scale_rows, CK; mdim; assumption).
    intros a b Ha Hb. rewrite ent_mdiag_l by (unfold CK; mdim; lia). rewrite ent_mdiag_r by (unfold CK; mdim; lia).
    rewrite !ent_mmul by (unfold CK, scale_rows; mdim; lia). unfold scale_rows, CK; mdim.
    rewrite k2. rewrite <- Sum_scal_r, <- Sum_scal_l. apply Sum_ext; intros l Hl. fold CK.
    rewrite ent_mdiag_l by (unfold CK; mdim; lia). rewrite !ent_mtr by (mdim; lia). rewrite ent_mbuild by lia. ring.
Qed.

(** ** updates *)
Definition dirS (c : aa_cfg R) (w : aws R) : mat R :=
  msub (simplex_project_rows (msub (a_S w) (mscale (a_alpha_S w) (aa_weights_gradient c w)))) (a_S w).
Definition dirC (c : aa_cfg R) (w : aws R) : mat R :=
  msub (simplex_project_rows (msub (a_C w) (mscale (a_alpha_C w) (aa_dictionary_gradient c w)))) (a_C w).
Definition trS (c : aa_cfg R) (w : aws R) (s : R) : aws R := set_S_StS (madd (a_S w) (mscale s (dirS c w))) w.
Definition trC (c : aa_cfg R) (w : aws R) (s : R) : aws R := set_C_CK c (madd (a_C w) (mscale s (dirC c w))) w.
(** the state with other spectral parameters *)
Definition set_spg (aC aS aa : R) (mS mC ma : list R) (w : aws R) : aws R :=
  mk_aws (a_K w) (a_S w) (a_C w) (a_alpha w) (a_trace_K w) (a_CK w) (a_CKCt w) (a_CKS w) (a_StS w) aC aS aa mS mC ma.

Lemma caches_CK c w : caches c w ->
  mk_aws (a_K w) (a_S w) (a_C w) (a_alpha w) (a_trace_K w) (scaled_CK c (a_alpha w) (a_C w) (a_K w))
    (scaled_CKCt c (a_alpha w) (scaled_CK c (a_alpha w) (a_C w) (a_K w)) (a_C w)) (a_CKS w) (a_StS w)
    (a_alpha_C w) (a_alpha_S w) (a_alpha_alpha w) (a_f_S_mem w) (a_f_C_mem w) (a_f_alpha_mem w) = w.
Proof. intros (E1 & E2 & E3 & E4). rewrite <- E3, <- E4. destruct w; reflexivity. Qed.
Lemma refresh_id c w : caches c w -> @aa_refresh R Num_R c w = w.
Proof.
  intros (E1 & E2 & E3 & E4). unfold aa_refresh. rewrite <- E2, <- E3, <- E4. destruct w; reflexivity.
Qed.
Lemma refresh_caches c w : a_trace_K w = mtrace (a_K w) -> caches c (@aa_refresh R Num_R c w).
Proof. intros E. do 3 (split; [first [exact E | reflexivity]|]). reflexivity. Qed.

Lemma trS_caches c w s : caches c w -> caches c (trS c w s).
Proof. intros (E1 & E2 & E3 & E4). split; [exact E1|]. split; [reflexivity|]. split; [exact E3 | exact E4]. Qed.
Lemma trC_caches c w s : caches c w -> caches c (trC c w s).
Proof. intros (E1 & E2 & E3 & E4). split; [exact E1|]. split; [exact E2|]. split; reflexivity. Qed.
Lemma trS_shapes n k c w s : shapes n k w -> shapes n k (trS c w s).
Proof.
  intros (HK & HS & HC & Ha). split; [exact HK|]. split; [|split; [exact HC | exact Ha]].
  apply is_mat_madd; apply HS.
Qed.
Lemma trC_shapes n k c w s : shapes n k w -> shapes n k (trC c w s).
Proof.
  intros (HK & HS & HC & Ha). split; [exact HK|]. split; [exact HS|split; [|exact Ha]].
  apply is_mat_madd; apply HC.
Qed.
Lemma dirS_shape n k c w : shapes n k w -> is_mat n k (dirS c w).
Proof. intros (HK & HS & HC & Ha). apply is_mat_msub; apply (is_mat_project n k), is_mat_msub; apply HS. Qed.
Lemma dirC_shape n k c w : shapes n k w -> is_mat k n (dirC c w).
Proof. intros (HK & HS & HC & Ha). apply is_mat_msub; apply (is_mat_project k n), is_mat_msub; apply HC. Qed.

Lemma aa_update_weights_ok fuel c w0 w' : caches c w0 ->
  0 < ls_sigma_one (ac_ls c) -> ls_sigma_two (ac_ls c) < 1 ->
  aa_update_weights fuel c w0 = Ok w' ->
  exists s a, 0 < s <= 1
    /\ line_search fuel (ac_ls c) aa_cached_cost (trS c w0) (trS c w0 1)
         (a_f_S_mem w0) (aa_cached_cost w0) (minner (dirS c w0) (aa_weights_gradient c w0))
       = Ok (trS c w0 s, s, tl (a_f_S_mem w0) ++ [aa_cached_cost w0])
    /\ a_f_S_mem w0 <> []
    /\ w' = set_spg (a_alpha_C w0) a (a_alpha_alpha w0) (tl (a_f_S_mem w0) ++ [aa_cached_cost w0])
              (a_f_C_mem w0) (a_f_alpha_mem w0) (trS c w0 s)
    /\ (ls_alpha_min (ac_ls c) <= ls_alpha_max (ac_ls c) -> ls_alpha_min (ac_ls c) <= a <= ls_alpha_max (ac_ls c)).
Proof.
  intros Hc H1 H2 H. unfold aa_update_weights in H. cbv zeta in H. rewrite (caches_CK c w0 Hc) in H.
  fold (dirS c w0) in H. apply bind_ok in H. destruct H as (((w1 & s) & mem) & EL & H). injection H as <-.
  unfold aa_weights_line_search in EL. cbv zeta in EL.
  rewrite <- (madd_mscale_1 (a_S w0) (dirS c w0)) in EL by apply wf_msub. fold (trS c w0) in EL.
  fold (trS c w0 1) in EL.
  pose proof (line_search_range fuel (ac_ls c) aa_cached_cost (trS c w0) _ _ _ _ _ _ H1 H2 EL) as (E1 & Hs & Em & Hne).
  exists s. eexists. split; [exact Hs|]. rewrite E1, Em in EL. split; [exact EL|]. split; [exact Hne|].
  split; [rewrite Em, E1; reflexivity|]. intros Hm. apply alpha_bounds, Hm.
Qed.

(** what the scale-factor step leaves *)
Lemma aa_update_scale_ok fuel c w0 w' : aa_update_scale fuel c w0 = Ok w' ->
  a_f_alpha_mem w0 <> [] /\ exists aa ma, length ma = length (a_f_alpha_mem w0)
  /\ w' = mk_aws (a_K w0) (a_S w0) (a_C w0) (a_alpha w0) (a_trace_K w0) (mmul (a_C w0) (a_K w0))
         (mmul (mmul (a_C w0) (a_K w0)) (mtr (a_C w0))) (mmul (mmul (a_C w0) (a_K w0)) (a_S w0)) (a_StS w0)
         (a_alpha_C w0) (a_alpha_S w0) aa (a_f_S_mem w0) (a_f_C_mem w0) ma.
Proof.
  unfold aa_update_scale. cbv zeta. intros H. apply bind_ok in H. destruct H as ((s & mem) & EL & H). injection H as <-.
  unfold aa_scale_line_search in EL. cbv zeta in EL. apply bind_ok in EL. destruct EL as (((d & s') & mem') & EL & E).
  injection E as -> ->. apply line_search_ok in EL. destruct EL as (m0 & rest & fm & Em & _ & E1 & _). cbn [a_f_alpha_mem snd] in *.
  split; [rewrite Em; discriminate|]. do 2 eexists. split; [|reflexivity].
  rewrite Em, E1, app_length. cbn; lia.
Qed.
Lemma aa_update_dictionary_ok fuel c w0 w' : caches c w0 ->
  0 < ls_sigma_one (ac_ls c) -> ls_sigma_two (ac_ls c) < 1 ->
  aa_update_dictionary fuel c w0 = Ok w' ->
  exists s a w2, 0 < s <= 1
    /\ line_search fuel (ac_ls c) aa_cached_cost (trC c w0) (trC c w0 1)
         (a_f_C_mem w0) (aa_cached_cost w0) (minner (dirC c w0) (aa_dictionary_gradient c w0))
       = Ok (trC c w0 s, s, tl (a_f_C_mem w0) ++ [aa_cached_cost w0])
    /\ a_f_C_mem w0 <> []
    /\ w2 = set_spg a (a_alpha_S w0) (a_alpha_alpha w0) (a_f_S_mem w0) (tl (a_f_C_mem w0) ++ [aa_cached_cost w0])
              (a_f_alpha_mem w0) (trC c w0 s)
    /\ (if Rltb 0 (ac_delta c) then aa_update_scale fuel c w2 else Ok w2) = Ok w'
    /\ (ls_alpha_min (ac_ls c) <= ls_alpha_max (ac_ls c) -> ls_alpha_min (ac_ls c) <= a <= ls_alpha_max (ac_ls c)).
Proof.
  intros Hc H1 H2 H. unfold aa_update_dictionary in H. cbv zeta in H.
  pose proof (proj1 (proj2 Hc)) as ES. rewrite <- ES, (caches_CK c w0 Hc) in H.
  fold (dirC c w0) in H. apply bind_ok in H. destruct H as (((w1 & s) & mem) & EL & H).
  unfold aa_dictionary_line_search in EL. cbv zeta in EL.
  rewrite <- (madd_mscale_1 (a_C w0) (dirC c w0)) in EL by apply wf_msub. fold (trC c w0) in EL.
  fold (trC c w0 1) in EL.
  pose proof (line_search_range fuel (ac_ls c) aa_cached_cost (trC c w0) _ _ _ _ _ _ H1 H2 EL) as (E1 & Hs & Em & Hne).
  exists s. do 2 eexists. split; [exact Hs|]. rewrite E1, Em in EL. split; [exact EL|]. split; [exact Hne|].
  split; [reflexivity|]. split; [rewrite E1, Em in H; exact H|]. intros Hm. apply alpha_bounds, Hm.
Qed.

(** ** invariant: caches hold and the scale factors are 1 *)
Definition ainv (n k : nat) (K : mat R) (c : aa_cfg R) (w : aws R) : Prop :=
  a_K w = K /\ shapes n k w /\ a_alpha w = repeat 1 k /\ caches c w
  /\ length (a_f_S_mem w) = ac_memory c /\ length (a_f_C_mem w) = ac_memory c /\ length (a_f_alpha_mem w) = ac_memory c.

Lemma ainv_cost n k K c w : ainv n k K c w -> @aa_evaluate_cost R Num_R c w = kernel_error K (a_S w) (a_C w)
  /\ @aa_cached_cost R Num_R w = kernel_error K (a_S w) (a_C w).
Proof.
  intros (E & Hs & Ha & Hc & _). rewrite (evaluate_cost_error n k) by assumption.
  rewrite (cached_cost_error n k c) by assumption. rewrite Ha, (effD_ones k n), E by apply Hs. split; reflexivity.
Qed.
Lemma trS_cost n k K c w s : ainv n k K c w ->
  @aa_cached_cost R Num_R (trS c w s) = kernel_error K (madd (a_S w) (mscale s (dirS c w))) (a_C w).
Proof.
  intros (E & Hs & Ha & Hc & _).
  rewrite (cached_cost_error n k c) by (first [apply trS_shapes; assumption | apply trS_caches; assumption]).
  cbn [trS set_S_StS a_K a_S a_alpha a_C]. rewrite Ha, (effD_ones k n), E by apply Hs. reflexivity.
Qed.
Lemma trC_cost n k K c w s : ainv n k K c w ->
  @aa_cached_cost R Num_R (trC c w s) = kernel_error K (a_S w) (madd (a_C w) (mscale s (dirC c w))).
Proof.
  intros (E & Hs & Ha & Hc & _). pose proof (trC_shapes n k c w s Hs) as Hs'.
  rewrite (cached_cost_error n k c) by (first [assumption | apply trC_caches; assumption]).
  assert (E2 : effD c (a_alpha (trC c w s)) (a_C (trC c w s)) = a_C (trC c w s)).
  { change (a_alpha (trC c w s)) with (a_alpha w). rewrite Ha. apply (effD_ones k n), Hs'. }
  rewrite E2. cbn [trC set_C_CK a_K a_S a_alpha a_C]. rewrite E. reflexivity.
Qed.

Lemma tl_app_length {A} (l : list A) x : l <> [] -> length (tl l ++ [x]) = length l.
Proof. destruct l; [congruence|]. intros _. rewrite app_length. cbn; lia. Qed.
Lemma set_spg_caches c aC aS aa mS mC ma w : caches c w -> caches c (set_spg aC aS aa mS mC ma w).
Proof. intros H; exact H. Qed.
Lemma project_C_stochastic k n A : is_mat k n A -> (0 < n)%nat -> row_stochastic (@simplex_project_rows R Num_R A).
Proof. intros H Hn. apply is_mat_wf in H. destruct H as (_ & E & W). apply project_rows_stochastic; [exact W | lia]. Qed.

Lemma aa_update_weights_inv n k K fuel c w0 w' : ainv n k K c w0 -> (0 < k)%nat ->
  0 < ls_sigma_one (ac_ls c) -> ls_sigma_two (ac_ls c) < 1 ->
  aa_update_weights fuel c w0 = Ok w' ->
  ainv n k K c w' /\ a_C w' = a_C w0 /\ a_alpha_C w' = a_alpha_C w0
  /\ (ls_alpha_min (ac_ls c) <= ls_alpha_max (ac_ls c) -> ls_alpha_min (ac_ls c) <= a_alpha_S w' <= ls_alpha_max (ac_ls c))
  /\ (row_stochastic (a_S w0) -> row_stochastic (a_S w')).
Proof.
  intros (I1 & I2 & I3 & I4 & I5 & I6 & I7) Hk H1 H2 H.
  destruct (aa_update_weights_ok fuel c w0 w' I4 H1 H2 H) as (s & a & Hs & _ & Hne & -> & Ha).
  split; [|split; [reflexivity|split; [reflexivity|split; [exact Ha|]]]].
  - split; [exact I1|]. split; [apply (trS_shapes n k c w0 s I2)|]. split; [exact I3|].
    split; [apply set_spg_caches, trS_caches, I4|]. cbn [set_spg a_f_S_mem a_f_C_mem a_f_alpha_mem].
    rewrite tl_app_length by exact Hne. auto.
  - intros SG. cbn [a_S set_spg trS set_S_StS]. destruct I2 as (HK & HS & HC & Hal).
    assert (HP : is_mat n k (msub (a_S w0) (mscale (a_alpha_S w0) (aa_weights_gradient c w0)))) by (apply is_mat_msub; apply HS).
    apply (row_stochastic_step n k); try assumption; try lra.
    + apply is_mat_project, HP.
    + apply (project_C_stochastic n k); assumption.
Qed.
Lemma aa_update_dictionary_inv n k K fuel c w0 w' : ainv n k K c w0 -> (0 < n)%nat ->
  0 < ls_sigma_one (ac_ls c) -> ls_sigma_two (ac_ls c) < 1 ->
  aa_update_dictionary fuel c w0 = Ok w' ->
  ainv n k K c w' /\ a_S w' = a_S w0 /\ a_alpha_S w' = a_alpha_S w0
  /\ (ls_alpha_min (ac_ls c) <= ls_alpha_max (ac_ls c) -> ls_alpha_min (ac_ls c) <= a_alpha_C w' <= ls_alpha_max (ac_ls c))
  /\ (row_stochastic (a_C w0) -> row_stochastic (a_C w')).
Proof.
  intros (I1 & I2 & I3 & I4 & I5 & I6 & I7) Hn H1 H2 H.
  destruct (aa_update_dictionary_ok fuel c w0 w' I4 H1 H2 H) as (s & a & w2 & Hs & _ & Hne & E2 & Ew & Ha).
  assert (J : ainv n k K c w2 /\ a_S w2 = a_S w0 /\ a_alpha_S w2 = a_alpha_S w0 /\ a_alpha_C w2 = a
     /\ (row_stochastic (a_C w0) -> row_stochastic (a_C w2))).
  { subst w2. split; [|split; [reflexivity|split; [reflexivity|split; [reflexivity|]]]].
    - split; [exact I1|]. split; [apply (trC_shapes n k c w0 s I2)|]. split; [exact I3|].
      split; [apply set_spg_caches, trC_caches, I4|]. cbn [set_spg a_f_S_mem a_f_C_mem a_f_alpha_mem].
      rewrite tl_app_length by exact Hne. auto.
    - intros SG. cbn [a_C set_spg trC set_C_CK]. destruct I2 as (HK & HS & HC & Hal).
      assert (HP : is_mat k n (msub (a_C w0) (mscale (a_alpha_C w0) (aa_dictionary_gradient c w0)))) by (apply is_mat_msub; apply HC).
      apply (row_stochastic_step k n); try assumption; try lra.
      + apply is_mat_project, HP.
      + apply (project_C_stochastic k n); assumption. }
  clear E2. destruct J as (J1 & J2 & J3 & J4 & J5). rewrite <- J4 in Ha. destruct (Rltb 0 (ac_delta c)) eqn:Ed.
  2:{ injection Ew as <-. auto. }
  apply aa_update_scale_ok in Ew. destruct Ew as (Hne2 & aa & ma & Hl & ->).
  split; [|auto].
  destruct J1 as (E1 & (HK & HS & HC & Hal) & E3 & (C1 & C2 & C3 & C4) & E5 & E6 & E7).
  split; [exact E1|]. split; [split; [exact HK|split; [exact HS|split; [exact HC|exact Hal]]]|]. split; [exact E3|].
  split; [|split; [exact E5|split; [exact E6|cbn [a_f_alpha_mem]; congruence]]].
  split; [exact C1|]. split; [exact C2|]. cbn [a_CK a_CKCt a_alpha a_C a_K]. rewrite E3.
  rewrite (scaled_CK_ones k n), (scaled_CKCt_ones k n) by assumption. split; reflexivity.
Qed.

Lemma aa_update_weights_total c : ls_valid (ac_ls c) -> exists M, forall fuel w0, (M <= fuel)%nat ->
  a_f_S_mem w0 <> [] -> exists w', aa_update_weights fuel c w0 = Ok w'.
Proof.
  intros (H1 & H2 & H3). destruct (line_search_terminates (ac_ls c) H1 H2 H3) as [M HM].
  exists M. intros fuel w0 Hf Hne. unfold aa_update_weights, aa_weights_line_search. cbv zeta.
  match goal with |- context [@line_search ?T ?N ?St fuel ?p ?co ?tr ?fu ?me ?cc ?sl] =>
    destruct (HM St co tr fu me cc sl fuel Hne Hf) as (((w1 & s) & mem) & E) end.
  rewrite E; cbn [bind]. eauto.
Qed.
Lemma aa_update_scale_total c : ls_valid (ac_ls c) -> exists M, forall fuel w0, (M <= fuel)%nat ->
  a_f_alpha_mem w0 <> [] -> exists w', aa_update_scale fuel c w0 = Ok w'.
Proof.
  intros (H1 & H2 & H3). destruct (line_search_terminates (ac_ls c) H1 H2 H3) as [M HM].
  exists M. intros fuel w0 Hf Hne. unfold aa_update_scale, aa_scale_line_search. cbv zeta.
  match goal with |- context [@line_search ?T ?N ?St fuel ?p ?co ?tr ?fu ?me ?cc ?sl] =>
    destruct (HM St co tr fu me cc sl fuel Hne Hf) as (((w1 & s) & mem) & E) end.
  rewrite E; cbn [bind]. eauto.
Qed.
Lemma aa_update_dictionary_total c : ls_valid (ac_ls c) -> exists M, forall fuel w0, (M <= fuel)%nat ->
  a_f_C_mem w0 <> [] -> a_f_alpha_mem w0 <> [] -> exists w', aa_update_dictionary fuel c w0 = Ok w'.
Proof.
  intros (H1 & H2 & H3). destruct (line_search_terminates (ac_ls c) H1 H2 H3) as [M HM].
  destruct (aa_update_scale_total c (conj H1 (conj H2 H3))) as [M2 HM2].
  exists (max M M2). intros fuel w0 Hf Hne Hne2. unfold aa_update_dictionary, aa_dictionary_line_search. cbv zeta.
  match goal with |- context [@line_search ?T ?N ?St fuel ?p ?co ?tr ?fu ?me ?cc ?sl] =>
    destruct (HM St co tr fu me cc sl fuel Hne ltac:(lia)) as (((w1 & s) & mem) & E);
    assert (Em : a_f_alpha_mem w1 = a_f_alpha_mem w0) end.
  { apply line_search_ok in E. destruct E as (m0 & rest & fm & _ & _ & _ & E). cbn [fst snd] in E.
    apply backtrack_exit in E; [|reflexivity]. destruct E as [_ [[-> _]| ->]]; reflexivity. }
  rewrite E; cbn [bind]. numR. destruct (Rltb _ _); [|eauto]. apply HM2; [lia|]. cbn [a_f_alpha_mem]. congruence.
Qed.

(** ** descent *)
Definition aa_curv (B : R) (n k : nat) : R := B * INR n * (INR n + INR k).
Lemma coef_bound_H n k H D : is_mat n k H -> is_mat k n D -> row_stochastic D ->
  SS n n (fun i j => coef H D i j ^ 2) <= INR k * frob2 H.
Proof.
  intros HH HD SD. pose proof HH as (h1 & h2 & _). pose proof HD as (d1 & d2 & _).
  eapply Rle_trans; [|rewrite Rmult_comm; apply Rmult_le_compat_l; [apply frob2_nonneg | apply (stochastic_frob2 k n D d1 d2 SD)]].
  eapply Rle_trans; [|apply (product_bound n n k H D h1 h2 d1 d2)].
  apply SS_le; intros i j _ _. rewrite (coef_k k) by assumption. apply Rle_refl.
Qed.
Lemma coef_bound_C n k S H : is_mat n k S -> is_mat k n H -> row_stochastic S ->
  SS n n (fun i j => coef S H i j ^ 2) <= INR n * frob2 H.
Proof.
  intros HS HH SS'. pose proof HH as (h1 & h2 & _). pose proof HS as (d1 & d2 & _).
  eapply Rle_trans; [|apply Rmult_le_compat_r; [apply frob2_nonneg | apply (stochastic_frob2 n k S d1 d2 SS')]].
  eapply Rle_trans; [|apply (product_bound n n k S H d1 d2 h1 h2)].
  apply SS_le; intros i j _ _. rewrite (coef_k k) by assumption. apply Rle_refl.
Qed.
Lemma aa_curv_bound n k K e B F : nr K = n -> 0 <= B -> 0 <= F ->
  (forall j l, (j < n)%nat -> (l < n)%nat -> Rabs (ent K j l) <= B) ->
  SS n n (fun i j => e i j ^ 2) <= (INR n + INR k) * F -> kquad K e <= aa_curv B n k * F.
Proof.
  intros <- HB HF HK He. eapply Rle_trans; [apply (kquad_bound K e B HB HK)|]. unfold aa_curv. rewrite Rmult_assoc.
  rewrite (Rmult_assoc (B * INR (nr K))). rewrite <- (Rmult_assoc B (INR (nr K))).
  apply Rmult_le_compat_l; [apply Rmult_le_pos; [exact HB | apply pos_INR] | exact He].
Qed.
Lemma aa_curv_nonneg B n k : 0 <= B -> 0 <= aa_curv B n k.
Proof.
  intros HB. unfold aa_curv. pose proof (pos_INR n). pose proof (pos_INR k).
  apply Rmult_le_pos; [apply Rmult_le_pos|]; lra.
Qed.

Section Descent.
  Variables (n k : nat) (K : mat R) (c : aa_cfg R) (B a : R).
  Hypotheses (Hsym : symmetric K) (HB : 0 <= B)
    (HKB : forall j l, (j < n)%nat -> (l < n)%nat -> Rabs (ent K j l) <= B)
    (H1 : 0 < ls_sigma_one (ac_ls c)) (H2 : ls_sigma_two (ac_ls c) < 1) (Hg : 0 <= ls_gamma (ac_ls c) <= 1)
    (Ht1 : 0 < ls_step_tol (ac_ls c) <= ls_sigma_one (ac_ls c))
    (Ht2 : ls_step_tol (ac_ls c) * (2 * a * aa_curv B n k) <= 1 - ls_gamma (ac_ls c)).

  Lemma aa_update_weights_descends fuel w0 w' m0 : ainv n k K c w0 -> (0 < k)%nat ->
    row_stochastic (a_S w0) -> row_stochastic (a_C w0) ->
    a_f_S_mem w0 = [m0] -> 0 < a_alpha_S w0 <= a ->
    aa_update_weights fuel c w0 = Ok w' -> @aa_evaluate_cost R Num_R c w' <= aa_evaluate_cost c w0.
  Proof.
    intros I Hk SS0 SC0 Hm Ha H. pose proof I as (I1 & I2 & I3 & I4 & _).
    destruct (aa_update_weights_inv n k K fuel c w0 w' I Hk H1 H2 H) as (I' & _).
    destruct (aa_update_weights_ok fuel c w0 w' I4 H1 H2 H) as (s & b & Hs & EL & _ & -> & _).
    rewrite (proj1 (ainv_cost n k K c _ I')), (proj1 (ainv_cost n k K c _ I)), <- (proj2 (ainv_cost n k K c _ I)).
    cbn [a_S a_C set_spg trS set_S_StS]. rewrite <- (trS_cost n k K c w0 s I).
    pose proof (dirS_shape n k c w0 I2) as HD. pose proof (weights_gradient_shape n k c w0 I2) as HGr.
    pose proof I2 as (HK & HS & HC & Hal).
    rewrite Hm in EL. cbn [tl app] in EL. rewrite minner_frob in EL.
    pose proof (project_direction n k (a_S w0) (aa_weights_gradient c w0) (a_alpha_S w0) HS HGr SS0 Hk (proj1 Ha)) as Sl.
    cbv zeta in Sl. fold (dirS c w0) in Sl.
    rewrite frob_sym in Sl by (destruct HGr as (q1 & q2 & _), HD as (r1 & r2 & _); lia).
    pose proof (frob2_nonneg (dirS c w0)) as F0.
    eapply (spg_descent fuel (ac_ls c) aa_cached_cost (trS c w0) m0 _ _ (frob2 (dirS c w0)) (aa_curv B n k) (a_alpha_S w0) a) in EL;
      try assumption; [exact (proj2 EL)| | apply aa_curv_nonneg, HB |].
    - intros t Ht. rewrite (trS_cost n k K c w0 t I), (proj2 (ainv_cost n k K c _ I)).
      pose proof (error_weights_step n k c w0 (dirS c w0) t I2 I4 ltac:(rewrite I1; exact Hsym) HD) as E.
      rewrite I3, (effD_ones k n), I1 in E by assumption. rewrite E.
      rewrite (frob_sym (aa_weights_gradient c w0)) by (destruct HGr as (q1 & q2 & _), HD as (r1 & r2 & _); lia).
      apply Rplus_le_compat_l. apply Rmult_le_compat_l; [nra|].
      apply aa_curv_bound; try assumption.
      + destruct HK as (q & _). rewrite I1 in q. exact q.
      + eapply Rle_trans; [apply (coef_bound_H n k); assumption|]. apply Rmult_le_compat_r; [exact F0|]. pose proof (pos_INR n). lra.
    - unfold Rdiv in *. lra.
  Qed.
  Lemma aa_update_dictionary_descends fuel w0 w' m0 : ainv n k K c w0 -> (0 < n)%nat ->
    row_stochastic (a_S w0) -> row_stochastic (a_C w0) ->
    a_f_C_mem w0 = [m0] -> 0 < a_alpha_C w0 <= a ->
    aa_update_dictionary fuel c w0 = Ok w' -> @aa_evaluate_cost R Num_R c w' <= aa_evaluate_cost c w0.
  Proof.
    intros I Hn SS0 SC0 Hm Ha H. pose proof I as (I1 & I2 & I3 & I4 & _).
    destruct (aa_update_dictionary_inv n k K fuel c w0 w' I Hn H1 H2 H) as (I' & ES & _).
    destruct (aa_update_dictionary_ok fuel c w0 w' I4 H1 H2 H) as (s & b & w2 & Hs & EL & _ & E2 & Ew & _).
    rewrite (proj1 (ainv_cost n k K c _ I')), (proj1 (ainv_cost n k K c _ I)), <- (proj2 (ainv_cost n k K c _ I)).
    assert (EC : a_C w' = a_C w2).
    { destruct (Rltb _ _); [|congruence]. apply aa_update_scale_ok in Ew. destruct Ew as (_ & aa & ma & _ & ->). reflexivity. }
    rewrite EC, ES, E2. cbn [a_S a_C set_spg trC set_C_CK]. rewrite <- (trC_cost n k K c w0 s I).
    pose proof (dirC_shape n k c w0 I2) as HD. pose proof (dictionary_gradient_shape n k c w0 I2) as HGr.
    pose proof I2 as (HK & HS & HC & Hal).
    rewrite Hm in EL. cbn [tl app] in EL. rewrite minner_frob in EL.
    pose proof (project_direction k n (a_C w0) (aa_dictionary_gradient c w0) (a_alpha_C w0) HC HGr SC0 Hn (proj1 Ha)) as Sl.
    cbv zeta in Sl. fold (dirC c w0) in Sl.
    rewrite frob_sym in Sl by (destruct HGr as (q1 & q2 & _), HD as (r1 & r2 & _); lia).
    pose proof (frob2_nonneg (dirC c w0)) as F0.
    eapply (spg_descent fuel (ac_ls c) aa_cached_cost (trC c w0) m0 _ _ (frob2 (dirC c w0)) (aa_curv B n k) (a_alpha_C w0) a) in EL;
      try assumption; [exact (proj2 EL)| | apply aa_curv_nonneg, HB |].
    - intros t Ht. rewrite (trC_cost n k K c w0 t I), (proj2 (ainv_cost n k K c _ I)).
      pose proof (error_dictionary_step n k c w0 (dirC c w0) t I2 I4 ltac:(rewrite I1; exact Hsym) HD) as E.
      rewrite I3, !(effD_ones k n), I1 in E by (first [assumption | apply is_mat_madd; apply HC]). rewrite E.
      rewrite (frob_sym (aa_dictionary_gradient c w0)) by (destruct HGr as (q1 & q2 & _), HD as (r1 & r2 & _); lia).
      apply Rplus_le_compat_l. apply Rmult_le_compat_l; [nra|].
      apply aa_curv_bound; try assumption.
      + destruct HK as (q & _). rewrite I1 in q. exact q.
      + eapply Rle_trans; [apply (coef_bound_C n k); assumption|]. apply Rmult_le_compat_r; [exact F0|]. pose proof (pos_INR k). lra.
    - unfold Rdiv in *. lra.
  Qed.
End Descent.
