(** Matrices over R: entries of the array operations, sum identities, projected directions. *)
From Coq Require Import List Arith Lia ZArith Reals Lra.
From Verif Require Import Num Mat Py Spec M_simplex P_lin P_simplex.
Import ListNotations.
Local Open Scope R_scope.

Definition SS (n m : nat) (f : nat -> nat -> R) : R := Sum n (fun i => Sum m (fun j => f i j)).

Lemma SS_ext n m f g : (forall i j, (i < n)%nat -> (j < m)%nat -> f i j = g i j) -> SS n m f = SS n m g.
Proof. intros H; apply Sum_ext; intros i Hi; apply Sum_ext; intros j Hj; auto. Qed.
Lemma SS_plus n m f g : SS n m (fun i j => f i j + g i j) = SS n m f + SS n m g.
Proof. unfold SS. rewrite <- Sum_plus. apply Sum_ext; intros; apply Sum_plus. Qed.
Lemma SS_minus n m f g : SS n m (fun i j => f i j - g i j) = SS n m f - SS n m g.
Proof. unfold SS. rewrite <- Sum_minus. apply Sum_ext; intros; apply Sum_minus. Qed.
Lemma SS_scal n m c f : SS n m (fun i j => c * f i j) = c * SS n m f.
Proof. unfold SS. rewrite <- Sum_scal_l. apply Sum_ext; intros; apply Sum_scal_l. Qed.
Lemma SS_swap n m f : SS n m f = SS m n (fun j i => f i j).
Proof. apply Sum_swap. Qed.
Lemma SS_nonneg n m f : (forall i j, (i < n)%nat -> (j < m)%nat -> 0 <= f i j) -> 0 <= SS n m f.
Proof. intros H; apply Sum_nonneg; intros; apply Sum_nonneg; auto. Qed.
Lemma SS_le n m f g : (forall i j, (i < n)%nat -> (j < m)%nat -> f i j <= g i j) -> SS n m f <= SS n m g.
Proof. intros H; apply Sum_le; intros; apply Sum_le; auto. Qed.
Lemma SS_zero n m f : (forall i j, (i < n)%nat -> (j < m)%nat -> f i j = 0) -> SS n m f = 0.
Proof. intros H; apply Sum_zero; intros; apply Sum_zero; auto. Qed.
Lemma SS_term n m f a b : (forall i j, (i < n)%nat -> (j < m)%nat -> 0 <= f i j) ->
  (a < n)%nat -> (b < m)%nat -> f a b <= SS n m f.
Proof.
  intros H Ha Hb. apply Rle_trans with (Sum m (fun j => f a j)).
  - apply (Sum_ge_term m (fun j => f a j)); auto.
  - apply (Sum_ge_term n (fun i => Sum m (fun j => f i j))); auto. intros; apply Sum_nonneg; auto.
Qed.
Lemma SS_zero_inv n m f : (forall i j, (i < n)%nat -> (j < m)%nat -> 0 <= f i j) -> SS n m f = 0 ->
  forall a b, (a < n)%nat -> (b < m)%nat -> f a b = 0.
Proof.
  intros H E a b Ha Hb. pose proof (SS_term n m f a b H Ha Hb). pose proof (H a b Ha Hb). lra.
Qed.
(** a matrix product moved to the other side of an inner product *)
Lemma SS_adj_l n d k (r w h : nat -> nat -> R) :
  SS n d (fun i j => r i j * Sum k (fun c => w i c * h c j))
  = SS k d (fun c j => Sum n (fun i => w i c * r i j) * h c j).
Proof.
  unfold SS.
  transitivity (Sum n (fun i => Sum d (fun j => Sum k (fun c => w i c * r i j * h c j)))).
  { apply Sum_ext; intros i _; apply Sum_ext; intros j _. rewrite <- Sum_scal_l. apply Sum_ext; intros; ring. }
  transitivity (Sum n (fun i => Sum k (fun c => Sum d (fun j => w i c * r i j * h c j)))).
  { apply Sum_ext; intros i _. apply Sum_swap. }
  rewrite Sum_swap. apply Sum_ext; intros c _. rewrite Sum_swap. apply Sum_ext; intros j _.
  rewrite <- Sum_scal_r. reflexivity.
Qed.
Lemma SS_adj_r n d k (r h s : nat -> nat -> R) :
  SS n d (fun i j => r i j * Sum k (fun c => h i c * s c j))
  = SS n k (fun i c => Sum d (fun j => r i j * s c j) * h i c).
Proof.
  apply Sum_ext; intros i _.
  transitivity (Sum d (fun j => Sum k (fun c => r i j * s c j * h i c))).
  { apply Sum_ext; intros j _. rewrite <- Sum_scal_l. apply Sum_ext; intros; ring. }
  rewrite Sum_swap. apply Sum_ext; intros c _. rewrite <- Sum_scal_r. reflexivity.
Qed.
(** associativity of matrix products *)
Lemma Sum_assoc n m (f : nat -> R) (g : nat -> nat -> R) (h : nat -> R) :
  Sum m (fun b => Sum n (fun a => f a * g a b) * h b) = Sum n (fun a => f a * Sum m (fun b => g a b * h b)).
Proof.
  transitivity (Sum m (fun b => Sum n (fun a => f a * g a b * h b))).
  { apply Sum_ext; intros. rewrite <- Sum_scal_r. reflexivity. }
  rewrite Sum_swap. apply Sum_ext; intros. rewrite <- Sum_scal_l. apply Sum_ext; intros; ring.
Qed.
(** sum of squared differences over all ordered pairs *)
Lemma pair_diff_sum k (x : nat -> R) :
  Sum k (fun a => Sum k (fun b => (x a - x b) ^ 2))
  = 2 * (INR k * Sum k (fun a => x a ^ 2) - Sum k x ^ 2).
Proof.
  transitivity (Sum k (fun a => INR k * x a ^ 2 + Sum k (fun b => x b ^ 2) - 2 * Sum k x * x a)).
  { apply Sum_ext; intros a _.
    transitivity (Sum k (fun b => x a ^ 2 + x b ^ 2 - 2 * x a * x b)).
    { apply Sum_ext; intros; ring. }
    rewrite Sum_minus, Sum_plus, Sum_const, Sum_scal_l. ring. }
  rewrite Sum_minus, Sum_plus, Sum_const, !Sum_scal_l. ring.
Qed.
Lemma Sum_sq k (x : nat -> R) : Sum k x ^ 2 = Sum k (fun a => Sum k (fun b => x a * x b)).
Proof. replace (Sum k x ^ 2) with (Sum k x * Sum k x) by ring. apply Sum_mult. Qed.

(** ** entries *)
Lemma ent_mbuild r c f i j : (i < r)%nat -> (j < c)%nat -> ent (mbuild r c f) i j = f i j.
Proof. intros; rewrite <- mget_ent; apply mget_mbuild; assumption. Qed.
Lemma ent_madd A B i j : (i < nr A)%nat -> (j < nc A)%nat -> ent (@madd R Num_R A B) i j = ent A i j + ent B i j.
Proof. intros; unfold madd, mmap2; rewrite ent_mbuild by assumption; reflexivity. Qed.
Lemma ent_msub A B i j : (i < nr A)%nat -> (j < nc A)%nat -> ent (@msub R Num_R A B) i j = ent A i j - ent B i j.
Proof. intros; unfold msub, mmap2; rewrite ent_mbuild by assumption; reflexivity. Qed.
Lemma ent_mscale s A i j : (i < nr A)%nat -> (j < nc A)%nat -> ent (@mscale R Num_R s A) i j = s * ent A i j.
Proof. intros; unfold mscale, mmap; rewrite ent_mbuild by assumption; reflexivity. Qed.
Lemma ent_mtr A i j : (i < nc A)%nat -> (j < nr A)%nat -> ent (@mtr R Num_R A) i j = ent A j i.
Proof. intros; unfold mtr; rewrite ent_mbuild by assumption; reflexivity. Qed.
Lemma ent_mmul A B i j : (i < nr A)%nat -> (j < nc B)%nat ->
  ent (@mmul R Num_R A B) i j = Sum (nc A) (fun k => ent A i k * ent B k j).
Proof. intros; unfold mmul; rewrite ent_mbuild by assumption; apply nsum_Sum. Qed.
Lemma ent_mzeros r c i j : ent (@mzeros R Num_R r c) i j = 0.
Proof.
  destruct (Nat.lt_ge_cases i r), (Nat.lt_ge_cases j c).
  1: unfold mzeros; rewrite ent_mbuild by assumption; reflexivity.
  all: rewrite <- mget_ent; unfold mzeros; rewrite (@mget_mbuild_out R Num_R) by auto; reflexivity.
Qed.
Lemma minner_SS A B : @minner R Num_R A B = SS (nr A) (nc A) (fun i j => ent A i j * ent B i j).
Proof. unfold minner, SS. rewrite nsum_Sum. apply Sum_ext; intros. apply nsum_Sum. Qed.
Lemma minner_frob A B : @minner R Num_R A B = frob A B.
Proof. apply minner_SS. Qed.
Lemma frob_SS A B : frob A B = SS (nr A) (nc A) (fun i j => ent A i j * ent B i j).
Proof. reflexivity. Qed.
Lemma frob2_SS A : frob2 A = SS (nr A) (nc A) (fun i j => ent A i j ^ 2).
Proof. reflexivity. Qed.
Lemma frob2_frob A : frob A A = frob2 A.
Proof. apply SS_ext; intros; ring. Qed.
Lemma frob2_nonneg A : 0 <= frob2 A.
Proof. apply SS_nonneg; intros; apply pow2_ge_0. Qed.
Lemma msum_SS A : @msum R Num_R A = SS (nr A) (nc A) (ent A).
Proof. unfold msum, SS. rewrite nsum_Sum. apply Sum_ext; intros. apply nsum_Sum. Qed.
Lemma mtrace_Sum A : @mtrace R Num_R A = Sum (Nat.min (nr A) (nc A)) (fun i => ent A i i).
Proof. apply nsum_Sum. Qed.
Lemma nsq_mnorm A : nsq (@mnorm R Num_R A) = frob2 A.
Proof.
  unfold nsq, mnorm; numR. rewrite sqrt_sqrt; rewrite minner_frob, frob2_frob; [reflexivity | apply frob2_nonneg].
Qed.
Lemma nofnat_INR n : @nofnat R Num_R n = INR n.
Proof. unfold nofnat; numR. symmetry; apply INR_IZR_INZ. Qed.

Lemma is_mat_wf r c M : is_mat r c M <-> nr M = r /\ nc M = c /\ wf M.
Proof. unfold is_mat, wf. split; [intros (A & B & C & D) | intros (A & B & C & D)]; subst; auto. Qed.
Lemma is_mat_mbuild r c f : is_mat r c (mbuild r c f).
Proof. apply is_mat_wf. split; [reflexivity|]. split; [reflexivity | apply wf_mbuild]. Qed.
Lemma mat_ext_R r c A B : is_mat r c A -> is_mat r c B ->
  (forall i j, (i < r)%nat -> (j < c)%nat -> ent A i j = ent B i j) -> A = B.
Proof.
  intros HA HB H. apply is_mat_wf in HA, HB. destruct HA as (A1 & A2 & A3), HB as (B1 & B2 & B3).
  apply mat_ext; try assumption; try congruence. rewrite A1, A2. exact H.
Qed.
Lemma ent_out r c M i j : is_mat r c M -> (r <= i \/ c <= j)%nat -> ent M i j = 0.
Proof.
  intros H Hij. apply is_mat_wf in H. destruct H as (E1 & E2 & W). rewrite <- mget_ent.
  rewrite (@mget_out R Num_R M i j W) by (rewrite E1, E2; exact Hij). reflexivity.
Qed.

(** shapes of the operations *)
Lemma is_mat_madd r c A B : nr A = r -> nc A = c -> is_mat r c (@madd R Num_R A B).
Proof. intros <- <-; apply is_mat_mbuild. Qed.
Lemma is_mat_msub r c A B : nr A = r -> nc A = c -> is_mat r c (@msub R Num_R A B).
Proof. intros <- <-; apply is_mat_mbuild. Qed.
Lemma is_mat_mscale r c s A : nr A = r -> nc A = c -> is_mat r c (@mscale R Num_R s A).
Proof. intros <- <-; apply is_mat_mbuild. Qed.
Lemma is_mat_mmul r c A B : nr A = r -> nc B = c -> is_mat r c (@mmul R Num_R A B).
Proof. intros <- <-; apply is_mat_mbuild. Qed.
Lemma is_mat_project r c A : is_mat r c A -> is_mat r c (@simplex_project_rows R Num_R A).
Proof.
  intros H; apply is_mat_wf in H; destruct H as (E1 & E2 & W).
  destruct (project_rows_shape A W) as (W' & R' & C'). apply is_mat_wf. repeat split; try congruence; apply W'.
Qed.
Lemma is_mat_project_cols r c A : is_mat r c A -> is_mat r c (@simplex_project_columns R Num_R A).
Proof.
  intros H; apply is_mat_wf in H; destruct H as (E1 & E2 & W).
  destruct (project_cols_shape A W) as (W' & R' & C'). apply is_mat_wf. repeat split; try congruence; apply W'.
Qed.

(** ** convex combinations of stochastic matrices *)
Lemma row_stochastic_step n k G P s : is_mat n k G -> is_mat n k P -> row_stochastic G -> row_stochastic P ->
  0 <= s <= 1 -> row_stochastic (@madd R Num_R G (mscale s (msub P G))).
Proof.
  intros HG HP SG SP Hs. destruct HG as (g1 & g2 & _), HP as (p1 & p2 & _).
  intros i Hi. unfold madd, mmap2 in *; mdim. rewrite g1, g2 in *.
  destruct (SG i ltac:(lia)) as [G0 G1]. destruct (SP i ltac:(lia)) as [P0 P1]. rewrite g2 in *. rewrite p2 in *.
  assert (E : forall j, (j < k)%nat -> ent (@mbuild R n k (fun i0 j0 : nat =>
      nadd (mget G i0 j0) (mget (mscale s (msub P G)) i0 j0))) i j = (1 - s) * ent G i j + s * ent P i j).
  { intros j Hj. rewrite ent_mbuild by lia. numR. rewrite !mget_ent, ent_mscale by (mdim; lia).
    rewrite ent_msub by lia. ring. }
  split.
  - intros j Hj. rewrite E by exact Hj.
    pose proof (G0 j Hj). pose proof (P0 j Hj). assert (0 <= (1 - s) * ent G i j) by (apply Rmult_le_pos; lra).
    assert (0 <= s * ent P i j) by (apply Rmult_le_pos; lra). lra.
  - erewrite Sum_ext; [|exact E]. rewrite Sum_plus, !Sum_scal_l. rewrite (G1 : Sum k (ent G i) = 1), (P1 : Sum k (ent P i) = 1). ring.
Qed.
Lemma row_stochastic_full n k G P : is_mat n k G -> is_mat n k P ->
  @madd R Num_R G (msub P G) = P.
Proof.
  intros HG HP. apply mat_ext_R with n k; try assumption.
  - apply is_mat_madd; apply HG.
  - intros i j Hi Hj. destruct HG as (g1 & g2 & _), HP as (p1 & p2 & _).
    rewrite ent_madd by lia. rewrite ent_msub by lia. ring.
Qed.
Lemma madd_mscale1 A H : @madd R Num_R A (mscale 1 H) = madd A (mbuild (nr H) (nc H) (mget H)).
Proof.
  unfold madd, mmap2. apply mbuild_ext. intros i j Hi Hj. f_equal. unfold mscale, mmap.
  destruct (Nat.lt_ge_cases i (nr H)), (Nat.lt_ge_cases j (nc H)).
  1: rewrite !mget_mbuild by assumption; numR; ring.
  all: rewrite !mget_mbuild_out by auto; reflexivity.
Qed.
Lemma madd_mscale_1 A H : wf H -> @madd R Num_R A (mscale 1 H) = madd A H.
Proof. intros W. rewrite madd_mscale1, <- wf_mbuild_eq by exact W. reflexivity. Qed.

(** a stochastic row sums to one and each entry is at most 1, so the squared norm is at most n *)
Lemma stochastic_frob2 n k G : nr G = n -> nc G = k -> row_stochastic G -> frob2 G <= INR n.
Proof.
  intros g1 g2 SG. rewrite frob2_SS, g1, g2. replace (INR n) with (INR n * 1) by ring.
  rewrite <- Sum_const. apply Sum_le. intros i Hi. destruct (SG i ltac:(lia)) as [G0 G1]. rewrite g2 in *.
  rewrite <- G1. apply Sum_le. intros j Hj. pose proof (G0 j Hj).
  assert (ent G i j <= 1). { rewrite <- G1. apply (Sum_ge_term k (fun j => ent G i j)); assumption. }
  nra.
Qed.

(** ** the projected direction (variational inequality row by row) *)
Lemma project_rows_vi n k A W : is_mat n k A -> is_mat n k W -> row_stochastic W -> (0 < k)%nat ->
  0 <= SS n k (fun i j => (ent A i j - ent (@simplex_project_rows R Num_R A) i j)
                          * (ent (simplex_project_rows A) i j - ent W i j)).
Proof.
  intros HA HW SW Hk.
  apply Sum_nonneg. intros i Hi.
  pose proof HA as HA'. apply is_mat_wf in HA'. destruct HA' as (a1 & a2 & aw).
  destruct HW as (w1 & w2 & _).
  assert (Hne : mrow A i <> []).
  { intros E'. apply (f_equal (@length R)) in E'. rewrite length_mrow in E'. cbn in E'; lia. }
  destruct (SW i ltac:(lia)) as [W0 W1].
  pose proof (proj_vi (mrow A i) (mrow W i) Hne) as V.
  rewrite !length_mrow in V. specialize (V ltac:(lia)).
  assert (Hp : prob_vec (mrow W i)).
  { split; rewrite length_mrow.
    - intros j Hj. rewrite <- vget_at, vget_mrow by exact Hj. apply W0; exact Hj.
    - rewrite <- W1. apply Sum_ext; intros j Hj. rewrite <- vget_at, vget_mrow by exact Hj. reflexivity. }
  specialize (V Hp). rewrite a2 in V. eapply Rle_trans; [exact V|]. apply Req_le. apply Sum_ext. intros j Hj.
  assert (E : ent (simplex_project_rows A) i j = vget (simplex_project_vector (mrow A i)) j).
  { rewrite <- project_rows_row by (auto; lia). rewrite vget_mrow.
    - reflexivity.
    - destruct (project_rows_shape A aw) as (_ & _ & ->). lia. }
  assert (EA : at_ (mrow A i) j = ent A i j) by (apply (@vget_mrow R Num_R); lia).
  assert (EW : at_ (mrow W i) j = ent W i j) by (apply (@vget_mrow R Num_R); lia).
  rewrite E, EA, EW. reflexivity.
Qed.

(** slope of the projected-gradient direction *)
Lemma project_direction n k W g a : is_mat n k W -> is_mat n k g -> row_stochastic W -> (0 < k)%nat -> 0 < a ->
  let P := @simplex_project_rows R Num_R (msub W (mscale a g)) in
  frob g (msub P W) <= - frob2 (msub P W) / a.
Proof.
  intros HW Hg SW Hk Ha P.
  assert (HA : is_mat n k (@msub R Num_R W (mscale a g))) by (apply is_mat_msub; apply HW).
  assert (HP : is_mat n k P) by (apply is_mat_project; exact HA).
  pose proof (project_rows_vi n k _ W HA HW SW Hk) as V. fold P in V.
  assert (HPW : is_mat n k (@msub R Num_R P W)) by (apply is_mat_msub; apply HP).
  rewrite frob_SS, frob2_SS. destruct Hg as (g1 & g2 & _), HPW as (q1 & q2 & _), HW as (w1 & w2 & _), HP as (p1 & p2 & _).
  rewrite g1, g2, q1, q2.
  assert (E : SS n k (fun i j => (ent (msub W (mscale a g)) i j - ent P i j) * (ent P i j - ent W i j))
     = - SS n k (fun i j => ent (msub P W) i j ^ 2) - a * SS n k (fun i j => ent g i j * ent (msub P W) i j)).
  { rewrite <- SS_scal.
    replace (- SS n k (fun i j => ent (msub P W) i j ^ 2)) with (SS n k (fun i j => - 1 * ent (msub P W) i j ^ 2))
      by (rewrite SS_scal; ring).
    rewrite <- SS_minus. apply SS_ext; intros i j Hi Hj.
    rewrite ent_msub by lia. rewrite ent_mscale by lia. rewrite ent_msub by lia. ring. }
  rewrite E in V.
  apply Rmult_le_reg_l with a; [exact Ha|].
  replace (a * (- SS n k (fun i j => ent (msub P W) i j ^ 2) / a)) with (- SS n k (fun i j => ent (msub P W) i j ^ 2)) by (field; lra).
  lra.
Qed.
(** Cauchy-Schwarz for a product *)
Lemma product_bound n d k A H : nr A = n -> nc A = k -> nr H = k -> nc H = d ->
  SS n d (fun i j => Sum k (fun e => ent A i e * ent H e j) ^ 2) <= frob2 A * frob2 H.
Proof.
  intros a1 a2 h1 h2. rewrite !frob2_SS, a1, a2, h1, h2.
  rewrite (SS_swap k d). unfold SS at 2 3. rewrite Sum_mult.
  apply SS_le. intros i j Hi Hj. apply Sum_CS.
Qed.
Lemma frob_mscale_r A s H : nr H = nr A -> nc H = nc A -> frob A (@mscale R Num_R s H) = s * frob A H.
Proof.
  intros h1 h2. rewrite !frob_SS, <- SS_scal. apply SS_ext; intros i j Hi Hj. rewrite ent_mscale by lia. ring.
Qed.
Lemma frob_sym A B : nr A = nr B -> nc A = nc B -> frob A B = frob B A.
Proof. intros e1 e2. rewrite !frob_SS, e1, e2. apply SS_ext; intros; ring. Qed.
Lemma wf_msub A B : wf (@msub R Num_R A B). Proof. apply wf_mbuild. Qed.
