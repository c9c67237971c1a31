(** Proofs about random stochastic matrices and validation. *)
From Coq Require Import List Arith Lia ZArith Reals Lra Bool.
From Verif Require Import Num Mat Py Spec M_random P_lin.
Import ListNotations.
Local Open Scope R_scope.

Lemma right_stochastic_ok r c (g : rng R) :
  (forall i j, (i < r)%nat -> (j < c)%nat -> 0 <= r_uniform g (r_pos g + i * c + j)) ->
  (forall i, (i < r)%nat -> Sum c (fun j => r_uniform g (r_pos g + i * c + j)) <> 0) ->
  row_stochastic (fst (right_stochastic_matrix r c g)) /\ is_mat r c (fst (right_stochastic_matrix r c g)).
Proof.
  intros H0 Hs. unfold right_stochastic_matrix, draw_uniform_mat; cbn [fst]. split.
  - intros i Hi; mdim. pose proof (Hs i Hi) as Hsi.
    assert (Hp : 0 < Sum c (fun j => r_uniform g (r_pos g + i * c + j))).
    { assert (0 <= Sum c (fun j => r_uniform g (r_pos g + i * c + j))) by (apply Sum_nonneg; auto). lra. }
    assert (E : forall j, (j < c)%nat -> ent (mbuild r c (fun i0 j0 : nat =>
        ndiv (mget (mbuild r c (fun i1 j1 : nat => r_uniform g (r_pos g + i1 * c + j1))) i0 j0)
        (vget (tab r (fun i1 : nat => nsum c (fun j1 : nat =>
          mget (mbuild r c (fun i2 j2 : nat => r_uniform g (r_pos g + i2 * c + j2))) i1 j1))) i0))) i j
      = r_uniform g (r_pos g + i * c + j) / Sum c (fun j => r_uniform g (r_pos g + i * c + j))).
    { intros j Hj. rewrite <- mget_ent. rewrite mget_mbuild by assumption. rewrite vget_tab by assumption.
      rewrite nsum_Sum. rewrite mget_mbuild by assumption. numR. f_equal.
      apply Sum_ext. intros j' Hj'. rewrite mget_mbuild by assumption. reflexivity. }
    split.
    + intros j Hj. rewrite E by exact Hj. apply Rmult_le_pos; [apply H0; assumption | left; apply Rinv_0_lt_compat; exact Hp].
    + erewrite Sum_ext; [|exact E]. rewrite Sum_div. field. exact Hsi.
  - destruct (wf_mbuild r c (fun i j : nat => ndiv (mget (mbuild r c (fun i1 j1 : nat => r_uniform g (r_pos g + i1 * c + j1))) i j)
      (vget (tab r (fun i1 : nat => nsum c (fun j1 : nat =>
          mget (mbuild r c (fun i2 j2 : nat => r_uniform g (r_pos g + i2 * c + j2))) i1 j1))) i))) as [W1 W2].
    split; [reflexivity|]. split; [reflexivity|]. split; [exact W1 | exact W2].
Qed.

Lemma left_stochastic_ok r c (g : rng R) :
  (forall i j, (i < r)%nat -> (j < c)%nat -> 0 <= r_uniform g (r_pos g + i * c + j)) ->
  (forall j, (j < c)%nat -> Sum r (fun i => r_uniform g (r_pos g + i * c + j)) <> 0) ->
  col_stochastic (fst (left_stochastic_matrix r c g)) /\ is_mat r c (fst (left_stochastic_matrix r c g)).
Proof.
  intros H0 Hs. unfold left_stochastic_matrix, draw_uniform_mat; cbn [fst]. split.
  - intros j Hj; mdim. pose proof (Hs j Hj) as Hsi.
    assert (Hp : 0 < Sum r (fun i => r_uniform g (r_pos g + i * c + j))).
    { assert (0 <= Sum r (fun i => r_uniform g (r_pos g + i * c + j))) by (apply Sum_nonneg; auto). lra. }
    assert (E : forall i, (i < r)%nat -> ent (mbuild r c (fun i0 j0 : nat =>
        ndiv (mget (mbuild r c (fun i1 j1 : nat => r_uniform g (r_pos g + i1 * c + j1))) i0 j0)
        (vget (tab c (fun j1 : nat => nsum r (fun i1 : nat =>
          mget (mbuild r c (fun i2 j2 : nat => r_uniform g (r_pos g + i2 * c + j2))) i1 j1))) j0))) i j
      = r_uniform g (r_pos g + i * c + j) / Sum r (fun i => r_uniform g (r_pos g + i * c + j))).
    { intros i Hi. rewrite <- mget_ent. rewrite mget_mbuild by assumption. rewrite vget_tab by assumption.
      rewrite nsum_Sum. rewrite mget_mbuild by assumption. numR. f_equal.
      apply Sum_ext. intros i' Hi'. rewrite mget_mbuild by assumption. reflexivity. }
    split.
    + intros i Hi. rewrite E by exact Hi. apply Rmult_le_pos; [apply H0; assumption | left; apply Rinv_0_lt_compat; exact Hp].
    + erewrite Sum_ext; [|exact E]. rewrite Sum_div. field. exact Hsi.
  - split; [reflexivity|]. split; [reflexivity|]. apply wf_mbuild.
Qed.

(** ** validation *)
Definition close1 (s : R) : Prop := Rabs (s - 1) <= 1 / 100000000 + 1 / 100000.

Lemma isclose_one_R a : @isclose_one R Num_R a = true <-> close1 a.
Proof.
  unfold isclose_one, close1; numR. rewrite Rleb_true.
  replace (1 / 100000000 + 1 / 100000 * Rabs 1) with (1 / 100000000 + 1 / 100000); [reflexivity|].
  rewrite Rabs_R1; lra.
Qed.

Lemma check_unit_row_sums_ok A : @check_unit_row_sums R Num_R A = Ok tt <->
  (forall i, (i < nr A)%nat -> close1 (Sum (nc A) (fun j => ent A i j))).
Proof.
  unfold check_unit_row_sums. destruct (forallb _ _) eqn:E.
  - split; [intros _ | reflexivity]. rewrite forallb_forall in E. intros i Hi. apply isclose_one_R.
    rewrite <- nsum_Sum. apply E. apply in_tab. exists i; split; [exact Hi | reflexivity].
  - split; [discriminate|]. intros H. exfalso. rewrite <- not_true_iff_false in E. apply E.
    apply forallb_forall. intros x Hx. apply in_tab in Hx. destruct Hx as (i & Hi & ->).
    apply isclose_one_R. rewrite nsum_Sum. apply H, Hi.
Qed.
Lemma check_unit_row_sums_err A e : @check_unit_row_sums R Num_R A = Raise e -> e = ValueError.
Proof. unfold check_unit_row_sums. destruct (forallb _ _); congruence. Qed.

Lemma check_unit_col_sums_ok A : @check_unit_col_sums R Num_R A = Ok tt <->
  (forall j, (j < nc A)%nat -> close1 (Sum (nr A) (fun i => ent A i j))).
Proof.
  unfold check_unit_col_sums. destruct (forallb _ _) eqn:E.
  - split; [intros _ | reflexivity]. rewrite forallb_forall in E. intros i Hi. apply isclose_one_R.
    rewrite <- nsum_Sum. apply E. apply in_tab. exists i; split; [exact Hi | reflexivity].
  - split; [discriminate|]. intros H. exfalso. rewrite <- not_true_iff_false in E. apply E.
    apply forallb_forall. intros x Hx. apply in_tab in Hx. destruct Hx as (i & Hi & ->).
    apply isclose_one_R. rewrite nsum_Sum. apply H, Hi.
Qed.

Lemma check_array_shape_ok {T} (A : mat T) r c : check_array_shape A r c = Ok tt <-> nr A = r /\ nc A = c.
Proof.
  unfold check_array_shape. destruct (Nat.eqb_spec (nr A) r), (Nat.eqb_spec (nc A) c); cbn [andb];
    split; intros H; try discriminate; try (destruct H; contradiction); auto.
Qed.

Lemma all_finite_zero {T} {N : Num T} (M : mat T) : (forall x : T, neqb (nsub x x) n0 = true) -> all_finite M = true.
Proof. intros H. apply forallb_forall. intros i _. apply forallb_forall. intros j _. apply H. Qed.
Lemma all_finite_R (M : mat R) : @all_finite R Num_R M = true.
Proof. apply all_finite_zero. intros x. numR. unfold Rminus. rewrite Rplus_opp_r. apply Reqb_refl. Qed.
Lemma check_array_R (M : mat R) : @check_array R Num_R (Some M) = Ok M.
Proof. unfold check_array. rewrite all_finite_R. reflexivity. Qed.
Lemma check_init_weights_iff M r c : @check_init_weights R Num_R (Some M) r c = Ok M <->
  nr M = r /\ nc M = c /\ (forall i, (i < r)%nat -> close1 (Sum c (fun j => ent M i j))).
Proof.
  unfold check_init_weights; rewrite check_array_R; cbn [bind].
  destruct (check_array_shape M r c) as [[]|e] eqn:E.
  - apply check_array_shape_ok in E. destruct E as [<- <-]. cbn [bind].
    destruct (check_unit_row_sums M) as [[]|e] eqn:E2; cbn [bind].
    + pose proof (proj1 (check_unit_row_sums_ok M) E2). split; [auto | reflexivity].
    + split; [discriminate|]. intros (_ & _ & H). pose proof (proj2 (check_unit_row_sums_ok M) H). congruence.
  - cbn [bind]. split; [discriminate|]. intros (H1 & H2 & _).
    assert (check_array_shape M r c = Ok tt) by (apply check_array_shape_ok; auto). congruence.
Qed.
Lemma check_init_weights_cases w r c : @check_init_weights R Num_R w r c = Raise ValueError \/
   exists M, w = Some M /\ check_init_weights w r c = Ok M.
Proof.
  unfold check_init_weights. destruct w as [M|]; [rewrite check_array_R; cbn [bind]|auto].
  unfold check_array_shape, check_unit_row_sums. destruct (_ && _); cbn [bind]; [|auto].
  destruct (forallb _ _); cbn [bind]; eauto.
Qed.
Lemma check_init_dictionary_iff {T} (N : Num T) (M : mat T) r c : all_finite M = true -> check_init_dictionary (Some M) r c = Ok M <-> nr M = r /\ nc M = c.
Proof.
  intros F. unfold check_init_dictionary, check_array. rewrite F. cbn [bind].
  destruct (check_array_shape M r c) as [[]|e] eqn:E; cbn [bind].
  - apply check_array_shape_ok in E. tauto.
  - split; [discriminate|]. intros H. apply check_array_shape_ok in H. congruence.
Qed.
Lemma check_init_weights_ok_inv {T} (N : Num T) w r c M : check_init_weights w r c = Ok M ->
  w = Some M /\ nr M = r /\ nc M = c.
Proof.
  unfold check_init_weights. destruct w as [M'|]; cbn [check_array bind]; [|discriminate]. destruct (all_finite M'); cbn [bind]; [|discriminate].
  destruct (check_array_shape M' r c) as [[]|e] eqn:E; cbn [bind]; [|discriminate].
  apply check_array_shape_ok in E. destruct (check_unit_row_sums M') as [[]|e]; cbn [bind]; [|discriminate].
  intros [= <-]. auto.
Qed.
Lemma check_init_dictionary_ok_inv {T} {N : Num T} w r c (M : mat T) : check_init_dictionary w r c = Ok M ->
  w = Some M /\ nr M = r /\ nc M = c.
Proof.
  unfold check_init_dictionary. destruct w as [M'|]; cbn [check_array bind]; [|discriminate]. destruct (all_finite M'); cbn [bind]; [|discriminate].
  destruct (check_array_shape M' r c) as [[]|e] eqn:E; cbn [bind]; [|discriminate].
  apply check_array_shape_ok in E. intros [= <-]. auto.
Qed.
