(** Property theorems C75: which fits with init='custom' fail because of the arrays they are given. *)
From Coq Require Import List Arith Lia ZArith Reals Lra.
From Verif Require Import Num Mat Py Spec Spec_init M_spg M_random M_gpnh M_aa M_mtd.
From Verif Require Import P_lin P_gpnh_run P_init Props_base Props_gpnh Props_aa Props_mtd.
Import ListNotations.
Local Open Scope R_scope.

Theorem C75_gpnh_custom_arrays : forall fuel (o : gpnh R) k m t data dictionary weights ud uw kw,
  gc_init (go_cfg o) = InitCustom ->
  resolve_components (go_n_components o) (nc data) = PInt (Z.of_nat k) -> (0 < k)%nat ->
  gc_max_iterations (go_cfg o) = PInt (Z.of_nat m) -> (0 < m)%nat -> tol_value (gc_tolerance (go_cfg o)) t ->
  fit_transform fuel o data dictionary weights ud uw kw = Raise ValueError
  <-> ~ (rows_ok (nr data) k weights /\ shape_ok k (nc data) dictionary).
Proof.
  intros fuel o k m t data D W ud uw kw Hi Hk Hk0 Hm Hm0 Ht. apply (gpnh_custom_fit fuel o k m t); [exact Hi|].
  rewrite Hk, Hm. apply check_params_total; assumption.
Qed.
Print Assumptions C75_gpnh_custom_arrays.

Theorem C75_kernel_aa_custom_arrays : forall fuel (o : aa R) n k m t K dictionary weights ud uw kw,
  is_mat n n K -> ac_init (ao_cfg o) = InitCustom ->
  resolve_components (ao_n_components o) n = PInt (Z.of_nat k) -> (0 < k)%nat ->
  ac_max_iterations (ao_cfg o) = PInt (Z.of_nat m) -> (0 < m)%nat -> tol_value (ac_tolerance (ao_cfg o)) t ->
  aa_fit_transform fuel o K dictionary weights ud uw kw = Raise ValueError
  <-> ~ (rows_ok n k weights /\ rows_ok k n dictionary).
Proof.
  intros fuel o n k m t K D W ud uw kw (x1 & x2 & _) Hi Hk Hk0 Hm Hm0 Ht. rewrite <- x1 in Hk |- *.
  apply (aa_custom_fit fuel o k m t); [congruence | exact Hi|]. rewrite Hk, Hm. apply check_params_total; assumption.
Qed.
Print Assumptions C75_kernel_aa_custom_arrays.

(** Order weights or transition matrices that are not given make numpy fail on None.shape. *)
Theorem C75_mtd_custom_arrays : forall fuel (o : mtd R) k m t data dictionary weights ow Ts ud uw up kw,
  mc_init (mo_cfg o) = InitCustom -> mc_lags (mo_cfg o) <> [] ->
  resolve_components (mo_n_components o) (nc data) = PInt (Z.of_nat k) -> (0 < k)%nat ->
  mc_max_iterations (mo_cfg o) = PInt (Z.of_nat m) -> (0 < m)%nat -> tol_value (mc_tolerance (mo_cfg o)) t ->
  let p := length (mc_lags (mo_cfg o)) in
  let fit := mtd_fit_transform fuel o data dictionary weights ow Ts ud uw up kw in
  (fit = Raise ValueError \/ fit = Raise AttributeError
   <-> ~ (rows_ok (nr data) k weights /\ shape_ok k (nc data) dictionary /\ vector_ok p ow /\ columns_ok p k Ts))
  /\ (fit = Raise AttributeError
   <-> rows_ok (nr data) k weights /\ shape_ok k (nc data) dictionary /\ (ow = None \/ (vector_ok p ow /\ Ts = None))).
Proof.
  intros fuel o k m t data D W ow Ts ud uw up kw Hi Hl Hk Hk0 Hm Hm0 Ht. apply (mtd_custom_fit fuel o k m t); [exact Hi | exact Hl|].
  rewrite Hk, Hm. apply check_params_total; assumption.
Qed.
Print Assumptions C75_mtd_custom_arrays.

(** One lag, two components, samples of the plane.  The columns of a transition matrix have to sum
    to one: its transpose is rejected.  A negative weight is accepted. *)
Definition e75_cfg : mtd_cfg R := mk_mtd_cfg [1]%nat 1 1 InitCustom (PFloat (1/1000000)) (PInt 100) default_ls 1 false.
Definition e75_mtd : mtd R := mk_mtd e75_cfg (PInt 2) ex_rng None None None None None.
Definition e75_W : mat R := mkmat 4 2 [[2; -1]; [1; 0]; [0; 1]; [1/2; 1/2]].
Definition e75_D : mat R := mkmat 2 2 [[1; 0]; [0; 1]].
Definition e75_T : mat R := mkmat 2 2 [[1/2; 3/4]; [1/2; 1/4]].
Definition e75_Tt : mat R := mkmat 2 2 [[1/2; 1/2]; [3/4; 1/4]].
Lemma about_one_1 s : s = 1 -> about_one s.
Proof. intros ->. unfold about_one. rewrite Rminus_diag_eq, Rabs_R0 by reflexivity. lra. Qed.
Lemma e75_W_ok : rows_ok 4 2 (Some e75_W).
Proof.
  exists e75_W. split; [reflexivity|]. split; [reflexivity|]. split; [reflexivity|].
  intros [|[|[|[|i]]]] Hi; [.. | lia]; apply about_one_1; cbn; lra.
Qed.
Lemma e75_D_ok : shape_ok 2 2 (Some e75_D).
Proof. exists e75_D. split; [reflexivity|]. split; reflexivity. Qed.
Lemma e75_ow_ok : vector_ok 1 (Some [1]).
Proof. exists [1]. split; [reflexivity|]. split; [reflexivity|]. apply about_one_1. cbn. lra. Qed.
Lemma e75_T_ok : columns_ok 1 2 (Some [e75_T]).
Proof.
  exists [e75_T]. split; [reflexivity|]. split; [reflexivity|]. intros M [<-|[]]. split; [reflexivity|]. split; [reflexivity|].
  intros [|[|j]] Hj; [.. | lia]; apply about_one_1; cbn; lra.
Qed.
Lemma e75_Tt_bad : ~ columns_ok 1 2 (Some [e75_Tt]).
Proof.
  intros (Ts & [= <-] & _ & H). destruct (H e75_Tt (or_introl eq_refl)) as (_ & _ & H'). specialize (H' 0%nat ltac:(lia)).
  unfold about_one in H'. cbn in H'. revert H'. unfold Rabs. destruct (Rcase_abs _); lra.
Qed.
Example C75_example : forall fuel ud uw up,
  mtd_fit_transform fuel e75_mtd em_data (Some e75_D) (Some e75_W) (Some [1]) (Some [e75_T]) ud uw up None <> Raise ValueError
  /\ mtd_fit_transform fuel e75_mtd em_data (Some e75_D) (Some e75_W) (Some [1]) (Some [e75_Tt]) ud uw up None = Raise ValueError
  /\ mtd_fit_transform fuel e75_mtd em_data (Some e75_D) (Some e75_W) (Some [1]) None ud uw up None = Raise AttributeError.
Proof.
  intros fuel ud uw up.
  assert (Ht : tol_value (mc_tolerance (mo_cfg e75_mtd)) (1/1000000)) by (right; split; [reflexivity|]; numR; apply Rltb_false; lra).
  assert (Hl : mc_lags (mo_cfg e75_mtd) <> []) by discriminate.
  pose proof (fun Ts => C75_mtd_custom_arrays fuel e75_mtd 2 100 (1/1000000) em_data (Some e75_D) (Some e75_W) (Some [1]) Ts ud uw up None
    eq_refl Hl eq_refl ltac:(lia) eq_refl ltac:(lia) Ht) as H. cbv zeta in H.
  pose proof e75_W_ok. pose proof e75_D_ok. pose proof e75_ow_ok. pose proof e75_T_ok. pose proof e75_Tt_bad.
  split; [|split].
  - intros E. destruct (H (Some [e75_T])) as [A _]. apply (proj1 A (or_introl E)). auto.
  - destruct (H (Some [e75_Tt])) as [A B]. destruct (proj2 A) as [E|E]; [|exact E|].
    + intros (_ & _ & _ & C). exact (e75_Tt_bad C).
    + exfalso. apply (proj1 B) in E. destruct E as (_ & _ & [[=]|[_ [=]]]).
  - apply H. split; [assumption|]. split; [assumption|]. right. split; [assumption | reflexivity].
Qed.
