(** C78: piecewise VARX models of integer data *)
From Coq Require Import List Arith ZArith Bool Reals Lra Lia.
From Verif Require Import Num Mat Py M_furthest M_varx M_pwvarx M_int Spec Spec_varx Spec_pwvarx Spec_int P_lin P_mat P_furthest P_varx P_varx_run P_pwvarx P_pwvarx_sim P_int P_int_varx P_int_pw.
From Verif Require Import Props_base Props_varx Props_pwvarx.
Import ListNotations.
Local Open Scope R_scope.

(** a fit of integer data reports the labels and coefficients of a fit of the same data as floats, raises the
    same exceptions, and truncates the stored residuals *)
Theorem C78_same_coefficients : forall (T C : Type) (N : Num T) (trunc : T -> T) (po : pw_oracles T C) o endog exog, trunc n0 = n0 ->
  match pw_fit_transform po o endog exog, int_pw_fit_transform trunc po o endog exog with
  | Ok (o1, l1), Ok (o2, l2) => l2 = l1 /\ pw_mu o2 = pw_mu o1 /\ pw_A o2 = pw_A o1 /\ pw_B o2 = pw_B o1
      /\ pw_K o2 = pw_K o1 /\ pw_p o2 = pw_p o1 /\ pw_s o2 = pw_s o1 /\ pw_trend o2 = pw_trend o1 /\ pw_calls o2 = pw_calls o1
      /\ pw_classifier o2 = pw_classifier o1 /\ pw_cluster_labels o2 = pw_cluster_labels o1
      /\ pw_residuals o2 = option_map (mmap trunc) (pw_residuals o1)
  | Raise e1, Raise e2 => e1 = e2
  | _, _ => False
  end.
Proof.
  intros T C N trunc po o endog exog Ht. unfold pw_fit_transform, int_pw_fit_transform.
  destruct (stack_predictors _ _ _ _) as [x|]; cbn [bind]; [|reflexivity]. destruct (targets _ _) as [y|]; [|reflexivity].
  destruct (hstack2 x y) as [z|]; cbn [bind]; [|reflexivity]. destruct (po_cluster _ _ _) as [cl|]; cbn [bind]; [|reflexivity].
  destruct (po_train _ _ _ _) as [c|]; cbn [bind]; [|reflexivity]. destruct (po_classify _ _ _) as [l|]; cbn [bind]; [|reflexivity].
  pose proof (var_model_sim trunc po Ht o y x l) as S. destruct (int_fit_var_model _ _ _ _ _ _) as [fi|], (fit_var_model _ _ _ _ _) as [ff|]; cbn [res_rel bind] in *; try contradiction; [|symmetry; exact S].
  destruct S as (S1 & S2 & S3 & S4 & _). cbn. rewrite S1, S2, S3, S4. auto 15.
Qed.
Print Assumptions C78_same_coefficients.

(** the stored residuals are the truncated errors of the reported local models *)
Theorem C78_residuals : forall (C : Type) (po : pw_oracles R C) o endog exog o' labels, lstsq_shape (po_lstsq po) ->
  (forall u, exog = Some u -> n_samples u = n_samples endog) ->
  int_pw_fit_transform toward_zero po o endog exog = Ok (o', labels) ->
  let P := Nat.max (pw_p o) (pw_s o) in
  exists r, pw_residuals o' = Some r /\ is_mat (n_samples endog - P) (n_features endog) r /\
    forall t f k, (t < n_samples endog - P)%nat -> (f < n_features endog)%nat -> (k < pw_K o)%nat -> labelled labels t k ->
         ent r t f = toward_zero (sample endog (P + t) f
                     - pw_forecast (pw_p o) (pw_s o) endog exog (reported_mu (pw_trend o) (pw_mu o') k)
                         (reported_stack (pw_A o') k) (reported_stack (pw_B o') k) (P + t) f).
Proof.
  intros C po o endog exog o' labels Hs HU H P. pose proof (C78_same_coefficients R C Num_R toward_zero po o endog exog tz_0) as S. rewrite H in S.
  destruct (pw_fit_transform po o endog exog) as [[o1 l1]|] eqn:E; [|contradiction]. destruct S as (-> & -> & -> & -> & _ & _ & _ & _ & _ & _ & _ & S).
  destruct (C55_residuals C po o endog exog o1 l1 Hs HU E) as (r & Er & (r1 & r2 & r3) & HR). fold P in HR, r1. rewrite Er in S. cbn [option_map] in S. exists (mmap toward_zero r). split; [exact S|].
  split; [unfold mmap; rewrite r1, r2; apply is_mat_mbuild|]. intros t f k Ht Hf Hk Hl. rewrite ent_tz; [|apply (is_mat_wf (n_samples endog - P) (n_features endog)); split; [exact r1 | split; [exact r2 | exact r3]]].
  f_equal. apply HR; assumption.
Qed.
Print Assumptions C78_residuals.

(** Sigma_u[k] is computed from the truncated residuals: it is zero when all errors of component k are below 1 *)
Theorem C78_covariance : forall (C : Type) (po : pw_oracles R C) o endog exog o' labels, lstsq_shape (po_lstsq po) ->
  (forall u, exog = Some u -> n_samples u = n_samples endog) ->
  int_pw_fit_transform toward_zero po o endog exog = Ok (o', labels) ->
  let P := Nat.max (pw_p o) (pw_s o) in
  let d := n_features endog in
  let error k t f := sample endog (P + t) f - pw_forecast (pw_p o) (pw_s o) endog exog (reported_mu (pw_trend o) (pw_mu o') k)
                         (reported_stack (pw_A o') k) (reported_stack (pw_B o') k) (P + t) f in
  exists Sig, pw_Sigma_u o' = Some Sig /\ length Sig = pw_K o /\
    forall k, (k < pw_K o)%nat -> is_mat d d (nth k Sig no_mat) /\ (forall i j, (i < d)%nat -> (j < d)%nat ->
      ent (nth k Sig no_mat) i j
      = Sum (n_samples endog - P) (fun t => if Z.eqb (nth t labels (-1)%Z) (Z.of_nat k) then toward_zero (error k t i) * toward_zero (error k t j) else 0)
        / IZR (Z.of_nat (count_occ Z.eq_dec labels (Z.of_nat k)) - Z.of_nat (pw_p o * d) - (if pw_trend o then 1 else 0)
               - Z.of_nat (pw_s o * n_factors exog)))
      /\ ((forall t f, (t < n_samples endog - P)%nat -> (f < d)%nat -> labelled labels t k -> Rabs (error k t f) < 1) ->
          forall i j, ent (nth k Sig no_mat) i j = 0).
Proof.
  intros C po o endog exog o' labels Hs HU H P d error. destruct (C78_residuals C po o endog exog o' labels Hs HU H) as (r & Er & Sr & HR). fold P in Sr, HR.
  unfold int_pw_fit_transform in H. apply bind_ok in H. destruct H as (x & Ex & H). fold P in H. destruct (targets P endog) as [y|] eqn:Ey; [|discriminate].
  apply bind_ok in H. destruct H as (z & _ & H). apply bind_ok in H. destruct H as (cl & _ & H). apply bind_ok in H. destruct H as (c & _ & H). apply bind_ok in H. destruct H as (l & _ & H).
  apply bind_ok in H. destruct H as (fi & Efi & H). injection H as Ho El. subst l. assert (EF : fi_residuals fi = r) by (rewrite <- Ho in Er; cbn [pw_residuals] in Er; injection Er as Er; exact Er).
  exists (fi_Sigma_u fi). split; [rewrite <- Ho; reflexivity|]. clear Er.
  destruct (targets_spec P endog y Ey) as (Y1 & Y2 & _). fold d in Y2.
  pose proof (stack_predictors_inv _ _ _ _ _ Ex) as [I1 I2]. destruct (stack_predictors_ok (pw_p o) (pw_s o) endog exog I1 I2) as (x' & Ex' & (X1 & X2 & _)). rewrite Ex in Ex'. injection Ex' as <-. fold d in X2.
  unfold int_fit_var_model in Efi. rewrite X2, Y2 in Efi. destruct (Nat.ltb_spec (pw_p o * d + pw_s o * n_factors exog) (pw_p o * d)); [lia|].
  replace (pw_p o * d + pw_s o * n_factors exog - pw_p o * d)%nat with (pw_s o * n_factors exog)%nat in Efi by lia.
  set (e := (if Nat.ltb 0 (pw_s o * n_factors exog) then (pw_s o * n_factors exog) / pw_s o else 0)%nat) in *.
  assert (He : (if Nat.ltb 0 e then Z.of_nat (e * pw_s o) else 0)%Z = Z.of_nat (pw_s o * n_factors exog)).
  { unfold e. destruct (Nat.ltb_spec 0 (pw_s o * n_factors exog)) as [L|L]; [|cbn; lia]. rewrite (Nat.mul_comm (pw_s o)), Nat.div_mul by nia. destruct (Nat.ltb_spec 0 (n_factors exog)); [reflexivity | nia]. }
  destruct (negb _ && _) eqn:LK in Efi; [discriminate|].
  destruct (Nat.eq_dec (pw_K o) 0) as [K0|K0].
  { rewrite K0 in *. cbn [seq int_fit_components] in Efi. injection Efi as <-. cbn [fi_Sigma_u repeat length]. split; [reflexivity|]. intros k Hk. lia. }
  assert (LL : length labels = nr y) by (apply andb_false_iff in LK; destruct LK as [LK|LK]; [apply negb_false_iff, Nat.eqb_eq in LK; exact LK | apply Nat.ltb_ge in LK; lia]).
  apply int_components_cov in Efi; [|apply seq_NoDup | cbn [fi_Sigma_u]; rewrite repeat_length; intros k Hk; apply in_seq in Hk; lia | exact LL]. cbn [fi_Sigma_u] in Efi. rewrite repeat_length in Efi.
  destruct Efi as (L & HC & _). split; [exact L|]. intros k Hk. specialize (HC k ltac:(apply in_seq; lia)). rewrite (nth_error_nth _ _ no_mat HC). rewrite EF. unfold cov_of.
  set (idx := masked labels k). set (rr := take_rows idx r). pose proof Sr as (r1 & r2 & _). assert (Rc : nc rr = d) by exact r2. assert (Rr : nr rr = length idx) by reflexivity.
  set (df := (_ - _ - _ - _)%Z).
  assert (SM : is_mat d d (mmap (fun v => ndiv v (nofZ df)) (mmul (mtr rr) rr))) by (unfold mmap; cbn [mmul mtr mbuild nr nc]; rewrite Rc; apply is_mat_mbuild).
  assert (EN : forall i j, (i < d)%nat -> (j < d)%nat -> ent (mmap (fun v => ndiv v (nofZ df)) (mmul (mtr rr) rr)) i j
     = Sum (n_samples endog - P) (fun t => if Z.eqb (nth t labels (-1)%Z) (Z.of_nat k) then toward_zero (error k t i) * toward_zero (error k t j) else 0) / IZR df).
  { intros i j Hi Hj. unfold mmap. rewrite ent_mbuild by (cbn [mmul mtr mbuild nr nc]; rewrite Rc; assumption). rewrite mget_ent, ent_mmul by (cbn [mtr mbuild nr nc]; rewrite Rc; assumption).
    numR. f_equal. cbn [mtr mbuild nc]. rewrite Rr. rewrite <- Y1, <- LL.
    rewrite <- (Sum_masked labels k (fun t => toward_zero (error k t i) * toward_zero (error k t j))). apply Sum_ext; intros q Hq. fold idx in Hq |- *.
    rewrite ent_mtr by (rewrite ?Rc; assumption). unfold rr. rewrite !ent_take_rows by (try assumption; rewrite r2; assumption).
    assert (HI : labelled labels (nth q idx O) k) by (apply masked_in; apply nth_In; exact Hq).
    assert (HT : (nth q idx O < n_samples endog - P)%nat) by (rewrite <- Y1, <- LL; apply nth_error_Some; unfold labelled in HI; rewrite HI; discriminate).
    rewrite (HR (nth q idx O) i k), (HR (nth q idx O) j k) by assumption. reflexivity. }
  split; [exact SM|]. split.
  - intros i j Hi Hj. rewrite EN by assumption. f_equal. f_equal. unfold df, idx. rewrite He, masked_count, Y2. reflexivity.
  - intros HE i j. destruct (le_lt_dec d i) as [O|Hi]; [apply (ent_out _ _ _ _ _ SM); auto|]. destruct (le_lt_dec d j) as [O|Hj]; [apply (ent_out _ _ _ _ _ SM); auto|].
    rewrite EN by assumption. rewrite Sum_zero; [unfold Rdiv; ring|]. intros t Ht. destruct (Z.eqb_spec (nth t labels (-1)%Z) (Z.of_nat k)) as [E|E]; [|reflexivity].
    assert (Lt : labelled labels t k) by (unfold labelled; rewrite <- E; apply nth_error_nth'; lia). rewrite (tz_small (error k t i)); [ring|]. apply HE; assumption.
Qed.
Print Assumptions C78_covariance.

(** the integer data 1, 2, 4, 1, 3, 9 with one lag: the errors 0, 0, -11/17, 44/17 are stored as 0, 0, 0, 2 *)
Example C78_example : lstsq_shape (po_lstsq ep_oracles)
  /\ exists o' r Sig, int_pw_fit_transform toward_zero ep_oracles ep_obj ep_data None = Ok (o', [0; 0; 1; 1; 7]%Z)
     /\ ent (nth 0 (reported_stack (pw_A o') 1) no_mat) 0 0 = 7 / 17
     /\ pw_residuals o' = Some r /\ ent r 2 0 = 0 /\ ent r 3 0 = 2
     /\ pw_Sigma_u o' = Some Sig /\ ent (nth 0 Sig no_mat) 0 0 = 0 /\ ent (nth 1 Sig no_mat) 0 0 = 4.
Proof.
  split; [exact ev_lstsq_shape|]. destruct ep_fit as (o1 & E & A0 & A1 & M0).
  pose proof (C78_same_coefficients R unit Num_R toward_zero ep_oracles ep_obj ep_data None tz_0) as S. rewrite E in S.
  destruct (int_pw_fit_transform toward_zero ep_oracles ep_obj ep_data None) as [[o' l]|] eqn:EI; [|contradiction]. destruct S as (-> & Sm & SA & _).
  destruct (C78_residuals unit ep_oracles ep_obj ep_data None o' _ ev_lstsq_shape ltac:(discriminate) EI) as (r & Er & _ & G).
  destruct (C78_covariance unit ep_oracles ep_obj ep_data None o' _ ev_lstsq_shape ltac:(discriminate) EI) as (Sig & ES & _ & V). exists o', r, Sig.
  split; [reflexivity|]. split; [rewrite SA; exact A1|]. split; [exact Er|].
  rewrite Sm, SA, M0 in G, V.
  assert (F0 : forall t, pw_forecast (pw_p ep_obj) (pw_s ep_obj) ep_data None (reported_mu (pw_trend ep_obj) None 0) (reported_stack (pw_A o1) 0) (reported_stack (pw_B o') 0) (Nat.max (pw_p ep_obj) (pw_s ep_obj) + t) 0 = 2 * sample ep_data t 0).
  { intros t. unfold pw_forecast. cbn [ep_obj pw_new pw_p pw_s pw_trend Nat.max Nat.add n_features ep_data Sum reported_mu]. rewrite A0. replace (S t - 1)%nat with t by lia. fold ep_data. ring. }
  assert (F1 : forall t, pw_forecast (pw_p ep_obj) (pw_s ep_obj) ep_data None (reported_mu (pw_trend ep_obj) None 1) (reported_stack (pw_A o1) 1) (reported_stack (pw_B o') 1) (Nat.max (pw_p ep_obj) (pw_s ep_obj) + t) 0 = 7 / 17 * sample ep_data t 0).
  { intros t. unfold pw_forecast. cbn [ep_obj pw_new pw_p pw_s pw_trend Nat.max Nat.add n_features ep_data Sum reported_mu]. rewrite A1. replace (S t - 1)%nat with t by lia. fold ep_data. ring. }
  assert (T2 : toward_zero (1 - 7 / 17 * 4) = 0) by (apply tz_small; apply Rabs_def1; lra).
  assert (T3 : toward_zero (3 - 7 / 17 * 1) = 2) by (apply (tz_unique _ 2); lra).
  assert (T0 : toward_zero (2 - 2 * 1) = 0) by (replace (2 - 2 * 1) with 0 by ring; exact tz_0).
  assert (T1 : toward_zero (4 - 2 * 2) = 0) by (replace (4 - 2 * 2) with 0 by ring; exact tz_0).
  split; [rewrite (G 2%nat 0%nat 1%nat ltac:(cbn; lia) ltac:(cbn; lia) ltac:(cbn; lia) eq_refl), F1; exact T2|].
  split; [rewrite (G 3%nat 0%nat 1%nat ltac:(cbn; lia) ltac:(cbn; lia) ltac:(cbn; lia) eq_refl), F1; exact T3|].
  split; [exact ES|]. split.
  - apply (proj2 (proj2 (V 0%nat ltac:(cbn; lia)))). intros t f Ht Hf Hl. assert (f = 0%nat) by (cbn in Hf; lia). subst f. rewrite F0.
    destruct t as [|[|[|[|[|t]]]]]; unfold labelled in Hl; cbn in Hl; try discriminate; [| |destruct t; discriminate].
    + change (Rabs (2 - 2 * 1) < 1). replace (2 - 2 * 1) with 0 by ring. rewrite Rabs_R0. lra.
    + change (Rabs (4 - 2 * 2) < 1). replace (4 - 2 * 2) with 0 by ring. rewrite Rabs_R0. lra.
  - rewrite (proj1 (proj2 (V 1%nat ltac:(cbn; lia)))) by (cbn; lia). change (n_samples ep_data - Nat.max (pw_p ep_obj) (pw_s ep_obj))%nat with 5%nat. cbn [Sum]. rewrite !F1.
    change (sample ep_data (Nat.max (pw_p ep_obj) (pw_s ep_obj) + 2) 0) with 1. change (sample ep_data (Nat.max (pw_p ep_obj) (pw_s ep_obj) + 3) 0) with 3.
    change (sample ep_data 2 0) with 4. change (sample ep_data 3 0) with 1. rewrite T2, T3.
    change (Z.of_nat (count_occ Z.eq_dec [0; 0; 1; 1; 7]%Z (Z.of_nat 1)) - Z.of_nat (pw_p ep_obj * n_features ep_data) - (if pw_trend ep_obj then 1 else 0) - Z.of_nat (pw_s ep_obj * n_factors (@None (arr R))))%Z with 1%Z.
    cbn [nth Z.eqb Z.of_nat Pos.of_succ_nat Pos.eqb]. lra.
Qed.
