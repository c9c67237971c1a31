(** Property theorems C54 - C56, C65, C66 (pwvarx.py: piecewise VARX models by clustering). *)
From Coq Require Import List Arith Lia ZArith Reals Lra Bool.
From Verif Require Import Num Mat Py Spec Spec_varx Spec_pwvarx M_varx M_pwvarx P_lin P_mat P_fembv_upd P_varx P_pwvarx P_pwvarx_sim Props_base Props_varx.
Import ListNotations.
Local Open Scope R_scope.

(** ** C54: the stacked predictors *)
Theorem C54_predictors : forall (T : Type) (N : Num T) p s (endog : arr T) (exog : option (arr T)),
  let P := Nat.max p s in
  let d := n_features endog in
  (P <= n_samples endog)%nat -> (forall u, exog = Some u -> n_samples u = n_samples endog) ->
  exists x, stack_predictors p s endog exog = Ok x /\ nr x = (n_samples endog - P)%nat /\ nc x = (p * d + s * n_factors exog)%nat /\ wf x
    /\ forall t, (t < n_samples endog - P)%nat ->
         (forall tau f, (1 <= tau <= p)%nat -> (f < d)%nat -> mget x t ((tau - 1) * d + f) = sample endog (P + t - tau) f)
         /\ forall u, exog = Some u -> forall tau f, (1 <= tau <= s)%nat -> (f < n_features u)%nat ->
              mget x t (p * d + (tau - 1) * n_features u + f) = sample u (P + t - tau) f.
Proof.
  intros T N p s endog exog P d HP HU. destruct (stack_predictors_ok p s endog exog HP) as (x & E & X1 & X2 & X3 & X4).
  { intros u Eu _. left. rewrite (HU u Eu). reflexivity. }
  exists x. split; [exact E|]. split; [exact X1|]. split; [exact X2|]. split; [exact X3|]. intros t Ht. destruct (X4 t Ht) as [G1 G2]. split.
  - intros tau f Htau Hf. fold d in G1. rewrite G1 by lia. f_equal. fold P. lia.
  - intros u Eu tau f Htau Hf. fold d P in G2. rewrite <- Nat.add_assoc. rewrite (G2 u Eu) by lia. rewrite Eu. rewrite (HU u Eu), Nat.eqb_refl. f_equal. lia.
Qed.
Print Assumptions C54_predictors.
(** too few samples, or external factors of another length, are rejected... *)
Theorem C54_rejected : forall (T : Type) (N : Num T) p s (endog : arr T) (exog : option (arr T)),
  let P := Nat.max p s in
  (n_samples endog < P)%nat
  \/ (exists u, exog = Some u /\ (0 < s)%nat /\ (n_samples u - P)%nat <> (n_samples endog - P)%nat /\ (n_samples u - P)%nat <> 1%nat) ->
  stack_predictors p s endog exog = Raise ValueError.
Proof.
  intros T N p s endog exog P H. apply stack_predictors_raise. destruct H as [H | (u & Eu & Hs & H1 & H2)]; [left; exact H | right]. exists u. split; [exact Eu|]. split; [exact Hs|]. intros [F|F]; contradiction.
Qed.
Print Assumptions C54_rejected.
(** ... except that external factors with exactly one sample after the presample are silently repeated
    for every row *)
Theorem C54_single_factor_row_repeated : forall (T : Type) (N : Num T) p s (endog u : arr T),
  let P := Nat.max p s in
  (P <= n_samples endog)%nat -> (0 < s)%nat -> n_samples u = S P -> n_samples endog <> S P ->
  exists x, stack_predictors p s endog (Some u) = Ok x /\ nr x = (n_samples endog - P)%nat
    /\ forall t tau f, (t < n_samples endog - P)%nat -> (1 <= tau <= s)%nat -> (f < n_features u)%nat ->
         mget x t (p * n_features endog + (tau - 1) * n_features u + f) = sample u (P - tau) f.
Proof.
  intros T N p s endog u P HP Hs Hu Hn. destruct (stack_predictors_ok p s endog (Some u) HP) as (x & E & X1 & X2 & X3 & X4).
  { intros u' Eu _. injection Eu as <-. fold P. rewrite Hu. right. lia. }
  exists x. split; [exact E|]. split; [exact X1|]. intros t tau f Ht Htau Hf. destruct (X4 t Ht) as [_ G2]. fold P in G2. rewrite <- Nat.add_assoc. rewrite (G2 u eq_refl) by lia.
  destruct (Nat.eqb_spec (n_samples u - P) (n_samples endog - P)); [lia|]. f_equal. lia.
Qed.
Print Assumptions C54_single_factor_row_repeated.
Example C54_example : match @stack_predictors Z Num_Z_demo 2 1 (A2 (mkmat 4 2 [[1; 2]; [3; 4]; [5; 6]; [7; 8]]%Z)) (Some (A1 [10; 20; 30; 40]%Z)) with
  | Ok x => dat x = [[3; 4; 1; 2; 20]; [5; 6; 3; 4; 30]]%Z | Raise _ => False end
  /\ match @stack_predictors Z Num_Z_demo 1 1 (A1 [1; 2; 3; 4]%Z) (Some (A1 [10; 20]%Z)) with
  | Ok x => dat x = [[1; 10]; [2; 10]; [3; 10]]%Z | Raise _ => False end
  /\ @stack_predictors Z Num_Z_demo 1 1 (A1 [1; 2; 3; 4]%Z) (Some (A1 [10; 20; 30]%Z)) = Raise ValueError.
Proof. vm_compute. auto. Qed.

(** ** C55: stored residuals are the errors of the reported local models *)
Theorem C55_residuals : forall (C : Type) (po : pw_oracles R C) o endog exog o' labels, lstsq_shape (po_lstsq po) ->
  (forall u, exog = Some u -> n_samples u = n_samples endog) ->
  pw_fit_transform po o endog exog = Ok (o', labels) ->
  let P := Nat.max (pw_p o) (pw_s o) in
  exists r, pw_residuals o' = Some r /\ is_mat (n_samples endog - P) (n_features endog) r /\
    forall t f, (t < n_samples endog - P)%nat -> (f < n_features endog)%nat ->
      (forall k, (k < pw_K o)%nat -> labelled labels t k ->
         ent r t f = sample endog (P + t) f
                     - pw_forecast (pw_p o) (pw_s o) endog exog (reported_mu (pw_trend o) (pw_mu o') k)
                         (reported_stack (pw_A o') k) (reported_stack (pw_B o') k) (P + t) f)
      /\ ((forall k, (k < pw_K o)%nat -> ~ labelled labels t k) -> ent r t f = 0).
Proof.
  intros C po o endog exog o' labels Hs HU H P. subst P. destruct (fit_facts_ok po Hs _ _ _ _ _ HU H) as (_ & _ & _ & _ & _ & y & x & r & Sig & F). pose proof F as (SX & Ey & _ & Er & Sr & _ & _ & FK & F0).
  exists r. split; [exact Er|]. split; [exact Sr|]. intros t f Ht Hf. split; [|intros Hk; apply F0; exact Hk].
  intros k Hk Hl. destruct (FK k Hk) as (_ & params & _ & _ & CO). rewrite <- (explained_reported po o endog exog o' labels y x r Sig k params t f F CO Ht Hf).
  destruct CO as (_ & _ & _ & c4 & _). cbn [fi_residuals] in c4. pose proof (targets_spec _ endog y Ey) as (_ & Y2 & Y3). rewrite c4 by (try assumption; lia). f_equal. apply Y3; assumption.
Qed.
Print Assumptions C55_residuals.
(** Sigma_u[k] is the sum of the products of those residuals over the samples of component k, divided by
    their number minus the number of regression coefficients per feature *)
Theorem C55_covariance : forall (C : Type) (po : pw_oracles R C) o endog exog o' labels, lstsq_shape (po_lstsq po) ->
  (forall u, exog = Some u -> n_samples u = n_samples endog) ->
  pw_fit_transform po o endog exog = Ok (o', labels) ->
  let P := Nat.max (pw_p o) (pw_s o) in
  let d := n_features endog in
  exists r Sig, pw_residuals o' = Some r /\ pw_Sigma_u o' = Some Sig /\ length Sig = pw_K o /\
    forall k, (k < pw_K o)%nat -> is_mat d d (nth k Sig no_mat) /\ forall i j, (i < d)%nat -> (j < d)%nat ->
      ent (nth k Sig no_mat) i j
      = Sum (n_samples endog - P) (fun t => if Z.eqb (nth t labels (-1)%Z) (Z.of_nat k) then ent r t i * ent r t j else 0)
        / IZR (Z.of_nat (count_occ Z.eq_dec labels (Z.of_nat k)) - Z.of_nat (pw_p o * d) - (if pw_trend o then 1 else 0)
               - Z.of_nat (pw_s o * n_factors exog)).
Proof.
  intros C po o endog exog o' labels Hs HU H P d. destruct (fit_facts_ok po Hs _ _ _ _ _ HU H) as (_ & _ & _ & _ & _ & y & x & r & Sig & F). pose proof F as (SX & Ey & _ & Er & Sr & ES & LS & FK & F0).
  exists r, Sig. split; [exact Er|]. split; [exact ES|]. split; [exact LS|]. intros k Hk. destruct (FK k Hk) as (LL & params & _ & _ & CO). destruct CO as (_ & _ & _ & c4 & c5 & c6). cbn [fi_residuals fi_Sigma_u] in *.
  pose proof (targets_spec _ endog y Ey) as (Y1 & Y2 & _). rewrite Y2 in c4, c5, c6. split; [exact c5|]. intros i j Hi Hj. rewrite c6 by assumption. rewrite masked_count. fold P in LL. rewrite LL. fold d.
  rewrite (Nat.mul_comm (n_factors exog)). f_equal. apply Sum_ext; intros t Ht. destruct (Z.eqb_spec (nth t labels (-1)%Z) (Z.of_nat k)) as [E|E]; [|reflexivity].
  assert (Lt : labelled labels t k). { unfold labelled. rewrite <- E. apply nth_error_nth'. rewrite LL. exact Ht. } rewrite !c4 by assumption. reflexivity.
Qed.
Print Assumptions C55_covariance.

(** ** C56: two-dimensional data with one column are always rejected *)
Theorem C56_single_column_rejected : forall (T C : Type) (N : Num T) (po : pw_oracles T C) o (M : mat T) exog,
  nc M = 1%nat -> pw_fit_transform po o (A2 M) exog = Raise ValueError /\ pw_fit po o (A2 M) exog = Raise ValueError.
Proof.
  intros T C N po o M exog HM. enough (E : pw_fit_transform po o (A2 M) exog = Raise ValueError) by (split; [exact E | unfold pw_fit; rewrite E; reflexivity]).
  unfold pw_fit_transform. cbn [targets]. rewrite HM. change (Nat.eqb 1 1) with true. cbv iota.
  destruct (stack_predictors (pw_p o) (pw_s o) (A2 M) exog) as [x|e] eqn:E; [reflexivity|]. cbn [bind].
  set (P := Nat.max (pw_p o) (pw_s o)). destruct (Nat.ltb_spec (n_samples (A2 M)) P) as [L|L].
  - rewrite stack_predictors_raise in E by (left; exact L). injection E as <-. reflexivity.
  - destruct exog as [u|]; [|destruct (stack_predictors_ok (pw_p o) (pw_s o) (A2 M) None L ltac:(discriminate)) as (x & E' & _); congruence].
    destruct (Nat.eq_dec (pw_s o) 0) as [S0|S0]; [|destruct (Nat.eq_dec (n_samples u - P) (n_samples (A2 M) - P)) as [F|F]; [|destruct (Nat.eq_dec (n_samples u - P) 1) as [G|G]]].
    + destruct (stack_predictors_ok (pw_p o) (pw_s o) (A2 M) (Some u) L) as (x & E' & _); [lia | congruence].
    + destruct (stack_predictors_ok (pw_p o) (pw_s o) (A2 M) (Some u) L) as (x & E' & _); [intros u' [= <-] _; left; exact F | congruence].
    + destruct (stack_predictors_ok (pw_p o) (pw_s o) (A2 M) (Some u) L) as (x & E' & _); [intros u' [= <-] _; right; exact G | congruence].
    + rewrite stack_predictors_raise in E; [injection E as <-; reflexivity|]. right. exists u. split; [reflexivity|]. split; [lia|]. intros [?|?]; contradiction.
Qed.
Print Assumptions C56_single_column_rejected.
(** the same data as a one-dimensional array, and every array with another number of columns, reach the
    clusterer whenever there are enough samples *)
Theorem C56_others_reach_clusterer : forall (T C : Type) (N : Num T) (po : pw_oracles T C) o endog exog,
  (match endog with A1 _ => True | A2 M => nc M <> 1%nat end) ->
  (Nat.max (pw_p o) (pw_s o) <= n_samples endog)%nat -> (forall u, exog = Some u -> n_samples u = n_samples endog) ->
  exists z, (forall e, po_cluster po (pw_calls o) z = Raise e -> pw_fit_transform po o endog exog = Raise e)
    /\ nr z = (n_samples endog - Nat.max (pw_p o) (pw_s o))%nat
    /\ nc z = (pw_p o * n_features endog + pw_s o * n_factors exog + n_features endog)%nat.
Proof.
  intros T C N po o endog exog HE HP HU. set (P := Nat.max (pw_p o) (pw_s o)) in *. destruct (stack_predictors_ok (pw_p o) (pw_s o) endog exog HP) as (x & E & X1 & X2 & _).
  { intros u Eu _. left. rewrite (HU u Eu). reflexivity. }
  assert (Ey : exists y, targets P endog = Some y). { destruct endog as [v|M]; cbn [targets]; [eauto|]. destruct (Nat.eqb_spec (nc M) 1); [contradiction | eauto]. }
  destruct Ey as (y & Ey). pose proof (targets_spec P endog y Ey) as (Y1 & Y2 & _).
  unfold pw_fit_transform. fold P. rewrite E. cbn [bind]. rewrite Ey. unfold hstack2. fold P in X1. rewrite X1, Y1, Nat.eqb_refl. cbn [negb bind]. eexists. split; [|split].
  - intros e Ee. rewrite Ee. reflexivity.
  - reflexivity.
  - cbn [mbuild nc]. rewrite X2, Y2. reflexivity.
Qed.
Print Assumptions C56_others_reach_clusterer.

(** ** C65: each local model minimises the squared forecast errors over the samples labelled with it *)
Theorem C65_components_optimal : forall (C : Type) (po : pw_oracles R C) o endog exog o' labels,
  lstsq_shape (po_lstsq po) -> lstsq_minimises (po_lstsq po) ->
  (forall u, exog = Some u -> n_samples u = n_samples endog) ->
  pw_fit_transform po o endog exog = Ok (o', labels) ->
  let P := Nat.max (pw_p o) (pw_s o) in
  forall k, (k < pw_K o)%nat -> forall mu A B, (pw_trend o = false -> forall f, mu f = 0) ->
    component_error P endog labels k
      (pw_forecast (pw_p o) (pw_s o) endog exog (reported_mu (pw_trend o) (pw_mu o') k) (reported_stack (pw_A o') k) (reported_stack (pw_B o') k))
    <= component_error P endog labels k (pw_forecast (pw_p o) (pw_s o) endog exog mu A B).
Proof.
  intros C po o endog exog o' labels Hs Hm HU H P k Hk mu A B Hmu. subst P. destruct (fit_facts_ok po Hs _ _ _ _ _ HU H) as (_ & _ & _ & _ & _ & y & x & r & Sig & F). pose proof F as (SX & Ey & _ & _ & _ & _ & _ & FK & _).
  destruct (FK k Hk) as (LL & params & EP & SP & CO). pose proof (targets_spec _ endog y Ey) as (_ & Y2 & _). pose proof SX as (_ & X2 & _).
  set (d := n_features endog) in *. set (e := n_factors exog) in *.
  set (q := mbuild (off (pw_trend o) + nc x) d (fun i f =>
     if Nat.ltb i (off (pw_trend o)) then mu f
     else let i := (i - off (pw_trend o))%nat in
       if Nat.ltb i (pw_p o * d) then ent (nth (i / d) A no_mat) f (i mod d) else ent (nth ((i - pw_p o * d) / e) B no_mat) f ((i - pw_p o * d) mod e))).
  rewrite <- (regression_component po o endog exog o' labels y x r Sig k params (pw_forecast (pw_p o) (pw_s o) endog exog (reported_mu (pw_trend o) (pw_mu o') k) (reported_stack (pw_A o') k) (reported_stack (pw_B o') k)) F LL (fun t f Ht Hf => explained_reported po o endog exog o' labels y x r Sig k params t f F CO Ht Hf)).
  rewrite <- (regression_component po o endog exog o' labels y x r Sig k q (pw_forecast (pw_p o) (pw_s o) endog exog mu A B) F LL).
  - apply (Hm _ _ _ EP). rewrite regressors_nc. change (nc (take_rows (masked labels k) y)) with (nc y). rewrite Y2. apply is_mat_mbuild.
  - intros t f Ht Hf. set (p := pw_p o) in *. set (s := pw_s o) in *. destruct (explained_row p s endog exog x (pw_trend o) q t f SX Ht) as [-> | O]; [|fold d in O; lia]. apply pw_forecast_ext; fold d e.
    + destruct (pw_trend o) eqn:ET; [|symmetry; apply Hmu; reflexivity]. unfold q. rewrite ent_mbuild by (cbn [off]; lia). reflexivity.
    + intros tau j Htau Hj. fold d in Hj. pose proof (lag_bound p d tau j Htau Hj). rewrite nth_tab by exact Htau. rewrite ent_mbuild by assumption. unfold q. rewrite ent_mbuild by lia.
      destruct (Nat.ltb_spec (off (pw_trend o) + (tau * d + j)) (off (pw_trend o))); [lia|]. replace (off (pw_trend o) + (tau * d + j) - off (pw_trend o))%nat with (tau * d + j)%nat by lia. cbv zeta.
      destruct (Nat.ltb_spec (tau * d + j) (p * d)); [|lia]. destruct (div_grid d tau j Hj) as [-> ->]. reflexivity.
    + intros tau j Htau Hj. fold e in Hj. pose proof (lag_bound s e tau j Htau Hj). rewrite nth_tab by exact Htau. rewrite ent_mbuild by assumption. unfold q. rewrite ent_mbuild by lia.
      destruct (Nat.ltb_spec (off (pw_trend o) + (p * d + (tau * e + j))) (off (pw_trend o))); [lia|]. replace (off (pw_trend o) + (p * d + (tau * e + j)) - off (pw_trend o))%nat with (p * d + (tau * e + j))%nat by lia. cbv zeta.
      destruct (Nat.ltb_spec (p * d + (tau * e + j)) (p * d)); [lia|]. replace (p * d + (tau * e + j) - p * d)%nat with (tau * e + j)%nat by lia. destruct (div_grid e tau j Hj) as [-> ->]. reflexivity.
Qed.
Print Assumptions C65_components_optimal.

(** two local models y_t = a y_{t-1} fitted to 1, 2, 4, 1, 3, 9; the last sample has a label out of range *)
Definition ep_oracles : pw_oracles R unit :=
  mk_pwo (fun _ _ => Ok [0; 0; 1; 1; 7]%Z) (fun _ _ _ => Ok tt) (fun _ _ => Ok [0; 0; 1; 1; 7]%Z) ev_lstsq.
Definition ep_obj : pwvarx R unit := pw_new 2 1 0 false None.
Definition ep_data : arr R := A1 [1; 2; 4; 1; 3; 9].
(** with any least-squares routine that answers [a] and [b] for the two subsets *)
Lemma ep_fit_gen (L : mat R -> mat R -> res (mat R)) (a b : R) :
  L (mkmat 2 1 [[1]; [2]]) (mkmat 2 1 [[2]; [4]]) = Ok (mkmat 1 1 [[a]]) ->
  L (mkmat 2 1 [[4]; [1]]) (mkmat 2 1 [[1]; [3]]) = Ok (mkmat 1 1 [[b]]) ->
  exists o', pw_fit_transform (mk_pwo (fun _ _ => Ok [0; 0; 1; 1; 7]%Z) (fun _ _ _ => Ok tt) (fun _ _ => Ok [0; 0; 1; 1; 7]%Z) L) ep_obj ep_data None = Ok (o', [0; 0; 1; 1; 7]%Z)
  /\ ent (nth 0 (reported_stack (pw_A o') 0) no_mat) 0 0 = a /\ ent (nth 0 (reported_stack (pw_A o') 1) no_mat) 0 0 = b /\ pw_mu o' = None.
Proof.
  intros E0 E1. set (labels := [0; 0; 1; 1; 7]%Z). set (po := mk_pwo _ _ _ _). set (y := mkmat 5 1 [[2]; [4]; [1]; [3]; [9]]). set (x := mkmat 5 1 [[1]; [2]; [4]; [1]; [3]]).
  assert (F0 : forall st, exists st', fit_component po 1 0 false 0 y x labels st 0 = Ok st' /\ fi_mu st' = fi_mu st
    /\ fi_A st' = option_map (M_furthest.set_nth 0 (swapaxes12 (reshape3 (mslice 0 1 (mkmat 1 1 [[a]])) 1 1 1))) (fi_A st)).
  { intros st. unfold fit_component. change (take_rows (masked labels 0) x) with (mkmat 2 1 [[1]; [2]]). change (take_rows (masked labels 0) y) with (mkmat 2 1 [[2]; [4]]).
    cbn [po_lstsq po]. rewrite E0. cbn [bind]. eexists. split; [reflexivity|]. split; reflexivity. }
  assert (F1 : forall st, exists st', fit_component po 1 0 false 0 y x labels st 1 = Ok st' /\ fi_mu st' = fi_mu st
    /\ fi_A st' = option_map (M_furthest.set_nth 1 (swapaxes12 (reshape3 (mslice 0 1 (mkmat 1 1 [[b]])) 1 1 1))) (fi_A st)).
  { intros st. unfold fit_component. change (take_rows (masked labels 1) x) with (mkmat 2 1 [[4]; [1]]). change (take_rows (masked labels 1) y) with (mkmat 2 1 [[1]; [3]]).
    cbn [po_lstsq po]. rewrite E1. cbn [bind]. eexists. split; [reflexivity|]. split; reflexivity. }
  unfold pw_fit_transform. change (stack_predictors (pw_p ep_obj) (pw_s ep_obj) ep_data None) with (@Ok (mat R) x). cbn [bind].
  change (targets (Nat.max (pw_p ep_obj) (pw_s ep_obj)) ep_data) with (Some y). cbn [bind hstack2 Nat.eqb negb nr x y po po_cluster po_train po_classify]. fold labels.
  change (fit_var_model po ep_obj y x labels) with (let! s0 := fit_component po 1 0 false 0 y x labels
    (mk_fitted None (Some (repeat (repeat (mzeros 1 1) 1) 2)) None (repeat (mzeros 1 1) 2) (mzeros 5 1)) 0 in
    let! s1 := fit_component po 1 0 false 0 y x labels s0 1 in Ok s1).
  destruct (F0 (mk_fitted None (Some (repeat (repeat (mzeros 1 1) 1) 2)) None (repeat (mzeros 1 1) 2) (mzeros 5 1))) as (s0 & -> & M0 & A0). cbn [bind].
  destruct (F1 s0) as (s1 & -> & M1 & A1). cbn [bind]. eexists. split; [reflexivity|]. cbn [pw_A pw_mu]. rewrite A1, M1, A0, M0. repeat split; reflexivity.
Qed.
Lemma ep_fit : exists o', pw_fit_transform ep_oracles ep_obj ep_data None = Ok (o', [0; 0; 1; 1; 7]%Z)
  /\ ent (nth 0 (reported_stack (pw_A o') 0) no_mat) 0 0 = 2 /\ ent (nth 0 (reported_stack (pw_A o') 1) no_mat) 0 0 = 7 / 17 /\ pw_mu o' = None.
Proof.
  apply ep_fit_gen; match goal with |- ev_lstsq ?X ?Y = _ => change (ev_lstsq X Y) with (Ok (mbuild 1 1 (fun _ f => Sum 2 (fun t => ent X t 0 * ent Y t f) / Sum 2 (fun t => ent X t 0 * ent X t 0)))) end;
    unfold mbuild, tab; cbn [seq map Sum]; do 4 f_equal; unfold ent; cbn [dat nth]; field.
Qed.
Example C55_C65_example : lstsq_shape (po_lstsq ep_oracles) /\ lstsq_minimises (po_lstsq ep_oracles)
  /\ exists o' r, pw_fit_transform ep_oracles ep_obj ep_data None = Ok (o', [0; 0; 1; 1; 7]%Z)
     /\ pw_residuals o' = Some r /\ ent r 1 0 = 0 /\ ent r 2 0 = - 11 / 17 /\ ent r 4 0 = 0.
Proof.
  split; [exact ev_lstsq_shape|]. split; [exact ev_lstsq_minimises|]. destruct ep_fit as (o' & E & A0 & A1 & M0). exists o'.
  destruct (C55_residuals unit ep_oracles ep_obj ep_data None o' _ ev_lstsq_shape ltac:(discriminate) E) as (r & Er & _ & G). exists r. split; [exact E|]. split; [exact Er|].
  split; [|split; [|apply (G 4%nat 0%nat); [cbn; lia | cbn; lia | intros k Hk; destruct k as [|[|k]]; cbn in Hk; unfold labelled; cbn; try lia; discriminate]]].
  - rewrite (proj1 (G 1%nat 0%nat ltac:(cbn; lia) ltac:(cbn; lia)) 0%nat ltac:(cbn; lia) eq_refl). rewrite M0. unfold pw_forecast. cbn [ep_obj pw_new pw_p pw_s Nat.max Nat.add n_features ep_data Sum reported_mu]. rewrite A0. cbn. lra.
  - rewrite (proj1 (G 2%nat 0%nat ltac:(cbn; lia) ltac:(cbn; lia)) 1%nat ltac:(cbn; lia) eq_refl). rewrite M0. unfold pw_forecast. cbn [ep_obj pw_new pw_p pw_s Nat.max Nat.add n_features ep_data Sum reported_mu]. rewrite A1. cbn. lra.
Qed.
Example C56_example : nc (mkmat 2 1 [[1]; [2]]%Z) = 1%nat
  /\ match @pw_fit_transform Z unit Num_Z_demo (mk_pwo (fun _ _ => Ok [0; 0]%Z) (fun _ _ _ => Ok tt) (fun _ _ => Ok [0; 0]%Z) (fun _ _ => Ok (mkmat 2 1 [[1]; [1]]%Z)))
             (pw_new 1 1 0 true None) (A1 [1; 2; 4]%Z) None with
     | Ok (o', labels) => labels = [0; 0]%Z /\ pw_residuals o' = Some (mkmat 2 1 [[0]; [1]]%Z) | Raise _ => False end.
Proof. vm_compute. auto. Qed.

(** ** C66: transform and repeated fits *)
(** transform of the fitted data gives the labels that fit_transform returned *)
Theorem C66_transform_training : forall (T C : Type) (N : Num T) (po : pw_oracles T C) o endog exog o' labels,
  pw_fit_transform po o endog exog = Ok (o', labels) -> pw_transform po o' endog exog = Ok labels.
Proof.
  intros T C N po o endog exog o' labels H. unfold pw_fit_transform in H. apply bind_ok in H. destruct H as (x & Ex & H).
  destruct (targets _ endog) as [y|] eqn:Ey; [|discriminate]. apply bind_ok in H. destruct H as (z & Ez & H). apply bind_ok in H. destruct H as (cl & Ecl & H). apply bind_ok in H. destruct H as (c & Ec & H).
  apply bind_ok in H. destruct H as (lab & Elab & H). apply bind_ok in H. destruct H as (fi & Efi & H). injection H as <- <-. unfold pw_transform. cbn [pw_p pw_s pw_classifier]. rewrite Ex. exact Elab.
Qed.
Print Assumptions C66_transform_training.
(** without a classifier, transform of enough data before the first fit raises AttributeError *)
Theorem C66_before_fit : forall (T C : Type) (N : Num T) (po : pw_oracles T C) K p s trend endog exog,
  (Nat.max p s <= n_samples endog)%nat -> (forall u, exog = Some u -> n_samples u = n_samples endog) ->
  pw_transform po (pw_new K p s trend None) endog exog = Raise AttributeError.
Proof.
  intros T C N po K p s trend endog exog HP HU. unfold pw_transform, pw_new. cbn [pw_p pw_s pw_classifier].
  destruct (stack_predictors_ok p s endog exog HP) as (x & E & _); [intros u Eu _; left; rewrite (HU u Eu); reflexivity|]. rewrite E. reflexivity.
Qed.
Print Assumptions C66_before_fit.
(** a fit does not depend on the coefficients of earlier fits; it replaces them all except that B
    is replaced only by a fit with lagged external factors *)
Theorem C66_refit : forall (T C : Type) (N : Num T) (po : pw_oracles T C) o1 o2 endog exog,
  pw_K o1 = pw_K o2 -> pw_p o1 = pw_p o2 -> pw_s o1 = pw_s o2 -> pw_trend o1 = pw_trend o2 ->
  pw_calls o1 = pw_calls o2 -> pw_classifier o1 = pw_classifier o2 ->
  match pw_fit_transform po o1 endog exog, pw_fit_transform po o2 endog exog with
  | Raise e1, Raise e2 => e1 = e2
  | Ok (o1', l1), Ok (o2', l2) =>
      l1 = l2 /\ pw_residuals o1' = pw_residuals o2' /\ pw_Sigma_u o1' = pw_Sigma_u o2' /\ pw_cluster_labels o1' = pw_cluster_labels o2'
      /\ pw_classifier o1' = pw_classifier o2'
      /\ (if pw_trend o1 then pw_mu o1' = pw_mu o2' else pw_mu o1' = pw_mu o1 /\ pw_mu o2' = pw_mu o2)
      /\ (if Nat.ltb 0 (pw_p o1) then pw_A o1' = pw_A o2' else pw_A o1' = pw_A o1 /\ pw_A o2' = pw_A o2)
      /\ (if Nat.ltb 0 (pw_s o1 * n_factors exog) then pw_B o1' = pw_B o2' else pw_B o1' = pw_B o1 /\ pw_B o2' = pw_B o2)
  | _, _ => False
  end.
Proof. intros. apply refit_sim; assumption. Qed.
Print Assumptions C66_refit.
(** in particular B of an earlier fit stays in place after a fit without external factors *)
Theorem C66_stale_factor_coefficients : forall (T C : Type) (N : Num T) (po : pw_oracles T C) o endog o' labels,
  pw_fit_transform po o endog None = Ok (o', labels) -> pw_B o' = pw_B o.
Proof.
  intros T C N po o endog o' labels H. pose proof (refit_sim po o o endog None eq_refl eq_refl eq_refl eq_refl eq_refl eq_refl) as S. rewrite H in S. destruct S as (_ & _ & _ & _ & _ & _ & _ & S).
  cbn [n_factors] in S. rewrite Nat.mul_0_r in S. apply S.
Qed.
Print Assumptions C66_stale_factor_coefficients.
Definition ep_Z : pw_oracles Z unit :=
  mk_pwo (fun _ _ => Ok [0; 0]%Z) (fun _ _ _ => Ok tt) (fun _ _ => Ok [0; 0]%Z)
    (fun X Y => Ok (mbuild (nc X) (nc Y) (fun i _ => Z.of_nat (S i)))).
Example C66_example : match @pw_fit_transform Z unit Num_Z_demo ep_Z (pw_new 1 1 1 true None) (A1 [1; 2; 4]%Z) (Some (A1 [5; 6; 7]%Z)) with
  | Ok (o', labels) => pw_B o' = Some [[mkmat 1 1 [[3]]]]%Z
      /\ match @pw_fit_transform Z unit Num_Z_demo ep_Z o' (A1 [1; 2; 4]%Z) None with
         | Ok (o'', _) => pw_B o'' = Some [[mkmat 1 1 [[3]]]]%Z /\ pw_A o'' = Some [[mkmat 1 1 [[2]]]]%Z | Raise _ => False end
  | Raise _ => False end.
Proof. vm_compute. auto. Qed.
