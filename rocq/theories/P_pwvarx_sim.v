(** A piecewise VARX fit does not read the results of earlier fits. *)
From Coq Require Import List Arith ZArith Bool Lia Reals.
From Verif Require Import Num Mat Py Spec_pwvarx M_furthest M_varx M_pwvarx P_pwvarx.
Import ListNotations.

Lemma filter_count (labels : list Z) (z : Z) : forall (pre : list Z), length (filter (fun t => Z.eqb (nth t (pre ++ labels) (-1)%Z) z) (seq (length pre) (length labels))) = count_occ Z.eq_dec labels z.
Proof.
  induction labels as [|a labels IH]; intros pre; [reflexivity|]. cbn [length seq filter count_occ].
  assert (Q : forall t, nth t (pre ++ a :: labels) (-1)%Z = nth t ((pre ++ [a]) ++ labels) (-1)%Z) by (intros; rewrite <- app_assoc; reflexivity).
  assert (IH' := IH (pre ++ [a])). rewrite app_length in IH'. cbn [length] in IH'. replace (length pre + 1) with (S (length pre)) in IH' by lia.
  rewrite <- IH'. rewrite app_nth2 by lia. rewrite Nat.sub_diag. cbn [nth].
  assert (F : filter (fun t => Z.eqb (nth t (pre ++ a :: labels) (-1)%Z) z) (seq (S (length pre)) (length labels)) = filter (fun t => Z.eqb (nth t ((pre ++ [a]) ++ labels) (-1)%Z) z) (seq (S (length pre)) (length labels))).
  { apply filter_ext. intros t. rewrite Q. reflexivity. }
  destruct (Z.eqb_spec a z), (Z.eq_dec a z); try contradiction; cbn [length]; rewrite F; reflexivity.
Qed.
Lemma masked_count labels k : length (masked labels k) = count_occ Z.eq_dec labels (Z.of_nat k).
Proof. exact (filter_count labels (Z.of_nat k) []). Qed.

Section Sim.
  Context {T C : Type} {N : Num T}.
  Variable po : pw_oracles T C.
  Variables (p s e : nat) (trend : bool).
  (** same values in every field that the loop assigns *)
  Definition sim (a b : @fitted T) : Prop :=
    (trend = true -> fi_mu a = fi_mu b) /\ (0 < p -> fi_A a = fi_A b) /\ (0 < s * e -> fi_B a = fi_B b) /\ fi_Sigma_u a = fi_Sigma_u b /\ fi_residuals a = fi_residuals b.
  Definition idle (a b : @fitted T) : Prop :=
    (trend = false -> fi_mu b = fi_mu a) /\ (p = 0 -> fi_A b = fi_A a) /\ (s * e = 0 -> fi_B b = fi_B a).
  Definition both (a b : @fitted T) (x y : res (@fitted T)) : Prop :=
    match x, y with Ok a', Ok b' => sim a' b' /\ idle a a' /\ idle b b' | Raise x', Raise y' => x' = y' | _, _ => False end.
  Lemma component_sim y x labels a b k : sim a b -> both a b (fit_component po p s trend e y x labels a k) (fit_component po p s trend e y x labels b k).
  Proof.
    intros (S1 & S2 & S3 & S4 & S5). unfold fit_component. destruct (po_lstsq po _ _) as [params|ex]; cbn [bind]; [|reflexivity].
    unfold both, sim, idle. cbn [fi_mu fi_A fi_B fi_Sigma_u fi_residuals]. rewrite S4, S5. split; [|split].
    - split; [intros E; rewrite E, (S1 E); reflexivity|]. split; [intros E; rewrite (S2 E); reflexivity|]. split; [intros E; rewrite (S3 E); reflexivity|]. split; reflexivity.
    - split; [intros ->; reflexivity|]. split; [intros ->; reflexivity|]. intros E. destruct (Nat.ltb_spec 0 e), (Nat.ltb_spec 0 s); cbn [andb]; try reflexivity. nia.
    - split; [intros ->; reflexivity|]. split; [intros ->; reflexivity|]. intros E. destruct (Nat.ltb_spec 0 e), (Nat.ltb_spec 0 s); cbn [andb]; try reflexivity. nia.
  Qed.
  Lemma components_sim y x labels ks : forall a b, sim a b -> both a b (fit_components po p s trend e y x labels ks a) (fit_components po p s trend e y x labels ks b).
  Proof.
    induction ks as [|k ks IH]; intros a b S; cbn [fit_components].
    - split; [exact S|]. split; (split; [reflexivity|]; split; reflexivity).
    - pose proof (component_sim y x labels a b k S) as Q. destruct (fit_component po p s trend e y x labels a k) as [a'|], (fit_component po p s trend e y x labels b k) as [b'|]; cbn [both bind] in *; try contradiction; [|exact Q].
      destruct Q as (Q1 & (i1 & i2 & i3) & (j1 & j2 & j3)). specialize (IH a' b' Q1).
      destruct (fit_components po p s trend e y x labels ks a') as [a''|], (fit_components po p s trend e y x labels ks b') as [b''|]; cbn [both] in *; try contradiction; [|exact IH].
      destruct IH as (R1 & (I1 & I2 & I3) & (J1 & J2 & J3)). split; [exact R1|]. split.
      + split; [intros E; rewrite I1, i1 by exact E; reflexivity|]. split; [intros E; rewrite I2, i2 by exact E; reflexivity | intros E; rewrite I3, i3 by exact E; reflexivity].
      + split; [intros E; rewrite J1, j1 by exact E; reflexivity|]. split; [intros E; rewrite J2, j2 by exact E; reflexivity | intros E; rewrite J3, j3 by exact E; reflexivity].
  Qed.
End Sim.

Lemma refit_sim {T C : Type} {N : Num T} (po : pw_oracles T C) o1 o2 endog exog :
  pw_K o1 = pw_K o2 -> pw_p o1 = pw_p o2 -> pw_s o1 = pw_s o2 -> pw_trend o1 = pw_trend o2 ->
  pw_calls o1 = pw_calls o2 -> pw_classifier o1 = pw_classifier o2 ->
  match pw_fit_transform po o1 endog exog, pw_fit_transform po o2 endog exog with
  | Raise e1, Raise e2 => e1 = e2
  | Ok (o1', l1), Ok (o2', l2) =>
      l1 = l2 /\ pw_residuals o1' = pw_residuals o2' /\ pw_Sigma_u o1' = pw_Sigma_u o2' /\ pw_cluster_labels o1' = pw_cluster_labels o2'
      /\ pw_classifier o1' = pw_classifier o2'
      /\ (if pw_trend o1 then pw_mu o1' = pw_mu o2' else pw_mu o1' = pw_mu o1 /\ pw_mu o2' = pw_mu o2)
      /\ (if Nat.ltb 0 (pw_p o1) then pw_A o1' = pw_A o2' else pw_A o1' = pw_A o1 /\ pw_A o2' = pw_A o2)
      /\ (if Nat.ltb 0 (pw_s o1 * n_factors exog) then pw_B o1' = pw_B o2' else pw_B o1' = pw_B o1 /\ pw_B o2' = pw_B o2)
  | _, _ => False
  end.
Proof.
  intros HK Hp Hs Ht Hc Hf. unfold pw_fit_transform. rewrite <- Hp, <- Hs, <- Hc, <- Hf, <- HK, <- Ht. set (P := Nat.max (pw_p o1) (pw_s o1)).
  destruct (stack_predictors (pw_p o1) (pw_s o1) endog exog) as [x|] eqn:Ex; cbn [bind]; [|reflexivity].
  destruct (targets P endog) as [y|] eqn:Ey; [|reflexivity]. destruct (hstack2 x y) as [z|]; cbn [bind]; [|reflexivity]. destruct (po_cluster po _ z) as [cl|]; cbn [bind]; [|reflexivity].
  destruct (po_train po _ x cl) as [c|]; cbn [bind]; [|reflexivity]. destruct (po_classify po c x) as [lab|]; cbn [bind]; [|reflexivity].
  pose proof (targets_spec P endog y Ey) as (Y1 & Y2 & _). pose proof (stack_predictors_inv _ _ _ _ _ Ex) as [I1 I2].
  destruct (stack_predictors_ok (pw_p o1) (pw_s o1) endog exog I1 I2) as (x' & Ex' & X1 & X2 & _). rewrite Ex in Ex'. injection Ex' as <-.
  unfold fit_var_model. rewrite <- Hp, <- Hs, <- HK, <- Ht, X2, Y2.
  destruct (Nat.ltb_spec (pw_p o1 * n_features endog + pw_s o1 * n_factors exog) (pw_p o1 * n_features endog)); [lia|].
  replace (pw_p o1 * n_features endog + pw_s o1 * n_factors exog - pw_p o1 * n_features endog) with (pw_s o1 * n_factors exog) by lia.
  destruct (negb _ && _); cbn [bind]; [reflexivity|].
  set (e' := if Nat.ltb 0 (pw_s o1 * n_factors exog) then (pw_s o1 * n_factors exog) / pw_s o1 else 0).
  assert (He : pw_s o1 * e' = pw_s o1 * n_factors exog).
  { unfold e'. destruct (Nat.ltb_spec 0 (pw_s o1 * n_factors exog)); [|nia]. rewrite (Nat.mul_comm (pw_s o1) (n_factors exog)), Nat.div_mul by nia. lia. }
  set (a := mk_fitted _ _ _ _ _). set (b := mk_fitted _ _ _ _ _).
  assert (S : sim (pw_p o1) (pw_s o1) e' (pw_trend o1) a b).
  { unfold sim, a, b. cbn [fi_mu fi_A fi_B fi_Sigma_u fi_residuals]. split; [intros ->; reflexivity|]. split; [intros L; destruct (Nat.ltb_spec 0 (pw_p o1)); [reflexivity | lia]|].
    split; [intros L; destruct (Nat.ltb_spec 0 (pw_s o1 * n_factors exog)); [reflexivity | lia]|]. split; reflexivity. }
  pose proof (components_sim po (pw_p o1) (pw_s o1) e' (pw_trend o1) y x lab (seq 0 (pw_K o1)) a b S) as Q.
  destruct (fit_components po (pw_p o1) (pw_s o1) (pw_trend o1) e' y x lab (seq 0 (pw_K o1)) a) as [a'|], (fit_components po (pw_p o1) (pw_s o1) (pw_trend o1) e' y x lab (seq 0 (pw_K o1)) b) as [b'|]; cbn [both bind] in *; try contradiction; [|exact Q].
  destruct Q as ((q1 & q2 & q3 & q4 & q5) & (i1 & i2 & i3) & (j1 & j2 & j3)). cbn [pw_residuals pw_Sigma_u pw_cluster_labels pw_classifier pw_mu pw_A pw_B].
  split; [reflexivity|]. split; [congruence|]. split; [congruence|]. split; [reflexivity|]. split; [reflexivity|]. unfold a, b in i1, i2, i3, j1, j2, j3. cbn [fi_mu fi_A fi_B] in i1, i2, i3, j1, j2, j3. split; [|split].
  - destruct (pw_trend o1) eqn:E; [apply q1; reflexivity | split; [apply i1 | apply j1]; reflexivity].
  - destruct (Nat.ltb_spec 0 (pw_p o1)); [apply q2; assumption | split; [apply i2 | apply j2]; lia].
  - destruct (Nat.ltb_spec 0 (pw_s o1 * n_factors exog)); [apply q3; lia | split; [apply i3 | apply j3]; lia].
Qed.
