(** Property theorems C47 - C50, C63 and C64, and the FEMBVVARX parts of C26, C41, C45 and C58. *)
From Coq Require Import List Arith Lia ZArith Reals Lra.
From Verif Require Import Num Mat Py Lp M_random M_iter M_gpnh M_fembv M_varx Spec Spec_fembv Spec_varx.
From Verif Require Import P_lin P_random P_mat P_iter P_gpnh_run P_fembv P_fembv_upd P_fembv_run P_varx P_varx_run P_varx_sim Props_base Props_gpnh Props_fembv.
Import ListNotations.
Local Open Scope R_scope.

(** ** C47 (any arithmetic) *)
Theorem C47_design_matrix : forall (T : Type) (N : Num T) (y : mat T) p u s,
  (0 < nr y)%nat -> (0 < nc y)%nat -> (forall U, u = Some U -> nr U = nr y /\ (0 < nc U)%nat) ->
  let s' := match u with Some _ => s | None => 0%nat end in        (* s is not read without external factors *)
  let P := Nat.max p s' in
  (P <= nr y)%nat ->
  exists m, varx_new y (PInt (Z.of_nat p)) u (PInt (Z.of_nat s)) = Ok m
    /\ vx_p m = p /\ vx_s m = s' /\ vx_y m = y /\ vx_u m = u
    /\ nr (vx_z m) = (nr y - P)%nat
    /\ nc (vx_z m) = (1 + p * nc y + match u with Some U => s * nc U + nc U | None => 0 end)%nat /\ wf (vx_z m)
    /\ forall t, (t < nr y - P)%nat ->
         mget (vx_z m) t 0 = n1
         /\ (forall tau f, (1 <= tau <= p)%nat -> (f < nc y)%nat -> mget (vx_z m) t (1 + (tau - 1) * nc y + f) = mget y (P + t - tau) f)
         /\ forall U, u = Some U ->
              (forall tau f, (1 <= tau <= s)%nat -> (f < nc U)%nat -> mget (vx_z m) t (1 + p * nc y + (tau - 1) * nc U + f) = mget U (P + t - tau) f)
              /\ (forall f, (f < nc U)%nat -> mget (vx_z m) t (1 + p * nc y + s * nc U + f) = mget U (P + t) f).
Proof.
  intros T N y p u s Hn Hd HU s' P HP.
  destruct (varx_new_cases y (PInt (Z.of_nat p)) u (PInt (Z.of_nat s))) as [(_ & m & p' & s1 & E1 & E2 & E3 & E4 & _ & F)|(C & _)].
  - injection E2 as E2. assert (p' = p) by lia. subst p'.
    assert (s1 = s') as ->. { unfold s'. destruct u as [U|]; [|apply E3; reflexivity]. assert (N0 : Some U <> None) by discriminate. apply E4 in N0. injection N0 as N0. lia. }
    destruct F as (F1 & F2 & F3 & F4 & (D1 & D2 & D3 & D4) & _). fold P in D1, D4. exists m. do 6 (split; [assumption|]).
    split; [rewrite D2; unfold n_exog, s'; destruct u; lia|]. split; [exact D3|]. intros t Ht. destruct (D4 t Ht) as (G1 & G2 & G3). split; [exact G1|]. split.
    + intros tau f Htau Hf. rewrite G2 by lia. f_equal. lia.
    + intros U EU. destruct (G3 U EU) as [G4 G5]. unfold s' in G4, G5. rewrite EU in G4, G5. split; [|exact G5]. intros tau f Htau Hf. rewrite G4 by lia. f_equal. lia.
  - exfalso. apply C. split; [exact Hn|]. split; [exact Hd|]. exists p. split; [reflexivity|]. unfold P, s' in HP. destruct u as [U|]; [|lia].
    destruct (HU U eq_refl) as [U1 U2]. split; [exact U1|]. split; [exact U2|]. exists s. auto.
Qed.
Print Assumptions C47_design_matrix.
(** every other set of arguments raises ValueError *)
Theorem C47_validation : forall (T : Type) (N : Num T) (y : mat T) (p : pyval T) u (s : pyval T),
  ~ ((0 < nr y)%nat /\ (0 < nc y)%nat /\ exists p', p = PInt (Z.of_nat p') /\
      match u with
      | None => (p' <= nr y)%nat
      | Some U => nr U = nr y /\ (0 < nc U)%nat /\ exists s', s = PInt (Z.of_nat s') /\ (Nat.max p' s' <= nr y)%nat
      end) ->
  varx_new y p u s = Raise ValueError.
Proof. intros T N y p u s H. destruct (varx_new_cases y p u s) as [(A & _)|(_ & E)]; [contradiction | exact E]. Qed.
Print Assumptions C47_validation.
(** two features, p = 2, one external factor with s = 1 *)
Definition evZ_y : mat Z := mkmat 4 2 [[1; 2]; [3; 4]; [5; 6]; [7; 8]]%Z.
Definition evZ_u : mat Z := mkmat 4 1 [[10]; [20]; [30]; [40]]%Z.
Example C47_example : match @varx_new Z Num_Z_demo evZ_y (PInt 2) (Some evZ_u) (PInt 1) with
  | Ok m => dat (vx_z m) = [[1; 3; 4; 1; 2; 20; 30]; [1; 5; 6; 3; 4; 30; 40]]%Z | Raise _ => False end.
Proof. vm_compute. reflexivity. Qed.

(** ** C48 *)
(** a model after any number of fits *)
Fixpoint varx_fits (lstsq : mat R -> mat R -> res (mat R)) inv (m : varx R) (ws : list (option (list R))) : res (varx R) :=
  match ws with
  | [] => Ok m
  | w :: rest => let! m' := varx_fit lstsq inv m w in varx_fits lstsq inv m' rest
  end.
Lemma fits_ok lstsq inv y p u s : lstsq_shape lstsq -> (u = None -> s = 0%nat) ->
  forall ws m m', local_ok y p u s m -> varx_fits lstsq inv m ws = Ok m' -> local_ok y p u s m'.
Proof.
  intros Hs Hu. induction ws as [|w ws IH]; intros m m' L E; cbn [varx_fits] in E; [injection E as <-; exact L|].
  apply bind_ok in E. destruct E as (m1 & E1 & E). destruct (fit_inv lstsq inv Hs _ _ _ _ _ _ _ L Hu E1) as (B & S & _ & _ & L' & _). eapply IH; eassumption.
Qed.
Lemma new_ok y p u s (m : varx R) : varx_new y p u s = Ok m -> local_ok y (vx_p m) u (vx_s m) m /\ (u = None -> vx_s m = 0%nat).
Proof.
  intros E. destruct (varx_new_cases y p u s) as [(_ & m1 & p' & s' & E1 & E2 & E3 & E4 & _ & F)|(_ & E1)]; rewrite E1 in E; [|discriminate].
  injection E as ->. apply fresh_ok in F. pose proof F as (F1 & F2 & _). rewrite F1, F2. auto.
Qed.
Theorem C48_residuals : forall lstsq inv y p u s m0 ws m w m', lstsq_shape lstsq ->
  varx_new y p u s = Ok m0 -> varx_fits lstsq inv m0 ws = Ok m -> varx_fit lstsq inv m w = Ok m' ->
  vx_p m' = vx_p m0 /\ vx_s m' = vx_s m0 /\ is_mat (nr y) (nc y) (vx_residuals m') /\
  forall t f, (t < nr y)%nat -> (f < nc y)%nat ->
    ent (vx_residuals m') t f
    = if Nat.ltb t (Nat.max (vx_p m0) (vx_s m0)) then 0
      else ent y t f - varx_forecast (vx_p m0) (vx_s m0) y u (vx_mu m') (reported_list (vx_A m')) (reported_list (vx_B m')) (reported_mat (vx_B0 m')) t f.
Proof.
  intros lstsq inv y p u s m0 ws m w m' Hs E0 E1 E2. destruct (new_ok _ _ _ _ _ E0) as [L0 Hu]. pose proof (fits_ok _ _ _ _ _ _ Hs Hu ws m0 m L0 E1) as L.
  destruct (fit_inv lstsq inv Hs _ _ _ _ _ _ _ L Hu E2) as (B & S & _ & SB & L' & F & ER & _).
  set (p0 := vx_p m0) in *. set (s0 := vx_s m0) in *.
  destruct L' as (H1 & H2 & H3 & H4 & _ & H6 & H7). split; [exact H1|]. split; [exact H2|]. split; [exact H6|].
  intros t f Ht Hf. destruct (Nat.ltb_spec t (Nat.max p0 s0)) as [Lt|Le]; [apply H7; exact Lt|].
  unfold errors_of in ER. rewrite H1, H2, H3, H4 in ER. replace t with (Nat.max p0 s0 + (t - Nat.max p0 s0))%nat by lia. rewrite ER by lia. f_equal.
  destruct L as (l1 & l2 & l3 & l4 & l5 & _).
  pose proof (forecast_fitted m B m' p0 s0 (Nat.max p0 s0 + (t - Nat.max p0 s0)) f F l1 l2) as FF. rewrite l3, l4 in FF. symmetry. apply FF; try exact Hf.
  - apply SB.
  - destruct SB as (SB & _). destruct l5 as (_ & l5 & _). lia.
Qed.
Print Assumptions C48_residuals.
(** the distances of a FEMBVVARX fit that updates the parameters are the squared errors of the reported
    mu[i], A[i], B0[i]; the cost returned is their weighted sum *)
Lemma varx_vok_start lstsq inv p k n d data u c old weights init g w g' : lstsq_shape lstsq -> inv_shape inv -> (0 < k)%nat -> is_mat n d data ->
  (forall W0, weights = Some W0 -> wf W0) ->
  fembv_initialize (varx_class lstsq inv (repeat (Z.of_nat p) k)) c k old data u weights init g = Ok (w, g') ->
  finv c (n - p) k (vok p k d data u) w /\ (rng_ok k g -> (forall W0, weights = Some W0 -> row_stochastic W0) -> row_stochastic (f_Gamma w)) /\ (p <= n)%nat.
Proof.
  intros Hs Hi Hk HX WW E. apply varx_start in E; [|rewrite repeat_length; lia | exact WW]. destruct E as ((G1 & _ & G3) & S0 & EI).
  destruct (initialize_vok lstsq inv p k n d data u Hs Hi Hk HX _ _ _ _ _ EI) as [V0 Hp]. pose proof HX as (x1 & _). rewrite x1, mem_max_eq in G1, G3 by exact Hk.
  split; [split; [exact G1 | split; [exact V0 | exact G3]]|]. split; [exact S0 | exact Hp].
Qed.
Theorem C48_components : forall lstsq inv solver (o : fembv R (vparams R)) p k n d data u weights init uw r W,
  lstsq_shape lstsq -> inv_shape inv -> is_mat n d data -> (p < n)%nat -> (forall W0, weights = Some W0 -> wf W0) ->
  fo_n_components o = PInt (Z.of_nat k) ->
  let memory := repeat (Z.of_nat p) k in
  fembv_fit_transform (varx_class lstsq inv memory) solver o data u weights init true uw = Ok (r, W) ->
  exists w', fo_ws (fr_obj r) = Some w' /\ f_Gamma w' = W /\ is_mat (n - p) k W
    /\ fr_cost r = clustering_cost W (varx_distance memory (f_params w'))
    /\ forall t i, (t < n - p)%nat -> (i < k)%nat ->
         ent (varx_distance memory (f_params w')) t i
         = Sum d (fun f => (ent data (p + t) f - varx_forecast p 0 data u
             (mrow (vp_mu (f_params w')) i)
             (nth i (match vp_A (f_params w') with Some A => A | None => [] end) []) []
             (nth i (match vp_B0 (f_params w') with Some B0 => B0 | None => [] end) no_mat) (p + t) f) ^ 2).
Proof.
  intros lstsq inv solver o p k n d data u weights init uw r W Hs Hi HX Hp WW Ho memory H.
  apply fembv_fit_inv in H. destruct H as (k' & m & tol & w & g' & w' & A1 & A2 & A3 & A4 & A5 & A6 & A7 & A8 & A9 & ->).
  rewrite Ho in A1. cbn in A1. injection A1 as A1. assert (k' = k) as -> by lia. clear A1.
  apply (varx_vok_start lstsq inv p k n d) in A6; try assumption. destruct A6 as (I0 & _ & _).
  pose proof (varx_keeps lstsq inv p k n d data u Hs Hi A2 HX) as HK. fold memory in HK.
  assert (Hn : (0 < n - p)%nat) by lia.
  assert (CE : fr_cost r = fembv_cost (varx_class lstsq inv memory) w').
  { unfold fembv_iterate in A7. apply (iterate_ok (fembv_cost (varx_class lstsq inv memory)) (fun _ => True)) in A7; auto. apply A7. }
  apply fembv_iterate_path in A7; [|exact A4]. destruct A7 as (N' & f & h & F0 & F1 & F2 & F3 & _).
  destruct (F3 (fr_n_iter r) (le_n _)) as (S1 & S2 & _). rewrite F1 in S2.
  pose proof (after_inv _ solver _ (n - p) k _ HK Hn A2 _ _ _ _ _ I0 (F2 (fr_n_iter r) ltac:(lia))) as I1.
  destruct (half_inv _ _ (n - p) k _ HK _ _ _ I1 S1) as (I2 & _ & _). destruct (other_inv _ solver _ (n - p) k _ HK Hn A2 _ _ _ I2 S2) as (I3 & EP & _).
  assert (RO : reported_ok p k u (f_params w')).
  { rewrite EP. cbn [half_step] in S1. unfold fembv_update_parameters in S1. apply bind_ok in S1. destruct S1 as (s & E1 & E2). injection E2 as E2. rewrite <- E2. cbn [f_params].
    cbn [varx_class cl_update] in E1. destruct I1 as (_ & V1 & _). apply (update_vok lstsq inv p k n d data u Hs Hi A2 HX) in E1; [apply E1 | exact V1]. }
  exists w'. rewrite A8. split; [reflexivity|]. split; [reflexivity|]. split; [apply I3|]. split.
  - rewrite CE. rewrite (fembv_cost_spec _ (fo_cfg o) k (n - p) w') by (eapply finv_fok; eassumption). reflexivity.
  - intros t i Ht Hi'. destruct I3 as (_ & V3 & _).
    unfold memory. rewrite (distance_reported p k n d data u A2 HX (f_params w') t i V3 RO Ht Hi'). apply Sum_ext; intros q Hq.
    unfold A_of, B0_of. f_equal. f_equal. f_equal.
    + destruct (vp_A (f_params w')); [reflexivity | destruct i; reflexivity].
    + destruct (vp_B0 (f_params w')); [reflexivity | destruct i; reflexivity].
Qed.
Print Assumptions C48_components.

(** ** C49 *)
Theorem C49_fit_minimises : forall lstsq inv y p u s m0 ws m w m', lstsq_shape lstsq -> lstsq_minimises lstsq ->
  varx_new y p u s = Ok m0 -> varx_fits lstsq inv m0 ws = Ok m ->
  (forall v t, w = Some v -> (t < nr y)%nat -> 0 <= at_ v t) ->
  varx_fit lstsq inv m w = Ok m' ->
  let P := Nat.max (vx_p m0) (vx_s m0) in
  let error mu A B B0 :=
    Sum (nr y - P) (fun t => match w with None => 1 | Some v => at_ v (P + t) end
      * Sum (nc y) (fun f => (ent y (P + t) f - varx_forecast (vx_p m0) (vx_s m0) y u mu A B B0 (P + t) f) ^ 2)) in
  error (vx_mu m') (reported_list (vx_A m')) (reported_list (vx_B m')) (reported_mat (vx_B0 m'))
  = Sum (nr y - P) (fun t => match w with None => 1 | Some v => at_ v (P + t) end * Sum (nc y) (fun f => ent (vx_residuals m') (P + t) f ^ 2))
  /\ forall mu A B B0, error (vx_mu m') (reported_list (vx_A m')) (reported_list (vx_B m')) (reported_mat (vx_B0 m')) <= error mu A B B0.
Proof.
  intros lstsq inv y p u s m0 ws m w m' Hs Hm E0 E1 Hw E2 P error.
  destruct (C48_residuals lstsq inv y p u s m0 ws m w m' Hs E0 E1 E2) as (_ & _ & _ & RE). fold P in RE.
  destruct (new_ok _ _ _ _ _ E0) as [L0 Hu]. pose proof (fits_ok _ _ _ _ _ _ Hs Hu ws m0 m L0 E1) as L.
  assert (EQ : error (vx_mu m') (reported_list (vx_A m')) (reported_list (vx_B m')) (reported_mat (vx_B0 m'))
    = Sum (nr y - P) (fun t => match w with None => 1 | Some v => at_ v (P + t) end * Sum (nc y) (fun f => ent (vx_residuals m') (P + t) f ^ 2))).
  { unfold error. apply Sum_ext; intros t Ht. f_equal. apply Sum_ext; intros f Hf. rewrite RE by lia. destruct (Nat.ltb_spec (P + t) P); [lia | reflexivity]. }
  split; [exact EQ|]. intros mu A B B0. rewrite EQ.
  pose proof (fit_minimises lstsq inv m w m' y (vx_p m0) u (vx_s m0) Hs Hm L Hu (fun v Ev t Ht => Hw v t Ev Ht) E2
    (fun q f => coefficient (vx_p m0) (vx_s m0) (nc y) (n_exog u) mu A B B0 q f)) as FM. fold P in FM.
  eapply Rle_trans; [|eapply Rle_trans; [exact FM|]].
  - right. unfold weighted_error. apply Sum_ext; intros t Ht. f_equal. apply Sum_ext; intros f Hf. f_equal. ring.
  - right. unfold error, weighted_error. apply Sum_ext; intros t Ht. f_equal. apply Sum_ext; intros f Hf. f_equal. f_equal. apply design_row_coefficient.
Qed.
Print Assumptions C49_fit_minimises.
(** a parameters update never increases the cost: from the initial guess and any number of earlier updates *)
Fixpoint varx_updates (lstsq : mat R -> mat R -> res (mat R)) inv memory (s : vparams R) (Gs : list (mat R)) : res (vparams R) :=
  match Gs with
  | [] => Ok s
  | G :: rest => let! s' := varx_update lstsq inv memory G s in varx_updates lstsq inv memory s' rest
  end.
Theorem C49_update_not_increased : forall lstsq inv p k n d data u init old g g' s0 Gs s G s',
  lstsq_shape lstsq -> lstsq_minimises lstsq -> inv_shape inv -> (0 < k)%nat -> is_mat n d data ->
  let memory := repeat (Z.of_nat p) k in
  varx_initialize lstsq inv memory k data u init old g = Ok (s0, g') -> varx_updates lstsq inv memory s0 Gs = Ok s ->
  is_mat (n - p) k G -> (forall t i, (t < n - p)%nat -> (i < k)%nat -> 0 <= ent G t i) ->
  varx_update lstsq inv memory G s = Ok s' ->
  clustering_cost G (varx_distance memory s') <= clustering_cost G (varx_distance memory s).
Proof.
  intros lstsq inv p k n d data u init old g g' s0 Gs s G s' Hs Hm Hi Hk HX memory E0 E1 HG HN E2.
  apply (initialize_vok lstsq inv p k n d data u Hs Hi Hk HX) in E0. destruct E0 as [V0 _].
  assert (V : vok p k d data u s).
  { revert s0 V0 E1. induction Gs as [|G1 Gs IH]; intros s0 V0 E1; cbn [varx_updates] in E1; [injection E1 as <-; exact V0|].
    apply bind_ok in E1. destruct E1 as (s1 & E3 & E1). apply (IH s1); [|exact E1]. apply (update_vok lstsq inv p k n d data u Hs Hi Hk HX) in E3; [apply E3 | exact V0]. }
  apply (update_cost lstsq inv p k n d data u Hs Hi Hk HX G s s'); assumption.
Qed.
Print Assumptions C49_update_not_increased.
(** whole fits: costs never increase after the first iteration, and the guard never fires *)
Lemma after_stochastic {P A} (cl : fembv_class R P A) solver c n k I up uw i w w' : keeps cl n k I -> (0 < n)%nat -> (0 < k)%nat ->
  solver_feasible solver -> solver_honest solver -> finv c n k I w -> row_stochastic (f_Gamma w) ->
  fembv_after cl solver c k up uw i w = Ok w' -> row_stochastic (f_Gamma w').
Proof.
  intros HK Hn Hk Hf Hh HI HS E. destruct uw.
  - destruct i as [|i]; [injection E as <-; exact HS|]. apply (after_admissible cl solver c n k I HK Hn Hk) in E; try assumption. apply E.
  - revert w' E. induction i as [|i IH]; intros w' E; cbn [fembv_after] in E; [injection E as <-; exact HS|].
    apply bind_ok in E. destruct E as (w1 & E1 & E). apply bind_ok in E. destruct E as (w2 & E2 & E). cbn [other_half] in E. injection E as <-.
    pose proof (after_inv cl solver c n k I HK Hn Hk _ _ _ _ _ HI E1) as I1. destruct (half_inv cl c n k I HK _ _ _ I1 E2) as (_ & G & _). rewrite G. apply IH. exact E1.
Qed.
Lemma varx_step_cost lstsq inv solver c p k n d data u up uw i w s h s' : lstsq_shape lstsq -> lstsq_minimises lstsq -> inv_shape inv ->
  is_mat n d data -> (p < n)%nat -> (0 < k)%nat -> solver_optimal solver -> solver_honest solver ->
  let cl := varx_class lstsq inv (repeat (Z.of_nat p) k) in
  finv c (n - p) k (vok p k d data u) w -> row_stochastic (f_Gamma w) ->
  fembv_after cl solver c k up uw i w = Ok s -> half_step cl up s = Ok h ->
  fembv_cost cl h <= fembv_cost cl s /\ ((0 < i)%nat -> other_half cl solver c k uw h = Ok s' -> fembv_cost cl s' <= fembv_cost cl s).
Proof.
  intros Hl Hm Hi HX Hp Hk Hs Hh cl I0 S0 Es Eh. pose proof (varx_keeps lstsq inv p k n d data u Hl Hi Hk HX) as HK. fold cl in HK.
  assert (Hf : solver_feasible solver) by (intros a q sol Ea; apply Hs in Ea; apply Ea). assert (Hn : (0 < n - p)%nat) by lia.
  pose proof (after_inv cl solver c (n - p) k _ HK Hn Hk _ _ _ _ _ I0 Es) as I1.
  pose proof (after_stochastic cl solver c (n - p) k _ up uw i w s HK Hn Hk Hf Hh I0 S0 Es) as S1.
  destruct (half_inv cl c (n - p) k _ HK _ _ _ I1 Eh) as (I2 & G2 & U2).
  assert (C1 : fembv_cost cl h <= fembv_cost cl s).
  { destruct up; [|rewrite U2 by reflexivity; lra].
    rewrite (fembv_cost_spec cl c k (n - p) s), (fembv_cost_spec cl c k (n - p) h) by (eapply finv_fok; eassumption).
    cbn [half_step] in Eh. unfold fembv_update_parameters in Eh. apply bind_ok in Eh. destruct Eh as (v & E1 & E2). injection E2 as <-. cbn [f_Gamma f_params cl varx_class cl_distance cl_update] in *.
    destruct I1 as (G1 & V1 & _). apply (update_cost lstsq inv p k n d data u Hl Hi Hk HX (f_Gamma s) (f_params s) v Hm V1 G1); [|exact E1].
    pose proof G1 as (g1 & g2 & _). intros t j Ht Hj. apply S1; lia. }
  split; [exact C1|]. intros Hi0 E2. apply Rle_trans with (fembv_cost cl h); [|exact C1].
  apply (other_cost cl solver c (n - p) k _ HK Hn Hk h s' uw Hs I2); [|exact E2]. intros -> K1. rewrite G2.
  destruct i as [|i]; [lia|]. apply (after_admissible cl solver c (n - p) k _ HK Hn Hk up i w s Hf Hh I0 S0 Es).
Qed.
Theorem C49_cost_decreases : forall lstsq inv solver (o : fembv R (vparams R)) p k n d data u weights init up uw r W,
  lstsq_shape lstsq -> lstsq_minimises lstsq -> inv_shape inv -> solver_optimal solver -> solver_honest solver ->
  is_mat n d data -> (p < n)%nat -> fo_n_components o = PInt (Z.of_nat k) -> rng_ok k (fo_rng o) ->
  (forall W0, weights = Some W0 -> wf W0 /\ row_stochastic W0) ->
  fembv_fit_transform (varx_class lstsq inv (repeat (Z.of_nat p) k)) solver o data u weights init up uw = Ok (r, W) ->
  forall i, (0 < i <= fr_n_iter r)%nat -> nth (S i) (fr_log r) 0 <= nth i (fr_log r) 0.
Proof.
  intros lstsq inv solver o p k n d data u weights init up uw r W Hl Hm Hi Hs Hh HX Hp Ho Hg WW H i Hi0.
  apply fembv_fit_inv in H. destruct H as (k' & m & tol & w & g' & w' & A1 & A2 & A3 & A4 & A5 & A6 & A7 & A8 & A9 & ->).
  rewrite Ho in A1. cbn in A1. injection A1 as A1. assert (k' = k) as -> by lia. clear A1.
  apply (varx_vok_start lstsq inv p k n d) in A6; try assumption; [|intros; apply WW; assumption]. destruct A6 as (I0 & S0 & _). specialize (S0 Hg (fun W0 E => proj2 (WW W0 E))).
  apply fembv_iterate_path in A7; [|exact A4]. destruct A7 as (N' & f & h & F0 & F1 & F2 & F3 & F4).
  destruct (F3 i ltac:(lia)) as (S1 & S2 & _). change (nth (S i) (fr_log r) n0 <= nth i (fr_log r) n0). rewrite !F4 by lia.
  apply (varx_step_cost lstsq inv solver (fo_cfg o) p k n d data u up uw i w (f i) (h i) (f (S i))); try assumption; try lia. apply F2. lia.
Qed.
Print Assumptions C49_cost_decreases.
(** ** exceptions of a fit, for all memories (C58) *)
Lemma varx_start_raise lstsq inv memory (c : fembv_cfg R) k old data u weights init g e : (k <= length memory)%nat ->
  fembv_initialize (varx_class lstsq inv memory) c k old data u weights init g = Raise e -> e = ValueError \/ oracle_raises lstsq inv e.
Proof.
  intros Hk. unfold fembv_initialize. cbn [varx_class cl_initialize cl_distance]. destruct (varx_initialize lstsq inv memory k data u init old g) as [[s g1]|e1] eqn:E1; cbn [bind].
  - pose proof (initialize_gok _ _ _ _ _ _ _ _ _ _ _ E1) as HG. assert (K : nc (varx_distance memory s) = k) by (destruct HG as ((L & _) & _); exact L). rewrite K, Nat.eqb_refl. cbn [negb].
    destruct (fembv_initialize_weights _ _ _ _ _) as [[W g2]|e2] eqn:E2; cbn [bind].
    + destruct (initialize_constraints _ _ _) as [cs|e3] eqn:E3; cbn [bind]; [discriminate|]. intros [= ->]. apply constraints_raise in E3. auto.
    + intros [= ->]. left. unfold fembv_initialize_weights in E2. destruct init, weights; try discriminate.
      destruct (check_init_weights _ _ _) eqn:E3; cbn [bind] in E2; [discriminate|]. injection E2 as ->. apply check_init_weights_raise in E3. exact E3.
  - intros [= ->]. eapply initialize_raise. exact E1.
Qed.
Definition varx_exception (lstsq : mat R -> mat R -> res (mat R)) (inv : mat R -> res (mat R)) (solver : nat -> lp R -> lp_answer R) (mono : bool) (e : exn) : Prop :=
  fembv_exception solver mono e \/ (exists Z Y, lstsq Z Y = Raise e) \/ (exists M, inv M = Raise e).
Lemma varx_fit_ends lstsq inv solver memory (o : fembv R (vparams R)) data u weights init up uw e :
  fo_n_components o = PInt (Z.of_nat (length memory)) -> mem_max memory <> nr data -> (forall W0, weights = Some W0 -> wf W0) ->
  fembv_fit (varx_class lstsq inv memory) solver o data u weights init up uw = Raise e -> varx_exception lstsq inv solver (fc_monotone (fo_cfg o)) e.
Proof.
  intros Ho HP WW E. unfold varx_exception, fembv_exception.
  assert (V : e = ValueError \/ oracle_raises lstsq inv e -> varx_exception lstsq inv solver (fc_monotone (fo_cfg o)) e).
  { unfold varx_exception, fembv_exception, oracle_raises. tauto. }
  unfold fembv_fit in E. rewrite Ho in E. cbn [resolve_components] in E. destruct (check_params _ _ _) as [[[k m] t]|e'] eqn:E1; cbn [bind] in E; [|injection E as ->; apply check_params_raise in E1; auto].
  apply check_params_ok in E1. destruct E1 as (K1 & K2 & M1 & M2 & T1). injection K1 as K1. assert (k = length memory) by lia. subst k. set (k := length memory) in *.
  destruct (fembv_initialize _ _ _ _ _ _ _ _ _) as [[w g']|e'] eqn:E2; cbn [bind] in E; [|injection E as ->; apply varx_start_raise in E2; [apply V; exact E2 | lia]].
  destruct (fembv_iterate _ _ _ _ _ _ _ _ _) as [[[[w' cost] ni] lg]|e'] eqn:E3; cbn [bind] in E; [discriminate|]. injection E as ->.
  apply varx_start in E2; [| lia | exact WW]. destruct E2 as (I0 & _ & EI). pose proof (gok_keeps lstsq inv memory data u k (le_n _)) as HK.
  assert (Hn : (0 < nr data - mem_max memory)%nat).
  { (* the component with the largest memory has that many samples *)
    apply initialize_inv in EI. destruct EI as (_ & _ & _ & _ & _ & _ & _ & _ & EI). destruct (In_nth memory (zmax memory) 0%Z) as (i & Hi & Ei); [apply zmax_in; destruct memory; [cbn in k; lia | discriminate]|]. destruct (EI i Hi) as (m0 & m1 & F & _).
    destruct (varx_new_cases (component_data memory data i) (PInt (nth i memory 0%Z)) u (PInt 0)) as [(_ & m2 & p' & s' & G1 & G2 & _ & _ & G5 & _)|(_ & G1)]; rewrite G1 in F; [|discriminate].
    injection G2 as G2. rewrite component_rows in G5; [|exact Hi | lia]. unfold mem_max, mem_at in *. lia. }
  apply fembv_iterate_raise in E3. destruct E3 as (i & s & Hi & Es & E3).
  pose proof (after_inv _ solver _ _ k _ HK Hn K2 _ _ _ _ _ I0 Es) as I1.
  assert (Mono : forall x y, fembv_bad (fc_monotone (fo_cfg o)) t i x y = true -> fc_monotone (fo_cfg o) = true).
  { intros x y. unfold fembv_bad. destruct (fc_monotone (fo_cfg o)); [reflexivity|]. rewrite Bool.andb_false_r. discriminate. }
  destruct E3 as [E3|(h & Eh & [E3|[(-> & -> & E3)|(s2 & E4 & -> & -> & E3)]])].
  - apply V. destruct up; [|discriminate]. cbn [half_step] in E3. unfold fembv_update_parameters in E3. cbn [varx_class cl_update] in E3.
    destruct (varx_update lstsq inv memory (f_Gamma s) (f_params s)) as [q|e1] eqn:E5; cbn [bind] in E3; [discriminate|]. injection E3 as ->.
    apply (update_raise lstsq inv memory data u k) in E5; [exact E5 | apply le_n | apply I1].
  - destruct (half_inv _ _ _ k _ HK _ _ _ I1 Eh) as (I2 & _ & _).
    apply (other_raise _ solver _ _ k _ _ _ _ K2 HK I2) in E3. destruct E3 as [E3|[[E3 [q E4]]|[q E3]]]; left; [auto | right; left; eauto | right; right; left; eauto].
  - apply Mono in E3. left. auto.
  - apply Mono in E3. left. auto.
Qed.
Theorem C58_fembv_varx_terminates : forall lstsq inv solver memory (o : fembv R (vparams R)) data u weights init up uw,
  fo_n_components o = PInt (Z.of_nat (length memory)) -> mem_max memory <> nr data -> (forall W0, weights = Some W0 -> wf W0) ->
  (exists r, fembv_fit_transform (varx_class lstsq inv memory) solver o data u weights init up uw = Ok r)
  \/ (exists e, fembv_fit_transform (varx_class lstsq inv memory) solver o data u weights init up uw = Raise e
       /\ (e = ValueError \/ (e = TypeError /\ exists i p, solver i p = LpNoValue) \/ (exists i p, solver i p = LpRaises e)
           \/ (e = RuntimeError /\ fc_monotone (fo_cfg o) = true) \/ (exists Z Y, lstsq Z Y = Raise e) \/ (exists M, inv M = Raise e))).
Proof.
  intros lstsq inv solver memory o data u weights init up uw Ho HP WW. unfold fembv_fit_transform.
  destruct (fembv_fit (varx_class lstsq inv memory) solver o data u weights init up uw) as [r|e] eqn:E; cbn [bind].
  - left. apply fembv_run_inv in E. destruct E as (k & m & t & w & g' & w' & _ & _ & _ & _ & _ & _ & _ & A8 & _). rewrite A8. cbn. eauto.
  - right. exists e. split; [reflexivity|]. apply varx_fit_ends in E; try assumption. unfold varx_exception, fembv_exception in E. tauto.
Qed.
Print Assumptions C58_fembv_varx_terminates.
Theorem C58_fembv_varx_transform_terminates : forall lstsq inv solver memory (o : fembv R (vparams R)) data,
  fo_n_components o = PInt (Z.of_nat (length memory)) -> mem_max memory <> nr data ->
  (exists r, fembv_transform (varx_class lstsq inv memory) solver o data None = Ok r)
  \/ (exists e, fembv_transform (varx_class lstsq inv memory) solver o data None = Raise e
       /\ (e = ValueError \/ (e = TypeError /\ exists i p, solver i p = LpNoValue) \/ (exists i p, solver i p = LpRaises e)
           \/ (e = RuntimeError /\ fc_monotone (fo_cfg o) = true) \/ (exists Z Y, lstsq Z Y = Raise e) \/ (exists M, inv M = Raise e))).
Proof.
  intros lstsq inv solver memory o data Ho HP. unfold fembv_transform.
  destruct (fembv_fit (varx_class lstsq inv memory) solver o data None None InitNone false true) as [r|e] eqn:E; cbn [bind].
  - left. apply fembv_run_inv in E. destruct E as (k & m & t & w & g' & w' & _ & _ & _ & _ & _ & _ & _ & A8 & _). rewrite A8. cbn. eauto.
  - right. exists e. split; [reflexivity|]. apply varx_fit_ends in E; try assumption; [|discriminate]. unfold varx_exception, fembv_exception in E. tauto.
Qed.
Print Assumptions C58_fembv_varx_transform_terminates.
Theorem C49_guard_never_fires : forall lstsq inv solver (o : fembv R (vparams R)) p k n d data u weights init up uw,
  lstsq_shape lstsq -> lstsq_minimises lstsq -> inv_shape inv -> solver_optimal solver -> solver_honest solver ->
  is_mat n d data -> (p < n)%nat -> fo_n_components o = PInt (Z.of_nat k) -> rng_ok k (fo_rng o) ->
  (forall W0, weights = Some W0 -> wf W0 /\ row_stochastic W0) ->
  (forall i q, solver i q <> LpRaises RuntimeError) -> (forall Z Y, lstsq Z Y <> Raise RuntimeError) -> (forall M, inv M <> Raise RuntimeError) ->
  fembv_fit_transform (varx_class lstsq inv (repeat (Z.of_nat p) k)) solver o data u weights init up uw <> Raise RuntimeError.
Proof.
  intros lstsq inv solver o p k n d data u weights init up uw Hl Hm Hi Hs Hh HX Hp Ho Hg WW Hr1 Hr2 Hr3 H. unfold fembv_fit_transform in H. pose proof HX as (x1 & _).
  set (memory := repeat (Z.of_nat p) k) in *. assert (LM : length memory = k) by apply repeat_length.
  assert (OR : ~ oracle_raises lstsq inv RuntimeError) by (intros [(Z & Y & E)|(M & E)]; [apply (Hr2 _ _ E) | apply (Hr3 _ E)]).
  destruct (fembv_fit (varx_class lstsq inv memory) solver o data u weights init up uw) as [r|e] eqn:E; cbn [bind] in H.
  { apply fembv_run_inv in E. destruct E as (k' & m & t & w & g' & w' & _ & _ & _ & _ & _ & _ & _ & A8 & _). rewrite A8 in H. discriminate. }
  injection H as ->. unfold fembv_fit in E. rewrite Ho in E. cbn [resolve_components] in E. destruct (check_params _ _ _) as [[[k' m] t]|e] eqn:E1; cbn [bind] in E; [|injection E as ->; apply check_params_raise in E1; discriminate].
  apply check_params_ok in E1. destruct E1 as (K1 & K2 & M1 & M2 & T1). injection K1 as K1. assert (k' = k) by lia. subst k'.
  destruct (fembv_initialize _ _ _ _ _ _ _ _ _) as [[w g']|e] eqn:E2; cbn [bind] in E; [|injection E as ->; apply varx_start_raise in E2; [destruct E2; [discriminate | contradiction] | lia]].
  destruct (fembv_iterate _ _ _ _ _ _ _ _ _) as [[[[w' cost] ni] lg]|e] eqn:E3; cbn [bind] in E; [discriminate|]. injection E as ->.
  pose proof E2 as E2'. apply (varx_vok_start lstsq inv p k n d) in E2'; try assumption; [|intros; apply WW; assumption]. destruct E2' as (I0 & S0 & _). specialize (S0 Hg (fun W0 E => proj2 (WW W0 E))).
  apply varx_start in E2; [| lia | intros; apply WW; assumption]. destruct E2 as (J0 & _ & _).
  pose proof (varx_keeps lstsq inv p k n d data u Hl Hi K2 HX) as HK. fold memory in HK. pose proof (gok_keeps lstsq inv memory data u k ltac:(lia)) as HK'.
  assert (EN : (nr data - mem_max memory = n - p)%nat) by (unfold memory; rewrite mem_max_eq by exact K2; lia). rewrite EN in *.
  assert (Hn : (0 < n - p)%nat) by lia.
  apply fembv_iterate_raise in E3. destruct E3 as (i & s & Hi0 & Es & E3).
  pose proof (after_inv _ solver _ (n - p) k _ HK Hn K2 _ _ _ _ _ I0 Es) as I1. pose proof (after_inv _ solver _ (n - p) k _ HK' Hn K2 _ _ _ _ _ J0 Es) as J1.
  assert (T0 : 0 <= t). { destruct T1 as [(z & _ & -> & Hz)|[_ Ht]]; [cbn; apply IZR_le; exact Hz | numR; apply Rltb_false in Ht; exact Ht]. }
  assert (Bad : forall x y, ((0 < i)%nat -> y <= x) -> fembv_bad (fc_monotone (fo_cfg o)) t i x y = true -> False).
  { intros x y Hxy Hb. unfold fembv_bad in Hb. destruct (Nat.ltb_spec 0 i); [|discriminate]. cbn [andb] in Hb. destruct (fc_monotone (fo_cfg o)); [|discriminate]. cbn [andb] in Hb. numR.
    destruct (Rltb x y) eqn:E4; [|discriminate]. apply Rltb_true in E4. specialize (Hxy ltac:(lia)). lra. }
  destruct E3 as [E3|(h & Eh & [E3|[(_ & -> & E3)|(s2 & E4 & _ & -> & E3)]])].
  - destruct up; [|discriminate]. cbn [half_step] in E3. unfold fembv_update_parameters in E3. cbn [varx_class cl_update] in E3.
    destruct (varx_update lstsq inv memory (f_Gamma s) (f_params s)) as [q|e1] eqn:E5; cbn [bind] in E3; [discriminate|]. injection E3 as ->.
    apply (update_raise lstsq inv memory data u k) in E5; [destruct E5; [discriminate | contradiction] | lia | apply J1].
  - destruct (half_inv _ _ (n - p) k _ HK _ _ _ I1 Eh) as (I2 & _ & _).
    apply (other_raise _ solver _ (n - p) k _ _ _ _ K2 HK I2) in E3. destruct E3 as [E3|[[E3 _]|[q E3]]]; try discriminate. eapply Hr1. exact E3.
  - eapply Bad; [|exact E3]. intros Hi1. apply (proj1 (varx_step_cost lstsq inv solver (fo_cfg o) p k n d data u true uw i w s h h Hl Hm Hi HX Hp K2 Hs Hh I0 S0 Es Eh)).
  - eapply Bad; [|exact E3]. intros Hi1. apply (proj2 (varx_step_cost lstsq inv solver (fo_cfg o) p k n d data u up true i w s h s2 Hl Hm Hi HX Hp K2 Hs Hh I0 S0 Es Eh) Hi1 E4).
Qed.
Print Assumptions C49_guard_never_fires.

(** ** C41 for FEMBVVARX *)
Theorem C41_varx_fit : forall lstsq inv solver memory (o : fembv R (vparams R)) data u weights init up r W,
  let k := length memory in let n := (nr data - mem_max memory)%nat in
  fo_n_components o = PInt (Z.of_nat k) -> (0 < n)%nat -> rng_ok k (fo_rng o) ->
  (forall W0, weights = Some W0 -> wf W0 /\ row_stochastic W0) -> solver_feasible solver -> solver_honest solver ->
  fembv_fit_transform (varx_class lstsq inv memory) solver o data u weights init up true = Ok (r, W) ->
  is_mat n k W /\ row_stochastic W /\
  forall C, fc_max_tv_norm (fo_cfg o) = Some C -> 0 <= C -> forall i, (i < k)%nat -> total_variation W i <= C.
Proof.
  intros lstsq inv solver memory o data u weights init up r W k n Ho Hn Hg WW Hf Hh H.
  apply fembv_fit_inv in H. destruct H as (k' & m & tol & w & g' & w' & A1 & A2 & A3 & A4 & A5 & A6 & A7 & A8 & A9 & ->).
  rewrite Ho in A1. cbn in A1. injection A1 as A1. assert (k' = k) as -> by lia. clear A1.
  apply varx_start in A6; [| unfold k; lia | intros; apply WW; assumption]. destruct A6 as (I0 & S0 & _). specialize (S0 Hg (fun W0 E => proj2 (WW W0 E))). fold n in I0.
  pose proof (gok_keeps lstsq inv memory data u k (le_n _)) as HK. fold n in HK.
  apply fembv_iterate_path in A7; [|exact A4]. destruct A7 as (N' & f & h & F0 & F1 & F2 & _). specialize (F2 (S (fr_n_iter r)) (le_n _)). rewrite F1 in F2.
  pose proof (after_inv _ solver _ n k _ HK Hn A2 _ _ _ _ _ I0 F2) as (G1 & _). split; [exact G1|].
  pose proof (after_admissible _ solver _ n k _ HK Hn A2 _ _ _ _ Hf Hh I0 S0 F2) as [B1 B2]. split; [exact B1|].
  destruct G1 as (_ & g2 & _). intros C EC HC i Hi. apply B2; try assumption. rewrite g2. exact Hi.
Qed.
Print Assumptions C41_varx_fit.

(** ** C50 (any arithmetic): a memory below the largest one *)
Theorem C50_external_raises : forall (T : Type) (N : Num T) lstsq inv solver memory (o : fembv T (vparams T)) data U weights init up uw i,
  fo_n_components o = PInt (Z.of_nat (length memory)) -> (i < length memory)%nat -> nth i memory 0%Z <> zmax memory ->
  fembv_fit_transform (varx_class lstsq inv memory) solver o data (Some U) weights init up uw = Raise ValueError.
Proof.
  intros T N lstsq inv solver memory o data U weights init up uw i Ho Hi Hne. unfold fembv_fit_transform, fembv_fit. rewrite Ho. cbn [resolve_components].
  destruct (check_params _ _ _) as [[[k m] t]|e] eqn:E1; cbn [bind]; [|apply check_params_raise in E1; rewrite E1; reflexivity].
  apply check_params_ok in E1. destruct E1 as (K1 & _). injection K1 as K1. assert (k = length memory) by lia. subst k.
  unfold fembv_initialize. cbn [varx_class cl_initialize]. rewrite (unequal_external lstsq inv memory (length memory) data U init _ _ i); auto.
Qed.
Print Assumptions C50_external_raises.
Theorem C50_unequal_memories : forall (T : Type) (N : Num T) lstsq inv solver memory (o : fembv T (vparams T)) data u weights init up uw r W,
  fo_n_components o = PInt (Z.of_nat (length memory)) -> (mem_max memory < nr data)%nat ->
  fembv_fit_transform (varx_class lstsq inv memory) solver o data u weights init up uw = Ok (r, W) ->
  exists w', fo_ws (fr_obj r) = Some w' /\
    forall i, (i < length memory)%nat -> nth i memory 0%Z <> zmax memory ->
      u = None /\ (0 <= nth i memory 0)%Z
      (* the component's own samples after the first max(memory): exactly one *)
      /\ (nr data - (mem_max memory - Z.to_nat (nth i memory 0%Z)) - mem_max memory = 1)%nat
      (* its one distance stands at all times *)
      /\ forall t t', (t < nr data - mem_max memory)%nat -> (t' < nr data - mem_max memory)%nat ->
           mget (varx_distance memory (f_params w')) t i = mget (varx_distance memory (f_params w')) t' i.
Proof.
  intros T N lstsq inv solver memory o data u weights init up uw r W Ho HP H. pose proof H as H0.
  apply fembv_fit_inv in H. destruct H as (k & m & tol & w & g' & w' & A1 & A2 & A3 & A4 & A5 & A6 & A7 & A8 & A9 & ->).
  rewrite Ho in A1. cbn in A1. injection A1 as A1. assert (k = length memory) as -> by lia. clear A1. exists w'. rewrite A8. split; [reflexivity|]. intros i Hi Hne.
  split.
  { destruct u as [U|]; [|reflexivity]. exfalso. rewrite (C50_external_raises T N lstsq inv solver memory o data U weights init up uw i Ho Hi Hne) in H0. discriminate. }
  apply fembv_initialize_inv in A6. destruct A6 as (p & g1 & E1 & _ & _ & _ & EP & _). cbn [varx_class cl_initialize] in E1.
  pose proof (initialize_shaped lstsq inv memory _ _ _ _ _ _ _ _ E1) as HS. pose proof (initialize_gok lstsq inv memory _ _ _ _ _ _ _ _ E1) as HG.
  destruct (unequal_broadcast lstsq inv memory (length memory) data u init _ _ _ p i (le_n _) Hi Hne HP E1) as (B1 & B2 & B3). split; [exact B1|]. split; [exact B2|].
  apply fembv_iterate_path in A7; [|exact A4]. destruct A7 as (N' & f & h & F0 & F1 & F2 & _). specialize (F2 (S (fr_n_iter r)) (le_n _)). rewrite F1 in F2.
  apply (after_params_inv (varx_class lstsq inv memory) solver (fo_cfg o) (length memory) up uw
    (fun q => shaped memory (length memory) q /\ vp_X q = data /\ one_residual memory (length memory) q i)) in F2.
  - destruct F2 as (_ & EX & OR). intros t t' Ht Ht'. apply (one_residual_constant memory (length memory)); [exact OR | rewrite EX; exact Ht | rewrite EX; exact Ht'].
  - intros G q q' (S1 & S2 & S3) E. cbn [varx_class cl_update] in E. pose proof (one_residual_update lstsq inv memory (length memory) G q q' i (le_n _) Hi S1 S3 E) as OR.
    apply (update_spec lstsq inv memory G (length memory)) in E; [| apply le_n | exact S1]. destruct E as (S1' & (F3 & _) & _). split; [exact S1'|]. split; [congruence | exact OR].
  - rewrite EP. split; [exact HS|]. split; [apply HG | exact B3].
Qed.
Print Assumptions C50_unequal_memories.
(** executed on integers: memories 1 and 0.  With three samples component 1 has one own sample after the
    first, and its distance is broadcast to both times; with four samples the fit raises *)
Definition evZ_lstsq (A Y : mat Z) : res (mat Z) := Ok (@mbuild Z (nc A) (nc Y) (fun q f => Z.of_nat q + Z.of_nat f)%Z).
Definition evZ_inv (M : mat Z) : res (mat Z) := Ok M.
Definition evZ_obj (k : Z) : fembv Z (vparams Z) := fembv_new (mk_fembv_cfg None InitRandom (PInt 2) (PInt 0) false) (PInt k) (mkrng (fun _ => 1%Z) (fun _ => 1%Z) (fun n => n) 0).
Definition evZ_fit memory data u := @fembv_fit_transform Z Num_Z_demo _ _ (@varx_class Z Num_Z_demo evZ_lstsq evZ_inv memory) (fun _ _ => LpFailed) (evZ_obj (Z.of_nat (length memory))) data u None InitNone true true.
Example C50_example :
  match evZ_fit [1; 0]%Z (mkmat 3 1 [[1]; [5]; [9]]%Z) None with
  | Ok (r, _) => option_map (fun w => dat (@varx_distance Z Num_Z_demo [1; 0]%Z (f_params w))) (fo_ws (fr_obj r)) = Some [[16; 81]; [16; 81]]%Z
  | Raise _ => False end
  /\ evZ_fit [1; 0]%Z (mkmat 4 1 [[1]; [5]; [9]; [2]]%Z) None = Raise ValueError
  /\ evZ_fit [1; 0]%Z (mkmat 3 1 [[1]; [5]; [9]]%Z) (Some (mkmat 3 1 [[1]; [2]; [3]]%Z)) = Raise ValueError.
Proof. vm_compute. auto. Qed.

(** ** C63 (any arithmetic): without parameter updates all components are one and the same model, and the
    reported coefficients are zeros *)
Theorem C63_fixed_parameters : forall (T : Type) (N : Num T) lstsq inv solver p k (o : fembv T (vparams T)) data u weights init uw r W,
  let memory := repeat (Z.of_nat p) k in
  fo_n_components o = PInt (Z.of_nat k) ->
  fembv_fit_transform (varx_class lstsq inv memory) solver o data u weights init false uw = Ok (r, W) ->
  exists w', fo_ws (fr_obj r) = Some w' /\
    (forall t i j, (t < nr data - p)%nat -> (i < k)%nat -> (j < k)%nat ->
       mget (varx_distance memory (f_params w')) t i = mget (varx_distance memory (f_params w')) t j)
    /\ vp_mu (f_params w') = mzeros k (nc data)
    /\ ((0 < p)%nat -> vp_A (f_params w') = Some (repeat (repeat (mzeros (nc data) (nc data)) p) k))
    /\ (forall U, u = Some U -> vp_B0 (f_params w') = Some (repeat (mzeros (nc data) (nc U)) k)).
Proof.
  intros T N lstsq inv solver p k o data u weights init uw r W memory Ho H.
  apply fembv_fit_inv in H. destruct H as (k' & m & tol & w & g' & w' & A1 & A2 & A3 & A4 & A5 & A6 & A7 & A8 & A9 & ->).
  rewrite Ho in A1. cbn in A1. injection A1 as A1. assert (k' = k) as -> by lia. clear A1. exists w'. rewrite A8. split; [reflexivity|].
  apply fembv_iterate_path in A7; [|exact A4]. destruct A7 as (N' & f & h & F0 & F1 & F2 & _). specialize (F2 (S (fr_n_iter r)) (le_n _)). rewrite F1 in F2. apply after_params in F2. rewrite F2.
  apply fembv_initialize_inv in A6. destruct A6 as (q & g1 & E1 & _ & _ & _ & -> & _). cbn [varx_class cl_initialize] in E1.
  apply initialize_inv in E1. destruct E1 as (_ & EX & _ & _ & L & Emu & EA & EB & ST).
  assert (ZM : zmax memory = Z.of_nat p) by (apply zmax_repeat; exact A2).
  split; [|split; [exact Emu|split]].
  - intros t i j Ht Hi Hj. destruct (ST i Hi) as (m0 & m1 & B1 & B2 & B3 & _), (ST j Hj) as (n0' & n1' & D1 & D2 & D3 & _).
    assert (Hnth : forall i, (i < k)%nat -> nth i memory 0%Z = Z.of_nat p) by (intros; apply nth_repeat_lt; assumption).
    assert (Ed : component_data memory data i = component_data memory data j) by (unfold component_data; rewrite !Hnth by assumption; reflexivity).
    rewrite Hnth in B1, D1 by assumption. rewrite Ed, D1 in B1. injection B1 as ->. rewrite D2 in B2. injection B2 as ->.
    unfold varx_distance. assert (MM : mem_max memory = p) by (unfold mem_max; rewrite ZM; lia). rewrite !mget_mbuild by (rewrite ?EX, ?L, ?MM; assumption).
    f_equal. rewrite !(nth_indep _ [] (residual_norms memory m1)) by (rewrite map_length; lia). rewrite !map_nth. f_equal.
    rewrite (nth_error_nth _ _ m1 B3), (nth_error_nth _ _ m1 D3). reflexivity.
  - intros Hp. rewrite EA, ZM. destruct (Z.ltb_spec 0 (Z.of_nat p)); [|lia]. rewrite Nat2Z.id. reflexivity.
  - intros U ->. rewrite EB. reflexivity.
Qed.
Print Assumptions C63_fixed_parameters.
(** so does transform, whatever was fitted before; over the reals every choice of weights then costs the same *)
Theorem C63_transform : forall (T : Type) (N : Num T) lstsq inv solver p k (o : fembv T (vparams T)) data r W,
  let memory := repeat (Z.of_nat p) k in
  fo_n_components o = PInt (Z.of_nat k) ->
  fembv_transform (varx_class lstsq inv memory) solver o data None = Ok (r, W) ->
  exists w', fo_ws (fr_obj r) = Some w' /\
    (forall t i j, (t < nr data - p)%nat -> (i < k)%nat -> (j < k)%nat ->
       mget (varx_distance memory (f_params w')) t i = mget (varx_distance memory (f_params w')) t j)
    /\ vp_mu (f_params w') = mzeros k (nc data)
    /\ ((0 < p)%nat -> vp_A (f_params w') = Some (repeat (repeat (mzeros (nc data) (nc data)) p) k)).
Proof.
  intros T N lstsq inv solver p k o data r W memory Ho H. unfold fembv_transform in H. apply bind_ok in H. destruct H as (r0 & E & H).
  assert (G : fembv_fit_transform (varx_class lstsq inv memory) solver o data None None InitNone false true
    = match fo_ws (fr_obj r0) with None => Raise AttributeError | Some w => Ok (mk_fembv_run (mk_fembv (fo_cfg (fr_obj r0)) (fo_n_components (fr_obj r0)) (fo_rng (fr_obj r0)) (fo_ws (fr_obj r0))
         (Some (fr_cost r0)) (Some (fr_n_iter r0)) (Some (nc (f_Gamma w)))) (fr_cost r0) (fr_n_iter r0) (fr_log r0) (fr_warned r0), f_Gamma w) end)
    by (unfold fembv_fit_transform; rewrite E; reflexivity).
  destruct (fo_ws (fr_obj r0)) as [w|] eqn:EW; [|discriminate]. injection H as <- <-. apply C63_fixed_parameters in G; [|exact Ho].
  destruct G as (w' & G1 & G2 & G3 & G4 & _). exists w'. cbn [fr_obj fo_ws] in G1. rewrite EW. auto.
Qed.
Print Assumptions C63_transform.
Theorem C63_weights_irrelevant : forall lstsq inv solver p k (o : fembv R (vparams R)) data r W,
  let memory := repeat (Z.of_nat p) k in
  fo_n_components o = PInt (Z.of_nat k) ->
  fembv_transform (varx_class lstsq inv memory) solver o data None = Ok (r, W) ->
  exists w', fo_ws (fr_obj r) = Some w' /\ forall G G', is_mat (nr data - p) k G -> is_mat (nr data - p) k G' -> row_stochastic G -> row_stochastic G' ->
    clustering_cost G (varx_distance memory (f_params w')) = clustering_cost G' (varx_distance memory (f_params w')).
Proof.
  intros lstsq inv solver p k o data r W memory Ho H. apply C63_transform in H; [|exact Ho]. destruct H as (w' & E & H & _). exists w'. split; [exact E|].
  assert (C : forall G, is_mat (nr data - p) k G -> row_stochastic G -> clustering_cost G (varx_distance memory (f_params w'))
    = Sum (nr data - p) (fun t => ent (varx_distance memory (f_params w')) t 0)).
  { intros G (g1 & g2 & _) HG. unfold clustering_cost. rewrite g1, g2. apply Sum_ext; intros t Ht. destruct (HG t ltac:(lia)) as [_ S]. rewrite g2 in S.
    rewrite <- (Rmult_1_l (ent _ t 0)), <- S, <- Sum_scal_r. apply Sum_ext; intros i Hi. f_equal. apply H; lia. }
  intros G G' M M' S S'. rewrite !C by assumption. reflexivity.
Qed.
Print Assumptions C63_weights_irrelevant.
(** executed on integers: two components of memory 1; after a fit the reported mu is [0] and A [[1]], after
    transform both are zero and the two columns of distances agree *)
Example C63_example :
  match evZ_fit [1; 1]%Z (mkmat 3 1 [[1]; [5]; [9]]%Z) None with
  | Ok (r, _) => option_map (fun w => dat (vp_mu (f_params w))) (fo_ws (fr_obj r)) = Some [[0]; [0]]%Z
      /\ option_map (fun w => option_map (map (map (@dat Z))) (vp_A (f_params w))) (fo_ws (fr_obj r)) = Some (Some [[[[1]]]; [[[1]]]]%Z)
      /\ match @fembv_transform Z Num_Z_demo _ _ (@varx_class Z Num_Z_demo evZ_lstsq evZ_inv [1; 1]%Z) (fun _ _ => LpFailed) (fr_obj r) (mkmat 3 1 [[1]; [5]; [9]]%Z) None with
         | Ok (r', _) => option_map (fun w => option_map (map (map (@dat Z))) (vp_A (f_params w))) (fo_ws (fr_obj r')) = Some (Some [[[[0]]]; [[[0]]]]%Z)
             /\ option_map (fun w => dat (@varx_distance Z Num_Z_demo [1; 1]%Z (f_params w))) (fo_ws (fr_obj r')) = Some [[16; 16]; [16; 16]]%Z
         | Raise _ => False end
  | Raise _ => False end.
Proof. vm_compute. auto 6. Qed.

(** ** C64 for FEMBVVARX (any arithmetic): what an earlier fit leaves behind *)
Theorem C64_varx_history : forall (T : Type) (N : Num T) lstsq inv solver memory (o1 o2 : fembv T (vparams T)) data u weights init up uw,
  fo_cfg o1 = fo_cfg o2 -> fo_n_components o1 = fo_n_components o2 -> fo_rng o1 = fo_rng o2 ->
  match fembv_fit_transform (varx_class lstsq inv memory) solver o1 data u weights init up uw,
        fembv_fit_transform (varx_class lstsq inv memory) solver o2 data u weights init up uw with
  | Ok (r1, W1), Ok (r2, W2) =>
      W1 = W2 /\ fr_cost r1 = fr_cost r2 /\ fr_n_iter r1 = fr_n_iter r2 /\ fr_log r1 = fr_log r2 /\ fr_warned r1 = fr_warned r2
      /\ fo_rng (fr_obj r1) = fo_rng (fr_obj r2)
      /\ exists w1 w2, fo_ws (fr_obj r1) = Some w1 /\ fo_ws (fr_obj r2) = Some w2
           /\ vp_models (f_params w1) = vp_models (f_params w2) /\ vp_mu (f_params w1) = vp_mu (f_params w2)
           /\ ((0 < mem_max memory)%nat -> vp_A (f_params w1) = vp_A (f_params w2))
           /\ (u <> None -> vp_B0 (f_params w1) = vp_B0 (f_params w2))
  | Raise e1, Raise e2 => e1 = e2
  | _, _ => False
  end.
Proof.
  intros T N lstsq inv solver memory o1 o2 data u weights init up uw E1 E2 E3. unfold fembv_fit_transform, fembv_fit. rewrite E1, E2, E3.
  destruct (check_params _ _ _) as [[[k m] t]|e] eqn:E0; cbn [bind]; [|reflexivity].
  assert (I : forall old1 old2, res_rel (fun x y => wsim memory (fst x) (fst y) /\ snd x = snd y /\ vp_u (f_params (fst x)) = u)
     (fembv_initialize (varx_class lstsq inv memory) (fo_cfg o2) k old1 data u weights init (fo_rng o2))
     (fembv_initialize (varx_class lstsq inv memory) (fo_cfg o2) k old2 data u weights init (fo_rng o2))).
  { intros old1 old2. unfold fembv_initialize. cbn [varx_class cl_initialize cl_distance].
    assert (J : res_rel (fun x y => vsim memory (fst x) (fst y) /\ snd x = snd y /\ vp_u (fst x) = u)
       (varx_initialize lstsq inv memory k data u init old1 (fo_rng o2)) (varx_initialize lstsq inv memory k data u init old2 (fo_rng o2))).
    { pose proof (initialize_inv lstsq inv memory k data u init old1 (fo_rng o2)) as V.
      unfold varx_initialize in *. match type of V with forall _ _, bind ?M _ = _ -> _ => destruct M as [u'|]; cbn [bind] in *; [|reflexivity] end.
      destruct (map_res _ (seq 0 k)) as [ms|]; cbn [bind] in *; [|reflexivity]. destruct (map_res _ ms) as [ms'|]; cbn [bind] in *; [|reflexivity].
      destruct (negb _); [reflexivity|]. cbn [res_rel fst snd]. specialize (V _ _ eq_refl). destruct V as (_ & _ & V & _). cbn [vp_u] in V. subst u'.
      split; [|split; reflexivity]. do 4 (split; [reflexivity|]). cbn [vp_A vp_B0 vp_u]. split.
      - intros Hp. destruct (Z.ltb_spec 0 (zmax memory)) as [L|L]; [reflexivity | unfold mem_max in Hp; lia].
      - intros Hu. destruct u; [reflexivity | congruence]. }
    destruct (varx_initialize lstsq inv memory k data u init old1 (fo_rng o2)) as [[p g1]|], (varx_initialize lstsq inv memory k data u init old2 (fo_rng o2)) as [[q g2]|];
      cbn [res_rel fst snd] in J; try contradiction; cbn [bind]; [|exact J]. destruct J as (J1 & <- & J2). rewrite (distance_sim _ _ _ J1).
    destruct (negb _); [reflexivity|]. destruct (fembv_initialize_weights _ _ _ _ _) as [[W g']|]; cbn [bind]; [|reflexivity].
    destruct (initialize_constraints _ _ _) as [cs|]; cbn [bind res_rel fst snd]; [|reflexivity]. split; [|split; [reflexivity | exact J2]]. split; [exact J1 | auto]. }
  specialize (I (option_map f_params (fo_ws o1)) (option_map f_params (fo_ws o2))).
  destruct (fembv_initialize _ _ _ (option_map f_params (fo_ws o1)) _ _ _ _ _) as [[w g1]|], (fembv_initialize _ _ _ (option_map f_params (fo_ws o2)) _ _ _ _ _) as [[v g2]|];
    cbn [res_rel fst snd] in I; try contradiction; cbn [bind]; [|exact I]. destruct I as (I1 & <- & I2).
  set (cl := varx_class lstsq inv memory).
  assert (UP : forall a b, wsim memory a b -> res_rel (wsim memory) (fembv_update_parameters cl a) (fembv_update_parameters cl b)).
  { intros a b (A1 & A2 & A3 & A4 & A5). unfold fembv_update_parameters. cbn [cl varx_class cl_update]. rewrite A2. pose proof (update_sim lstsq inv memory (f_Gamma b) _ _ A1) as S.
    destruct (varx_update lstsq inv memory (f_Gamma b) (f_params a)), (varx_update lstsq inv memory (f_Gamma b) (f_params b)); cbn [res_rel] in S; try contradiction; cbn [bind res_rel]; [|exact S].
    split; [exact S | auto]. }
  assert (UW : forall a b, wsim memory a b -> res_rel (wsim memory) (fembv_update_weights cl solver (fo_cfg o2) k a) (fembv_update_weights cl solver (fo_cfg o2) k b)).
  { intros a b (A1 & A2 & A3 & A4 & A5). unfold fembv_update_weights. cbn [cl varx_class cl_distance]. rewrite A2, A3, A4, A5, (distance_sim _ _ _ A1).
    destruct (Nat.eqb k 1); [cbn [res_rel]; split; [exact A1 | auto]|]. destruct (negb _); [reflexivity|]. destruct (f_cons b) as [[[[Ae be] Au] bu]|]; [|reflexivity].
    destruct (solver _ _) as [|sol| |e]; try reflexivity; [cbn [res_rel]; split; [exact A1 | auto]|]. destruct (negb _); [reflexivity|]. cbn [res_rel]. split; [exact A1 | auto]. }
  pose proof (iterate_sim (fembv_cost cl) (fembv_bad (fc_monotone (fo_cfg o2)) t) (wsim memory)
    (enabled up (fembv_update_parameters cl) ++ enabled uw (fembv_update_weights cl solver (fo_cfg o2) k)) t m w v (cost_sim lstsq inv memory)) as S.
  assert (S' := S (fun f Hf a b Hab => ltac:(destruct up, uw; cbn [enabled app] in Hf; repeat (destruct Hf as [<-|Hf]); try contradiction; auto)) I1). clear S.
  fold (fembv_iterate cl solver (fo_cfg o2) k up uw t m w) in S'. fold (fembv_iterate cl solver (fo_cfg o2) k up uw t m v) in S'.
  destruct (fembv_iterate cl solver (fo_cfg o2) k up uw t m w) as [[[[w' c1] n1'] l1]|] eqn:EI, (fembv_iterate cl solver (fo_cfg o2) k up uw t m v) as [[[[v' c2] n2'] l2]|];
    cbn [res_rel fst snd] in S'; try contradiction; cbn [bind fr_obj fo_ws]; [|exact S'].
  destruct S' as (S1 & -> & -> & ->). cbn [fr_cost fr_n_iter fr_log fr_warned fr_obj fo_rng fo_ws].
  pose proof S1 as ((V1 & V2 & V3 & V4 & V5 & V6) & G1 & _). split; [exact G1|]. do 5 (split; [reflexivity|]). exists w', v'. do 2 (split; [reflexivity|]). split; [exact V3|]. split; [exact V4|]. split; [exact V5|].
  intros Hu. apply V6.
  assert (KU : vp_u (f_params w') = u); [|congruence].
  unfold fembv_iterate in EI. apply (iterate_ok (fembv_cost cl) (fun x => vp_u (f_params x) = u)) in EI; [apply EI| |apply check_params_ok in E0; apply E0 |exact I2].
  intros f a b Hf Ha Eab. destruct up, uw; cbn [enabled app] in Hf; repeat (destruct Hf as [<-|Hf]); try contradiction.
  all: try (unfold fembv_update_parameters in Eab; apply bind_ok in Eab; destruct Eab as (q & Eq & Eab); injection Eab as <-; cbn [f_params]; cbn [cl varx_class cl_update] in Eq;
    unfold varx_update in Eq; revert Eq; rewrite <- Ha; generalize (seq 0 (length (vp_models (f_params a)))); generalize (f_params a) as pa; clear;
    intros pa l; revert pa; induction l as [|i l IH]; intros pa Eq; cbn [varx_update_from] in Eq; [injection Eq as <-; reflexivity|];
    apply bind_ok in Eq; destruct Eq as (p1 & E1 & Eq); rewrite (IH _ Eq); unfold varx_update_one in E1; destruct (nth_error _ i); [|discriminate];
    apply bind_ok in E1; destruct E1 as (m' & _ & E1); apply bind_ok in E1; destruct E1 as (A & _ & E1); apply bind_ok in E1; destruct E1 as (B & _ & E1); injection E1 as <-; reflexivity).
  all: apply (other_params cl solver (fo_cfg o2) k true) in Eab; rewrite Eab; exact Ha.
Qed.
Print Assumptions C64_varx_history.
(** B0 of an earlier fit with external factors is still reported after a fit without them *)
Example C64_example :
  match evZ_fit [1]%Z (mkmat 3 1 [[1]; [5]; [9]]%Z) (Some (mkmat 3 1 [[1]; [2]; [3]]%Z)) with
  | Ok (r, _) =>
      match @fembv_fit_transform Z Num_Z_demo _ _ (@varx_class Z Num_Z_demo evZ_lstsq evZ_inv [1]%Z) (fun _ _ => LpFailed) (fr_obj r) (mkmat 3 1 [[1]; [5]; [9]]%Z) None None InitNone true true with
      | Ok (r', _) => option_map (fun w => option_map (map (@dat Z)) (vp_B0 (f_params w))) (fo_ws (fr_obj r')) = Some (Some [[[2]]]%Z)
          /\ option_map (fun w => vp_u (f_params w)) (fo_ws (fr_obj r')) = Some None
      | Raise _ => False end
  | Raise _ => False end.
Proof. vm_compute. auto. Qed.

(** ** C26 for FEMBVVARX: the memory argument *)
Theorem C26_varx_memory : forall (T : Type) (n_components : pyval T) memory l,
  varx_memory n_components memory = Ok l <->
  exists k, n_components = PInt (Z.of_nat k) /\
    match memory with
    | MemNone => l = repeat 0%Z k
    | MemInt z => (0 <= z)%Z /\ l = repeat z k
    | MemList l' => l = l' /\ length l' = k
    | MemOther => False
    end.
Proof.
  intros T v memory l. unfold varx_memory. split.
  - intros H. destruct memory as [|z|l'|]; try discriminate; [| destruct (Z.ltb_spec z 0); [discriminate|] |]; destruct v as [|q| |]; try discriminate.
    + destruct (Z.ltb_spec q 0); [discriminate|]. injection H as <-. exists (Z.to_nat q). split; [f_equal; lia | reflexivity].
    + destruct (Z.ltb_spec q 0); [discriminate|]. injection H as <-. exists (Z.to_nat q). split; [f_equal; lia | auto].
    + destruct (Z.eqb_spec (Z.of_nat (length l')) q); [|discriminate]. injection H as <-. exists (length l'). split; [f_equal; lia | auto].
  - intros (k & -> & H). destruct memory as [|z|l'|]; [| | |contradiction].
    + destruct (Z.ltb_spec (Z.of_nat k) 0); [lia|]. rewrite Nat2Z.id. congruence.
    + destruct H as [Hz ->]. destruct (Z.ltb_spec z 0); [lia|]. destruct (Z.ltb_spec (Z.of_nat k) 0); [lia|]. rewrite Nat2Z.id. reflexivity.
    + destruct H as [-> <-]. rewrite Z.eqb_refl. reflexivity.
Qed.
Print Assumptions C26_varx_memory.
(** otherwise the constructor raises; a negative entry of a list is found by fit *)
Theorem C26_varx_memory_raises : forall (T : Type) (n_components : pyval T) memory e,
  varx_memory n_components memory = Raise e -> e = ValueError \/ (e = TypeError /\ forall z, n_components <> PInt z).
Proof.
  intros T v memory e H. unfold varx_memory in H. destruct memory as [|z|l'|]; [|destruct (Z.ltb z 0); [left; congruence|]| |left; congruence]; destruct v as [|q| |]; try (left; congruence);
    try (right; split; [congruence | discriminate]); match type of H with (if ?b then _ else _) = _ => destruct b end; left; congruence.
Qed.
Print Assumptions C26_varx_memory_raises.
Theorem C26_varx_negative_memory : forall (T : Type) (N : Num T) lstsq inv solver memory (o : fembv T (vparams T)) data u weights init up uw i,
  fo_n_components o = PInt (Z.of_nat (length memory)) -> (i < length memory)%nat -> (nth i memory 0 < 0)%Z ->
  match fembv_fit_transform (varx_class lstsq inv memory) solver o data u weights init up uw with Ok _ => False | Raise e => e = ValueError end.
Proof.
  intros T N lstsq inv solver memory o data u weights init up uw i Ho Hi Hneg. unfold fembv_fit_transform, fembv_fit. rewrite Ho. cbn [resolve_components].
  destruct (check_params _ _ _) as [[[k m] t]|e] eqn:E1; cbn [bind]; [|apply check_params_raise in E1; exact E1].
  apply check_params_ok in E1. destruct E1 as (K1 & _). injection K1 as K1. assert (k = length memory) by lia. subst k.
  unfold fembv_initialize. cbn [varx_class cl_initialize]. unfold varx_initialize at 1.
  match goal with |- context [bind (match u with None => Ok None | Some U => @?F U end) _] => destruct (match u with None => Ok None | Some U => F U end) as [u'|e1] eqn:EU end; cbn [bind].
  - match goal with |- context [map_res ?F ?l] => destruct (map_res F l) as [ms|e2] eqn:EM end; cbn [bind].
    + exfalso. apply map_res_ok in EM. destruct EM as [_ EM]. destruct (EM i i) as (m1 & _ & EM1); [rewrite nth_error_seq by exact Hi; reflexivity|].
      unfold varx_new in EM1. destruct (Z.ltb_spec (nth i memory 0%Z) 0); [discriminate | lia].
    + apply map_res_raise_inv in EM. destruct EM as (j & _ & EM).
      match type of EM with varx_new ?a ?b ?c ?d = _ => destruct (varx_new_cases a b c d) as [(_ & m1 & p' & s' & EM1 & _)|(_ & EM1)] end; rewrite EM1 in EM; [discriminate | congruence].
  - destruct u as [U|]; [|discriminate]. destruct (check_nonempty_cases U) as [(E & _)|(E & _)]; rewrite E in EU; cbn [bind] in EU; [|congruence].
    destruct (negb _); [congruence | discriminate].
Qed.
Print Assumptions C26_varx_negative_memory.
Example C26_varx_example : @varx_memory Z (PInt 2) (MemList [3; -1]%Z) = Ok [3; -1]%Z /\ @varx_memory Z PNone MemNone = Raise TypeError /\ @varx_memory Z (PInt 2) (MemInt (-1)) = Raise ValueError
  /\ evZ_fit [3; -1]%Z (mkmat 3 1 [[1]; [5]; [9]]%Z) None = Raise ValueError.
Proof. vm_compute. auto. Qed.

(** ** A run over the reals: concrete oracles, and a fit that meets all the hypotheses above *)
Definition ev_lstsq (Z Y : mat R) : res (mat R) :=
  let s q q' := Sum (nr Y) (fun t => ent Z t q * ent Z t q') in
  let b q f := Sum (nr Y) (fun t => ent Z t q * ent Y t f) in
  match nc Z with
  | 1%nat => Ok (mbuild 1 (nc Y) (fun _ f => b 0%nat f / s 0%nat 0%nat))
  | 2%nat =>
      let det := s 0%nat 0%nat * s 1%nat 1%nat - s 0%nat 1%nat * s 0%nat 1%nat in
      if Req_EM_T det 0 then Raise LinAlgError
      else Ok (mbuild 2 (nc Y) (fun q f => if Nat.eqb q 0 then (s 1%nat 1%nat * b 0%nat f - s 0%nat 1%nat * b 1%nat f) / det
                                           else (s 0%nat 0%nat * b 1%nat f - s 0%nat 1%nat * b 0%nat f) / det))
  | _ => Raise LinAlgError
  end.
Definition ev_inv (S : mat R) : res (mat R) := Ok S.
Lemma ev_lstsq_shape : lstsq_shape ev_lstsq.
Proof.
  intros Z Y B H. unfold ev_lstsq in H. destruct (nc Z) as [|[|[|k]]]; try discriminate; [injection H as <-; apply is_mat_mbuild|].
  destruct (Req_EM_T _ 0); [discriminate|]. injection H as <-. apply is_mat_mbuild.
Qed.
Lemma ev_inv_shape : inv_shape ev_inv.
Proof. intros S S' [= <-]. reflexivity. Qed.
Lemma normal_minimises Z Y B : (forall q f, (q < nc Z)%nat -> (f < nc Y)%nat ->
    Sum (nr Y) (fun t => ent Z t q * (ent Y t f - Sum (nc Z) (fun q' => ent Z t q' * ent B q' f))) = 0) ->
  forall B', regression_error Z Y B <= regression_error Z Y B'.
Proof.
  intros HN B'. unfold regression_error. rewrite (Sum_swap (nr Y) (nc Y)), (Sum_swap (nr Y) (nc Y)). apply Sum_le; intros f Hf.
  set (r := fun t => ent Y t f - Sum (nc Z) (fun q => ent Z t q * ent B q f)). set (e := fun t => Sum (nc Z) (fun q => ent Z t q * (ent B q f - ent B' q f))).
  assert (E0 : Sum (nr Y) (fun t => r t * e t) = 0).
  { unfold e. rewrite (Sum_ext (nr Y) _ (fun t => Sum (nc Z) (fun q => (ent B q f - ent B' q f) * (ent Z t q * r t)))).
    - rewrite Sum_swap. rewrite (Sum_ext (nc Z) _ (fun _ => 0)); [apply Sum_0|]. intros q Hq. rewrite Sum_scal_l. unfold r. rewrite HN by assumption. ring.
    - intros t Ht. rewrite <- Sum_scal_l. apply Sum_ext; intros q Hq. ring. }
  assert (E1 : Sum (nr Y) (fun t => (ent Y t f - Sum (nc Z) (fun q => ent Z t q * ent B' q f)) ^ 2) = Sum (nr Y) (fun t => r t ^ 2) + Sum (nr Y) (fun t => e t ^ 2)).
  { rewrite <- Sum_plus. apply Rminus_diag_uniq. rewrite <- Sum_minus. rewrite <- (Rmult_0_r 2), <- E0, <- Sum_scal_l. apply Sum_ext; intros t Ht.
    replace (Sum (nc Z) (fun q => ent Z t q * ent B' q f)) with (Sum (nc Z) (fun q => ent Z t q * ent B q f) - e t); [unfold r; ring|].
    unfold e. rewrite <- Sum_minus. apply Sum_ext; intros q Hq. ring. }
  rewrite E1. enough (0 <= Sum (nr Y) (fun t => e t ^ 2)) by (unfold r in *; lra). apply Sum_nonneg. intros t Ht. apply pow2_ge_0.
Qed.
Lemma ev_lstsq_minimises : lstsq_minimises ev_lstsq.
Proof.
  intros Z Y B H B' _. apply normal_minimises. clear B'. intros q f Hq Hf.
  assert (G : forall q, Sum (nr Y) (fun t => ent Z t q * (ent Y t f - Sum (nc Z) (fun q' => ent Z t q' * ent B q' f)))
    = Sum (nr Y) (fun t => ent Z t q * ent Y t f) - Sum (nc Z) (fun q' => ent B q' f * Sum (nr Y) (fun t => ent Z t q * ent Z t q'))).
  { intros q0. rewrite (Sum_ext (nc Z) _ (fun q' => Sum (nr Y) (fun t => ent B q' f * (ent Z t q0 * ent Z t q')))) by (intros; rewrite Sum_scal_l; reflexivity).
    rewrite Sum_swap, <- Sum_minus. apply Sum_ext; intros t Ht. rewrite Rmult_minus_distr_l. f_equal. rewrite <- Sum_scal_l. apply Sum_ext; intros q' _. ring. }
  rewrite G. clear G. unfold ev_lstsq in H. destruct (nc Z) as [|[|[|k]]] eqn:EZ; try discriminate.
  - injection H as <-. assert (q = 0%nat) by lia. subst q. cbn [Sum]. rewrite ent_mbuild by lia. set (s := Sum (nr Y) (fun t => ent Z t 0 * ent Z t 0)).
    destruct (Req_dec s 0) as [E|E]; [|unfold Rdiv; field; exact E].
    rewrite (Sum_ext (nr Y) _ (fun _ => 0)); [rewrite Sum_0, E; unfold Rdiv; ring|]. intros t Ht.
    assert (Z0 : ent Z t 0 * ent Z t 0 = 0) by (apply (Sum_nonneg_0 (nr Y) (fun t => ent Z t 0 * ent Z t 0)); [intros; apply Rle_0_sqr | exact E | exact Ht]). apply Rmult_integral in Z0. destruct Z0 as [-> | ->]; ring.
  - destruct (Req_EM_T _ 0) as [E|E]; [discriminate|]. injection H as <-. cbn [Sum]. rewrite !ent_mbuild by lia. cbn [Nat.eqb].
    destruct q as [|[|q]]; [| |lia]; try rewrite (Sum_ext (nr Y) (fun t => ent Z t 1 * ent Z t 0) (fun t => ent Z t 0 * ent Z t 1)) by (intros; ring);
      set (s00 := Sum (nr Y) (fun t => ent Z t 0 * ent Z t 0)) in *; set (s01 := Sum (nr Y) (fun t => ent Z t 0 * ent Z t 1)) in *; set (s11 := Sum (nr Y) (fun t => ent Z t 1 * ent Z t 1)) in *;
      set (b0 := Sum (nr Y) (fun t => ent Z t 0 * ent Y t f)); set (b1 := Sum (nr Y) (fun t => ent Z t 1 * ent Y t f)); field; exact E.
Qed.

(** one autoregressive model with memory 1, fitted to 0, 1, 1, 3 *)
Definition ev_y : mat R := mkmat 4 1 [[0]; [1]; [1]; [3]].
Example C48_example : lstsq_shape ev_lstsq /\ lstsq_minimises ev_lstsq /\ exists m0 m', varx_new ev_y (PInt 1) None (PInt 0) = Ok m0
  /\ varx_fits ev_lstsq ev_inv m0 [] = Ok m0 /\ varx_fit ev_lstsq ev_inv m0 None = Ok m' /\ vx_p m0 = 1%nat /\ ent (vx_residuals m') 2 0 = -1.
Proof.
  split; [exact ev_lstsq_shape|]. split; [exact ev_lstsq_minimises|].
  destruct (C47_design_matrix R Num_R ev_y 1 None 0) as (m0 & E0 & F1 & F2 & F3 & F4 & F5 & F6 & _ & F7); try (cbn [ev_y nr nc Nat.max]; lia); [discriminate|].
  exists m0. cbn [ev_y nr nc Nat.max Nat.sub Nat.mul Nat.add] in F5, F6.
  assert (Z0 : forall t, (t < 3)%nat -> ent (vx_z m0) t 0 = 1) by (intros t Ht; apply F7; cbn; lia).
  assert (Z1 : forall t, (t < 3)%nat -> ent (vx_z m0) t 1 = ent ev_y t 0).
  { intros t Ht. destruct (F7 t ltac:(cbn; lia)) as (_ & G & _). specialize (G 1%nat 0%nat ltac:(lia) ltac:(cbn; lia)). rewrite mget_ent in G.
    change (1 + (1 - 1) * nc ev_y + 0)%nat with 1%nat in G. rewrite G, mget_ent. f_equal. cbn. lia. }
  assert (Y0 : forall t, (t < 3)%nat -> ent (mslice 1 4 ev_y) t 0 = ent ev_y (1 + t) 0) by (intros t Ht; rewrite ent_mslice by (cbn; lia); reflexivity).
  set (Y := mslice 1 4 ev_y) in *. assert (nY : nr Y = 3%nat) by reflexivity.
  assert (EB : exists B, varx_params ev_lstsq m0 None = Ok B /\ ent B 0 0 = 1 /\ ent B 1 0 = 1).
  { unfold varx_params. rewrite F1, F2, F3. change (mslice _ _ ev_y) with Y. unfold ev_lstsq. rewrite F6, nY. cbn [Sum]. rewrite !Z0, !Z1 by lia.
    destruct (Req_EM_T _ 0) as [E|E]; [exfalso; unfold ent in E; cbn in E; lra|]. eexists. split; [reflexivity|]. rewrite !ent_mbuild by (cbn; lia). cbn [Nat.eqb]. rewrite ?Z0, ?Z1, ?Y0 by lia. unfold ent; cbn. split; field; lra. }
  destruct EB as (B & EB & B0 & B1).
  assert (EF : exists m', varx_fit ev_lstsq ev_inv m0 None = Ok m') by (unfold varx_fit; rewrite EB; unfold ev_inv; cbn [bind]; eauto). destruct EF as (m' & EF). exists m'.
  split; [exact E0|]. split; [reflexivity|]. split; [exact EF|]. split; [exact F1|].
  destruct (C48_residuals ev_lstsq ev_inv ev_y _ _ _ m0 [] m0 None m' ev_lstsq_shape E0 eq_refl EF) as (_ & _ & _ & RE). rewrite RE by (cbn; lia). rewrite F1, F2. cbn [Nat.max Nat.ltb Nat.leb].
  destruct (new_ok _ _ _ _ _ E0) as [L0 Hu]. destruct (fit_inv ev_lstsq ev_inv ev_lstsq_shape _ _ _ _ _ _ _ L0 Hu EF) as (B' & S & EB' & SB & _ & F & _). rewrite EB in EB'. injection EB' as <-.
  pose proof (forecast_fitted m0 B m' 1 0 2 0 F F1 F2) as FF. rewrite F3, F4 in FF. rewrite FF; [|apply SB|destruct SB as (-> & _); lia|cbn; lia].
  unfold design_row. cbn [Sum nc ev_y Nat.sub Nat.mul Nat.add]. rewrite B0, B1. unfold ent. cbn. lra.
Qed.

(** two components without memory: the data, weights and solver of the FEM-BV example *)
Definition ev_memory : list Z := repeat (Z.of_nat 0) 2.
Definition ev_class := varx_class ev_lstsq ev_inv ev_memory.
Definition ev_obj : fembv R (vparams R) := fembv_new ef_cfg (PInt 2) ex_rng.
Lemma ev_total : forall Z Y, nc Z = (1 + 0 * 1 + n_exog (@None (mat R)))%nat -> exists B, ev_lstsq Z Y = Ok B.
Proof. intros Z Y E. cbn in E. unfold ev_lstsq. rewrite E. eauto. Qed.
Lemma ev_inv_total : forall S, exists S', ev_inv S = Ok S'.
Proof. intros S. exists S. reflexivity. Qed.
Definition ev_vok := vok 0 2 1 ef_data None.
Lemma ev_gok s : ev_vok s -> gok ev_memory ef_data None 2 s.
Proof. intros H. apply (vok_gok 0 2 1 ef_data None); try assumption; try lia; try congruence. Qed.
Lemma ev_update s s' : ev_vok s -> varx_update ev_lstsq ev_inv ev_memory ef_G s = Ok s' -> ev_vok s' /\ varx_distance ev_memory s' = ef_D.
Proof.
  intros V E. apply (update_vok ev_lstsq ev_inv 0 2 2 1 ef_data None ev_lstsq_shape ev_inv_shape) in E; [| lia | exact ef_data_mat | exact V]. destruct E as (V' & _ & E). split; [exact V'|].
  apply (mat_ext_R 2 2); [apply (distance_mat 0 2 2 1 ef_data None); [lia | exact ef_data_mat | exact V'] | exact ef_D_mat|]. intros t i Ht Hi.
  destruct (E i Hi) as (m & m' & M1 & M2 & M3). pose proof V as (_ & _ & _ & _ & _ & VM). destruct (VM i Hi) as (m1 & M1' & (L & _)). rewrite M1 in M1'. injection M1' as <-.
  unfold ev_memory. rewrite (distance_entry 0 2 2 1 ef_data None) with (m := m'); try assumption; try lia; [|exact ef_data_mat].
  destruct (fit_inv ev_lstsq ev_inv ev_lstsq_shape _ _ _ _ _ _ _ L (fun _ => eq_refl) M3) as (B & S & _ & _ & (l1 & l2 & l3 & l4 & _) & _ & ER & _).
  unfold errors_of in ER. rewrite l1, l2, l3, l4 in ER. cbn [Nat.max Nat.sub Nat.add ef_data nr nc] in ER. unfold design_row in ER. cbn [Sum] in ER.
  assert (W : forall t, (t < 2)%nat -> weight_at (Some (repeat 1 0 ++ mcol ef_G i)) t = ent ef_G t i).
  { intros t0 Ht0. cbn [repeat app weight_at]. unfold at_, mcol. two t0; two i; reflexivity. }
  pose proof (fit_minimises ev_lstsq ev_inv m (Some (repeat 1 0 ++ mcol ef_G i)) m' ef_data 0 None 0 ev_lstsq_shape ev_lstsq_minimises L (fun _ => eq_refl)) as FM.
  specialize (FM ltac:(intros ws [= <-] t0 Ht0; cbn [ef_data nr] in Ht0; change (0 <= weight_at (Some (repeat 1 0 ++ mcol ef_G i)) t0); rewrite (W t0 Ht0); two t0; two i; unfold ent; cbn; lra) M3 (fun _ _ => ent ef_data i 0)).
  unfold weighted_error in FM. cbn [Nat.max Nat.sub Nat.add ef_data nr nc] in FM. unfold design_row in FM. cbn [Sum] in FM. rewrite !W in FM by lia. cbn [Sum Nat.add].
  pose proof (ER 0%nat 0%nat ltac:(lia) ltac:(lia)) as R0. pose proof (ER 1%nat 0%nat ltac:(lia) ltac:(lia)) as R1. revert FM R0 R1.
  two t; cbn [Nat.add]; generalize (ent (vx_residuals m') 0 0) (ent (vx_residuals m') 1 0) (ent B 0 0); intros r0 r1 b; two i; unfold ent; cbn; intros FM R0 R1.
  1, 3: (assert (r0 = 0) by nra; nra).
  all: assert (r1 = 0) by nra; nra.
Qed.
Definition ev_P (w : fws R (vparams R)) : Prop :=
  f_Gamma w = ef_G /\ ev_vok (f_params w) /\ initialize_constraints ef_cfg 2 2 = Ok (f_cons w) /\ 0 <= fembv_cost ev_class w.
Lemma ev_step n w : ev_P w -> exists w' c', run_updates (fembv_cost ev_class) (fembv_bad true (nofZ 0) n (fembv_cost ev_class w))
    (enabled true (fembv_update_parameters ev_class) ++ enabled true (fembv_update_weights ev_class ef_solver ef_cfg 2)) w (fembv_cost ev_class w) = Ok (w', c')
  /\ c' = fembv_cost ev_class w' /\ ev_P w'.
Proof.
  intros (P1 & P2 & P3 & P4). set (c0 := fembv_cost ev_class w) in *.
  destruct (update_total ev_lstsq ev_inv 0 2 2 1 ef_data None ev_lstsq_shape ev_inv_shape ltac:(lia) ef_data_mat ef_G (f_params w)) as (s' & Es); try exact ev_total; try exact ev_inv_total; try assumption; try lia; [apply ev_gok; exact P2 | exact ef_G_mat|].
  destruct (ev_update _ _ P2 Es) as (V' & D').
  assert (Z : forall Eta cs ca, fembv_cost ev_class (mk_fws s' ef_G Eta cs ca) = 0).
  { intros. unfold fembv_cost. cbn [f_Gamma f_params ev_class varx_class cl_distance]. rewrite D'. unfold minner. rewrite nsum_Sum. cbn. numR. lra. }
  assert (B : fembv_bad true (nofZ 0) n c0 0 = false).
  { unfold fembv_bad. destruct (Nat.ltb 0 n); [|reflexivity]. cbn [andb]. numR. rewrite (proj2 (Rltb_false c0 0)) by lra. reflexivity. }
  destruct ef_cons as (Ae & be & Au & bu & Ei & El). rewrite Ei in P3. injection P3 as P3.
  cbn [enabled app run_updates]. unfold fembv_update_parameters at 1. rewrite P1. cbn [ev_class varx_class cl_update]. unfold ev_memory at 1. rewrite Es. cbn [bind]. rewrite <- P3.
  fold ev_class. rewrite Z, B.
  unfold fembv_update_weights. cbn [f_Gamma f_params f_Eta f_cons f_calls]. change (Nat.eqb 2 1) with false. cbv iota. change (nr ef_G) with 2%nat.
  change (cl_distance ev_class s') with (varx_distance ev_memory s'). rewrite D'. change (negb (Nat.eqb (nr ef_D) 2 && Nat.eqb (nc ef_D) 2)) with false. cbv iota.
  rewrite <- El. unfold ef_solver at 1. destruct (lp_eq_dec ef_lp ef_lp); [|contradiction]. rewrite ef_nw. change (negb (Nat.eqb (length ef_sol) 6)) with false. cbv iota. rewrite ef_has_tv.
  assert (EG : mbuild 2 2 (fun t i => clip01 (vget ef_sol (t * 2 + i))) = ef_G).
  { rewrite ef_sol_pack, clip_block by (rewrite block_pack by (lia || exact ef_G_mat); exact ef_G_stochastic). apply block_pack; [lia | exact ef_G_mat]. }
  rewrite EG. cbn [bind]. rewrite Z, B. eexists _, _. split; [reflexivity|]. rewrite Z. split; [reflexivity|]. unfold ev_P. rewrite Z. cbn [f_Gamma f_params f_cons]. rewrite Ei.
  split; [reflexivity|]. split; [exact V'|]. split; [reflexivity | lra].
Qed.
Lemma ev_fit : exists r W, fembv_fit_transform ev_class ef_solver ev_obj ef_data None (Some ef_G) InitCustom true true = Ok (r, W).
Proof.
  unfold fembv_fit_transform, fembv_fit, ev_obj, fembv_new. cbn [fo_cfg fo_n_components fo_rng fo_ws ef_cfg fc_max_iterations fc_tolerance option_map resolve_components].
  rewrite (check_params_total 2 3 (PInt 0) (nofZ 0)); [|lia|lia|left; exists 0%Z; repeat split; lia]. cbn [bind].
  destruct (initialize_total ev_lstsq ev_inv 0 2 2 1 ef_data None ev_lstsq_shape ev_inv_shape ltac:(lia) ef_data_mat InitCustom None ex_rng) as (s & Es); try exact ev_total; try exact ev_inv_total; try lia; [discriminate|].
  destruct (initialize_vok ev_lstsq ev_inv 0 2 2 1 ef_data None ev_lstsq_shape ev_inv_shape ltac:(lia) ef_data_mat _ _ _ _ _ Es) as (V & _).
  pose proof (distance_mat 0 2 2 1 ef_data None ltac:(lia) ef_data_mat s V) as HD. change (2 - 0)%nat with 2%nat in HD. fold ev_memory in HD.
  unfold fembv_initialize. cbn [ev_class varx_class cl_initialize]. unfold ev_memory at 1. rewrite Es. cbn [bind]. fold ev_class. change (cl_distance ev_class s) with (varx_distance ev_memory s).
  destruct HD as (h1 & h2 & h3). rewrite h1, h2. change (negb (Nat.eqb 2 2)) with false. cbv iota.
  unfold fembv_initialize_weights. rewrite (check_init_weights_stochastic ef_G 2 2 ef_G_mat ef_G_stochastic). cbn [bind].
  fold ef_cfg. destruct ef_cons as (Ae & be & Au & bu & Ei & El). rewrite Ei. cbn [bind].
  set (w := mk_fws _ _ _ _ _).
  assert (Hw : ev_P w).
  { split; [reflexivity|]. split; [exact V|]. split; [exact Ei|]. rewrite (fembv_cost_spec ev_class ef_cfg 2 2 w); [|split; [exact ef_G_mat | split; [split; [exact h1 | split; [exact h2 | exact h3]] | exact Ei]]].
    apply Sum_nonneg. intros t Ht. apply Sum_nonneg. intros i Hi. cbn [w f_Gamma ef_G nr nc] in Ht, Hi. apply Rmult_le_pos; [two t; two i; unfold ent; cbn; lra|].
    cbn [w f_params ev_class varx_class cl_distance]. pose proof V as (_ & _ & _ & _ & _ & VM). destruct (VM i Hi) as (m & M1 & _). unfold ev_memory.
    rewrite (distance_entry 0 2 2 1 ef_data None) with (m := m); try assumption; try lia; [|exact ef_data_mat]. apply Sum_nonneg. intros f _. apply pow2_ge_0. }
  destruct (iterate_loop_total_idx (fembv_cost ev_class) (fembv_bad true (nofZ 0))
     (enabled true (fembv_update_parameters ev_class) ++ enabled true (fembv_update_weights ev_class ef_solver ef_cfg 2)) (nofZ 0) (fun _ => ev_P) 3
     (fun n s _ Hs => ev_step n s Hs) 3 0%nat w [fembv_cost ev_class w] (le_n _) Hw) as [[[[w' c'] n'] L] E].
  unfold fembv_iterate, iterate. change (fc_monotone ef_cfg) with true. rewrite E. cbn [bind fo_ws fr_obj]. eauto.
Qed.
Example C49_example : exists r W, fembv_fit_transform (varx_class ev_lstsq ev_inv (repeat (Z.of_nat 0) 2)) ef_solver ev_obj ef_data None (Some ef_G) InitCustom true true = Ok (r, W)
  /\ lstsq_shape ev_lstsq /\ lstsq_minimises ev_lstsq /\ inv_shape ev_inv /\ solver_optimal ef_solver /\ solver_feasible ef_solver /\ solver_honest ef_solver
  /\ is_mat 2 1 ef_data /\ fo_n_components ev_obj = PInt (Z.of_nat 2) /\ rng_ok 2 (fo_rng ev_obj) /\ wf ef_G /\ row_stochastic ef_G
  /\ (forall i q, ef_solver i q <> LpRaises RuntimeError) /\ (forall Z Y, ev_lstsq Z Y <> Raise RuntimeError) /\ (forall M, ev_inv M <> Raise RuntimeError)
  /\ mem_max (repeat (Z.of_nat 0) 2) <> nr ef_data.
Proof.
  destruct ev_fit as (r & W & E). exists r, W. split; [exact E|]. split; [exact ev_lstsq_shape|]. split; [exact ev_lstsq_minimises|]. split; [exact ev_inv_shape|].
  split; [exact ef_solver_optimal|]. split; [exact ef_solver_feasible|]. split; [exact ef_solver_honest|]. split; [exact ef_data_mat|]. split; [reflexivity|]. split; [exact ex_rng_ok|].
  split; [apply is_mat_wf with (1 := ef_G_mat)|]. split; [exact ef_G_stochastic|]. split; [intros i q; unfold ef_solver; destruct (lp_eq_dec q ef_lp); discriminate|].
  split; [|split; [discriminate | cbn; lia]]. intros Z Y. unfold ev_lstsq. destruct (nc Z) as [|[|[|]]]; try discriminate. destruct (Req_EM_T _ 0); discriminate.
Qed.
