(** C89: the distances of FEM-BV-VARX on integer data *)
From Coq Require Import List Arith ZArith Bool Reals Lra Lia.
From Verif Require Import Num Mat Py Lp M_random M_iter M_gpnh M_furthest M_fembv M_varx M_int Spec Spec_fembv Spec_varx Spec_int.
From Verif Require Import P_lin P_random P_iter P_mat P_gpnh_run P_furthest P_fembv P_fembv_upd P_fembv_run P_varx P_varx_run P_int P_int_varx P_int_dist.
From Verif Require Import Props_base Props_gpnh Props_fembv Props_varx Props_int_varx.
Import ListNotations.
Local Open Scope R_scope.

(** the cost is the weighted sum of the squares of the reported residuals, which are integers: nothing
    more is lost when the distances are stored as integers.  A single row of residuals serves all times. *)
Theorem C89_distances_exact : forall lstsq inv solver memory (o : fembv R (vparams R)) k data ext weights init up uw r W,
  let P := Z.to_nat (zmax memory) in
  lstsq_shape lstsq -> inv_shape inv -> comp_count (fo_n_components o) (nc data) k -> (k <= length memory)%nat -> (P < nr data)%nat ->
  (forall W0, weights = Some W0 -> wf W0) ->
  fembv_fit_transform (ivx lstsq inv memory) solver o data ext weights init up uw = Ok (r, W) ->
  exists s, option_map f_params (fo_ws (fr_obj r)) = Some s /\
  let e i := match nth_error (vp_models s) i with Some m => vx_residuals m | None => no_mat end in
  let row i t := if Nat.eqb (nr (e i) - P) 1 then P else (P + t)%nat in
  let D t i := Sum (nc data) (fun f => ent (e i) (row i t) f ^ 2) in
  length (vp_models s) = k /\ (forall i, (i < k)%nat -> integral (e i))
  /\ (forall t i, (t < nr data - P)%nat -> (i < k)%nat -> ent (int_varx_distance toward_zero memory s) t i = D t i)
  /\ fr_cost r = Sum (nr data - P) (fun t => Sum k (fun i => ent W t i * D t i)).
Proof.
  intros lstsq inv solver memory o k data ext weights init up uw r W P Hs Hi Hc Hk Hn WW H.
  apply fembv_fit_inv in H. destruct H as (k' & m & t & w & g' & w' & A1 & A2 & A3 & A4 & A5 & A6 & A7 & A8 & A9 & ->).
  apply comp_count_resolve in Hc. rewrite Hc in A1. assert (k' = k) as -> by (injection A1; lia).
  assert (HK : keeps (ivx lstsq inv memory) (nr data - mem_max memory) k (dok memory k data ext)).
  { split; [intros s; apply int_dist_mat|]. intros G s s' _ HD E. cbn [int_varx_class cl_update] in E. eapply update_dok; eassumption. }
  assert (I0 : finv (fo_cfg o) (nr data - mem_max memory) k (dok memory k data ext) w).
  { apply fembv_initialize_inv in A6. destruct A6 as (p & g1 & E1 & _ & E3 & E4 & EP & _). cbn [int_varx_class cl_initialize] in E1.
    apply (initialize_dok lstsq inv memory k data ext Hs Hi) in E1. destruct E1 as [_ HD]. destruct HK as [K _]. pose proof (K _ HD) as (d1 & _). rewrite d1 in *.
    apply fembv_weights_ok in E3; [|exact WW]. split; [apply E3|]. rewrite EP. split; [exact HD | exact E4]. }
  assert (Hn' : (0 < nr data - mem_max memory)%nat) by (unfold mem_max; fold P; lia).
  assert (CE : fr_cost r = fembv_cost (ivx lstsq inv memory) w').
  { unfold fembv_iterate in A7. apply (iterate_ok (fembv_cost (ivx lstsq inv memory)) (fun _ => True)) in A7; auto. apply A7. }
  apply fembv_iterate_path in A7; [|exact A4]. destruct A7 as (N' & f & h & F0 & F1 & F2 & _).
  pose proof (F2 (S (fr_n_iter r)) (le_n _)) as F5. rewrite F1 in F5.
  pose proof (after_inv _ solver _ _ k _ HK Hn' A2 _ _ _ _ _ I0 F5) as I1. pose proof I1 as ((g1 & g2 & _) & HD & _).
  rewrite A8. cbn [fo_ws option_map]. exists (f_params w'). split; [reflexivity|]. cbv zeta.
  assert (EN : forall t i, (t < nr data - P)%nat -> (i < k)%nat -> _) by (intros t0 i0 Ht0 Hi0; exact (int_dist_entry memory k data ext (f_params w') t0 i0 HD Ht0 Hi0)).
  assert (EQ : forall t i, (t < nr data - P)%nat -> (i < k)%nat -> ent (int_varx_distance toward_zero memory (f_params w')) t i
    = Sum (nc data) (fun f => ent (match nth_error (vp_models (f_params w')) i with Some m => vx_residuals m | None => no_mat end)
        (if Nat.eqb (nr (match nth_error (vp_models (f_params w')) i with Some m => vx_residuals m | None => no_mat end) - P) 1 then P else (P + t)%nat) f ^ 2)).
  { intros t0 i0 Ht0 Hi0. destruct (EN t0 i0 Ht0 Hi0) as (m0 & Em & E & _). rewrite Em. exact E. }
  split; [apply HD|]. split; [|split; [exact EQ|]].
  - intros i0 Hi0 a b. destruct (EN 0%nat i0 ltac:(unfold mem_max in Hn'; fold P in Hn'; exact Hn') Hi0) as (m0 & Em & _ & E). rewrite Em. apply E.
  - rewrite CE, (fembv_cost_spec _ (fo_cfg o) k (nr data - mem_max memory) w') by (eapply finv_fok; eassumption). unfold clustering_cost. rewrite g1, g2.
    apply Sum_ext; intros t0 Ht0. apply Sum_ext; intros i0 Hi0. cbn [int_varx_class cl_distance]. f_equal. apply EQ; assumption.
Qed.
Print Assumptions C89_distances_exact.

(** weights that are not updated are those of the start *)
Lemma after_weights_kept {P A} (cl : fembv_class R P A) solver c k up : forall i w w', fembv_after cl solver c k up false i w = Ok w' -> f_Gamma w' = f_Gamma w.
Proof.
  induction i as [|i IH]; intros w w' E; cbn [fembv_after] in E; [injection E as <-; reflexivity|].
  apply bind_ok in E. destruct E as (w1 & E1 & E). apply bind_ok in E. destruct E as (w2 & E2 & E). apply IH in E1. rewrite <- E1.
  unfold other_half in E. injection E as <-. unfold half_step in E2. destruct up; [|injection E2 as <-; reflexivity].
  unfold fembv_update_parameters in E2. apply bind_ok in E2. destruct E2 as (p & _ & E2). injection E2 as <-. reflexivity.
Qed.
(** the fit of 0, 1, 4: reported residuals -1, 0, 2 and cost 5, while the squared errors of the mean 5/3
    sum to 26/3 *)
Example C89_example : inv_shape ei_inv /\
  exists r, fembv_fit_transform (ivx ev_lstsq ei_inv [0%Z]) (fun _ _ => LpFailed) ei_obj ei_data None (Some ei_ones) InitCustom true false = Ok (r, ei_ones)
    /\ fr_cost r = 5 /\ Sum 3 (fun t => (ent ei_data t 0 - 5 / 3) ^ 2) = 26 / 3.
Proof.
  assert (HI : inv_shape ei_inv) by (intros S S'; unfold ei_inv; destruct (Req_EM_T _ _); [discriminate | intros E; injection E as <-; reflexivity]).
  split; [exact HI|]. destruct C77_example as (Hs & Hc & r & W & E & ES & EM & _).
  assert (W = ei_ones) as ->.
  { pose proof E as E'. apply fembv_fit_inv in E'. destruct E' as (k' & m & t & w & g' & w' & A1 & A2 & A3 & A4 & A5 & A6 & A7 & A8 & A9 & ->).
    apply fembv_iterate_path in A7; [|exact A4]. destruct A7 as (N' & f & h & F0 & F1 & F2 & _). pose proof (F2 (S (fr_n_iter r)) (le_n _)) as F5. rewrite F1 in F5.
    apply after_weights_kept in F5. rewrite F5. apply fembv_initialize_inv in A6. destruct A6 as (p & g1 & _ & _ & E3 & _).
    unfold fembv_initialize_weights in E3. apply bind_ok in E3. destruct E3 as (W0 & E3 & E4). injection E4 as <- _.
    unfold check_init_weights in E3. apply bind_ok in E3. destruct E3 as (M & EM1 & E3). apply bind_ok in E3. destruct E3 as (u1 & _ & E3). apply bind_ok in E3. destruct E3 as (u2 & _ & E3).
    cbn [check_array] in EM1. destruct (all_finite ei_ones); [|discriminate]. congruence. }
  exists r. split; [exact E|]. split; [|cbn; unfold ent; cbn; lra].
  apply (C89_distances_exact ev_lstsq ei_inv _ [0%Z] ei_obj 1) in E; try assumption;
    [|cbn; lia|cbn; lia|intros W0 E0; injection E0 as <-; pose proof ei_ones_mat as Q; apply is_mat_wf in Q; apply Q].
  destruct E as (s & Es & _ & _ & _ & ->). rewrite ES in Es. injection Es as <-. rewrite EM. cbn. unfold ent. cbn. lra.
Qed.
