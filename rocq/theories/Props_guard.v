(** Property C74: the updates of MTD convex coding and of the reduced-order fit never increase the cost
    when line_search_step_tol is small, so the monotonicity guard cannot fire. *)
From Coq Require Import List Arith Lia ZArith Reals Lra Bool.
From Verif Require Import Num Mat Py Spec M_simplex M_spg M_random M_furthest M_gpnh M_mtd M_crom.
From Verif Require Import P_lin P_mat P_spg P_gpnh P_gpnh_run P_mtd P_mtd_upd P_mtd_run P_crom P_mtd_guard P_mtd_guard_run.
From Verif Require Import Props_base Props_gpnh Props_mtd Props_crom Props_opt.
Import ListNotations.
Local Open Scope R_scope.

Lemma one_memory (mem : list R) m : length mem = m -> m = 1%nat -> exists m0, mem = [m0].
Proof. intros L E. rewrite E in L. destruct mem as [|m0 [|]]; cbn in L; try lia. eauto. Qed.

(** ** single updates, from any workspace a run goes through *)
Theorem C74_weights_update_descends : forall fuel (c : mtd_cfg R) n d k X W D ow Ts w w',
  is_mat n d X -> is_mat n k W -> is_mat k d D -> length ow = length (mc_lags c) -> is_stack (length (mc_lags c)) k Ts ->
  (0 < d)%nat -> (0 < k)%nat -> mc_lags c <> [] -> (max_of (mc_lags c) < n)%nat -> 0 <= mc_eps_weights c ->
  row_stochastic W -> prob_vec ow -> stack_stochastic Ts ->
  step_lengths_valid (mc_ls c) -> 0 <= ls_gamma (mc_ls c) <= 1 -> mc_memory c = 1%nat ->
  mtd_reach fuel c k (mtd_initialize_workspace c X W D ow Ts) w ->
  0 < ls_step_tol (mc_ls c) <= ls_sigma_one (mc_ls c) ->
  ls_step_tol (mc_ls c) * (2 * m_alpha_Gamma w * (frob2 (m_S w) / (INR d * INR n)
     + mc_eps_weights c / (INR k * (INR n - INR (max_of (mc_lags c)))) * (2 + 2 * INR k))) <= 1 - ls_gamma (mc_ls c) ->
  mtd_update_weights fuel c k w = Ok w' ->
  let cost w := mtd_objective (mc_eps_states c) (mc_eps_weights c) (mc_lags c) X (m_Gamma w) (m_S w) (m_order_weights w) (m_transition_matrices w) in
  cost w' <= cost w.
Proof.
  intros fuel c n d k X W D ow Ts w w' HX HW HD HO HT Hd Hk Hl Hn He SW SO ST HL Hg Hm HR Ht Hb H cost. pose proof HL as (H1 & H2 & _).
  destruct (mtd_reach_ok fuel c n d k X W D ow Ts w HX HW HD HO HT Hk Hl HL HR) as ((M & _ & L & _ & I & J) & Ha & _).
  destruct (J (conj SO ST)) as [PO PT]. destruct (one_memory _ _ L Hm) as [m0 Em]. rewrite max_of_lag in *.
  pose proof (proj1 (mtd_update_weights_inv c n d k X fuel w w' M Hk H1 H2 H)) as M'. unfold cost.
  rewrite <- (mtd_cost_spec n d k X c w'), <- (mtd_cost_spec n d k X c w) by assumption || lia.
  apply (mtd_weights_never_increase n d k X fuel c w w' m0 (m_alpha_Gamma w)); try assumption; [apply I, SW | lra].
Qed.
Print Assumptions C74_weights_update_descends.
Theorem C74_dictionary_update_descends : forall fuel (c : mtd_cfg R) n d k X W D ow Ts w w',
  is_mat n d X -> is_mat n k W -> is_mat k d D -> length ow = length (mc_lags c) -> is_stack (length (mc_lags c)) k Ts ->
  (0 < n)%nat -> (0 < d)%nat -> (0 < k)%nat -> mc_lags c <> [] -> 0 <= mc_eps_states c ->
  step_lengths_valid (mc_ls c) -> 0 <= ls_gamma (mc_ls c) <= 1 -> mc_memory c = 1%nat ->
  mtd_reach fuel c k (mtd_initialize_workspace c X W D ow Ts) w ->
  0 < ls_step_tol (mc_ls c) <= ls_sigma_one (mc_ls c) ->
  ls_step_tol (mc_ls c) * (2 * m_alpha_S w * (frob2 (m_Gamma w) / (INR d * INR n)
     + mc_eps_states c * (if Nat.eqb k 1 then 0 else 2 / (INR d * (INR k - 1))))) <= 1 - ls_gamma (mc_ls c) ->
  mtd_update_dictionary fuel c k w = Ok w' ->
  let cost w := mtd_objective (mc_eps_states c) (mc_eps_weights c) (mc_lags c) X (m_Gamma w) (m_S w) (m_order_weights w) (m_transition_matrices w) in
  cost w' <= cost w.
Proof.
  intros fuel c n d k X W D ow Ts w w' HX HW HD HO HT Hn Hd Hk Hl He HL Hg Hm HR Ht Hb H cost. pose proof HL as (H1 & H2 & _).
  destruct (mtd_reach_ok fuel c n d k X W D ow Ts w HX HW HD HO HT Hk Hl HL HR) as ((M & L & _) & _ & Ha & _).
  destruct (one_memory _ _ L Hm) as [m0 Em].
  pose proof (proj1 (mtd_update_dictionary_inv c n d k X fuel w w' M H1 H2 H)) as M'. unfold cost.
  rewrite <- (mtd_cost_spec n d k X c w'), <- (mtd_cost_spec n d k X c w) by assumption.
  apply (mtd_update_dictionary_descends n d k X fuel c w w' m0 (m_alpha_S w)); try assumption. lra.
Qed.
Print Assumptions C74_dictionary_update_descends.
Theorem C74_parameters_update_descends : forall fuel (c : mtd_cfg R) n d k X W D ow Ts w w',
  is_mat n d X -> is_mat n k W -> is_mat k d D -> length ow = length (mc_lags c) -> is_stack (length (mc_lags c)) k Ts ->
  (0 < d)%nat -> (0 < k)%nat -> mc_lags c <> [] -> (max_of (mc_lags c) < n)%nat -> 0 <= mc_eps_weights c ->
  row_stochastic W -> prob_vec ow -> stack_stochastic Ts ->
  step_lengths_valid (mc_ls c) -> 0 <= ls_gamma (mc_ls c) <= 1 -> mc_memory c = 1%nat ->
  mtd_reach fuel c k (mtd_initialize_workspace c X W D ow Ts) w ->
  0 < ls_step_tol (mc_ls c) <= ls_sigma_one (mc_ls c) ->
  ls_step_tol (mc_ls c) * (2 * m_alpha_parameters w * (mc_eps_weights c * ((3 * INR (length (mc_lags c)) + 10) / INR k))) <= 1 - ls_gamma (mc_ls c) ->
  mtd_update_parameters fuel c k w = Ok w' ->
  let cost w := mtd_objective (mc_eps_states c) (mc_eps_weights c) (mc_lags c) X (m_Gamma w) (m_S w) (m_order_weights w) (m_transition_matrices w) in
  cost w' <= cost w.
Proof.
  intros fuel c n d k X W D ow Ts w w' HX HW HD HO HT Hd Hk Hl Hn He SW SO ST HL Hg Hm HR Ht Hb H cost. pose proof HL as (H1 & H2 & _).
  destruct (mtd_reach_ok fuel c n d k X W D ow Ts w HX HW HD HO HT Hk Hl HL HR) as ((M & _ & _ & L & I & J) & _ & _ & Ha).
  destruct (J (conj SO ST)) as [PO PT]. destruct (one_memory _ _ L Hm) as [m0 Em]. rewrite max_of_lag in *.
  pose proof (proj1 (mtd_update_parameters_inv c n d k X fuel w w' M Hk Hl H1 H2 H)) as M'. unfold cost.
  rewrite <- (mtd_cost_spec n d k X c w'), <- (mtd_cost_spec n d k X c w) by assumption || lia.
  apply (mtd_parameters_never_increase n d k X fuel c w w' m0 (m_alpha_parameters w)); try assumption; [apply I, SW | lra].
Qed.
Print Assumptions C74_parameters_update_descends.

(** ** whole fits: below some positive step tolerance the guard never fires.  Whatever the initialisation,
    the update flags and the keyword arguments: the fit returns, or the call is rejected before it starts *)
Theorem C74_fit_guard_never_fires : forall (c : mtd_cfg R) n d k m tol data dictionary weights ow Ts ud uw up kw g,
  is_mat n d data -> (max_of (mc_lags c) < n)%nat -> (0 < d)%nat -> (0 < k)%nat -> (0 < m)%nat -> mc_lags c <> [] ->
  mc_max_iterations c = PInt (Z.of_nat m) -> mc_tolerance c = PFloat tol -> 0 <= tol ->
  (forall D, dictionary = Some D -> wf D) ->
  (forall W, weights = Some W -> wf W) -> (forall W, weights = Some W -> row_stochastic W) ->
  (forall v, ow = Some v -> prob_vec v) ->
  (forall l, Ts = Some l -> Forall wf l) -> (forall l, Ts = Some l -> stack_stochastic l) ->
  mrng_ok (length (mc_lags c)) k g ->
  0 <= mc_eps_states c -> 0 <= mc_eps_weights c -> step_lengths_valid (mc_ls c) -> 0 <= ls_gamma (mc_ls c) < 1 -> mc_memory c = 1%nat ->
  exists tau, 0 < tau /\ forall t, 0 < t <= tau -> exists M, forall fuel, (M <= fuel)%nat ->
    forall o, mo_cfg o = mtd_with_step_tol c t -> comp_count (mo_n_components o) d k -> mo_rng o = g ->
    ((exists r, mtd_fit_transform fuel o data dictionary weights ow Ts ud uw up kw = Ok r)
     \/ (exists e, mtd_fit_transform fuel o data dictionary weights ow Ts ud uw up kw = Raise e
         /\ (e = ValueError \/ e = IndexError \/ e = TypeError \/ e = AttributeError)))
    /\ (ud = true -> uw = true -> up = true -> mtd_start_ready (mc_init c) (length (mc_lags c)) n d k dictionary weights ow Ts kw ->
        exists r, mtd_fit_transform fuel o data dictionary weights ow Ts ud uw up kw = Ok r).
Proof.
  intros c n d k m tol data Din Win ow Ts ud uw up kw g HX Hn Hd Hk Hm Hl Em Et Ht WD WW SW PO WT ST Hg He1 He2 (H1 & H2 & Ha) Hga Hmem.
  destruct (mtd_fit_no_guard c n d k m tol data Din Win ow Ts ud uw up kw g) as (tau & T1 & T2); try assumption; [right | apply Hg|].
  { split; [exact Et|]. numR. apply Rltb_false. lra. }
  exists tau. split; [exact T1|]. intros t T. destruct (T2 t T) as [M HM]. exists M. intros fuel Hf o Eo Ec Eg.
  specialize (HM fuel Hf o Eo Ec Eg). destruct (mtd_choose_initial c k data Din Win ow Ts ud uw up kw g) as [r0|e] eqn:E.
  - split; [left; exact HM | intros _ _ _ _; exact HM].
  - split; [right; exists e; split; [exact HM | exact (mtd_choose_initial_raise c k data Din Win ow Ts ud uw up kw g e E)]|].
    intros -> -> -> R. destruct (mtd_choose_ready c k data n d Din Win ow Ts kw g HX R) as [r0 E0]. congruence.
Qed.
Print Assumptions C74_fit_guard_never_fires.

(** ** transform: the bound is explicit *)
Theorem C74_transform_guard_never_fires : forall (c : mtd_cfg R) n d k m tol data S ow Ts g,
  is_mat n d data -> is_mat k d S -> length ow = length (mc_lags c) -> prob_vec ow ->
  is_stack (length (mc_lags c)) k Ts -> stack_stochastic Ts ->
  (max_of (mc_lags c) < n)%nat -> (0 < d)%nat -> (0 < k)%nat -> (0 < m)%nat -> mc_lags c <> [] ->
  mc_max_iterations c = PInt (Z.of_nat m) -> mc_tolerance c = PFloat tol -> 0 <= tol ->
  transform_init (mc_init c) -> rng_ok k g -> 0 <= mc_eps_weights c ->
  step_lengths_valid (mc_ls c) -> 0 <= ls_gamma (mc_ls c) <= 1 -> mc_memory c = 1%nat ->
  0 < ls_step_tol (mc_ls c) <= ls_sigma_one (mc_ls c) ->
  ls_step_tol (mc_ls c) * (2 * Rmax 1 (ls_alpha_max (mc_ls c)) * (frob2 S / (INR d * INR n)
     + mc_eps_weights c / (INR k * (INR n - INR (max_of (mc_lags c)))) * (2 + 2 * INR k))) <= 1 - ls_gamma (mc_ls c) ->
  exists M, forall fuel, (M <= fuel)%nat -> forall o w, mo_cfg o = c -> comp_count (mo_n_components o) d k -> mo_rng o = g ->
    mo_ws o = Some w -> m_S w = S -> m_order_weights w = ow -> m_transition_matrices w = Ts ->
    exists r, mtd_transform fuel o data = Ok r.
Proof.
  intros c n d k m tol data S ow Ts g HX HS LO PO HT ST Hn Hd Hk Hm Hl Em Et Ht Hi Hg He (H1 & H2 & Ha) Hga Hmem Hts Hb.
  apply (mtd_transform_no_guard c n d k m tol); try assumption. right. split; [exact Et|]. numR. apply Rltb_false. lra.
Qed.
Print Assumptions C74_transform_guard_never_fires.

(** ** the reduced-order fit: explicit bound, and a completed GPNH fit is always followed by a completed parameter fit *)
Theorem C74_crom_update_descends : forall fuel (gc : gpnh_cfg R) (lags : list Z) n k W ow Ts w w',
  is_mat n k W -> length ow = length lags -> is_stack (length lags) k Ts ->
  (2 <= k)%nat -> lags <> [] -> (max_of (map Z.to_nat lags) < n)%nat -> row_stochastic W -> prob_vec ow -> stack_stochastic Ts ->
  step_lengths_valid (gc_ls gc) -> 0 <= ls_gamma (gc_ls gc) <= 1 -> gc_memory gc = 1%nat ->
  let c := crom_cfg gc lags in
  crom_reach fuel c k n W (crom_initialize_workspace c W ow Ts) w ->
  0 < ls_step_tol (gc_ls gc) <= ls_sigma_one (gc_ls gc) ->
  ls_step_tol (gc_ls gc) * (2 * cw_alpha w * ((3 * INR (length lags) + 10) / INR k)) <= 1 - ls_gamma (gc_ls gc) ->
  crom_update_parameters fuel c k n W w = Ok w' ->
  let misfit w := mtd_misfit (map Z.to_nat lags) (cw_order_weights w) (cw_transition_matrices w) W in
  misfit w' <= misfit w.
Proof.
  intros fuel gc lags n k W ow Ts w w' HW HO HT Hk2 Hl Hn SW PO PT HL Hg Hm c HR Ht Hb H misfit. pose proof HL as (H1 & H2 & H3). assert (Hk : (0 < k)%nat) by lia.
  assert (Lp : n_lags c = length lags) by apply map_length.
  assert (Nl : mc_lags c <> []) by (unfold c; cbn; destruct lags; [congruence|discriminate]).
  assert (I : cinv c n k W (prob_vec ow /\ stack_stochastic Ts) w /\ 0 < cw_alpha w).
  { clear H w' Hb misfit. induction HR as [|w w' HR [I A] E].
    - split; [|cbn; numR; lra]. split; [|split; [apply repeat_length|auto]].
      split; [exact HW|]. split; [rewrite Lp; exact HO|]. split; [rewrite Lp; exact HT|reflexivity].
    - split; [apply (crom_update_inv c n k W _ fuel w w' I ltac:(lia) Nl H1 H2 E)|].
      destruct (crom_update_ok c n k W fuel w w' (proj1 I) H1 H2 E) as (s & a & _ & _ & -> & Ja). specialize (Ja (proj2 H3)). cbn in *. lra. }
  destruct I as [(M & L & I) Ha]. destruct (I (conj PO PT)) as [Po Pt]. destruct (one_memory _ _ L Hm) as [m0 Em].
  assert (Hn' : (max_lag c < n)%nat) by exact Hn. pose proof (lt_INR _ _ Hn') as Hr.
  assert (M' : cok c n k W w') by (apply (crom_update_inv c n k W _ fuel w w' (conj M (conj L I)) Hk Nl H1 H2 H)).
  assert (Q : crom_fit_residual c k n W w' <= crom_fit_residual c k n W w).
  { apply (crom_never_increase n k W fuel c w w' m0 (cw_alpha w)); try assumption; [reflexivity | lra | rewrite Lp; exact Hb]. }
  rewrite !crom_residual_spec in Q by assumption. destruct (Nat.eqb_spec k 1); [lia|].
  assert (0 < INR k) by (apply lt_0_INR; exact Hk).
  assert (P : 0 < INR k * (INR n - INR (max_of (mc_lags c)))) by (apply Rmult_lt_0_compat; [lra | rewrite max_of_lag; lra]).
  apply Rmult_le_reg_r with (/ (INR k * (INR n - INR (max_of (mc_lags c))))); [apply Rinv_0_lt_compat, P | exact Q].
Qed.
Print Assumptions C74_crom_update_descends.
Theorem C74_crom_guard_never_fires : forall (gc : gpnh_cfg R) (lags : list Z),
  lags <> [] -> Forall (fun z => (1 <= z)%Z) lags ->
  step_lengths_valid (gc_ls gc) -> 0 <= ls_gamma (gc_ls gc) <= 1 -> gc_memory gc = 1%nat ->
  0 < ls_step_tol (gc_ls gc) <= ls_sigma_one (gc_ls gc) ->
  exists M, forall fuel, (M <= fuel)%nat -> forall (o : crom R) n d k data dictionary weights ud uw kw r,
    go_cfg (co_gpnh o) = gc -> co_lags o = lags -> comp_count (go_n_components (co_gpnh o)) d k ->
    is_mat n d data -> (max_of (map Z.to_nat lags) < n)%nat ->
    (forall D, dictionary = Some D -> wf D) -> (forall W0, weights = Some W0 -> wf W0) -> (forall W0, weights = Some W0 -> row_stochastic W0) ->
    mrng_ok (length lags) k (go_rng (co_gpnh o)) ->
    ls_step_tol (gc_ls gc) * (2 * Rmax 1 (ls_alpha_max (gc_ls gc)) * ((3 * INR (length lags) + 10) / INR k)) <= 1 - ls_gamma (gc_ls gc) ->
    fit_transform fuel (co_gpnh o) data dictionary weights ud uw kw = Ok r ->
    exists r', crom_fit_transform fuel o data dictionary weights ud uw kw = Ok r'.
Proof.
  intros gc lags Nl Hl (H1 & H2 & H3) Hg Hm Ht. set (c := crom_cfg gc lags).
  assert (Nl' : mc_lags c <> []) by (unfold c; cbn; destruct lags; [congruence|discriminate]).
  assert (Lp : n_lags c = length lags) by apply map_length.
  destruct (crom_parameters_no_guard c) as [M HM]; try assumption; [repeat split; [exact H1 | exact H2 | apply Ht] | reflexivity|].
  exists M. intros fuel Hf o n d k data Din Win ud uw kw [r W] Ec El Ek HX Hn WD WW SW Hr Hb E. unfold crom_fit_transform. rewrite E. cbn [bind].
  assert (Q : is_mat n k W /\ row_stochastic W).
  { eapply (C14_fit_weights_stochastic fuel (co_gpnh o) n d k data Din Win ud uw kw r W); try eassumption; try apply Hr; rewrite Ec; assumption. }
  pose proof E as E'. apply fit_transform_inv in E'. destruct E' as (k' & m & t & D & W0 & g0 & w2 & A1 & A2 & A3 & A4 & A5 & A6 & A7 & A8 & _ & _).
  assert (Ed : nc data = d) by apply HX. assert (En : nr data = n) by apply HX.
  assert (k' = k) as -> by (apply comp_count_resolve in Ek; rewrite Ed, Ek in A1; injection A1; lia).
  apply choose_initial_ok in A6; try assumption. destruct A6 as (_ & _ & Er & _).
  rewrite A8. cbn [go_cfg go_n_components go_rng]. rewrite A3, (check_params_total k m _ t) by assumption. cbn [bind].
  rewrite Ec, El. fold c. rewrite En.
  destruct (HM fuel Hf n k W t m g0) as [[[[w g'] ni] lg] E2]; try assumption; try apply Q; rewrite ?Lp; try assumption.
  - eapply mrng_ok_stream; [exact Er | exact Hr].
  - rewrite E2. cbn [bind]. eauto.
Qed.
Print Assumptions C74_crom_guard_never_fires.

(** ** instances: the defaults (step tolerance 1e-12, step lengths up to 1000) meet the explicit bounds *)
Lemma default_valid : step_lengths_valid default_ls /\ 0 <= ls_gamma default_ls < 1 /\ 0 < ls_step_tol default_ls <= ls_sigma_one default_ls.
Proof. unfold step_lengths_valid. cbn. repeat split; lra. Qed.
(** for the transition parameters whenever 3 p + 10 <= 4 * 10^8 *)
Example C74_default_bound : forall p k : nat, (0 < k)%nat -> 3 * INR p + 10 <= 400000000 ->
  ls_step_tol default_ls * (2 * Rmax 1 (ls_alpha_max default_ls) * ((3 * INR p + 10) / INR k)) <= 1 - ls_gamma default_ls.
Proof.
  intros p k Hk Hp. cbn [default_ls ls_step_tol ls_alpha_max ls_gamma]. rewrite Rmax_right by lra.
  assert (1 <= INR k) by (apply (le_INR 1); lia). pose proof (pos_INR p).
  assert ((3 * INR p + 10) / INR k <= 400000000); [|lra].
  apply Rmult_le_reg_r with (INR k); [lra|]. unfold Rdiv. rewrite Rmult_assoc, Rinv_l by lra.
  assert (400000000 * 1 <= 400000000 * INR k) by lra. lra.
Qed.
(** one update of each kind from the workspace of the four-sample example lowers, or keeps, its cost *)
Example C74_example : exists fuel w1 w2 w3,
  let w := mtd_initialize_workspace em_cfg em_data em_W em_S em_ow em_T in
  let cost w := mtd_objective 1 1 [1; 2]%nat em_data (m_Gamma w) (m_S w) (m_order_weights w) (m_transition_matrices w) in
  mtd_update_dictionary fuel em_cfg 2 w = Ok w1 /\ mtd_update_weights fuel em_cfg 2 w1 = Ok w2
  /\ mtd_update_parameters fuel em_cfg 2 w = Ok w3 /\ cost w1 <= cost w /\ cost w3 <= cost w.
Proof.
  destruct default_valid as (V1 & V2 & V3).
  assert (Hv : ls_valid (mc_ls em_cfg)) by (repeat split; cbn; lra).
  destruct (mtd_update_dictionary_total em_cfg Hv) as [M1 HM1]. destruct (mtd_update_weights_total em_cfg Hv) as [M2 HM2].
  destruct (mtd_update_parameters_total em_cfg Hv) as [M3 HM3]. set (F := max M1 (max M2 M3)).
  set (w := mtd_initialize_workspace em_cfg em_data em_W em_S em_ow em_T).
  assert (HW : is_mat 4 2 em_W) by (repeat split; intros row [<-|[<-|[<-|[<-|[]]]]]; reflexivity).
  assert (HS : is_mat 2 2 em_S) by (repeat split; intros row [<-|[<-|[]]]; reflexivity).
  assert (HT : is_stack 2 2 em_T).
  { split; [reflexivity|]. intros [|[|i]] Hi; [| |lia]; cbn; repeat split; intros row [<-|[<-|[]]]; reflexivity. }
  assert (SW : row_stochastic em_W).
  { intros i Hi. cbn in Hi. destruct i as [|[|[|[|i]]]]; try lia;
      (split; [intros j Hj; cbn in Hj; destruct j as [|[|j]]; try lia|]); unfold ent; cbn; lra. }
  assert (PO : prob_vec em_ow) by (split; [intros [|[|i]] Hi; cbn in Hi; try lia; unfold at_; cbn; lra | unfold at_; cbn; lra]).
  assert (ST : stack_stochastic em_T).
  { intros i Hi. cbn in Hi. destruct i as [|[|i]]; try lia; intros j Hj; cbn in Hj; destruct j as [|[|j]]; try lia;
      (split; [intros a Ha; cbn in Ha; destruct a as [|[|a]]; try lia|]); unfold ent; cbn; lra. }
  destruct (HM1 F 2%nat w ltac:(unfold F; lia) ltac:(discriminate)) as [w1 E1].
  destruct (HM3 F 2%nat w ltac:(unfold F; lia) ltac:(discriminate)) as [w3 E3].
  assert (L1 : m_f_Gamma_mem w1 <> []).
  { destruct (mtd_update_dictionary_inv em_cfg 4 2 2 em_data F w w1) as (_ & S' & a & mem & Ew & _); try (cbn; lra).
    - apply (start_minv em_cfg em_data em_W em_S em_ow em_T 4 2 2); try assumption; [exact em_data_mat | reflexivity].
    - exact E1.
    - rewrite Ew. discriminate. }
  destruct (HM2 F 2%nat w1 ltac:(unfold F; lia) L1) as [w2 E2].
  exists F, w1, w2, w3. cbv zeta. split; [exact E1|]. split; [exact E2|]. split; [exact E3|]. split.
  - apply (C74_dictionary_update_descends F em_cfg 4 2 2 em_data em_W em_S em_ow em_T w w1); try assumption; try reflexivity; try lia;
      [exact em_data_mat | discriminate | cbn; lra | cbn; lra | apply mr_start |].
    unfold w, mtd_initialize_workspace, em_cfg, frob2, ent. cbn. numR. lra.
  - apply (C74_parameters_update_descends F em_cfg 4 2 2 em_data em_W em_S em_ow em_T w w3); try assumption; try reflexivity; try lia;
      [exact em_data_mat | discriminate | cbn; lia | cbn; lra | cbn; lra | apply mr_start |].
    unfold w, mtd_initialize_workspace, em_cfg. cbn. numR. lra.
Qed.
(** the fit and the transform of the example with the guard on *)
Definition eg_cfg : mtd_cfg R := mk_mtd_cfg [1; 2]%nat 1 1 InitRandom (PFloat (1/1000000)) (PInt 100) default_ls 1 true.
Example C74_fit_example : exists t, 0 < t /\ exists fuel r,
  mtd_fit_transform fuel (mk_mtd (mtd_with_step_tol eg_cfg t) (PInt 2) ex_rng None None None None None) em_data None None None None true true true None = Ok r.
Proof.
  destruct default_valid as (V1 & V2 & V3).
  destruct (C74_fit_guard_never_fires eg_cfg 4 2 2 100 (1/1000000) em_data None None None None true true true None ex_rng) as (tau & T1 & T2);
    try exact em_data_mat; try exact em_rng_ok; try (intros; discriminate); try assumption; try reflexivity; try (cbn; lia); try (cbn; lra).
  exists tau. split; [exact T1|]. destruct (T2 tau ltac:(lra)) as [M HM]. exists M.
  destruct (HM M ltac:(lia) (mk_mtd (mtd_with_step_tol eg_cfg tau) (PInt 2) ex_rng None None None None None) eq_refl (or_introl eq_refl) eq_refl) as [_ Q].
  apply Q; try reflexivity. left. split; [right; reflexivity | reflexivity].
Qed.
Example C74_transform_bound :
  ls_step_tol default_ls * (2 * Rmax 1 (ls_alpha_max default_ls) * (frob2 em_S / (INR 2 * INR 4)
     + 1 / (INR 2 * (INR 4 - INR (max_of [1; 2]%nat))) * (2 + 2 * INR 2))) <= 1 - ls_gamma default_ls
  /\ transform_init (mc_init eg_cfg).
Proof.
  split; [|right; left; reflexivity].
  cbn [default_ls ls_step_tol ls_alpha_max ls_gamma]. rewrite Rmax_right by lra. unfold frob2, ent; cbn. lra.
Qed.
