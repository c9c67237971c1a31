(** Properties C67 - C69: the updates of the iterative estimators stop exactly at optimal factors. *)
From Coq Require Import List Arith Lia ZArith Reals Lra Bool.
From Verif Require Import Num Mat Py Spec M_simplex M_spg M_gpnh M_aa M_mtd M_crom.
From Verif Require Import P_lin P_mat P_spg P_gpnh P_gpnh_run P_aa P_aa_run P_mtd P_mtd_upd P_mtd_run P_crom P_opt P_opt_params.
From Verif Require Import Props_base Props_gpnh Props_aa Props_mtd Props_crom.
Import ListNotations.
Local Open Scope R_scope.

(** ** C67: GPNH convex coding *)
(** the workspaces a run goes through *)
Inductive gpnh_reach (fuel : nat) (c : gpnh_cfg R) (k : nat) (w0 : gws R) : gws R -> Prop :=
| gr_start : gpnh_reach fuel c k w0 w0
| gr_dictionary w w' : gpnh_reach fuel c k w0 w -> update_dictionary fuel c k w = Ok w' -> gpnh_reach fuel c k w0 w'
| gr_weights w w' : gpnh_reach fuel c k w0 w -> update_weights fuel c k w = Ok w' -> gpnh_reach fuel c k w0 w'.
(** interpolated step lengths inside (0, 1), gradient step lengths positive: true of the defaults *)
Definition step_lengths_valid (p : ls_params R) : Prop :=
  0 < ls_sigma_one p /\ ls_sigma_two p < 1 /\ 0 < ls_alpha_min p <= ls_alpha_max p.

Lemma gpnh_reach_ok fuel c n d k X w0 w : is_mat n d (w_X w0) -> w_X w0 = X -> is_mat n k (w_Gamma w0) -> is_mat k d (w_S w0) ->
  (0 < k)%nat -> row_stochastic (w_Gamma w0) -> step_lengths_valid (gc_ls c) ->
  gpnh_reach fuel c k (initialize_workspace c w0) w ->
  gok n d k X w /\ row_stochastic (w_Gamma w) /\ 0 < w_alpha_Gamma w /\ 0 < w_alpha_S w.
Proof.
  intros HX EX HG HS Hk SG (H1 & H2 & H3) H. induction H as [|w w' H (I1 & I2 & I3 & I4) E|w w' H (I1 & I2 & I3 & I4) E].
  - split; [repeat split; try apply HG; try apply HS; exact EX|]. split; [exact SG|]. cbn. numR. lra.
  - apply (update_dictionary_inv n d k X) in E; try assumption. destruct E as (A & B & C & _ & _ & D). rewrite B, C.
    specialize (D (proj2 H3)). split; [exact A|]. split; [exact I2|]. split; [exact I3|lra].
  - apply (update_weights_inv n d k X) in E; try assumption. destruct E as (A & B & C & _ & _ & D & F). rewrite C.
    specialize (D (proj2 H3)). split; [exact A|]. split; [apply F, I2|]. lra.
Qed.

Theorem C67_weights_stationary_iff_optimal : forall fuel (c : gpnh_cfg R) n d k (w0 w w' : gws R),
  is_mat n d (w_X w0) -> is_mat n k (w_Gamma w0) -> is_mat k d (w_S w0) -> (0 < n)%nat -> (0 < d)%nat -> (0 < k)%nat ->
  row_stochastic (w_Gamma w0) -> step_lengths_valid (gc_ls c) ->
  gpnh_reach fuel c k (initialize_workspace c w0) w -> update_weights fuel c k w = Ok w' ->
  (w_Gamma w' = w_Gamma w <->
   forall V, is_mat n k V -> row_stochastic V ->
     gpnh_objective (gc_epsilon c) (w_X w0) (w_Gamma w) (w_S w) <= gpnh_objective (gc_epsilon c) (w_X w0) V (w_S w)).
Proof.
  intros fuel c n d k w0 w w' HX HG HS Hn Hd Hk SG HL HR H.
  destruct (gpnh_reach_ok fuel c n d k _ w0 w HX eq_refl HG HS Hk SG HL HR) as (Hw & SW & Ha & _). pose proof HL as (H1 & H2 & _).
  destruct (update_weights_ok n d k _ fuel c w w' Hw H1 H2 H) as (s & a & Hs & _ & _ & -> & _).
  destruct (refresh_w_ok n d k _ w Hw) as [Hr Hc]. pose proof Hr as (R1 & R2 & R3 & R4).
  destruct (C18_weights_gradient n d k (w_X w0) (gc_epsilon c) (refresh_w w) HX R1 R2 R3 R4 ltac:(rewrite <- R1; exact Hc) Hn Hd) as (SGr & Q & [Q0 Q2] & EQ).
  pose proof (stationary_rows n k (fun V => gpnh_objective (gc_epsilon c) (w_X w0) V (w_S w)) (w_Gamma w) (weights_gradient (refresh_w w)) (w_alpha_Gamma w)
    R2 SGr Ha (ex_intro _ Q (conj Q0 (conj Q2 EQ))) SW Hk) as S. cbv zeta in S. rewrite <- S.
  apply (madd_step_zero n k); [exact R2| |lra].
  apply is_mat_msub; apply (is_mat_project n k), is_mat_msub; apply R2.
Qed.
Print Assumptions C67_weights_stationary_iff_optimal.
Theorem C67_dictionary_stationary_iff_optimal : forall fuel (c : gpnh_cfg R) n d k (w0 w w' : gws R),
  is_mat n d (w_X w0) -> is_mat n k (w_Gamma w0) -> is_mat k d (w_S w0) -> (0 < n)%nat -> (0 < d)%nat -> (0 < k)%nat ->
  row_stochastic (w_Gamma w0) -> step_lengths_valid (gc_ls c) -> 0 <= gc_epsilon c ->
  gpnh_reach fuel c k (initialize_workspace c w0) w -> update_dictionary fuel c k w = Ok w' ->
  (w_S w' = w_S w <->
   forall D, is_mat k d D ->
     gpnh_objective (gc_epsilon c) (w_X w0) (w_Gamma w) (w_S w) <= gpnh_objective (gc_epsilon c) (w_X w0) (w_Gamma w) D).
Proof.
  intros fuel c n d k w0 w w' HX HG HS Hn Hd Hk SG HL He HR H.
  destruct (gpnh_reach_ok fuel c n d k _ w0 w HX eq_refl HG HS Hk SG HL HR) as (Hw & SW & _ & Ha). pose proof HL as (H1 & H2 & _).
  destruct (update_dictionary_ok n d k _ fuel c w w' Hw H1 H2 H) as (s & a & Hs & _ & _ & -> & _).
  destruct (refresh_d_ok n d k _ w Hw) as [Hr [Hc1 Hc2]]. pose proof Hr as (R1 & R2 & R3 & R4).
  destruct (C18_dictionary_gradient n d k (w_X w0) c (refresh_d w) HX R1 R2 R3 R4 Hc1 ltac:(rewrite <- R1; exact Hc2) Hn Hd Hk He) as (SGr & Q & [Q0 Q2] & EQ).
  pose proof (stationary_free k d (fun D => gpnh_objective (gc_epsilon c) (w_X w0) (w_Gamma w) D) (w_S w) (dictionary_gradient c k (refresh_d w)) (w_alpha_S w)
    R3 SGr Ha (ex_intro _ Q (conj Q0 (conj Q2 EQ)))) as S. cbv zeta in S. rewrite <- S.
  apply (madd_step_zero k d); [exact R3| |lra]. apply is_mat_msub; cbn; apply R3.
Qed.
Print Assumptions C67_dictionary_stationary_iff_optimal.

(** ** C68: kernel archetypal analysis *)
Lemma aa_reached_ok fuel c n k K S C w : is_mat n n K -> is_mat n k S -> is_mat k n C -> (0 < n)%nat -> (0 < k)%nat ->
  step_lengths_valid (ac_ls c) -> row_stochastic S -> row_stochastic C -> aa_reached fuel c k K S C w ->
  ainv n k K c w /\ row_stochastic (a_S w) /\ row_stochastic (a_C w) /\ 0 < a_alpha_S w /\ 0 < a_alpha_C w.
Proof.
  intros HK HS HC Hn Hk (H1 & H2 & H3) SS0 SC0 H.
  induction H as [|w H (I1 & I2 & I3 & I4 & I5)|w w' H (I1 & I2 & I3 & I4 & I5) E|w w' H (I1 & I2 & I3 & I4 & I5) E].
  - split; [apply start_ainv; assumption|]. split; [exact SS0|]. split; [exact SC0|]. cbn. numR. lra.
  - rewrite (ainv_refresh n k K c w I1). repeat (split; [assumption|]). assumption.
  - apply (aa_update_dictionary_inv n k K) in E; try assumption. destruct E as (A & B & D & F & G). specialize (F (proj2 H3)).
    rewrite B, D. split; [exact A|]. split; [exact I2|]. split; [apply G, I3|]. lra.
  - apply (aa_update_weights_inv n k K) in E; try assumption. destruct E as (A & B & D & F & G). specialize (F (proj2 H3)).
    rewrite B, D. split; [exact A|]. split; [apply G, I2|]. split; [exact I3|]. lra.
Qed.
Lemma ainv_expands n k K c w : symmetric K -> psd K -> ainv n k K c w ->
  is_mat n k (aa_weights_gradient c w) /\ is_mat k n (aa_dictionary_gradient c w)
  /\ expands n k (fun V => kernel_error K V (a_C w)) (a_S w) (aa_weights_gradient c w)
  /\ expands k n (fun D => kernel_error K (a_S w) D) (a_C w) (aa_dictionary_gradient c w).
Proof.
  intros Sy Ps (E & (HK & HS & HC & Ha) & Ea & (C1 & C2 & C3 & C4) & _). rewrite Ea in C3, C4. rewrite C3 in C4.
  rewrite (scaled_CK_ones k n) in C3, C4 by assumption. rewrite (scaled_CKCt_ones k n) in C4 by assumption. subst K.
  assert (ED : forall D, is_mat k n D -> scaled_dictionary (ac_delta c) (a_alpha w) D = D).
  { intros D HD. rewrite scaled_effD, Ea. apply (effD_ones k n); exact HD. }
  destruct (C29_weights_gradient n k c w HK HS HC Ha Sy C1 C2) as (G1 & Q1 & [P1 S1] & E1); try (rewrite (ED _ HC); assumption).
  destruct (C29_dictionary_gradient n k c w HK HS HC Ha Sy C1 C2) as (G2 & Q2 & [P2 S2] & E2); try (rewrite (ED _ HC); assumption).
  split; [exact G1|]. split; [exact G2|]. split.
  - exists Q1. split; [exact (P1 Ps)|]. split; [exact S1|]. intros H HH. specialize (E1 H HH). rewrite (ED _ HC) in E1. exact E1.
  - exists Q2. split; [exact (P2 Ps)|]. split; [exact S2|]. intros H HH. specialize (E2 H HH). rewrite (ED _ HC) in E2. rewrite <- E2.
    rewrite ED; [reflexivity|]. apply is_mat_madd; apply HC.
Qed.

Theorem C68_weights_stationary_iff_optimal : forall fuel (c : aa_cfg R) n k K S C w w',
  is_mat n n K -> is_mat n k S -> is_mat k n C -> (0 < n)%nat -> (0 < k)%nat -> symmetric K -> psd K ->
  row_stochastic S -> row_stochastic C -> step_lengths_valid (ac_ls c) ->
  aa_reached fuel c k K S C w -> aa_update_weights fuel c w = Ok w' ->
  (a_S w' = a_S w <-> forall V, is_mat n k V -> row_stochastic V -> kernel_error K (a_S w) (a_C w) <= kernel_error K V (a_C w)).
Proof.
  intros fuel c n k K S C w w' HK HS HC Hn Hk Sy Ps SS0 SC0 HL HR H.
  destruct (aa_reached_ok fuel c n k K S C w HK HS HC Hn Hk HL SS0 SC0 HR) as (I & I2 & _ & Ha & _). pose proof HL as (H1 & H2 & _).
  destruct (ainv_expands n k K c w Sy Ps I) as (G1 & _ & E1 & _). pose proof I as (_ & (_ & HSw & _) & _ & Ic & _).
  destruct (aa_update_weights_ok fuel c w w' Ic H1 H2 H) as (s & a & Hs & _ & _ & -> & _).
  pose proof (stationary_rows n k (fun V => kernel_error K V (a_C w)) (a_S w) (aa_weights_gradient c w) (a_alpha_S w) HSw G1 Ha E1 I2 Hk) as St.
  cbv zeta in St. rewrite <- St. apply (madd_step_zero n k); [exact HSw| |lra].
  apply is_mat_msub; apply (is_mat_project n k), is_mat_msub; apply HSw.
Qed.
Print Assumptions C68_weights_stationary_iff_optimal.
Theorem C68_dictionary_stationary_iff_optimal : forall fuel (c : aa_cfg R) n k K S C w w',
  is_mat n n K -> is_mat n k S -> is_mat k n C -> (0 < n)%nat -> (0 < k)%nat -> symmetric K -> psd K ->
  row_stochastic S -> row_stochastic C -> step_lengths_valid (ac_ls c) ->
  aa_reached fuel c k K S C w -> aa_update_dictionary fuel c w = Ok w' ->
  (a_C w' = a_C w <-> forall D, is_mat k n D -> row_stochastic D -> kernel_error K (a_S w) (a_C w) <= kernel_error K (a_S w) D).
Proof.
  intros fuel c n k K S C w w' HK HS HC Hn Hk Sy Ps SS0 SC0 HL HR H.
  destruct (aa_reached_ok fuel c n k K S C w HK HS HC Hn Hk HL SS0 SC0 HR) as (I & _ & I2 & _ & Ha). pose proof HL as (H1 & H2 & _).
  destruct (ainv_expands n k K c w Sy Ps I) as (_ & G1 & _ & E1). pose proof I as (_ & (_ & _ & HCw & _) & _ & Ic & _).
  destruct (aa_update_dictionary_ok fuel c w w' Ic H1 H2 H) as (s & a & w2 & Hs & _ & _ & -> & Ew & _).
  assert (EC : a_C w' = madd (a_C w) (mscale s (dirC c w))).
  { destruct (Rltb 0 (ac_delta c)); [|injection Ew as <-; reflexivity].
    apply aa_update_scale_ok in Ew. destruct Ew as (_ & aa & ma & _ & ->). reflexivity. }
  rewrite EC.
  pose proof (stationary_rows k n (fun D => kernel_error K (a_S w) D) (a_C w) (aa_dictionary_gradient c w) (a_alpha_C w) HCw G1 Ha E1 I2 Hn) as St.
  cbv zeta in St. rewrite <- St. apply (madd_step_zero k n); [exact HCw| |lra].
  apply is_mat_msub; apply (is_mat_project k n), is_mat_msub; apply HCw.
Qed.
Print Assumptions C68_dictionary_stationary_iff_optimal.

(** ** C69: MTD convex coding and the reduced-order fit *)
Lemma mtd_reach_ok fuel (c : mtd_cfg R) n d k X W D ow Ts w :
  is_mat n d X -> is_mat n k W -> is_mat k d D -> length ow = length (mc_lags c) -> is_stack (length (mc_lags c)) k Ts ->
  (0 < k)%nat -> mc_lags c <> [] -> step_lengths_valid (mc_ls c) ->
  mtd_reach fuel c k (mtd_initialize_workspace c X W D ow Ts) w ->
  minv c n d k X (row_stochastic W) (prob_vec ow /\ stack_stochastic Ts) w
  /\ 0 < m_alpha_Gamma w /\ 0 < m_alpha_S w /\ 0 < m_alpha_parameters w.
Proof.
  intros HX HW HD HO HT Hk Hl (H1 & H2 & H3) HR.
  induction HR as [|w w' HR (I & A1 & A2 & A3) E|w w' HR (I & A1 & A2 & A3) E|w w' HR (I & A1 & A2 & A3) E];
    [split; [apply start_minv; assumption | cbn; numR; lra] | | |];
    (split; [eapply (minv_updates c n d k X _ _ true true true fuel Hk Hl H1 H2); try exact I; try exact E; cbn; tauto|]); pose proof (proj1 I) as M.
  - apply (mtd_update_dictionary_inv c n d k X) in E; try assumption. destruct E as (_ & S & a & mem & -> & _ & Ja & _). specialize (Ja (proj2 H3)). cbn. lra.
  - apply (mtd_update_weights_inv c n d k X) in E; try assumption. destruct E as (_ & S & a & mem & -> & _ & Ja & _). specialize (Ja (proj2 H3)). cbn. lra.
  - apply (mtd_update_parameters_inv c n d k X) in E; try assumption. destruct E as (_ & o & T & a & mem & -> & _ & _ & Ja & _). specialize (Ja (proj2 H3)). cbn. lra.
Qed.

Theorem C69_weights_stationary_iff_optimal : forall fuel (c : mtd_cfg R) n d k X W D ow Ts w w',
  is_mat n d X -> is_mat n k W -> is_mat k d D -> length ow = length (mc_lags c) -> is_stack (length (mc_lags c)) k Ts ->
  (0 < d)%nat -> (2 <= k)%nat -> mc_lags c <> [] -> (max_of (mc_lags c) < n)%nat -> 0 <= mc_eps_weights c ->
  row_stochastic W -> step_lengths_valid (mc_ls c) ->
  mtd_reach fuel c k (mtd_initialize_workspace c X W D ow Ts) w -> mtd_update_weights fuel c k w = Ok w' ->
  let cost V := mtd_objective (mc_eps_states c) (mc_eps_weights c) (mc_lags c) X V (m_S w) (m_order_weights w) (m_transition_matrices w) in
  (m_Gamma w' = m_Gamma w <-> forall V, is_mat n k V -> row_stochastic V -> cost (m_Gamma w) <= cost V).
Proof.
  intros fuel c n d k X W D ow Ts w w' HX HW HD HO HT Hd Hk Hl Hn He SW HL HR H cost. pose proof HL as (H1 & H2 & _).
  destruct (mtd_reach_ok fuel c n d k X W D ow Ts w HX HW HD HO HT ltac:(lia) Hl HL HR) as (I & Ha & _). destruct I as (M & _ & _ & _ & I & _).
  destruct (mtd_update_weights_ok c n d k X fuel w w' M H1 H2 H) as (s & a & Hs & _ & _ & -> & _).
  destruct (mrefresh_w_ok c n d k X w M) as [Mr Mc]. rewrite max_of_lag in Hn.
  pose proof (mtd_expands_weights n d k X c (mrefresh_w w) HX Mr Mc ltac:(lia) Hd Hk Hn He) as E.
  pose proof M as (_ & HG & _).
  pose proof (stationary_rows n k cost (m_Gamma w) (mtd_weights_gradient c k (mrefresh_w w)) (m_alpha_Gamma w)
    HG (mtd_weights_gradient_shape n d k X c _ Mr) Ha E (I SW) ltac:(lia)) as St. cbv zeta in St. rewrite <- St.
  apply (madd_step_zero n k); [exact HG| |lra]. apply is_mat_msub; apply (is_mat_project n k), is_mat_msub; apply HG.
Qed.
Print Assumptions C69_weights_stationary_iff_optimal.
Theorem C69_dictionary_stationary_iff_optimal : forall fuel (c : mtd_cfg R) n d k X W D ow Ts w w',
  is_mat n d X -> is_mat n k W -> is_mat k d D -> length ow = length (mc_lags c) -> is_stack (length (mc_lags c)) k Ts ->
  (0 < n)%nat -> (0 < d)%nat -> (0 < k)%nat -> mc_lags c <> [] -> 0 <= mc_eps_states c -> step_lengths_valid (mc_ls c) ->
  mtd_reach fuel c k (mtd_initialize_workspace c X W D ow Ts) w -> mtd_update_dictionary fuel c k w = Ok w' ->
  let cost V := mtd_objective (mc_eps_states c) (mc_eps_weights c) (mc_lags c) X (m_Gamma w) V (m_order_weights w) (m_transition_matrices w) in
  (m_S w' = m_S w <-> forall V, is_mat k d V -> cost (m_S w) <= cost V).
Proof.
  intros fuel c n d k X W D ow Ts w w' HX HW HD HO HT Hn Hd Hk Hl He HL HR H cost. pose proof HL as (H1 & H2 & _).
  destruct (mtd_reach_ok fuel c n d k X W D ow Ts w HX HW HD HO HT Hk Hl HL HR) as (I & _ & Ha & _). destruct I as (M & _).
  destruct (mtd_update_dictionary_ok c n d k X fuel w w' M H1 H2 H) as (s & a & Hs & _ & _ & -> & _).
  destruct (mrefresh_d_ok c n d k X w M) as [Mr Mc].
  pose proof (mtd_expands_dict n d k X c (mrefresh_d w) HX Mr Mc Hn Hd Hk He) as E. pose proof M as (_ & _ & HS & _).
  assert (SG : is_mat k d (mtd_dictionary_gradient c k (mrefresh_d w))).
  { rewrite dictionary_gradient_of. exact (P_gpnh.dictionary_gradient_shape n d k X (gc_of c) _ (mok_gok _ _ _ _ _ _ Mr)). }
  pose proof (stationary_free k d cost (m_S w) (mtd_dictionary_gradient c k (mrefresh_d w)) (m_alpha_S w) HS SG Ha E) as St.
  cbv zeta in St. rewrite <- St. apply (madd_step_zero k d); [exact HS| |lra]. apply is_mat_msub; cbn; apply HS.
Qed.
Print Assumptions C69_dictionary_stationary_iff_optimal.
(** the order weights and the transition matrices, updated together, stop exactly where each is optimal for the other *)
Theorem C69_parameters_stationary_iff_optimal : forall fuel (c : mtd_cfg R) n d k X W D ow Ts w w',
  is_mat n d X -> is_mat n k W -> is_mat k d D -> length ow = length (mc_lags c) -> is_stack (length (mc_lags c)) k Ts ->
  (2 <= k)%nat -> mc_lags c <> [] -> (max_of (mc_lags c) < n)%nat -> 0 <= mc_eps_weights c ->
  prob_vec ow -> stack_stochastic Ts -> step_lengths_valid (mc_ls c) ->
  mtd_reach fuel c k (mtd_initialize_workspace c X W D ow Ts) w -> mtd_update_parameters fuel c k w = Ok w' ->
  let cost := mtd_objective (mc_eps_states c) (mc_eps_weights c) (mc_lags c) X (m_Gamma w) (m_S w) in
  let p := length (mc_lags c) in
  (m_order_weights w' = m_order_weights w /\ m_transition_matrices w' = m_transition_matrices w <->
   (forall v, length v = p -> prob_vec v ->
      cost (m_order_weights w) (m_transition_matrices w) <= cost v (m_transition_matrices w))
   /\ (forall V, is_stack p k V -> stack_stochastic V ->
      cost (m_order_weights w) (m_transition_matrices w) <= cost (m_order_weights w) V)).
Proof.
  intros fuel c n d k X W D ow Ts w w' HX HW HD HO HT Hk Hl Hn He PO PT HL HR H cost p. pose proof HL as (H1 & H2 & _).
  destruct (mtd_reach_ok fuel c n d k X W D ow Ts w HX HW HD HO HT ltac:(lia) Hl HL HR) as (I & _ & _ & Ha). destruct I as (M & _ & _ & _ & _ & I).
  destruct (I (conj PO PT)) as [Po Pt].
  destruct (mtd_update_parameters_ok c n d k X fuel w w' M H1 H2 H) as (s & a & Hs & _ & _ & -> & _). rewrite max_of_lag in Hn.
  assert (Hp : (0 < n_lags c)%nat) by (unfold n_lags; destruct (mc_lags c); [congruence|cbn; lia]).
  exact (mtd_params_stationary n d k X c w HX M Hk Hn He (m_alpha_parameters w) s Ha ltac:(lra) Hp Po Pt).
Qed.
Print Assumptions C69_parameters_stationary_iff_optimal.
(** the parameter fit of the reduced-order class *)
Inductive crom_reach (fuel : nat) (c : mtd_cfg R) (k n : nat) (W : mat R) (w0 : cws R) : cws R -> Prop :=
| cr_start : crom_reach fuel c k n W w0 w0
| cr_parameters w w' : crom_reach fuel c k n W w0 w -> crom_update_parameters fuel c k n W w = Ok w' -> crom_reach fuel c k n W w0 w'.
Theorem C69_crom_stationary_iff_optimal : forall fuel (gc : gpnh_cfg R) (lags : list Z) n k W ow Ts w w',
  is_mat n k W -> length ow = length lags -> is_stack (length lags) k Ts ->
  (2 <= k)%nat -> lags <> [] -> (max_of (map Z.to_nat lags) < n)%nat -> prob_vec ow -> stack_stochastic Ts -> step_lengths_valid (gc_ls gc) ->
  let c := crom_cfg gc lags in
  crom_reach fuel c k n W (crom_initialize_workspace c W ow Ts) w -> crom_update_parameters fuel c k n W w = Ok w' ->
  let misfit ow Ts := mtd_misfit (map Z.to_nat lags) ow Ts W in
  (cw_order_weights w' = cw_order_weights w /\ cw_transition_matrices w' = cw_transition_matrices w <->
   (forall v, length v = length lags -> prob_vec v ->
      misfit (cw_order_weights w) (cw_transition_matrices w) <= misfit v (cw_transition_matrices w))
   /\ (forall V, is_stack (length lags) k V -> stack_stochastic V ->
      misfit (cw_order_weights w) (cw_transition_matrices w) <= misfit (cw_order_weights w) V)).
Proof.
  intros fuel gc lags n k W ow Ts w w' HW HO HT Hk Hl Hn PO PT HL c HR H misfit. pose proof HL as (H1 & H2 & H3).
  assert (Lp : n_lags c = length lags) by apply map_length.
  assert (Nl : mc_lags c <> []) by (unfold c; cbn; destruct lags; [congruence|discriminate]).
  assert (I : cinv c n k W (prob_vec ow /\ stack_stochastic Ts) w /\ 0 < cw_alpha w).
  { clear H w'. induction HR as [|w w' HR [I A] E].
    - split; [|cbn; numR; lra]. split; [|split; [apply repeat_length|auto]].
      split; [exact HW|]. split; [rewrite Lp; exact HO|]. split; [rewrite Lp; exact HT|reflexivity].
    - split; [apply (crom_update_inv c n k W _ fuel w w' I ltac:(lia) Nl H1 H2 E)|].
      destruct (crom_update_ok c n k W fuel w w' (proj1 I) H1 H2 E) as (s & a & _ & _ & -> & Ja). specialize (Ja (proj2 H3)). cbn in *. lra. }
  destruct I as [(M & _ & I) Ha]. destruct (I (conj PO PT)) as [Po Pt].
  destruct (crom_update_ok c n k W fuel w w' M H1 H2 H) as (s & a & Hs & _ & -> & _).
  assert (Hn' : (max_lag c < n)%nat) by (rewrite <- max_of_lag; exact Hn).
  assert (Hp : (0 < n_lags c)%nat) by (rewrite Lp; destruct lags; [congruence|cbn; lia]).
  pose proof (mtd_params_stationary n 1 k (mzeros n 1) c (cemb n k W w) (is_mat_mbuild n 1 _) (cok_mok c n k W w M) Hk Hn' Rle_0_1
    (cw_alpha w) s Ha ltac:(lra) Hp Po Pt) as St. cbv zeta in St.
  rewrite <- (crom_order_gradient_of c n k W w eq_refl), <- (crom_transition_gradient_of c n k W w eq_refl) in St. rewrite Lp in St.
  cbn [cemb m_order_weights m_transition_matrices m_Gamma m_S] in St.
  etransitivity; [exact St|].
  assert (pos : 0 < INR k * (INR n - INR (max_lag c))).
  { apply Rmult_lt_0_compat; [apply lt_0_INR; lia|]. apply lt_INR in Hn'. lra. }
  assert (EQ : forall o T o' T', mtd_objective (mc_eps_states c) (mc_eps_weights c) (mc_lags c) (mzeros n 1) W (mzeros k 1) o T
       <= mtd_objective (mc_eps_states c) (mc_eps_weights c) (mc_lags c) (mzeros n 1) W (mzeros k 1) o' T' <-> misfit o T <= misfit o' T').
  { intros o T o' T'. rewrite !objective_split. pose proof HW as (w1 & w2 & _). rewrite w1, w2, max_of_lag. destruct (Nat.eqb_spec k 1); [lia|].
    change (mc_eps_weights c) with 1. change (mtd_misfit (mc_lags c)) with (mtd_misfit (map Z.to_nat lags)).
    fold (misfit o T) (misfit o' T'). assert (ip : 0 < / (INR k * (INR n - INR (max_lag c)))) by (apply Rinv_0_lt_compat; exact pos).
    unfold Rdiv. split; intros L; [apply Rmult_le_reg_r with (/ (INR k * (INR n - INR (max_lag c)))); lra|].
    assert (misfit o T * / (INR k * (INR n - INR (max_lag c))) <= misfit o' T' * / (INR k * (INR n - INR (max_lag c))))
      by (apply Rmult_le_compat_r; lra). lra. }
  setoid_rewrite EQ. reflexivity.
Qed.
Print Assumptions C69_crom_stationary_iff_optimal.

(** ** Examples: a start whose factors are not optimal and is changed, and an optimal one that is kept *)
Definition eo_row : mat R := mkmat 2 2 [[1; 0]; [1; 0]].
Definition eo_id : mat R := mkmat 2 2 [[1; 0]; [0; 1]].
Definition eo_ws (W D : mat R) : gws R := start_ws (ex_cfg true) ex_data W D.
Lemma eo_valid : step_lengths_valid default_ls /\ P_gpnh.ls_valid default_ls.
Proof. repeat split; cbn; lra. Qed.
Lemma eo_mats : is_mat 2 2 eo_row /\ is_mat 2 2 eo_id /\ row_stochastic eo_row /\ row_stochastic eo_id
  /\ is_mat 2 2 (w_Gamma ex_ws) /\ is_mat 2 2 (w_S ex_ws) /\ row_stochastic (w_Gamma ex_ws).
Proof.
  assert (M : forall a b c d : R, is_mat 2 2 (mkmat 2 2 [[a; b]; [c; d]])) by (intros; repeat split; intros row [<-|[<-|[]]]; reflexivity).
  assert (S : forall a b c d : R, 0 <= a -> 0 <= b -> 0 <= c -> 0 <= d -> a + b = 1 -> c + d = 1 -> row_stochastic (mkmat 2 2 [[a; b]; [c; d]])).
  { intros a b c d Ha Hb Hc Hd E1 E2 i Hi. cbn in Hi. destruct i as [|[|i]]; [| |lia]; (split; [intros j Hj; cbn in Hj; destruct j as [|[|j]]; [| |lia]|]);
      unfold ent; cbn; lra. }
  split; [apply M|]. split; [apply M|]. split; [apply S; lra|]. split; [apply S; lra|]. split; [apply M|]. split; [apply M|]. apply S; lra.
Qed.
Example C67_example : exists fuel w' v',
  update_weights fuel (ex_cfg true) 2 ex_ws = Ok w' /\ w_Gamma w' <> w_Gamma ex_ws
  /\ update_weights fuel (ex_cfg true) 2 (eo_ws eo_id eo_id) = Ok v' /\ w_Gamma v' = eo_id.
Proof.
  destruct eo_valid as [V1 V2]. destruct eo_mats as (M1 & M2 & S1 & S2 & M3 & M4 & S3).
  destruct (update_weights_total (ex_cfg true) V2) as [F HF].
  destruct (HF F 2%nat ex_ws (le_n _) ltac:(discriminate)) as [w' E]. destruct (HF F 2%nat (eo_ws eo_id eo_id) (le_n _) ltac:(discriminate)) as [v' E'].
  exists F, w', v'. split; [exact E|]. split; [|split; [exact E'|]].
  - rewrite (C67_weights_stationary_iff_optimal F (ex_cfg true) 2 2 2 ex_ws ex_ws w' ex_data_mat M3 M4 ltac:(lia) ltac:(lia) ltac:(lia) S3 V1 (gr_start _ _ _ _) E).
    intros O. specialize (O eo_row M1 S1). revert O. unfold gpnh_objective, sq_error, ent. cbn. lra.
  - apply (C67_weights_stationary_iff_optimal F (ex_cfg true) 2 2 2 (eo_ws eo_id eo_id) (eo_ws eo_id eo_id) v' ex_data_mat M2 M2
      ltac:(lia) ltac:(lia) ltac:(lia) S2 V1 (gr_start _ _ _ _) E').
    intros V HV SV. unfold gpnh_objective. apply Rplus_le_compat_r, Rmult_le_compat_r; [left; apply Rinv_0_lt_compat; cbn; lra|].
    replace (sq_error _ (w_Gamma _) _) with 0 by (unfold sq_error, ent; cbn; lra). apply sq_error_nonneg.
Qed.
Lemma eo_kernel : symmetric eo_id /\ psd eo_id /\ forall S C, 0 <= kernel_error eo_id S C.
Proof.
  split; [intros [|[|i]] [|[|j]] Hi Hj; cbn in *; reflexivity || lia|]. split.
  - intros v. unfold ent. cbn. nra.
  - intros S C. unfold kernel_error, kernel_error_of. generalize (coef S C). intros b. unfold ent. cbn.
    pose proof (pow2_ge_0 (1 - b 0%nat 0%nat)). pose proof (pow2_ge_0 (b 0%nat 1%nat)). pose proof (pow2_ge_0 (1 - b 1%nat 1%nat)).
    pose proof (pow2_ge_0 (b 1%nat 0%nat)). lra.
Qed.
Definition eo_aws (S : mat R) : aws R := aa_initialize_workspace (ea_cfg 0 true) 2 eo_id S eo_id.
Example C68_example : exists fuel w' v',
  aa_update_weights fuel (ea_cfg 0 true) (eo_aws eo_row) = Ok w' /\ a_S w' <> eo_row
  /\ aa_update_weights fuel (ea_cfg 0 true) (eo_aws eo_id) = Ok v' /\ a_S v' = eo_id.
Proof.
  destruct eo_valid as [V1 V2]. destruct eo_mats as (M1 & M2 & S1 & S2 & _). destruct eo_kernel as (K1 & K2 & K3).
  destruct (aa_update_weights_total (ea_cfg 0 true) V2) as [F HF].
  destruct (HF F (eo_aws eo_row) (le_n _) ltac:(discriminate)) as [w' E]. destruct (HF F (eo_aws eo_id) (le_n _) ltac:(discriminate)) as [v' E'].
  assert (Z : kernel_error eo_id eo_id eo_id = 0) by (unfold kernel_error, kernel_error_of, coef, ent; cbn; lra).
  exists F, w', v'. split; [exact E|]. split; [|split; [exact E'|]].
  - pose proof (C68_weights_stationary_iff_optimal F (ea_cfg 0 true) 2 2 eo_id eo_row eo_id (eo_aws eo_row) w' M2 M1 M2 ltac:(lia) ltac:(lia) K1 K2 S1 S2 V1
      (ar_start _ _ _ _ _ _) E) as T. change (a_S (eo_aws eo_row)) with eo_row in T. rewrite T.
    intros O. specialize (O eo_id M2 S2). change (a_C (eo_aws eo_row)) with eo_id in O. rewrite Z in O. revert O.
    unfold kernel_error, kernel_error_of, coef, ent; cbn; lra.
  - pose proof (C68_weights_stationary_iff_optimal F (ea_cfg 0 true) 2 2 eo_id eo_id eo_id (eo_aws eo_id) v' M2 M2 M2 ltac:(lia) ltac:(lia) K1 K2 S2 S2 V1
      (ar_start _ _ _ _ _ _) E') as T. change (a_S (eo_aws eo_id)) with eo_id in T. apply T.
    intros V _ _. change (a_C (eo_aws eo_id)) with eo_id. rewrite Z. apply K3.
Qed.
(** MTD: the hypotheses hold for the example parameters and all three updates succeed; the parameter update of
    a chain that follows its own transition matrix keeps it, and changes one that does not *)
Definition eo_mcfg : mtd_cfg R := mk_mtd_cfg [1]%nat 1 1 InitRandom (PFloat (1/1000000)) (PInt 100) default_ls 1 false.
Definition eo_swap : mat R := mkmat 2 2 [[0; 1]; [1; 0]].
Definition eo_W : mat R := mkmat 3 2 [[1; 0]; [0; 1]; [1; 0]].
Definition eo_X : mat R := mkmat 3 1 [[0]; [1]; [0]].
Definition eo_D : mat R := mkmat 2 1 [[0]; [1]].
Definition eo_mws (P : mat R) : mws R := mtd_initialize_workspace eo_mcfg eo_X eo_W eo_D [1] [P].
Lemma eo_mtd : is_mat 3 1 eo_X /\ is_mat 3 2 eo_W /\ is_mat 2 1 eo_D /\ row_stochastic eo_W /\ prob_vec [1]
  /\ (forall P, is_mat 2 2 P -> is_stack 1 2 [P]) /\ (forall P, col_stochastic P -> stack_stochastic [P])
  /\ col_stochastic eo_swap /\ col_stochastic eo_id /\ is_mat 2 2 eo_swap.
Proof.
  split; [repeat split; intros row [<-|[<-|[<-|[]]]]; reflexivity|]. split; [repeat split; intros row [<-|[<-|[<-|[]]]]; reflexivity|].
  split; [repeat split; intros row [<-|[<-|[]]]; reflexivity|].
  split; [intros i Hi; cbn in Hi; destruct i as [|[|[|i]]]; try lia; (split; [intros j Hj; cbn in Hj; destruct j as [|[|j]]; try lia|]); unfold ent; cbn; lra|].
  split; [split; [intros [|i] Hi; cbn in Hi; [unfold at_; cbn; lra|lia]|unfold at_; cbn; lra]|].
  split; [intros P HP; split; [reflexivity|intros [|i] Hi; [exact HP|lia]]|].
  split; [intros P HP [|i] Hi; [exact HP|cbn in Hi; lia]|].
  split; [intros i Hi; cbn in Hi; destruct i as [|[|i]]; try lia; (split; [intros j Hj; cbn in Hj; destruct j as [|[|j]]; try lia|]); unfold ent; cbn; lra|].
  split; [intros i Hi; cbn in Hi; destruct i as [|[|i]]; try lia; (split; [intros j Hj; cbn in Hj; destruct j as [|[|j]]; try lia|]); unfold ent; cbn; lra|].
  repeat split; intros row [<-|[<-|[]]]; reflexivity.
Qed.
Lemma eo_misfit_swap : mtd_misfit [1%nat] [1] [eo_swap] eo_W = 0.
Proof. unfold mtd_misfit, mtd_forecast, ent, at_. cbn. lra. Qed.
Lemma eo_misfit_id : 0 < mtd_misfit [1%nat] [1] [eo_id] eo_W.
Proof. unfold mtd_misfit, mtd_forecast, ent, at_. cbn. lra. Qed.
Lemma misfit_nonneg lags ow Ts W : 0 <= mtd_misfit lags ow Ts W.
Proof. rewrite (misfit_mis (mk_mtd_cfg lags 0 0 InitRandom PNone PNone default_ls 0 false) (nr W) (nc W)) by reflexivity. apply mis_nonneg. Qed.
Example C69_example : exists fuel w' v' x' y',
  mtd_update_parameters fuel eo_mcfg 2 (eo_mws eo_id) = Ok w'
  /\ ~ (m_order_weights w' = [1] /\ m_transition_matrices w' = [eo_id])
  /\ mtd_update_parameters fuel eo_mcfg 2 (eo_mws eo_swap) = Ok v'
  /\ m_order_weights v' = [1] /\ m_transition_matrices v' = [eo_swap]
  /\ mtd_update_weights fuel eo_mcfg 2 (eo_mws eo_swap) = Ok x'
  /\ mtd_update_dictionary fuel eo_mcfg 2 (eo_mws eo_swap) = Ok y' /\ (max_of (mc_lags eo_mcfg) < 3)%nat
  /\ 0 <= mc_eps_weights eo_mcfg /\ 0 <= mc_eps_states eo_mcfg.
Proof.
  destruct eo_valid as [V1 V2]. destruct eo_mats as (_ & M2 & _). destruct eo_mtd as (A1 & A2 & A3 & A4 & A5 & A6 & A7 & A8 & A9 & A10).
  destruct (mtd_update_parameters_total eo_mcfg V2) as [F1 HF1]. destruct (mtd_update_weights_total eo_mcfg V2) as [F2 HF2].
  destruct (mtd_update_dictionary_total eo_mcfg V2) as [F3 HF3]. set (F := max F1 (max F2 F3)).
  destruct (HF1 F 2%nat (eo_mws eo_id) ltac:(unfold F; lia) ltac:(discriminate)) as [w' Ew].
  destruct (HF1 F 2%nat (eo_mws eo_swap) ltac:(unfold F; lia) ltac:(discriminate)) as [v' Ev].
  destruct (HF2 F 2%nat (eo_mws eo_swap) ltac:(unfold F; lia) ltac:(discriminate)) as [x' Ex].
  destruct (HF3 F 2%nat (eo_mws eo_swap) ltac:(unfold F; lia) ltac:(discriminate)) as [y' Ey].
  assert (pos : 0 < INR 2 * (INR 3 - INR 1)) by (cbn; lra).
  assert (O : forall o T o' T', mtd_objective (mc_eps_states eo_mcfg) (mc_eps_weights eo_mcfg) (mc_lags eo_mcfg) eo_X eo_W eo_D o T
      <= mtd_objective (mc_eps_states eo_mcfg) (mc_eps_weights eo_mcfg) (mc_lags eo_mcfg) eo_X eo_W eo_D o' T'
      <-> mtd_misfit [1%nat] o T eo_W <= mtd_misfit [1%nat] o' T' eo_W).
  { intros o T o' T'. rewrite !objective_split. cbn [eo_mcfg mc_eps_weights mc_lags eo_W nc nr Nat.eqb]. change (max_of [1%nat]) with 1%nat.
    fold eo_W. rewrite !Rmult_1_l. split; intros L.
    - apply Rmult_le_reg_r with (/ (INR 2 * (INR 3 - INR 1))); [apply Rinv_0_lt_compat; exact pos|]. unfold Rdiv in L. lra.
    - apply Rplus_le_compat_l, Rmult_le_compat_r; [left; apply Rinv_0_lt_compat; exact pos|exact L]. }
  pose proof (C69_parameters_stationary_iff_optimal F eo_mcfg 3 1 2 eo_X eo_W eo_D [1] [eo_id] _ w' A1 A2 A3 eq_refl (A6 _ M2)
     ltac:(lia) ltac:(discriminate) ltac:(cbn; lia) Rle_0_1 A5 (A7 _ A9) V1 (mr_start _ _ _ _) Ew) as Tw. cbv zeta in Tw.
  pose proof (C69_parameters_stationary_iff_optimal F eo_mcfg 3 1 2 eo_X eo_W eo_D [1] [eo_swap] _ v' A1 A2 A3 eq_refl (A6 _ A10)
     ltac:(lia) ltac:(discriminate) ltac:(cbn; lia) Rle_0_1 A5 (A7 _ A8) V1 (mr_start _ _ _ _) Ev) as Tv. cbv zeta in Tv.
  cbn [mtd_initialize_workspace m_order_weights m_transition_matrices m_Gamma m_S] in Tw, Tv. setoid_rewrite O in Tw. setoid_rewrite O in Tv.
  exists F, w', v', x', y'. split; [exact Ew|]. split; [|split; [exact Ev|]].
  - rewrite Tw. intros [_ B]. specialize (B [eo_swap] (A6 _ A10) (A7 _ A8)). rewrite eo_misfit_swap in B. pose proof eo_misfit_id. lra.
  - assert (K : m_order_weights v' = [1] /\ m_transition_matrices v' = [eo_swap])
      by (apply Tv; rewrite eo_misfit_swap; split; intros; apply misfit_nonneg).
    split; [apply K|]. split; [apply K|]. split; [exact Ex|]. split; [exact Ey|]. cbn. split; [lia|]. lra.
Qed.
