(** Property theorems C33 - C38: MTD convex coding, and the MTD parts of C21, C22, C24, C25, C26
    and C58. *)
From Coq Require Import List Arith Lia ZArith Reals Lra.
From Verif Require Import Num NumExt Mat Py Spec M_simplex M_spg M_iter M_random M_furthest M_gpnh M_mtd.
From Verif Require Import P_lin P_simplex P_spg P_furthest P_random P_mat P_iter P_gpnh P_gpnh_run P_mtd P_mtd_upd P_mtd_run P_mtd_pred.
From Verif Require Import Props_base Props_gpnh.
Import ListNotations.
Local Open Scope R_scope.

(** Instances used by the examples: four samples of the plane, two components, lags 1 and 2, random
    initialisation, the default line search, guard off. *)
Definition em_data : mat R := mkmat 4 2 [[1; 0]; [0; 1]; [1; 1]; [0; 0]].
Definition em_cfg : mtd_cfg R := mk_mtd_cfg [1; 2]%nat 1 1 InitRandom (PFloat (1/1000000)) (PInt 100) default_ls 1 false.
Definition em_mtd : mtd R := mk_mtd em_cfg (PInt 2) ex_rng None None None None None.
Lemma em_data_mat : is_mat 4 2 em_data.
Proof. repeat split. intros row [<-|[<-|[<-|[<-|[]]]]]; reflexivity. Qed.
Lemma em_rng_ok : mrng_ok 2 2 ex_rng.
Proof.
  assert (P : forall n, 0 < / (1 + INR n)) by (intros n; apply Rinv_0_lt_compat; pose proof (pos_INR n); lra).
  split; [exact ex_rng_ok|]. split; cbn [ex_rng r_uniform]; intros.
  - apply Rgt_not_eq, (Sum_pos 2 _ 0); try lia; [intros; left; apply P | apply P].
  - apply Rgt_not_eq, (Sum_pos 2 _ 0); try lia; [intros; left; apply P | apply P].
Qed.
Lemma em_fit : exists fuel r W, mtd_fit_transform fuel em_mtd em_data None None None None true true true None = Ok (r, W).
Proof.
  assert (Hls : ls_valid (mc_ls em_cfg)) by (repeat split; cbn; lra).
  destruct (mtd_iterate_total em_cfg Hls) as [M HM]; [cbn; lia | discriminate|].
  assert (exists D W o Ts g', mtd_choose_initial em_cfg 2 em_data None None None None true true true None ex_rng = Ok (D, W, o, Ts, g')
     /\ is_mat 4 2 W /\ is_mat 2 2 D /\ length o = 2%nat /\ is_stack 2 2 Ts) as (D & W & o & Ts & g' & E & HW & HD & HO & HT).
  { destruct (mtd_choose_initial em_cfg 2 em_data None None None None true true true None ex_rng) as [[[[[D W] o] Ts] g']|] eqn:E; [|discriminate].
    exists D, W, o, Ts, g'. apply mtd_choose_initial_ok in E; [|intros ? ?; discriminate ..].
    destruct E as (A1 & A2 & A3 & A4 & _). auto. }
  destruct (HM M (le_n _) 4%nat 2%nat 2%nat em_data _ _ true true true (1/1000000) 100%nat _ (Nat.lt_0_2)
     (start_minv em_cfg em_data W D o Ts 4 2 2 em_data_mat HW HD HO HT)) as [[r E2]|[_ E2]]; [|discriminate].
  exists M. unfold mtd_fit_transform, mtd_convex_coding. cbn [em_mtd mo_cfg mo_n_components mo_rng].
  change (resolve_components (PInt 2) (nc em_data)) with (@PInt R (Z.of_nat 2)).
  change (mc_max_iterations em_cfg) with (@PInt R (Z.of_nat 100)).
  rewrite (check_params_total 2 100 _ (1/1000000)); try lia; [|right; split; [reflexivity|]; numR; apply Rltb_false; lra].
  cbn [bind]. rewrite E. cbn [bind]. unfold check_max_lag. cbn [em_cfg mc_lags bind]. rewrite E2.
  destruct r as [[[w2 cost] n_iter] log]. cbn. eauto.
Qed.
(** integers, for examples executed in full: the fit of a two-state chain with a single lag whose
    parameters are supplied *)
Definition emZ_cfg (init : init_method) : mtd_cfg Z :=
  mk_mtd_cfg [1; 2]%nat 0%Z 0%Z init (PInt 0) (PInt 2) (mk_ls 0 1 1 1 1 1)%Z 1 false.
Definition emZ_mtd (init : init_method) : mtd Z := mk_mtd (emZ_cfg init) (PInt 2) exZ_rng None None None None None.
Definition emZ_data : mat Z := mkmat 4 2 [[4; 0]; [0; 4]; [4; 0]; [0; 4]]%Z.
Definition emZ_swap : mat Z := mkmat 2 2 [[0; 1]; [1; 0]]%Z.
Definition emZ_fit := @mtd_fit_transform Z Num_Z_demo 5 (emZ_mtd InitCustom) emZ_data
  (Some (mkmat 2 2 [[4; 0]; [0; 4]]%Z)) (Some (mkmat 4 2 [[1; 0]; [0; 1]; [1; 0]; [0; 1]]%Z))
  (Some [1; 0]%Z) (Some [emZ_swap; emZ_swap]) true true true None.
Definition emZ_fit2 := @mtd_fit_transform Z Num_Z_demo 5 (emZ_mtd InitRandom) emZ_data
  (Some (mkmat 2 2 [[4; 0]; [0; 4]]%Z)) None (Some [1; 0]%Z) (Some [emZ_swap; emZ_swap]) false true false None.

(** ** C33 *)
Theorem C33_fit_stochastic : forall fuel (o : mtd R) n d k data dictionary weights ow Ts ud uw up kw r W,
  is_mat n d data -> comp_count (mo_n_components o) d k ->
  (forall D, dictionary = Some D -> wf D) ->
  (forall W0, weights = Some W0 -> wf W0 /\ row_stochastic W0) ->
  (forall v, ow = Some v -> prob_vec v) ->
  (forall l, Ts = Some l -> Forall wf l /\ stack_stochastic l) ->
  (let u := r_uniform (mo_rng o) in let p := length (mc_lags (mo_cfg o)) in
   (forall q, 0 <= u q) /\ (forall q, Sum k (fun j => u (q + j)%nat) <> 0) /\ (forall q, Sum p (fun j => u (q + j)%nat) <> 0)
   /\ (forall q j, (j < k)%nat -> Sum k (fun i => u (q + i * k + j)%nat) <> 0)) ->
  0 < ls_sigma_one (mc_ls (mo_cfg o)) -> ls_sigma_two (mc_ls (mo_cfg o)) < 1 ->
  mtd_fit_transform fuel o data dictionary weights ow Ts ud uw up kw = Ok (r, W) ->
  is_mat n k W /\ row_stochastic W
  /\ exists w, mo_ws (mr_obj r) = Some w
     /\ length (m_order_weights w) = length (mc_lags (mo_cfg o)) /\ prob_vec (m_order_weights w)
     /\ is_stack (length (mc_lags (mo_cfg o))) k (m_transition_matrices w) /\ stack_stochastic (m_transition_matrices w)
     /\ is_mat k d (m_S w) /\ m_Gamma w = W.
Proof.
  intros fuel o n d k data Din Win ow Ts ud uw up kw r W HX Hc WD WW PO PT (U1 & U2 & U3 & U4) H1 H2 H.
  apply mtd_fit_transform_inv in H.
  destruct H as (k' & m & t & D & W0 & o0 & T0 & g' & w2 & A1 & A2 & A3 & A4 & A5 & A6 & AL & A7 & A8 & A9 & ->).
  assert (nr data = n /\ nc data = d) as [x1 x2] by (split; apply HX).
  apply comp_count_resolve in Hc. rewrite x2 in A1. assert (k' = k) as -> by (rewrite Hc in A1; injection A1; lia).
  apply mtd_choose_initial_ok in A6; [|assumption | intros A E; apply (WW A E) | intros A E; apply (PT A E)].
  rewrite x1, x2 in A6. destruct A6 as (HD & HW & HO & HT & _ & S1 & S2).
  assert (SW : row_stochastic W0) by (apply S1; [intros A E; apply (WW A E) | split; assumption]).
  assert (SP : prob_vec o0 /\ stack_stochastic T0).
  { apply S2; [intros A E; apply (PO A E) | intros A E; apply (PT A E) | split; [split; assumption | split; assumption]]. }
  pose proof (start_minv (mo_cfg o) data W0 D o0 T0 n d k HX HW HD HO HT) as I0.
  destruct (mtd_iterate_inv (mo_cfg o) n d k data _ _ _ _ _ _ _ _ _ _ _ _ _ A2 A4 AL H1 H2 I0 A7) as ((B1 & B2 & B3 & _ & B5 & B6 & _) & _ & _ & _ & B7 & B8).
  split; [exact B2|]. split; [apply B7, SW|]. exists w2. rewrite A8. cbn [mo_ws]. destruct (B8 SP) as [P1 P2].
  split; [reflexivity|]. split; [exact B5|]. split; [exact P1|]. split; [exact B6|]. split; [exact P2|]. split; [exact B3|]. reflexivity.
Qed.
Print Assumptions C33_fit_stochastic.
Example C33_example : is_mat 4 2 em_data /\ mrng_ok 2 2 ex_rng
  /\ exists fuel r W, mtd_fit_transform fuel em_mtd em_data None None None None true true true None = Ok (r, W).
Proof. exact (conj em_data_mat (conj em_rng_ok em_fit)). Qed.

(** ** C34 *)
Theorem C34_predicted_weights : forall (c : mtd_cfg R) n k ow Ts W t a,
  is_mat n k W -> is_stack (length (mc_lags c)) k Ts -> (t < n)%nat -> (a < k)%nat ->
  ((t < max_of (mc_lags c))%nat -> ent (predicted_weights c ow Ts W) t a = ent W t a)
  /\ ((max_of (mc_lags c) <= t)%nat -> ent (predicted_weights c ow Ts W) t a
        = Sum (length (mc_lags c)) (fun i => at_ ow i * Sum k (fun b => ent (nth i Ts (mkmat 0 0 [])) a b * ent W (t - nth i (mc_lags c) 0%nat) b))).
Proof.
  intros c n k ow Ts W t a HW HT Ht Ha. rewrite max_of_lag.
  pose proof (predicted_ent c n k ow Ts W t a HW HT Ht Ha) as E.
  split; intros Hl; rewrite E; destruct (Nat.ltb_spec t (max_lag c)); try lia; reflexivity.
Qed.
Print Assumptions C34_predicted_weights.
Theorem C34_predicted_stochastic : forall (c : mtd_cfg R) n k ow Ts W,
  is_mat n k W -> is_stack (length (mc_lags c)) k Ts -> length ow = length (mc_lags c) ->
  row_stochastic W -> prob_vec ow -> stack_stochastic Ts ->
  is_mat n k (predicted_weights c ow Ts W) /\ row_stochastic (predicted_weights c ow Ts W).
Proof.
  intros c n k ow Ts W HW HT HO SW PO ST. split; [apply predicted_shape, HW|]. eapply predicted_stochastic; eassumption.
Qed.
Print Assumptions C34_predicted_stochastic.
(** a workspace as the solver builds it *)
Definition em_W : mat R := mkmat 4 2 [[1; 0]; [0; 1]; [1/2; 1/2]; [0; 1]].
Definition em_T : list (mat R) := [mkmat 2 2 [[0; 1/2]; [1; 1/2]]; mkmat 2 2 [[1; 0]; [0; 1]]].
Definition em_ow : list R := [1/4; 3/4].
Definition em_S : mat R := mkmat 2 2 [[1; 2]; [3; 4]].
Lemma em_params : is_mat 4 2 em_W /\ is_stack 2 2 em_T /\ length em_ow = 2%nat
  /\ row_stochastic em_W /\ prob_vec em_ow /\ stack_stochastic em_T /\ is_mat 2 2 em_S.
Proof.
  split; [repeat split; intros row [<-|[<-|[<-|[<-|[]]]]]; reflexivity|].
  split; [split; [reflexivity|]; intros [|[|i]] Hi; try lia; repeat split; intros row [<-|[<-|[]]]; reflexivity|].
  split; [reflexivity|].
  split. { intros i Hi. cbn in Hi. destruct i as [|[|[|[|i]]]]; try lia; (split; [intros j Hj; cbn in Hj; destruct j as [|[|j]]; try lia | ]); unfold ent; cbn; lra. }
  split. { split; [intros i Hi; cbn in Hi; destruct i as [|[|i]]; try lia; unfold at_; cbn; lra | unfold at_; cbn; lra]. }
  split. { intros i Hi. cbn in Hi. destruct i as [|[|i]]; try lia; intros j Hj; cbn in Hj; destruct j as [|[|j]]; try lia;
           (split; [intros l Hl; cbn in Hl; destruct l as [|[|l]]; try lia |]); unfold ent; cbn; lra. }
  repeat split; intros row [<-|[<-|[]]]; reflexivity.
Qed.
Example C34_example : ent (predicted_weights em_cfg em_ow em_T em_W) 3 0 = 1 / 4 * (1 / 2 * (1 / 2)) + 3 / 4 * 0.
Proof.
  destruct em_params as (A & B & _).
  rewrite (proj2 (C34_predicted_weights em_cfg 4 2 em_ow em_T em_W 3 0 A B ltac:(lia) ltac:(lia))) by (cbn; lia).
  cbn [em_cfg mc_lags length Sum Nat.sub nth]. unfold ent, at_, em_ow, em_T, em_W. cbn [nth dat Nat.sub]. lra.
Qed.

(** ** C35: directional derivatives of the objective *)
(** a polynomial's derivative at 0 *)
Lemma poly_derivative (f : R -> R) a b q2 q3 q4 : (forall s, f s = a + s * b + s * s * (q2 + s * q3 + s * s * q4)) -> derivable_pt_lim f 0 b.
Proof.
  intros E eps He. set (B := Rabs q2 + Rabs q3 + Rabs q4 + 1).
  assert (HB : 0 < B) by (unfold B; pose proof (Rabs_pos q2); pose proof (Rabs_pos q3); pose proof (Rabs_pos q4); lra).
  assert (Hd : 0 < Rmin 1 (eps / B)) by (apply Rmin_pos; [lra | apply Rdiv_lt_0_compat; assumption]).
  exists (mkposreal _ Hd). intros h Hh0 Hh. cbn [pos] in Hh. rewrite Rplus_0_l, !E.
  replace ((a + h * b + h * h * (q2 + h * q3 + h * h * q4) - (a + 0 * b + 0 * 0 * (q2 + 0 * q3 + 0 * 0 * q4))) / h - b)
    with (h * (q2 + h * q3 + h * h * q4)) by (field; exact Hh0).
  rewrite Rabs_mult.
  assert (H1 : Rabs h <= 1) by (pose proof (Rmin_l 1 (eps / B)); lra).
  assert (H2 : Rabs h < eps / B) by (pose proof (Rmin_r 1 (eps / B)); lra).
  assert (H3 : Rabs (q2 + h * q3 + h * h * q4) <= B).
  { unfold B. eapply Rle_trans; [apply Rabs_triang|]. pose proof (Rabs_triang q2 (h * q3)). rewrite Rabs_mult in H.
    rewrite (Rabs_mult (h * h)), (Rabs_mult h h). pose proof (Rabs_pos h). pose proof (Rabs_pos q3). pose proof (Rabs_pos q4).
    assert (Rabs h * Rabs q3 <= Rabs q3) by nra. assert (Rabs h * Rabs h <= 1) by nra.
    assert (Rabs h * Rabs h * Rabs q4 <= Rabs q4) by nra. lra. }
  apply Rle_lt_trans with (Rabs h * B).
  - apply Rmult_le_compat_l; [apply Rabs_pos | exact H3].
  - apply Rmult_lt_reg_r with (/ B); [apply Rinv_0_lt_compat; exact HB|].
    replace (Rabs h * B * / B) with (Rabs h) by (field; lra). exact H2.
Qed.
(** the workspace the solver holds at given parameters *)
Notation at_params c X W D ow Ts := (mtd_initialize_workspace c X W D ow Ts).
Lemma at_params_ok c n d k X W D ow Ts : is_mat n k W -> is_mat k d D -> length ow = n_lags c -> is_stack (n_lags c) k Ts ->
  mok c n d k X (at_params c X W D ow Ts) /\ mcache_d (at_params c X W D ow Ts) /\ mcache_w (at_params c X W D ow Ts).
Proof.
  intros HW HD HO HT. split; [exact (conj eq_refl (conj HW (conj HD (conj eq_refl (conj HO (conj HT eq_refl))))))|].
  split; [split; reflexivity | reflexivity].
Qed.

Theorem C35_dictionary_gradient : forall (c : mtd_cfg R) n d k X W D ow Ts H,
  is_mat n d X -> is_mat n k W -> is_mat k d D -> length ow = length (mc_lags c) -> is_stack (length (mc_lags c)) k Ts ->
  (0 < n)%nat -> (0 < d)%nat -> (2 <= k)%nat -> n <> max_of (mc_lags c) -> is_mat k d H ->
  let G := mtd_dictionary_gradient c k (at_params c X W D ow Ts) in
  is_mat k d G /\
  derivable_pt_lim (fun s => mtd_objective (mc_eps_states c) (mc_eps_weights c) (mc_lags c) X W (@madd R Num_R D (mscale s H)) ow Ts) 0 (frob G H).
Proof.
  intros c n d k X W D ow Ts H HX HW HD HO HT Hn Hd Hk Hne HH G.
  destruct (at_params_ok c n d k X W D ow Ts HW HD HO HT) as (Hw & Hc1 & _).
  assert (SG : is_mat k d G).
  { unfold G. rewrite dictionary_gradient_of. exact (P_gpnh.dictionary_gradient_shape n d k X (gc_of c) _ (mok_gok _ _ _ _ _ _ Hw)). }
  split; [exact SG|].
  apply (poly_derivative _ (mtd_objective (mc_eps_states c) (mc_eps_weights c) (mc_lags c) X W D ow Ts) _
    (SS n d (fun i j => Sum k (fun e => ent W i e * ent H e j) ^ 2) / (INR d * INR n) + mc_eps_states c * spread H) 0 0).
  intros s. pose proof HH as (h1 & h2 & _). assert (HsH : is_mat k d (@mscale R Num_R s H)) by (apply is_mat_mscale; assumption).
  pose proof (mtd_objective_dict n d k X c _ _ HX Hw Hc1 HsH Hn ltac:(lia) Hd) as E.
  cbn [mtd_initialize_workspace m_Gamma m_S m_order_weights m_transition_matrices] in E. rewrite E. clear E.
  fold G. rewrite frob_mscale_r by (destruct SG as (q1 & q2 & _); lia). rewrite (P_gpnh.spread_scale k d) by exact HH.
  assert (E : SS n d (fun i j => Sum k (fun e => ent W i e * ent (@mscale R Num_R s H) e j) ^ 2)
      = s * s * SS n d (fun i j => Sum k (fun e => ent W i e * ent H e j) ^ 2)).
  { rewrite <- SS_scal. apply SS_ext; intros i j Hi Hj.
    assert (E1 : Sum k (fun e => ent W i e * ent (@mscale R Num_R s H) e j) = s * Sum k (fun e => ent W i e * ent H e j)).
    { rewrite <- Sum_scal_l. apply Sum_ext; intros e He'. rewrite ent_mscale by lia. ring. }
    rewrite E1. ring. }
  rewrite E. unfold Rdiv. ring.
Qed.
Print Assumptions C35_dictionary_gradient.
Theorem C35_weights_gradient : forall (c : mtd_cfg R) n d k X W D ow Ts H,
  is_mat n d X -> is_mat n k W -> is_mat k d D -> length ow = length (mc_lags c) -> is_stack (length (mc_lags c)) k Ts ->
  (0 < n)%nat -> (0 < d)%nat -> (2 <= k)%nat -> n <> max_of (mc_lags c) -> is_mat n k H ->
  let G := mtd_weights_gradient c k (at_params c X W D ow Ts) in
  is_mat n k G /\
  derivable_pt_lim (fun s => mtd_objective (mc_eps_states c) (mc_eps_weights c) (mc_lags c) X (@madd R Num_R W (mscale s H)) D ow Ts) 0 (frob G H).
Proof.
  intros c n d k X W D ow Ts H HX HW HD HO HT Hn Hd Hk Hne HH G.
  destruct (at_params_ok c n d k X W D ow Ts HW HD HO HT) as (Hw & _ & Hc2).
  assert (SG : is_mat n k G) by apply (mtd_weights_gradient_shape n d k X c _ Hw).
  split; [exact SG|].
  apply (poly_derivative _ (mtd_objective (mc_eps_states c) (mc_eps_weights c) (mc_lags c) X W D ow Ts) _
    (SS n d (fun i j => Sum k (fun e => ent H i e * ent D e j) ^ 2) / (INR d * INR n)
     + mc_eps_weights c / (INR k * (INR n - INR (max_lag c))) * mmis c k n ow Ts H) 0 0).
  intros s. pose proof HH as (h1 & h2 & _). assert (HsH : is_mat n k (@mscale R Num_R s H)) by (apply is_mat_mscale; assumption).
  pose proof (mtd_objective_weights n d k X c _ _ HX Hw Hc2 HsH Hk) as E.
  cbn [mtd_initialize_workspace m_Gamma m_S m_order_weights m_transition_matrices] in E. rewrite E. clear E.
  fold G. rewrite frob_mscale_r by (destruct SG as (q1 & q2 & _); lia).
  assert (E : SS n d (fun i j => Sum k (fun e => ent (@mscale R Num_R s H) i e * ent D e j) ^ 2)
      = s * s * SS n d (fun i j => Sum k (fun e => ent H i e * ent D e j) ^ 2)).
  { rewrite <- SS_scal. apply SS_ext; intros i j Hi Hj.
    assert (E1 : Sum k (fun e => ent (@mscale R Num_R s H) i e * ent D e j) = s * Sum k (fun e => ent H i e * ent D e j)).
    { rewrite <- Sum_scal_l. apply Sum_ext; intros e He'. rewrite ent_mscale by lia. ring. }
    rewrite E1. ring. }
  assert (E2 : mmis c k n ow Ts (@mscale R Num_R s H) = s * s * mmis c k n ow Ts H).
  { unfold mmis. rewrite <- mis_scale. unfold mis. apply SS_ext; intros q a Hq Ha. rewrite ent_mscale by lia. f_equal. f_equal.
    unfold fc. apply Sum_ext; intros i Hi. f_equal. apply Sum_ext; intros b Hb. rewrite ent_mscale by lia. reflexivity. }
  rewrite E, E2. unfold Rdiv. ring.
Qed.
Print Assumptions C35_weights_gradient.
(** jointly in the order weights and the transition matrices; either direction may be zero *)
Theorem C35_parameters_gradient : forall (c : mtd_cfg R) n d k X W D ow Ts dw dT,
  is_mat n d X -> is_mat n k W -> is_mat k d D -> length ow = length (mc_lags c) -> is_stack (length (mc_lags c)) k Ts ->
  (0 < n)%nat -> (0 < d)%nat -> (2 <= k)%nat -> n <> max_of (mc_lags c) ->
  length dw = length (mc_lags c) -> is_stack (length (mc_lags c)) k dT ->
  let go := mtd_order_gradient c k (at_params c X W D ow Ts) in
  let gT := mtd_transition_gradient c k (at_params c X W D ow Ts) in
  length go = length (mc_lags c) /\ is_stack (length (mc_lags c)) k gT /\
  derivable_pt_lim (fun s => mtd_objective (mc_eps_states c) (mc_eps_weights c) (mc_lags c) X W D
                       (@vadd R Num_R ow (vscale s dw)) (tadd Ts (tscale s dT))) 0 (vdot go dw + stack_dot gT dT).
Proof.
  intros c n d k X W D ow Ts dw dT HX HW HD HO HT Hn Hd Hk Hne Hdw HdT go gT.
  destruct (at_params_ok c n d k X W D ow Ts HW HD HO HT) as (Hw & _ & _).
  assert (L1 : length go = length (mc_lags c)) by apply order_gradient_length.
  assert (L2 : is_stack (length (mc_lags c)) k gT) by apply (transition_gradient_stack n d k X c _ Hw).
  split; [exact L1|]. split; [exact L2|].
  set (lin' := fun q a => lin (n_lags c) k (lag c) (at_ ow) (tent Ts) (at_ dw) (tent dT) (ent W) (max_lag c + q) a).
  set (v' := fun q a => fc (n_lags c) k (lag c) (at_ dw) (tent dT) (ent W) (max_lag c + q) a).
  set (r' := fun q a => ent W (max_lag c + q) a - mfc c k ow Ts W (max_lag c + q) a).
  apply (poly_derivative _ (mtd_objective (mc_eps_states c) (mc_eps_weights c) (mc_lags c) X W D ow Ts) _
    (mnm c n k * (SS (n - max_lag c) k (fun q a => lin' q a ^ 2) - 2 * SS (n - max_lag c) k (fun q a => r' q a * v' q a)))
    (mnm c n k * (2 * SS (n - max_lag c) k (fun q a => lin' q a * v' q a)))
    (mnm c n k * SS (n - max_lag c) k (fun q a => v' q a ^ 2))).
  intros s.
  assert (Hsw : length (@vscale R Num_R s dw) = n_lags c) by (unfold vscale; rewrite map_length; exact Hdw).
  assert (HsT : is_stack (n_lags c) k (@tscale R Num_R s dT)) by (apply stack_tscale; exact HdT).
  pose proof (mtd_objective_params n d k X c _ _ _ HX Hw Hk Hsw HsT) as E.
  cbn [mtd_initialize_workspace m_Gamma m_S m_order_weights m_transition_matrices] in E. rewrite E. clear E.
  rewrite mrem_scale by assumption. fold go gT.
  assert (E1 : vdot go (@vscale R Num_R s dw) = s * vdot go dw).
  { unfold vdot. rewrite <- Sum_scal_l. apply Sum_ext; intros i Hi. rewrite at_vscale by (rewrite L1 in Hi; lia). ring. }
  assert (E2 : stack_dot gT (@tscale R Num_R s dT) = s * stack_dot gT dT).
  { unfold stack_dot. rewrite <- Sum_scal_l. apply Sum_ext; intros i Hi.
    destruct L2 as [l1 l2]. destruct HdT as [m1 m2]. specialize (l2 i ltac:(lia)). specialize (m2 i ltac:(lia)).
    change (nth i (tscale s dT) (mkmat 0 0 [])) with (tmat (@tscale R Num_R s dT) i). unfold tscale. rewrite tmat_map by lia.
    destruct l2 as (u1 & u2 & _), m2 as (v1 & v2 & _). apply frob_mscale_r; unfold tmat; congruence. }
  rewrite E1, E2.
  assert (E3 : SS (n - max_lag c) k (fun q a => (lin' q a + s * v' q a) ^ 2)
     = SS (n - max_lag c) k (fun q a => lin' q a ^ 2) + s * (2 * SS (n - max_lag c) k (fun q a => lin' q a * v' q a))
       + s * s * SS (n - max_lag c) k (fun q a => v' q a ^ 2)).
  { rewrite <- !SS_scal, <- !SS_plus. apply SS_ext; intros; ring. }
  fold (lin'). change (SS (n - max_lag c) k (fun q a => (lin (n_lags c) k (lag c) (at_ ow) (tent Ts) (at_ dw) (tent dT) (ent W) (max_lag c + q) a
                            + s * fc (n_lags c) k (lag c) (at_ dw) (tent dT) (ent W) (max_lag c + q) a) ^ 2))
    with (SS (n - max_lag c) k (fun q a => (lin' q a + s * v' q a) ^ 2)). rewrite E3.
  change (SS (n - max_lag c) k (fun q a => (ent W (max_lag c + q) a - mfc c k ow Ts W (max_lag c + q) a)
                            * fc (n_lags c) k (lag c) (at_ dw) (tent dT) (ent W) (max_lag c + q) a))
    with (SS (n - max_lag c) k (fun q a => r' q a * v' q a)). ring.
Qed.
Print Assumptions C35_parameters_gradient.
Example C35_example : is_mat 4 2 em_data /\ is_mat 4 2 em_W /\ is_mat 2 2 em_S /\ length em_ow = length (mc_lags em_cfg)
  /\ is_stack (length (mc_lags em_cfg)) 2 em_T /\ 4%nat <> max_of (mc_lags em_cfg).
Proof.
  destruct em_params as (A & B & C & _ & _ & _ & G). split; [exact em_data_mat|]. split; [exact A|]. split; [exact G|].
  split; [exact C|]. split; [exact B|]. cbn [em_cfg mc_lags]. vm_compute. discriminate.
Qed.

(** ** C36 *)
(** states the solver passes through: the initial workspace, then any sequence of updates *)
Inductive mtd_reach (fuel : nat) (c : mtd_cfg R) (k : nat) (w0 : mws R) : mws R -> Prop :=
| mr_start : mtd_reach fuel c k w0 w0
| mr_dictionary w w' : mtd_reach fuel c k w0 w -> mtd_update_dictionary fuel c k w = Ok w' -> mtd_reach fuel c k w0 w'
| mr_weights w w' : mtd_reach fuel c k w0 w -> mtd_update_weights fuel c k w = Ok w' -> mtd_reach fuel c k w0 w'
| mr_parameters w w' : mtd_reach fuel c k w0 w -> mtd_update_parameters fuel c k w = Ok w' -> mtd_reach fuel c k w0 w'.
Theorem C36_cost_of_current_parameters : forall fuel (c : mtd_cfg R) n d k X W D ow Ts w,
  is_mat n d X -> is_mat n k W -> is_mat k d D -> length ow = length (mc_lags c) -> is_stack (length (mc_lags c)) k Ts ->
  (0 < n)%nat -> (0 < d)%nat -> (0 < k)%nat -> mc_lags c <> [] -> n <> max_of (mc_lags c) ->
  0 < ls_sigma_one (mc_ls c) -> ls_sigma_two (mc_ls c) < 1 ->
  mtd_reach fuel c k (mtd_initialize_workspace c X W D ow Ts) w ->
  mtd_evaluate_cost c k w
  = mtd_objective (mc_eps_states c) (mc_eps_weights c) (mc_lags c) X (m_Gamma w) (m_S w) (m_order_weights w) (m_transition_matrices w)
  /\ is_mat n k (m_Gamma w) /\ is_mat k d (m_S w).
Proof.
  intros fuel c n d k X W D ow Ts w HX HW HD HO HT Hn Hd Hk Hl Hne H1 H2 HR.
  assert (I : minv c n d k X (row_stochastic W) (prob_vec ow /\ stack_stochastic Ts) w).
  { induction HR as [|w w' HR IH E|w w' HR IH E|w w' HR IH E]; [apply start_minv; assumption | | |];
      eapply (minv_updates c n d k X _ _ true true true fuel Hk Hl H1 H2); try exact IH; try exact E; cbn; tauto. }
  destruct I as (I & _). split; [apply (mtd_cost_spec n d k X); assumption|]. destruct I as (_ & A & B & _). auto.
Qed.
Print Assumptions C36_cost_of_current_parameters.
Theorem C36_reported_cost : forall fuel (o : mtd R) n d data dictionary weights ow Ts ud uw up kw r W,
  is_mat n d data -> (0 < n)%nat -> (0 < d)%nat -> n <> max_of (mc_lags (mo_cfg o)) ->
  (forall D, dictionary = Some D -> wf D) -> (forall W0, weights = Some W0 -> wf W0) -> (forall l, Ts = Some l -> Forall wf l) ->
  0 < ls_sigma_one (mc_ls (mo_cfg o)) -> ls_sigma_two (mc_ls (mo_cfg o)) < 1 ->
  mtd_fit_transform fuel o data dictionary weights ow Ts ud uw up kw = Ok (r, W) ->
  exists w D cost, mo_ws (mr_obj r) = Some w /\ mo_dictionary_ (mr_obj r) = Some D /\ mo_cost_ (mr_obj r) = Some cost
    /\ cost = mtd_objective (mc_eps_states (mo_cfg o)) (mc_eps_weights (mo_cfg o)) (mc_lags (mo_cfg o)) data W D
                (m_order_weights w) (m_transition_matrices w)
    /\ is_mat (nc W) d D.
Proof.
  intros fuel o n d data Din Win ow Ts ud uw up kw r W HX Hn Hd Hne WD WW WT H1 H2 H.
  apply mtd_fit_transform_inv in H.
  destruct H as (k & m & t & D & W0 & o0 & T0 & g' & w2 & A1 & A2 & A3 & A4 & A5 & A6 & AL & A7 & A8 & A9 & ->).
  assert (nr data = n /\ nc data = d) as [x1 x2] by (split; apply HX).
  apply mtd_choose_initial_ok in A6; [|assumption ..]. rewrite x1, x2 in A6. destruct A6 as (HD & HW & HO & HT & _).
  pose proof (mtd_iterate_log _ _ _ _ _ _ _ _ _ _ _ _ _ A4 A7) as (C1 & _).
  pose proof (start_minv (mo_cfg o) data W0 D o0 T0 n d k HX HW HD HO HT) as I0.
  destruct (mtd_iterate_inv (mo_cfg o) n d k data _ _ _ _ _ _ _ _ _ _ _ _ _ A2 A4 AL H1 H2 I0 A7) as (B & _).
  rewrite A8. exists w2, (m_S w2), (mr_cost r). cbn [mo_ws mo_dictionary_ mo_cost_].
  do 3 (split; [reflexivity|]). split.
  - rewrite C1. apply (mtd_cost_spec n d k data); assumption.
  - destruct B as (_ & (_ & g2 & _) & S & _). rewrite g2. exact S.
Qed.
Print Assumptions C36_reported_cost.
Theorem C36_cost_decreases : forall fuel (o : mtd R) n d data dictionary weights ow Ts ud uw up kw r W,
  is_mat n d data -> (0 < n)%nat -> (0 < d)%nat -> n <> max_of (mc_lags (mo_cfg o)) ->
  (forall D, dictionary = Some D -> wf D) -> (forall W0, weights = Some W0 -> wf W0) -> (forall l, Ts = Some l -> Forall wf l) ->
  mc_monotone (mo_cfg o) = true ->
  mtd_fit_transform fuel o data dictionary weights ow Ts ud uw up kw = Ok (r, W) ->
  (forall i j, (i <= j < length (mr_log r))%nat -> nth j (mr_log r) 0 <= nth i (mr_log r) 0)
  /\ exists D0 W0 ow0 Ts0,
       nth 0 (mr_log r) 0 = mtd_objective (mc_eps_states (mo_cfg o)) (mc_eps_weights (mo_cfg o)) (mc_lags (mo_cfg o)) data W0 D0 ow0 Ts0
     /\ (mc_init (mo_cfg o) = InitCustom -> dictionary = Some D0 /\ weights = Some W0 /\ ow = Some ow0 /\ Ts = Some Ts0)
     /\ last (mr_log r) 0 = mr_cost r /\ mo_cost_ (mr_obj r) = Some (mr_cost r)
     /\ mr_cost r <= mtd_objective (mc_eps_states (mo_cfg o)) (mc_eps_weights (mo_cfg o)) (mc_lags (mo_cfg o)) data W0 D0 ow0 Ts0.
Proof.
  intros fuel o n d data Din Win ow Ts ud uw up kw r W HX Hn Hd Hne WD WW WT Hmono H.
  apply mtd_fit_transform_inv in H.
  destruct H as (k & m & t & D & W0 & o0 & T0 & g' & w2 & A1 & A2 & A3 & A4 & A5 & A6 & AL & A7 & A8 & A9 & ->).
  assert (nr data = n /\ nc data = d) as [x1 x2] by (split; apply HX).
  assert (Hcust : mc_init (mo_cfg o) = InitCustom -> Din = Some D /\ Win = Some W0 /\ ow = Some o0 /\ Ts = Some T0).
  { intros E. unfold mtd_choose_initial in A6. rewrite E in A6. apply bind_ok in A6. destruct A6 as (W1 & E1 & A6).
    apply bind_ok in A6. destruct A6 as (D1 & E2 & A6). apply bind_ok in A6. destruct A6 as (o1 & E3 & A6).
    apply bind_ok in A6. destruct A6 as (M1 & E4 & A6). injection A6 as <- <- <- <- _.
    apply check_init_weights_ok_inv in E1. apply check_init_dictionary_ok_inv in E2.
    apply check_init_order_weights_inv in E3. apply check_init_transition_inv in E4.
    split; [apply E2|]. split; [apply E1|]. split; [apply E3 | apply E4]. }
  apply mtd_choose_initial_ok in A6; [|assumption ..]. rewrite x1, x2 in A6. destruct A6 as (HD & HW & HO & HT & _).
  pose proof (mtd_iterate_log _ _ _ _ _ _ _ _ _ _ _ _ _ A4 A7) as (C1 & C2 & C3 & C4 & C5 & C6 & C7 & C8).
  assert (Mono : forall i, (S i < length (mr_log r))%nat -> nth (S i) (mr_log r) 0 <= nth i (mr_log r) 0).
  { intros i Hi. destruct (C8 i ltac:(lia) Hmono) as [L|L].
    - numR. apply Rltb_false in L. exact L.
    - numR. lra. }
  assert (Mono2 : forall i j, (i <= j)%nat -> (j < length (mr_log r))%nat -> nth j (mr_log r) 0 <= nth i (mr_log r) 0).
  { intros i j Hij. induction Hij as [|j Hij IH]; intros Hj; [lra|].
    eapply Rle_trans; [apply Mono; exact Hj | apply IH; lia]. }
  split; [intros i j [? ?]; apply Mono2; assumption|].
  assert (E0 : nth 0 (mr_log r) 0 = mtd_objective (mc_eps_states (mo_cfg o)) (mc_eps_weights (mo_cfg o)) (mc_lags (mo_cfg o)) data W0 D o0 T0).
  { change 0 with (@n0 R Num_R) at 1. rewrite C4. rewrite (mtd_cost_spec n d k data); try assumption; [reflexivity|].
    apply (start_minv (mo_cfg o) data W0 D o0 T0 n d k); assumption. }
  exists D, W0, o0, T0. split; [exact E0|]. split; [exact Hcust|]. split; [|split; [rewrite A8; reflexivity|]].
  - rewrite last_nth, C3. exact C5.
  - rewrite <- E0, <- C5. apply (Mono2 0%nat (S (mr_n_iter r))); lia.
Qed.
Print Assumptions C36_cost_decreases.
(** the guard is the only source of RuntimeError: without it none is raised (any arithmetic) *)
Theorem C36_guard : forall (T : Type) (N : Num T) fuel (o : mtd T) data dictionary weights ow Ts ud uw up kw,
  mc_monotone (mo_cfg o) = false ->
  mtd_fit_transform fuel o data dictionary weights ow Ts ud uw up kw <> Raise RuntimeError.
Proof.
  intros T N fuel o data Din Win ow Ts ud uw up kw Hmono H. unfold mtd_fit_transform in H.
  destruct (mtd_convex_coding fuel o data Din Win ow Ts ud uw up kw) as [r0|e0] eqn:E; cbn [bind] in H.
  { destruct (mo_ws (mr_obj r0)); discriminate. }
  injection H as ->. unfold mtd_convex_coding in E.
  destruct (check_params _ _ _) as [[[k m] t]|e] eqn:E1; cbn [bind] in E;
    [|apply check_params_raise in E1; congruence].
  destruct (mtd_choose_initial _ _ _ _ _ _ _ _ _ _ _ _) as [[[[[D W] o0] T0] g']|e] eqn:E2; cbn [bind] in E;
    [|apply mtd_choose_initial_raise in E2; unfold mtd_init_exn in E2; destruct E2 as [?|[?|[?|?]]]; congruence].
  destruct (check_max_lag _) as [u|e] eqn:EL; cbn [bind] in E; [|unfold check_max_lag in EL; destruct (mc_lags (mo_cfg o)); congruence].
  destruct (mtd_iterate _ _ _ _ _ _ _ _ _) as [[[[w2 cost] n_iter] log]|e] eqn:E3; cbn [bind] in E; [discriminate|].
  injection E as ->. unfold mtd_iterate, iterate in E3.
  pose proof (iterate_loop_raise _ (fun _ => True) _ _ _ (fun _ _ _ _ _ _ => I) _ _ _ _ _ _ E3 eq_refl I) as E4.
  destruct E4 as [[_ (i & s0 & s & _ & _ & B)]|(v & s & Iu & _ & Eu)].
  - unfold cost_increased in B. rewrite Hmono, Bool.andb_false_r in B. discriminate.
  - apply in_app_or in Iu. destruct Iu as [Iu|Iu]; [|apply in_app_or in Iu; destruct Iu as [Iu|Iu]]; apply in_enabled in Iu; destruct Iu as [_ ->].
    + unfold mtd_update_dictionary, mtd_dictionary_line_search in Eu. cbv zeta in Eu.
      match type of Eu with bind ?A _ = _ => destruct A as [[[? ?] ?]|e] eqn:EE end; cbn [bind] in Eu; [discriminate|].
      injection Eu as ->. apply line_search_raise in EE. destruct EE as [[? _]|?]; discriminate.
    + unfold mtd_update_weights, mtd_weights_line_search in Eu. cbv zeta in Eu.
      match type of Eu with bind ?A _ = _ => destruct A as [[[? ?] ?]|e] eqn:EE end; cbn [bind] in Eu; [discriminate|].
      injection Eu as ->. apply line_search_raise in EE. destruct EE as [[? _]|?]; discriminate.
    + unfold mtd_update_parameters, mtd_parameters_line_search in Eu. cbv zeta in Eu.
      match type of Eu with bind ?A _ = _ => destruct A as [[[? ?] ?]|e] eqn:EE end; cbn [bind] in Eu; [discriminate|].
      injection Eu as ->. apply line_search_raise in EE. destruct EE as [[? _]|?]; discriminate.
Qed.
Print Assumptions C36_guard.
(** a fit over the reals, and a guarded integer run whose costs are reported in order *)
Example C36_example : (0 < 4)%nat /\ 4%nat <> max_of [1; 2]%nat
  /\ (exists fuel r W, mtd_fit_transform fuel em_mtd em_data None None None None true true true None = Ok (r, W))
  /\ match @mtd_fit_transform Z Num_Z_demo 5
        (mk_mtd (mk_mtd_cfg [1; 2]%nat 0%Z 0%Z InitCustom (PInt 0) (PInt 2) (mk_ls 0 1 1 1 1 1)%Z 1 true) (PInt 2) exZ_rng None None None None None)
        emZ_data (Some (mkmat 2 2 [[4; 0]; [0; 4]]%Z)) (Some (mkmat 4 2 [[1; 0]; [0; 1]; [1; 0]; [0; 1]]%Z))
        (Some [1; 0]%Z) (Some [emZ_swap; emZ_swap]) true true true None
     with Ok (r, _) => length (mr_log r) = 3%nat | Raise _ => False end.
Proof. split; [lia|]. split; [vm_compute; discriminate|]. split; [exact em_fit | vm_compute; reflexivity]. Qed.

(** ** C37 *)
(** the first max_lag - 1 rows: NaN, in every arithmetic where NaN propagates *)
Theorem C37_nan_rows : forall (T : Type) (N : Num T) fuel (o : mtd T) data h run Y i j,
  (forall x : T, nadd nnan x = nnan /\ nadd x nnan = nnan /\ nmul nnan x = nnan /\ nmul x nnan = nnan) ->
  mtd_predict fuel o data h = Ok (run, Y) -> h <> 0%Z ->
  (S i < max_of (mc_lags (mo_cfg o)))%nat -> (i < nr Y)%nat -> (j < nc Y)%nat ->
  mget Y i j = nnan.
Proof.
  intros T N fuel o data h run Y i j Hnan H Hh Hi Hr Hc.
  apply mtd_predict_inv in H. destruct H as (W & w & E1 & E2 & E3 & ->).
  destruct (Z.eqb_spec h 0) as [|_]; [congruence|].
  apply mtd_transform_inv in E1.
  destruct E1 as (k & m & t & D & W0 & o0 & T0 & g' & w2 & A1 & A2 & A3 & A4 & A5 & A6 & AL & A7 & A8 & A9 & ->).
  rewrite A8 in E2. cbn [mo_ws] in E2. injection E2 as <-.
  assert (Lg : max_of (mc_lags (mo_cfg o)) = max_lag (mo_cfg o)) by reflexivity. rewrite Lg in Hi.
  pose proof (mtd_transform_keeps _ _ _ _ _ _ _ _ _ _ A4 A7) as (K1 & _).
  assert (Sk : (0 < nr (m_S w2))%nat).
  { rewrite K1. cbn [mtd_initialize_workspace m_S]. apply mtd_choose_transform_inv in A6 as B. destruct B as (B & _).
    unfold mtd_choose_initial in A6. rewrite B in A6. destruct (mc_init (mo_cfg o)); try discriminate;
    apply bind_ok in A6; destruct A6 as (Dg & F1 & _); apply bind_ok in F1; destruct F1 as (D1 & F1 & F2);
    apply check_init_dictionary_ok_inv in F1; destruct F1 as (F1 & F3 & _); injection F1 as <-; lia. }
  cbn [nr nc mmul mbuild] in Hr, Hc. unfold mmul. rewrite mget_mbuild by assumption.
  apply nsum_nan; [exact Hnan| |].
  - cbn [nc mtd_predict_weights mbuild]. lia.
  - exists 0%nat. split; [cbn [nc mtd_predict_weights mbuild]; lia|].
    rewrite mtd_predict_nan; [apply Hnan | lia | cbn [nr mtd_predict_weights mbuild] in Hr; exact Hr | lia].
Qed.
Print Assumptions C37_nan_rows.
(** the other rows: the recursion followed for h steps from the transformed weights, through the
    dictionary of the fit; a forecast in the hull of the dictionary rows *)
Theorem C37_forecast : forall fuel (o : mtd R) n d k data h run Y w0,
  is_mat n d data -> comp_count (mo_n_components o) d k -> mo_ws o = Some w0 ->
  Forall (fun l => (0 < l)%nat) (mc_lags (mo_cfg o)) ->
  wf (m_S w0) -> Forall wf (m_transition_matrices w0) -> prob_vec (m_order_weights w0) -> stack_stochastic (m_transition_matrices w0) ->
  (forall q, 0 <= r_uniform (mo_rng o) q) -> (forall q, Sum k (fun j => r_uniform (mo_rng o) (q + j)%nat) <> 0) ->
  0 < ls_sigma_one (mc_ls (mo_cfg o)) -> ls_sigma_two (mc_ls (mo_cfg o)) < 1 ->
  (0 <= h)%Z -> mtd_predict fuel o data h = Ok (run, Y) ->
  nr Y = n /\ nc Y = d /\
  exists W, mtd_transform fuel o data = Ok (run, W) /\ is_mat n k W /\ row_stochastic W /\ is_mat k d (m_S w0) /\
  forall i, (max_of (mc_lags (mo_cfg o)) - 1 <= i < n)%nat ->
    let hh := Z.to_nat h in
    let forecast a := mtd_path (mc_lags (mo_cfg o)) k (m_order_weights w0) (m_transition_matrices w0) (ent W) i hh (i + hh) a in
    (forall j, (j < d)%nat -> ent Y i j = Sum k (fun a => forecast a * ent (m_S w0) a j))
    /\ (forall a, (a < k)%nat -> 0 <= forecast a) /\ Sum k forecast = 1
    /\ in_hull (m_S w0) (fun j => ent Y i j).
Proof.
  intros fuel o n d k data h run Y w0 HX Hc Ew Hl WS WT PO ST U1 U2 H1 H2 Hh H.
  apply mtd_predict_inv in H. destruct H as (W & w & E1 & E2 & E3 & ->). pose proof E1 as E0.
  apply mtd_transform_inv in E1.
  destruct E1 as (k' & m & t & D & W0 & o0 & T0 & g' & w2 & A1 & A2 & A3 & A4 & A5 & A6 & AL & A7 & A8 & A9 & ->).
  rewrite A8 in E2. cbn [mo_ws] in E2. injection E2 as <-.
  assert (nr data = n /\ nc data = d) as [x1 x2] by (split; apply HX).
  apply comp_count_resolve in Hc. rewrite x2 in A1. assert (k' = k) as -> by (rewrite Hc in A1; injection A1; lia).
  pose proof A6 as B6. apply mtd_choose_transform_inv in B6. destruct B6 as (F1 & F2 & (l & F3 & ->) & _).
  rewrite Ew in F1, F2, F3. cbn [option_map] in F1, F2, F3. injection F1 as <-. injection F2 as <-. injection F3 as <-.
  rewrite Ew in A6. cbn [option_map] in A6.
  apply mtd_choose_initial_ok in A6; [|intros A [= <-]; exact WS | intros A E; discriminate | intros A [= <-]; exact WT].
  rewrite x1, x2 in A6. destruct A6 as (HD & HW & HO & HT & _ & S1 & S2).
  assert (SW : row_stochastic W0) by (apply S1; [intros A E; discriminate | split; assumption]).
  pose proof (mtd_transform_keeps _ _ _ _ _ _ _ _ _ _ A4 A7) as (K1 & K2 & K3).
  cbn [mtd_initialize_workspace m_S m_order_weights m_transition_matrices] in K1, K2, K3.
  pose proof (start_minv (mo_cfg o) data W0 (m_S w0) (m_order_weights w0) (m_transition_matrices w0) n d k HX HW HD HO HT) as I0.
  destruct (mtd_iterate_inv (mo_cfg o) n d k data _ _ _ _ _ _ _ _ _ _ _ _ _ A2 A4 AL H1 H2 I0 A7) as ((B1 & B2 & B3 & _) & _ & _ & _ & B7 & _).
  specialize (B7 SW). rewrite K2, K3.
  set (PW := if (h =? 0)%Z then m_Gamma w2 else mtd_predict_weights (mo_cfg o) (m_order_weights w0) (m_transition_matrices w0) (m_Gamma w2) h).
  assert (HP : is_mat n k PW).
  { unfold PW. destruct (h =? 0)%Z; [exact B2|]. destruct B2 as (b1 & b2 & _). unfold mtd_predict_weights. rewrite b1, b2. apply is_mat_mbuild. }
  pose proof HP as (p1 & p2 & _). pose proof B3 as (s1 & s2 & _).
  split; [exact p1|]. split; [exact s2|]. exists (m_Gamma w2). split; [exact E0|]. split; [exact B2|]. split; [exact B7|].
  split; [rewrite <- K1; exact B3|].
  intros i Hi hh forecast. change (max_of (mc_lags (mo_cfg o))) with (max_lag (mo_cfg o)) in Hi.
  assert (F : forall a, (a < k)%nat -> ent PW i a = forecast a).
  { intros a Ha. unfold PW, forecast. destruct (Z.eqb_spec h 0) as [E|_].
    - unfold hh. rewrite E. cbn [Z.to_nat mtd_path]. rewrite Nat.add_0_r. reflexivity.
    - apply (predict_path (mo_cfg o) k (m_order_weights w0) (m_transition_matrices w0) (m_Gamma w2) n B2 HT Hl AL i a h Hi Ha). }
  assert (PP : (forall a, (a < k)%nat -> 0 <= forecast a) /\ Sum k forecast = 1).
  { pose proof (max_lag_pos (mo_cfg o) Hl AL) as HL.
    apply (path_prob (mo_cfg o) k (m_order_weights w0) (m_transition_matrices w0) (m_Gamma w2) n B2 HT Hl AL B7 PO HO ST i hh Hi (i + hh)); lia. }
  assert (EY : forall j, (j < d)%nat -> ent (mmul PW (m_S w2)) i j = Sum k (fun a => forecast a * ent (m_S w0) a j)).
  { intros j Hj. rewrite ent_mmul by lia. rewrite p2. apply Sum_ext. intros a Ha. rewrite (F a Ha), K1. reflexivity. }
  split; [exact EY|]. destruct PP as [P1 P2]. split; [exact P1|]. split; [exact P2|].
  exists forecast. rewrite <- K1, s1, s2. split; [exact P1|]. split; [exact P2|]. intros j Hj. rewrite EY by exact Hj. rewrite K1. reflexivity.
Qed.
Print Assumptions C37_forecast.
(** h = 0: the reconstruction of the transformed weights (any arithmetic) *)
Theorem C37_zero_horizon : forall (T : Type) (N : Num T) fuel (o : mtd T) data run Y,
  mtd_predict fuel o data 0 = Ok (run, Y) ->
  exists W, mtd_transform fuel o data = Ok (run, W) /\ mtd_inverse_transform (mr_obj run) W = Ok Y.
Proof.
  intros T N fuel o data run Y H. apply mtd_predict_inv in H. destruct H as (W & w & E1 & E2 & E3 & ->).
  exists W. split; [exact E1|]. unfold mtd_inverse_transform. rewrite E2. destruct (Nat.eqb_spec (nc W) (nr (m_S w))); [reflexivity | congruence].
Qed.
Print Assumptions C37_zero_horizon.
(** predicting changes neither the dictionary nor the transition model *)
Theorem C37_predict_keeps_model : forall (T : Type) (N : Num T) fuel (o : mtd T) data h run Y w0,
  mo_ws o = Some w0 -> mtd_predict fuel o data h = Ok (run, Y) ->
  exists w, mo_ws (mr_obj run) = Some w /\ m_S w = m_S w0 /\ m_order_weights w = m_order_weights w0
    /\ m_transition_matrices w = m_transition_matrices w0 /\ mo_dictionary_ (mr_obj run) = mo_dictionary_ o.
Proof.
  intros T N fuel o data h run Y w0 Ew H. apply mtd_predict_inv in H. destruct H as (W & w & E1 & E2 & E3 & ->).
  apply mtd_transform_inv in E1.
  destruct E1 as (k & m & t & D & W0 & o0 & T0 & g' & w2 & A1 & A2 & A3 & A4 & A5 & A6 & AL & A7 & A8 & A9 & ->).
  apply mtd_choose_transform_inv in A6. destruct A6 as (F1 & F2 & (l & F3 & ->) & _).
  rewrite Ew in F1, F2, F3. cbn [option_map] in F1, F2, F3. injection F1 as <-. injection F2 as <-. injection F3 as <-.
  pose proof (mtd_transform_keeps _ _ _ _ _ _ _ _ _ _ A4 A7) as (K1 & K2 & K3).
  exists w2. rewrite A8. auto.
Qed.
Print Assumptions C37_predict_keeps_model.
(** an executed prediction: the alternating chain fitted above, one step ahead *)
Example C37_example : match emZ_fit2 with
  | Ok (r, _) => match @mtd_predict Z Num_Z_demo 5 (mr_obj r) emZ_data 1 with
                 | Ok (_, Y) => nr Y = 4%nat /\ nc Y = 2%nat | Raise _ => False end
  | Raise _ => False end.
Proof. vm_compute. auto. Qed.
Example C37_example_nan : forall x : ext, nadd nnan x = nnan /\ nadd x nnan = nnan /\ nmul nnan x = nnan /\ nmul x nnan = nnan.
Proof. exact nan_sticks_E. Qed.

(** ** C38 (any arithmetic): MTDConvexCoding *)
Definition positive_lag {T} (v : pyval T) : Prop := exists z, v = PInt z /\ (1 <= z)%Z.
Theorem C38_mtd_lags : forall (T : Type) (N : Num T) (c : mtd_cfg T) (l : list (pyval T)) ncomp g,
  (mtd_new c (LagsSeq l) ncomp g = Raise ValueError <-> exists v, In v l /\ ~ positive_lag v)
  /\ (forall e, mtd_new c (LagsSeq l) ncomp g = Raise e -> e = ValueError)
  /\ (forall o, mtd_new c (LagsSeq l) ncomp g = Ok o ->
        map (fun z => PInt (Z.of_nat z)) (mc_lags (mo_cfg o)) = l /\ Forall (fun z => (0 < z)%nat) (mc_lags (mo_cfg o)))
  /\ (exists o, mtd_new c LagsNone ncomp g = Ok o /\ mc_lags (mo_cfg o) = [1%nat])
  /\ mtd_new c LagsOther ncomp g = Raise TypeError.
Proof.
  intros T N c l ncomp g. unfold mtd_new. cbn [resolve_lags bind].
  assert (P : forall v : pyval T, {positive_lag v} + {~ positive_lag v}).
  { intros [|z|x|]; try (right; intros (z' & E & _); discriminate).
    destruct (Z_le_dec 1 z); [left; exists z; auto | right; intros (z' & [= <-] & Hz); contradiction]. }
  split; [|split; [|split; [|split; [|reflexivity]]]].
  - destruct (check_lags l) as [r|e] eqn:E; cbn [bind].
    + split; [discriminate|]. intros (v & Iv & Nv). exfalso. apply Nv. apply check_lags_ok in E. destruct E as [-> F].
      apply in_map_iff in Iv. destruct Iv as (z & <- & Iz). rewrite Forall_forall in F. specialize (F z Iz). exists (Z.of_nat z). split; [reflexivity | lia].
    + split; intros _; [|apply check_lags_raise in E; rewrite E; reflexivity].
      destruct (Forall_dec positive_lag P l) as [F|F].
      * exfalso. assert (L : l = map (fun z => PInt (Z.of_nat z)) (map (fun v => match v with PInt z => Z.to_nat z | _ => 1%nat end) l)).
        { rewrite map_map. clear E. induction F as [|v l (z & -> & Hz) F IH]; [reflexivity|]. cbn [map]. rewrite <- IH. f_equal. f_equal. lia. }
        assert (G : Forall (fun z => (0 < z)%nat) (map (fun v => match v with PInt z => Z.to_nat z | _ => 1%nat end) l)).
        { apply Forall_map. eapply Forall_impl; [|exact F]. intros v (z & -> & Hz). lia. }
        pose proof (proj2 (check_lags_ok l _) (conj L G)). congruence.
      * apply Exists_Forall_neg with (P := positive_lag) in F; [|intros v; destruct (P v); auto].
        apply Exists_exists in F. exact F.
  - intros e. destruct (check_lags l) as [r|e'] eqn:E; cbn [bind]; [discriminate|]. intros [= <-]. eapply check_lags_raise, E.
  - intros o. destruct (check_lags l) as [r|e'] eqn:E; cbn [bind]; [|discriminate]. intros [= <-]. cbn [mo_cfg mc_lags with_lags].
    apply check_lags_ok in E. destruct E as [-> F]. auto.
  - eexists. split; reflexivity.
Qed.
Print Assumptions C38_mtd_lags.
Example C38_example : @positive_lag Z (PInt 3) /\ ~ @positive_lag Z (PInt 0) /\ ~ @positive_lag Z (PFloat 2%Z).
Proof. split; [exists 3%Z; split; [reflexivity | lia]|]. split; intros (z & E & H); [injection E as <-; lia | discriminate]. Qed.

(** ** C21 (any arithmetic) *)
Theorem C21_mtd_iterations : forall (T : Type) (N : Num T) fuel (o : mtd T) data dictionary weights ow Ts ud uw up kw r W,
  mtd_fit_transform fuel o data dictionary weights ow Ts ud uw up kw = Ok (r, W) ->
  exists m, mc_max_iterations (mo_cfg o) = PInt (Z.of_nat m)
    /\ mo_n_iter_ (mr_obj r) = Some (mr_n_iter r) /\ (mr_n_iter r <= m - 1)%nat /\ (0 < m)%nat
    /\ length (mr_log r) = (mr_n_iter r + 2)%nat       (* initial cost + one per iteration *)
    /\ mr_warned r = false.
Proof.
  intros T N fuel o data Din Win ow Ts ud uw up kw r W H. apply mtd_fit_transform_inv in H.
  destruct H as (k & m & t & D & W0 & o0 & T0 & g' & w2 & A1 & A2 & A3 & A4 & A5 & A6 & AL & A7 & A8 & A9 & ->).
  pose proof (mtd_iterate_log _ _ _ _ _ _ _ _ _ _ _ _ _ A4 A7) as (C1 & C2 & C3 & _).
  exists m. rewrite A8, A9. cbn [mo_n_iter_]. repeat split; try assumption; try lia.
  destruct (Nat.eqb_spec (mr_n_iter r) m); [lia | reflexivity].
Qed.
Print Assumptions C21_mtd_iterations.
Theorem C21_mtd_transform_iterations : forall (T : Type) (N : Num T) fuel (o : mtd T) data r W,
  mtd_transform fuel o data = Ok (r, W) ->
  exists m, mc_max_iterations (mo_cfg o) = PInt (Z.of_nat m) /\ (mr_n_iter r <= m - 1)%nat
    /\ length (mr_log r) = (mr_n_iter r + 2)%nat /\ mr_warned r = false.
Proof.
  intros T N fuel o data r W H. apply mtd_transform_inv in H.
  destruct H as (k & m & t & D & W0 & o0 & T0 & g' & w2 & A1 & A2 & A3 & A4 & A5 & A6 & AL & A7 & A8 & A9 & ->).
  pose proof (mtd_iterate_log _ _ _ _ _ _ _ _ _ _ _ _ _ A4 A7) as (C1 & C2 & C3 & _).
  exists m. rewrite A9. repeat split; try assumption; try lia.
  destruct (Nat.eqb_spec (mr_n_iter r) m); [lia | reflexivity].
Qed.
Print Assumptions C21_mtd_transform_iterations.
(** two iterations made, n_iter_ is 1, no warning *)
Example C21_mtd_example : match emZ_fit with Ok (r, _) => mr_n_iter r = 1%nat /\ length (mr_log r) = 3%nat | Raise _ => False end.
Proof. vm_compute. auto. Qed.

(** ** C22 (any arithmetic) *)
Theorem C22_mtd_stopping : forall (T : Type) (N : Num T) fuel (o : mtd T) data dictionary weights ow Ts ud uw up kw r W,
  mtd_fit_transform fuel o data dictionary weights ow Ts ud uw up kw = Ok (r, W) ->
  exists m t, mc_max_iterations (mo_cfg o) = PInt (Z.of_nat m) /\ tol_value (mc_tolerance (mo_cfg o)) t
    /\ let small i := nltb (nabs (nsub (nth (S i) (mr_log r) n0) (nth i (mr_log r) n0))) t in
       (forall i, (i < mr_n_iter r)%nat -> small i = false)
       /\ (mr_n_iter r < m - 1 -> small (mr_n_iter r) = true)%nat.
Proof.
  intros T N fuel o data Din Win ow Ts ud uw up kw r W H. apply mtd_fit_transform_inv in H.
  destruct H as (k & m & t & D & W0 & o0 & T0 & g' & w2 & A1 & A2 & A3 & A4 & A5 & A6 & AL & A7 & A8 & A9 & ->).
  pose proof (mtd_iterate_log _ _ _ _ _ _ _ _ _ _ _ _ _ A4 A7) as (C1 & C2 & C3 & C4 & C5 & C6 & C7 & _).
  exists m, t. split; [exact A3|]. split; [exact A5|]. intros small. split; [exact C6|].
  intros Hlt. destruct C7 as [C7|C7]; [lia | exact C7].
Qed.
Print Assumptions C22_mtd_stopping.
Example C22_mtd_example : match @mtd_fit_transform Z Num_Z_demo 5
     (mk_mtd (mk_mtd_cfg [1; 2]%nat 0%Z 0%Z InitCustom (PInt 1) (PInt 50) (mk_ls 0 1 1 1 1 1)%Z 1 false) (PInt 2) exZ_rng None None None None None)
     emZ_data (Some (mkmat 2 2 [[4; 0]; [0; 4]]%Z)) (Some (mkmat 4 2 [[1; 0]; [0; 1]; [1; 0]; [0; 1]]%Z))
     (Some [1; 0]%Z) (Some [emZ_swap; emZ_swap]) true true true None
  with Ok (r, _) => (mr_n_iter r < 49)%nat | Raise _ => False end.
Proof. vm_compute. lia. Qed.

(** ** C24 (any arithmetic) *)
Theorem C24_mtd_custom_transform_fails : forall (T : Type) (N : Num T) fuel (o : mtd T) data,
  mc_init (mo_cfg o) = InitCustom -> mtd_transform fuel o data = Raise ValueError.
Proof.
  intros T N fuel o data Hi. unfold mtd_transform, mtd_convex_coding.
  destruct (check_params _ _ _) as [[[k m] t]|e] eqn:E1; cbn [bind].
  - unfold mtd_choose_initial. rewrite Hi. reflexivity.
  - apply check_params_raise in E1. rewrite E1. reflexivity.
Qed.
Print Assumptions C24_mtd_custom_transform_fails.
Theorem C24_mtd_custom_predict_fails : forall (T : Type) (N : Num T) fuel (o : mtd T) data h,
  mc_init (mo_cfg o) = InitCustom -> mtd_predict fuel o data h = Raise ValueError.
Proof.
  intros T N fuel o data h Hi. unfold mtd_predict. rewrite C24_mtd_custom_transform_fails by exact Hi. reflexivity.
Qed.
Print Assumptions C24_mtd_custom_predict_fails.
Example C24_mtd_example : match emZ_fit with
  | Ok (r, _) => mc_init (mo_cfg (mr_obj r)) = InitCustom | Raise _ => False end.
Proof. vm_compute. reflexivity. Qed.

(** ** C25 (any arithmetic) *)
Theorem C25_mtd_history_independent : forall (T : Type) (N : Num T) fuel (o1 o2 : mtd T) data dictionary weights ow Ts ud uw up kw,
  mo_cfg o1 = mo_cfg o2 -> mo_n_components o1 = mo_n_components o2 -> mo_rng o1 = mo_rng o2 ->
  mtd_fit_transform fuel o1 data dictionary weights ow Ts ud uw up kw = mtd_fit_transform fuel o2 data dictionary weights ow Ts ud uw up kw.
Proof.
  intros T N fuel o1 o2 data Din Win ow Ts ud uw up kw E1 E2 E3. unfold mtd_fit_transform, mtd_convex_coding. rewrite E1, E2, E3.
  destruct (check_params _ _ _) as [[[k m] t]|e]; cbn [bind]; [|reflexivity].
  destruct (mtd_choose_initial _ _ _ _ _ _ _ _ _ _ _ _) as [[[[[D W] o0] T0] g']|e]; cbn [bind]; [|reflexivity].
  destruct (check_max_lag _); cbn [bind]; [|reflexivity].
  destruct (mtd_iterate _ _ _ _ _ _ _ _ _) as [[[[w2 cost] n_iter] log]|e]; reflexivity.
Qed.
Print Assumptions C25_mtd_history_independent.
(** an object after any sequence of successful fits, transforms and predictions *)
Inductive mtd_history {T} {N : Num T} (o : mtd T) : mtd T -> Prop :=
| mh_start : mtd_history o o
| mh_fit o1 fuel data dictionary weights ow Ts ud uw up kw r W : mtd_history o o1 ->
    mtd_fit_transform fuel o1 data dictionary weights ow Ts ud uw up kw = Ok (r, W) -> mtd_history o (mr_obj r)
| mh_transform o1 fuel data r W : mtd_history o o1 ->
    mtd_transform fuel o1 data = Ok (r, W) -> mtd_history o (mr_obj r)
| mh_predict o1 fuel data h r Y : mtd_history o o1 ->
    mtd_predict fuel o1 data h = Ok (r, Y) -> mtd_history o (mr_obj r).
Theorem C25_mtd_history_configuration : forall (T : Type) (N : Num T) (o o' : mtd T) z,
  mtd_history o o' -> mo_n_components o = PInt z ->
  mo_cfg o' = mo_cfg o /\ mo_n_components o' = mo_n_components o /\ r_uniform (mo_rng o') = r_uniform (mo_rng o)
  /\ r_normal (mo_rng o') = r_normal (mo_rng o) /\ r_int (mo_rng o') = r_int (mo_rng o).
Proof.
  intros T N o o' z H Ez.
  assert (Tr : forall (o1 : mtd T) fuel data r W, mo_n_components o1 = PInt z -> mtd_transform fuel o1 data = Ok (r, W) ->
     mo_cfg (mr_obj r) = mo_cfg o1 /\ mo_n_components (mr_obj r) = mo_n_components o1 /\ r_uniform (mo_rng (mr_obj r)) = r_uniform (mo_rng o1)
     /\ r_normal (mo_rng (mr_obj r)) = r_normal (mo_rng o1) /\ r_int (mo_rng (mr_obj r)) = r_int (mo_rng o1)).
  { intros o1 fuel data r W E1 E. apply mtd_transform_inv in E.
    destruct E as (k & m & t & D & W0 & o0 & T0 & g' & w2 & A1 & A2 & A3 & A4 & A5 & A6 & AL & A7 & A8 & A9 & _).
    rewrite A8. cbn [mo_cfg mo_n_components mo_rng]. apply mtd_choose_streams in A6. destruct A6 as (S1 & S2 & S3).
    rewrite E1 in *. cbn in A1. rewrite <- A1. auto. }
  induction H as [|o1 fuel data Din Win ow Ts ud uw up kw r W H IH E|o1 fuel data r W H IH E|o1 fuel data h r Y H IH E]; [auto| | |].
  - apply mtd_fit_transform_inv in E.
    destruct E as (k & m & t & D & W0 & o0 & T0 & g' & w2 & A1 & A2 & A3 & A4 & A5 & A6 & AL & A7 & A8 & A9 & _).
    destruct IH as (I1 & I2 & I3 & I4 & I5). rewrite A8. cbn [mo_cfg mo_n_components mo_rng].
    apply mtd_choose_streams in A6. destruct A6 as (S1 & S2 & S3).
    rewrite I2, Ez in A1. cbn in A1. rewrite <- A1, Ez, S1, S2, S3. auto.
  - destruct IH as (I1 & I2 & I3 & I4 & I5). apply Tr in E; [|congruence]. destruct E as (-> & -> & -> & -> & ->). auto.
  - destruct IH as (I1 & I2 & I3 & I4 & I5). apply mtd_predict_inv in E. destruct E as (W & w & E & _).
    apply Tr in E; [|congruence]. destruct E as (-> & -> & -> & -> & ->). auto.
Qed.
Print Assumptions C25_mtd_history_configuration.
Example C25_mtd_example : match emZ_fit with
  | Ok (r, _) => mo_cost_ (mr_obj r) <> mo_cost_ (emZ_mtd InitCustom)
      /\ mo_cfg (mr_obj r) = emZ_cfg InitCustom /\ mo_n_components (mr_obj r) = PInt 2 /\ mo_rng (mr_obj r) = exZ_rng
  | Raise _ => False end.
Proof. vm_compute. repeat split; discriminate. Qed.

(** ** C26 (any arithmetic) *)
Theorem C26_mtd_validation : forall (T : Type) (N : Num T) fuel (o : mtd T) data dictionary weights ow Ts ud uw up kw,
  ~ (valid_components (mo_n_components o) (nc data) /\ valid_max (mc_max_iterations (mo_cfg o)) /\ valid_tolerance (mc_tolerance (mo_cfg o))) ->
  mtd_fit_transform fuel o data dictionary weights ow Ts ud uw up kw = Raise ValueError.
Proof.
  intros T N fuel o data Din Win ow Ts ud uw up kw H. unfold mtd_fit_transform, mtd_convex_coding.
  destruct (check_params _ _ _) as [[[k m] t]|e] eqn:E1; cbn [bind].
  - exfalso. apply H. apply check_params_ok in E1. destruct E1 as (K1 & K2 & M1 & M2 & T1).
    split; [exists k; split; [apply comp_count_resolve, K1 | exact K2]|]. split; [exists m; auto|].
    destruct T1 as [(z & -> & _ & Hz)|[-> Hz]]; [left; eauto | right; eauto].
  - apply check_params_raise in E1. rewrite E1. reflexivity.
Qed.
Print Assumptions C26_mtd_validation.
Theorem C26_mtd_resolution : forall (T : Type) (N : Num T) fuel (o : mtd T) data dictionary weights ow Ts ud uw up kw r W,
  mtd_fit_transform fuel o data dictionary weights ow Ts ud uw up kw = Ok (r, W) ->
  valid_max (mc_max_iterations (mo_cfg o)) /\ valid_tolerance (mc_tolerance (mo_cfg o)) /\
  exists k, comp_count (mo_n_components o) (nc data) k /\ (0 < k)%nat /\ mo_n_components (mr_obj r) = PInt (Z.of_nat k)
    /\ forall d' k', comp_count (mo_n_components (mr_obj r)) d' k' -> k' = k.
Proof.
  intros T N fuel o data Din Win ow Ts ud uw up kw r W H. apply mtd_fit_transform_inv in H.
  destruct H as (k & m & t & D & W0 & o0 & T0 & g' & w2 & A1 & A2 & A3 & A4 & A5 & A6 & AL & A7 & A8 & A9 & ->).
  split; [exists m; auto|]. split; [destruct A5 as [(z & -> & _ & Hz)|[-> Hz]]; [left; eauto | right; eauto]|].
  exists k. split; [apply comp_count_resolve, A1|]. split; [exact A2|]. rewrite A8. cbn [mo_n_components]. split; [reflexivity|].
  intros d' k' [E|[E _]]; [injection E; lia | discriminate].
Qed.
Print Assumptions C26_mtd_resolution.
(** a component count of 0 is refused whatever else is passed *)
Example C26_mtd_example : ~ valid_components (mo_n_components (mk_mtd em_cfg (PInt 0) ex_rng None None None None None)) 2
  /\ valid_components (mo_n_components em_mtd) 2.
Proof.
  split.
  - intros (k & [E|[E _]] & Hk); [injection E; lia | discriminate].
  - exists 2%nat. split; [left; reflexivity | lia].
Qed.

(** ** C58 *)
Theorem C58_mtd_terminates : forall (c : mtd_cfg R),
  0 < ls_sigma_one (mc_ls c) -> ls_sigma_two (mc_ls c) < 1 -> 0 < ls_step_tol (mc_ls c) -> (0 < mc_memory c)%nat ->
  exists M, forall fuel, (M <= fuel)%nat -> forall (o : mtd R) n d data dictionary weights ow Ts ud uw up kw,
    mo_cfg o = c -> is_mat n d data ->
    (forall D, dictionary = Some D -> wf D) -> (forall W0, weights = Some W0 -> wf W0) -> (forall l, Ts = Some l -> Forall wf l) ->
    (exists r, mtd_fit_transform fuel o data dictionary weights ow Ts ud uw up kw = Ok r)
    \/ (exists e, mtd_fit_transform fuel o data dictionary weights ow Ts ud uw up kw = Raise e
          /\ (e = ValueError \/ e = IndexError \/ e = TypeError \/ e = AttributeError \/ (e = RuntimeError /\ mc_monotone c = true))).
Proof.
  intros c H1 H2 H3 Hm. destruct (mtd_convex_coding_ends c) as [M HM]; [repeat split; assumption | exact Hm|].
  exists M. intros fuel Hf o n d data Din Win ow Ts ud uw up kw Eo HX WD WW WT.
  destruct (HM fuel Hf o data Din Win ow Ts ud uw up kw n d Eo HX WD WW WT) as [[r E]|(e & E & He)]; unfold mtd_fit_transform; rewrite E; cbn [bind].
  - apply mtd_run_inv in E. destruct E as (k & m & t & D & W0 & o0 & T0 & g' & w2 & A1 & A2 & A3 & A4 & A5 & A6 & AL & A7 & A8 & A9).
    rewrite A8. cbn. left. eauto.
  - right. exists e. split; [reflexivity|]. unfold mtd_init_exn in He. tauto.
Qed.
Print Assumptions C58_mtd_terminates.
Example C58_mtd_example : 0 < ls_sigma_one (mc_ls em_cfg) /\ ls_sigma_two (mc_ls em_cfg) < 1 /\ 0 < ls_step_tol (mc_ls em_cfg) /\ (0 < mc_memory em_cfg)%nat.
Proof. cbn. repeat split; try lra; lia. Qed.
