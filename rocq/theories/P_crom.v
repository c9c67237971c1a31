(** Proofs about gpnh_convex_coding_crom.py. *)
From Coq Require Import List Arith Lia ZArith Reals Lra Psatz Bool.
From Verif Require Import Num Mat Py Spec M_simplex M_spg M_iter M_random M_furthest M_gpnh M_mtd M_crom.
From Verif Require Import P_lin P_simplex P_spg P_random P_mat P_iter P_gpnh P_gpnh_run P_mtd P_mtd_upd P_mtd_run P_mtd_pred.
Import ListNotations.
Local Open Scope R_scope.

(** a parameter workspace seen as a workspace of MTD convex coding with zero data *)
Definition cemb (n k : nat) (G : mat R) (w : cws R) : mws R :=
  let X := mzeros n 1 in let S := mzeros k 1 in
  mk_mws X G S (cw_order_weights w) (cw_transition_matrices w) X X X (mmul S (mtr S)) (cw_Z w) 1 1 (cw_alpha w) [] [] (cw_mem w).
Definition cok (c : mtd_cfg R) (n k : nat) (G : mat R) (w : cws R) : Prop :=
  is_mat n k G /\ length (cw_order_weights w) = n_lags c /\ is_stack (n_lags c) k (cw_transition_matrices w)
  /\ cw_Z w = predicted_weights c (cw_order_weights w) (cw_transition_matrices w) G.
Lemma cok_mok c n k G w : cok c n k G w -> mok c n 1 k (mzeros n 1) (cemb n k G w).
Proof.
  intros (HG & HO & HT & EZ). split; [reflexivity|]. split; [exact HG|]. split; [apply is_mat_mbuild|].
  split; [reflexivity|]. split; [exact HO|]. split; [exact HT | exact EZ].
Qed.

Lemma crom_residual_spec c n k G w : cok c n k G w ->
  crom_fit_residual c k n G w = if Nat.eqb k 1 then 0 else
    mtd_misfit (mc_lags c) (cw_order_weights w) (cw_transition_matrices w) G / (INR k * (INR n - INR (max_of (mc_lags c)))).
Proof.
  intros Hw. pose proof (cok_mok c n k G w Hw) as Hm. unfold crom_fit_residual. destruct (Nat.eqb k 1); [reflexivity|].
  change (crom_residual c G w) with (mtd_residual c (cemb n k G w)).
  change (crom_normalization c k n) with (mtd_normalization c k (cemb n k G w)).
  rewrite nsq_mnorm, (normalization_R c k n) by reflexivity.
  destruct Hw as (HG & _). pose proof HG as (g1 & g2 & _). rewrite (misfit_mis c n k) by assumption. rewrite max_of_lag.
  destruct (residual_dim c n 1 k _ _ Hm) as [r1 r2].
  assert (E : frob2 (mtd_residual c (cemb n k G w)) = mmis c k n (cw_order_weights w) (cw_transition_matrices w) G).
  { rewrite frob2_SS, r1, r2. unfold mmis, mis. apply SS_ext; intros s a Hs Ha.
    rewrite (residual_ent c n 1 k _ _ s a Hm) by assumption. reflexivity. }
  rewrite E. numR. unfold Rdiv. ring.
Qed.

(** the gradients are those of the weights penalty with epsilon_weights = 1 *)
Lemma crom_order_gradient_of c n k G w : mc_eps_weights c = 1 ->
  crom_order_gradient c k n G w = mtd_order_gradient c k (cemb n k G w).
Proof.
  intros E. unfold crom_order_gradient, mtd_order_gradient. apply tab_ext. intros i Hi. rewrite E.
  change (crom_residual c G w) with (mtd_residual c (cemb n k G w)).
  change (crom_normalization c k n) with (mtd_normalization c k (cemb n k G w)). numR. cbn [cemb m_transition_matrices m_Gamma].
  ring.
Qed.
Lemma crom_transition_gradient_of c n k G w : mc_eps_weights c = 1 ->
  crom_transition_gradient c k n G w = mtd_transition_gradient c k (cemb n k G w).
Proof.
  intros E. unfold crom_transition_gradient, mtd_transition_gradient. apply tab_ext. intros i Hi. rewrite E.
  change (crom_residual c G w) with (mtd_residual c (cemb n k G w)).
  change (crom_normalization c k n) with (mtd_normalization c k (cemb n k G w)). cbn [cemb m_order_weights m_Gamma].
  f_equal. numR. ring.
Qed.
Lemma crom_order_gradient_length c n k G (w : cws R) : length (crom_order_gradient c k n G w) = n_lags c.
Proof. apply length_tab. Qed.
Lemma crom_transition_gradient_stack c n k G w : mc_eps_weights c = 1 -> cok c n k G w ->
  is_stack (n_lags c) k (crom_transition_gradient c k n G w).
Proof.
  intros E Hw. rewrite crom_transition_gradient_of by exact E. apply (transition_gradient_stack n 1 k (mzeros n 1)), cok_mok, Hw.
Qed.

Definition cproj_o c k n G (w : cws R) : list R :=
  simplex_project_vector (vsub (cw_order_weights w) (vscale (cw_alpha w) (crom_order_gradient c k n G w))).
Definition cdir_o c k n G (w : cws R) : list R := vsub (cproj_o c k n G w) (cw_order_weights w).
Definition cproj_t c k n G (w : cws R) : list (mat R) :=
  map simplex_project_columns (tsub (cw_transition_matrices w) (tscale (cw_alpha w) (crom_transition_gradient c k n G w))).
Definition cdir_t c k n G (w : cws R) : list (mat R) := tsub (cproj_t c k n G w) (cw_transition_matrices w).

Lemma crom_refresh c n k G w : cok c n k G w ->
  crom_set_parameters c G (cw_order_weights w) (cw_transition_matrices w) w = w.
Proof. intros (_ & _ & _ & EZ). unfold crom_set_parameters. rewrite <- EZ. destruct w; reflexivity. Qed.
Lemma cproj_o_length c n k G w : cok c n k G w -> length (cproj_o c k n G w) = n_lags c.
Proof. intros (_ & HO & _). unfold cproj_o. rewrite proj_length. unfold vsub, vmap2. rewrite length_tab. exact HO. Qed.
Lemma cproj_t_stack c n k G w : cok c n k G w -> is_stack (n_lags c) k (cproj_t c k n G w).
Proof.
  intros (_ & _ & HT & _). apply stack_map; [apply stack_tsub, HT | intros M; apply is_mat_project_cols].
Qed.

Lemma crom_update_ok c n k G fuel w0 w' : cok c n k G w0 ->
  0 < ls_sigma_one (mc_ls c) -> ls_sigma_two (mc_ls c) < 1 ->
  crom_update_parameters fuel c k n G w0 = Ok w' ->
  let tr := fun s => crom_set_parameters c G (vadd (cw_order_weights w0) (vscale s (cdir_o c k n G w0)))
                       (tadd (cw_transition_matrices w0) (tscale s (cdir_t c k n G w0))) w0 in
  exists s a, 0 < s <= 1
    /\ cw_mem w0 <> []
    /\ w' = mk_cws (cw_order_weights (tr s)) (cw_transition_matrices (tr s)) (cw_Z (tr s)) a
              (tl (cw_mem w0) ++ [crom_fit_residual c k n G w0])
    /\ (ls_alpha_min (mc_ls c) <= ls_alpha_max (mc_ls c) -> ls_alpha_min (mc_ls c) <= a <= ls_alpha_max (mc_ls c)).
Proof.
  intros Hw H1 H2 H tr. unfold crom_update_parameters in H. cbv zeta in H.
  rewrite (crom_refresh c n k G w0 Hw) in H.
  fold (cproj_o c k n G w0) in H. fold (cdir_o c k n G w0) in H. fold (cproj_t c k n G w0) in H. fold (cdir_t c k n G w0) in H.
  apply bind_ok in H. destruct H as (((w1 & s) & mem) & EL & H). injection H as <-.
  unfold crom_line_search in EL. cbv zeta in EL.
  pose proof (cproj_o_length c n k G w0 Hw) as Lo. pose proof (cproj_t_stack c n k G w0 Hw) as Lt.
  pose proof Hw as (HG & HO & HT & EZ).
  rewrite <- (vadd_vscale_1 (cw_order_weights w0) (cdir_o c k n G w0)) in EL
    by (unfold cdir_o, vsub, vmap2; rewrite length_tab; congruence).
  rewrite <- (tadd_tscale_1 (n_lags c) k (cw_transition_matrices w0) (cdir_t c k n G w0)) in EL
    by (exact HT || (apply stack_tsub, Lt)).
  fold tr in EL. change (crom_set_parameters c G (vadd (cw_order_weights w0) (vscale 1 (cdir_o c k n G w0)))
                       (tadd (cw_transition_matrices w0) (tscale 1 (cdir_t c k n G w0))) w0) with (tr 1) in EL.
  pose proof (line_search_range fuel (mc_ls c) (crom_fit_residual c k n G) tr _ _ _ _ _ _ H1 H2 EL) as (E1 & Hs & Em & Hne).
  exists s. eexists. split; [exact Hs|]. split; [exact Hne|].
  split; [rewrite Em, E1; reflexivity|]. intros Hm. apply alpha_bounds, Hm.
Qed.

Definition cinv (c : mtd_cfg R) (n k : nat) (G : mat R) (sp : Prop) (w : cws R) : Prop :=
  cok c n k G w /\ length (cw_mem w) = mc_memory c
  /\ (sp -> prob_vec (cw_order_weights w) /\ stack_stochastic (cw_transition_matrices w)).
Lemma crom_update_inv c n k G sp fuel w0 w' : cinv c n k G sp w0 -> (0 < k)%nat -> mc_lags c <> [] ->
  0 < ls_sigma_one (mc_ls c) -> ls_sigma_two (mc_ls c) < 1 ->
  crom_update_parameters fuel c k n G w0 = Ok w' -> cinv c n k G sp w'.
Proof.
  intros (Hw & Hm & Hsp) Hk Hl H1 H2 H. destruct (crom_update_ok c n k G fuel w0 w' Hw H1 H2 H) as (s & a & Hs & Hne & -> & Ha).
  pose proof Hw as (HG & HO & HT & EZ).
  assert (HO' : length (vadd (cw_order_weights w0) (vscale s (cdir_o c k n G w0))) = n_lags c)
    by (unfold vadd, vmap2; rewrite length_tab; exact HO).
  assert (HT' : is_stack (n_lags c) k (tadd (cw_transition_matrices w0) (tscale s (cdir_t c k n G w0)))) by (apply stack_tadd, HT).
  split; [|split].
  - split; [exact HG|]. split; [exact HO'|]. split; [exact HT' | reflexivity].
  - cbn [cw_mem]. rewrite mem_length; assumption.
  - intros Sp. destruct (Hsp Sp) as [SG ST]. cbn [cw_order_weights cw_transition_matrices crom_set_parameters]. split.
    + apply prob_vec_step; [rewrite (cproj_o_length c n k G w0 Hw); congruence | exact SG | | lra].
      apply proj_prob. intros E. apply (f_equal (@length R)) in E. unfold vsub, vmap2 in E. rewrite length_tab in E.
      unfold n_lags in HO. destruct (mc_lags c); [congruence|]. cbn in *. lia.
    + apply (stack_stochastic_step (n_lags c) k); [exact HT | apply (cproj_t_stack c n k G w0 Hw) | exact ST | | lra].
      apply (project_stack_stochastic (n_lags c) k); [apply stack_tsub, HT | exact Hk].
Qed.
Lemma crom_update_total c : ls_valid (mc_ls c) -> exists M, forall fuel k n G w0, (M <= fuel)%nat ->
  cw_mem w0 <> [] -> exists w', @crom_update_parameters R Num_R fuel c k n G w0 = Ok w'.
Proof.
  intros (H1 & H2 & H3). destruct (line_search_terminates (mc_ls c) H1 H2 H3) as [M HM].
  exists M. intros fuel k n G w0 Hf Hne. unfold crom_update_parameters, crom_line_search. cbv zeta.
  match goal with |- context [@line_search ?T ?N ?St fuel ?p ?co ?tr ?fu ?me ?cc ?sl] =>
    destruct (HM St co tr fu me cc sl fuel Hne Hf) as (((w1 & s) & mem) & E) end.
  rewrite E; cbn [bind]. eauto.
Qed.

(** the parameter fit *)
Lemma crom_fit_parameters_inv {T} {N : Num T} fuel c k n G t m (g g' : rng T) w n_iter log :
  crom_fit_parameters fuel c k n G t m g = Ok (w, g', n_iter, log) ->
  mc_lags c <> [] /\ exists ow Ts cost,
    initialize_parameters_random k (n_lags c) g = (ow, Ts, g')
    /\ iterate (crom_fit_residual c k n G) (cost_increased (mc_monotone c)) [crom_update_parameters fuel c k n G] t m
         (crom_initialize_workspace c G ow Ts) = Ok (w, cost, n_iter, log).
Proof.
  unfold crom_fit_parameters. destruct (initialize_parameters_random k (n_lags c) g) as [[ow Ts] g0] eqn:E0.
  intros H. apply bind_ok in H. destruct H as (u & EL & H). apply bind_ok in H. destruct H as ((((w1 & cost) & ni) & lg) & E & H).
  injection H as <- <- <- <-. split; [unfold check_max_lag in EL; destruct (mc_lags c); congruence|].
  exists ow, Ts, cost. auto.
Qed.
Lemma start_cinv c k n G ow Ts : is_mat n k G -> length ow = n_lags c -> is_stack (n_lags c) k Ts ->
  cinv c n k G (prob_vec ow /\ stack_stochastic Ts) (crom_initialize_workspace c G ow Ts).
Proof.
  intros HG HO HT. split; [split; [exact HG|]; split; [exact HO|]; split; [exact HT | reflexivity]|].
  split; [apply repeat_length | auto].
Qed.
Lemma initialize_random_ok k p (g g' : rng R) ow Ts :
  initialize_parameters_random k p g = (ow, Ts, g') ->
  length ow = p /\ is_stack p k Ts /\ r_uniform g' = r_uniform g /\ (mrng_ok p k g -> prob_vec ow /\ stack_stochastic Ts).
Proof. intros E. apply (initialize_parameters_ok k p InitNone). unfold initialize_parameters. rewrite E. reflexivity. Qed.

Lemma crom_fit_inv {T} {N : Num T} fuel (o : crom T) data Din Win ud uw kw r W :
  crom_fit_transform fuel o data Din Win ud uw kw = Ok (r, W) ->
  exists k m t w g',
    fit_transform fuel (co_gpnh o) data Din Win ud uw kw = Ok (cr_gpnh r, W)
    /\ resolve_components (go_n_components (co_gpnh o)) (nc data) = PInt (Z.of_nat k) /\ (0 < k)%nat
    /\ gc_max_iterations (go_cfg (co_gpnh o)) = PInt (Z.of_nat m) /\ (0 < m)%nat /\ tol_value (gc_tolerance (go_cfg (co_gpnh o))) t
    /\ crom_fit_parameters fuel (crom_cfg (go_cfg (co_gpnh o)) (co_lags o)) k (nr data) W t m (go_rng (gr_obj (cr_gpnh r)))
       = Ok (w, g', cr_n_iter r, cr_log r)
    /\ cr_obj r = mk_crom (set_rng g' (gr_obj (cr_gpnh r))) (co_lags o) (Some (cw_order_weights w, cw_transition_matrices w)).
Proof.
  unfold crom_fit_transform. intros H. apply bind_ok in H. destruct H as ((r0 & G) & E & H).
  pose proof E as E'. apply fit_transform_inv in E'. destruct E' as (k & m & t & D & W0 & g0 & w2 & A1 & A2 & A3 & A4 & A5 & A6 & A7 & A8 & _ & A9).
  rewrite A8 in H. cbn [go_cfg go_n_components go_rng] in H. rewrite A3, (check_params_total k m _ t) in H by assumption. cbn [bind] in H.
  apply bind_ok in H. destruct H as ((((w & g') & ni) & lg) & E2 & H). injection H as <- <-. cbn [cr_gpnh cr_obj cr_n_iter cr_log].
  exists k, m, t, w, g'. rewrite A8. cbn [go_rng]. repeat (split; [assumption|]). reflexivity.
Qed.
Lemma crom_predict_inv {T} {N : Num T} fuel (o : crom T) data h o' r Y :
  crom_predict fuel o data h = Ok (o', r, Y) ->
  exists W w, transform fuel (co_gpnh o) data = Ok (r, W) /\ o' = mk_crom (gr_obj r) (co_lags o) (co_parameters o)
    /\ go_ws (gr_obj r) = Some w /\ nc W = nr (w_S w)
    /\ exists PW, Y = mmul PW (w_S w)
       /\ ((h = 0%Z /\ PW = W) \/ (h <> 0%Z /\ co_lags o <> [] /\ exists ow Ts, co_parameters o = Some (ow, Ts)
              /\ PW = mtd_predict_weights (crom_cfg (go_cfg (co_gpnh o)) (co_lags o)) ow Ts W h)).
Proof.
  unfold crom_predict, crom_transform. intros H. apply bind_ok in H. destruct H as (((o1 & r1) & W) & E & H).
  apply bind_ok in E. destruct E as ((r2 & W2) & E & E'). injection E' as <- <- <-.
  apply bind_ok in H. destruct H as (PW & EP & H). apply bind_ok in H. destruct H as (Y0 & EY & H). injection H as <- <- <-.
  cbn [co_gpnh] in EY. unfold inverse_transform in EY. destruct (go_ws (gr_obj r2)) as [w|] eqn:Ew; [|discriminate].
  destruct (Nat.eqb_spec (nc PW) (nr (w_S w))) as [En|]; [|discriminate]. injection EY as <-.
  exists W2, w. split; [exact E|]. split; [reflexivity|]. split; [reflexivity|].
  destruct (Z.eqb_spec h 0) as [Eh|Eh].
  - injection EP as <-. split; [exact En|]. eexists. split; [reflexivity | left; auto].
  - destruct (co_parameters o) as [[ow Ts]|]; [|discriminate]. apply bind_ok in EP. destruct EP as (u & EL & EP). injection EP as <-.
    split; [exact En|]. eexists. split; [reflexivity|]. right. split; [exact Eh|]. split.
    + intros E0. rewrite E0 in EL. discriminate.
    + eauto.
Qed.

Lemma crom_parameters_total c : ls_valid (mc_ls c) -> (0 < mc_memory c)%nat -> exists M, forall fuel, (M <= fuel)%nat ->
  forall n k G t m g, (0 < k)%nat -> is_mat n k G ->
   (exists r, crom_fit_parameters fuel c k n G t m g = Ok r)
   \/ (crom_fit_parameters fuel c k n G t m g = Raise RuntimeError /\ mc_monotone c = true)
   \/ (crom_fit_parameters fuel c k n G t m g = Raise ValueError /\ mc_lags c = []).
Proof.
  intros Hls Hmem. destruct (crom_update_total c Hls) as [M HM]. exists M. intros fuel Hf n k G t m g Hk HG.
  unfold crom_fit_parameters. destruct (initialize_parameters_random k (n_lags c) g) as [[ow Ts] g'] eqn:E0.
  apply initialize_random_ok in E0. destruct E0 as (HO & HT & _ & _).
  destruct (mc_lags c) as [|l0 ls] eqn:EL.
  { right. right. unfold check_max_lag. rewrite EL. auto. }
  assert (Hl : mc_lags c <> []) by (rewrite EL; discriminate).
  unfold check_max_lag. rewrite EL. cbn [bind]. destruct Hls as (H1 & H2 & H3).
  pose proof (start_cinv c k n G ow Ts HG HO HT) as I0. set (sp := prob_vec ow /\ stack_stochastic Ts) in *.
  assert (Hp : forall u s s', In u [crom_update_parameters fuel c k n G] -> cinv c n k G sp s -> u s = Ok s' -> cinv c n k G sp s')
    by (intros u s s' [<-|[]] Is Es; eapply crom_update_inv; eauto).
  destruct (iterate _ _ _ _ _ _) as [[[[w cost] ni] lg]|e] eqn:E; cbn [bind]; [left; eauto|]. right. left.
  unfold iterate in E. apply (iterate_loop_raise _ _ _ _ _ Hp) in E; [|reflexivity | exact I0].
  destruct E as [[-> (i & s0 & s & _ & _ & B)] | (u & s & Iu & Is & Eu)].
  - split; [reflexivity|]. unfold cost_increased in B. apply andb_prop in B. apply B.
  - destruct Iu as [<-|[]]. destruct Is as (_ & J & _). destruct (HM fuel k n G s Hf) as [s' E']; [intros E0; rewrite E0 in J; cbn in J; lia | congruence].
Qed.

Lemma initialize_parameters_streams {T} {N : Num T} k p (g g' : rng T) a b :
  initialize_parameters_random k p g = (a, b, g') ->
  r_uniform g' = r_uniform g /\ r_normal g' = r_normal g /\ r_int g' = r_int g.
Proof.
  assert (IT : forall p (g : rng T), r_uniform (snd (draw_transition_matrices p k g)) = r_uniform g
      /\ r_normal (snd (draw_transition_matrices p k g)) = r_normal g /\ r_int (snd (draw_transition_matrices p k g)) = r_int g).
  { clear. induction p as [|p IH]; intros g; [auto|]. cbn [draw_transition_matrices].
    destruct (left_stochastic_matrix k k g) as [M g1] eqn:E1. specialize (IH g1).
    destruct (draw_transition_matrices p k g1) as [r g2]. cbn [fst snd] in *.
    unfold left_stochastic_matrix, draw_uniform_mat in E1. injection E1 as _ <-. exact IH. }
  intros E. unfold initialize_parameters_random, draw_uniform_vec in E.
  match type of E with context [draw_transition_matrices p k ?gg] => pose proof (IT p gg) as F;
    destruct (draw_transition_matrices p k gg) as [Ts0 g2] end.
  cbn [fst snd] in F. injection E as _ _ <-. exact F.
Qed.
