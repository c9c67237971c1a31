(** Property theorems C88: MTD convex coding and the reduced-order model of a series shorter than the largest lag. *)
From Coq Require Import List Arith Lia ZArith Reals Lra.
From Verif Require Import Num Mat Py Spec Spec_edge Spec_short M_simplex M_spg M_iter M_random M_furthest M_gpnh M_mtd M_crom.
From Verif Require Import P_lin P_simplex P_spg P_furthest P_random P_mat P_iter P_gpnh P_gpnh_run P_mtd P_mtd_upd P_mtd_run P_mtd_guard_run P_crom P_edge_mtd P_short P_short_crom.
From Verif Require Import Props_base Props_gpnh Props_mtd Props_crom.
Import ListNotations.
Local Open Scope R_scope.

Theorem C88_short_fit : forall fuel (o : mtd R) (og : gpnh R) data Din Win ow Ts n d k L,
  is_mat n d data -> (0 < n)%nat -> (0 < d)%nat ->
  largest_lag (mc_lags (mo_cfg o)) L -> (n < L)%nat ->
  drawn_start (mc_init (mo_cfg o)) -> (0 < mc_memory (mo_cfg o))%nat ->
  comp_count (mo_n_components o) d k -> mrng_ok (length (mc_lags (mo_cfg o))) k (mo_rng o) ->
  plain_twin og o ->
  match fit_transform fuel og data Din Win true true None with
  | Ok (rg, W) => exists r ow0 Ts0,
      mtd_fit_transform fuel o data Din Win ow Ts true true true None = Ok (r, W)
      /\ same_run rg r /\ mo_dictionary_ (mr_obj r) = go_dictionary_ (gr_obj rg)
      /\ has_parameters (mr_obj r) ow0 Ts0
      /\ initialize_parameters_random k (length (mc_lags (mo_cfg o))) (go_rng (gr_obj rg)) = (ow0, Ts0, mo_rng (mr_obj r))
  | Raise e => mtd_fit_transform fuel o data Din Win ow Ts true true true None = Raise e
  end.
Proof.
  intros fuel o og data Din Win ow Ts n d k L HX Hn Hd HL Hs Hi Hm Hc Hr (P1 & P2 & P3).
  assert (HM : (n < max_lag (mo_cfg o))%nat) by (unfold max_lag; rewrite (largest_max _ _ HL); exact Hs).
  assert (HN : check_max_lag (mo_cfg o) = Ok tt) by (destruct HL as [I _]; unfold check_max_lag; destruct (mc_lags (mo_cfg o)); [destruct I | reflexivity]).
  destruct (proj1 (is_mat_wf _ _ _) HX) as (x1 & x2 & _).
  unfold fit_transform, gpnh_convex_coding, mtd_fit_transform, mtd_convex_coding. rewrite P1, P2, P3, x2.
  cbn [plain_settings gc_max_iterations gc_tolerance]. apply comp_count_resolve in Hc. rewrite Hc.
  destruct (check_params (PInt (Z.of_nat k)) (mc_max_iterations (mo_cfg o)) (mc_tolerance (mo_cfg o))) as [[[k' m] t]|e] eqn:EP; cbn [bind]; [|reflexivity].
  assert (k' = k) as ->.
  { unfold check_params in EP. destruct (Z.of_nat k <=? 0)%Z; [discriminate|]. cbn [bind] in EP. apply bind_ok in EP. destruct EP as (m1 & _ & EP).
    apply bind_ok in EP. destruct EP as (t1 & _ & EP). injection EP as <- _ _. apply Nat2Z.id. }
  assert (CH : mtd_choose_initial (mo_cfg o) k data Din Win ow Ts true true true None (mo_rng o)
     = match choose_initial (plain_settings (mo_cfg o)) k data Din Win true true None (mo_rng o) with
       | Ok (D, W, g) => let '(o1, T1, g') := initialize_parameters_random k (n_lags (mo_cfg o)) g in Ok (D, W, o1, T1, g')
       | Raise e => Raise e end).
  { unfold mtd_choose_initial, choose_initial. cbn [plain_settings gc_init]. cbv zeta. cbn [andb negb].
    destruct Hi as [-> | [-> | ->]]; (destruct (initialize_dictionary _ _ _ _ _) as [[D g1]|e]; cbn [bind fst snd]; [|reflexivity]);
      (destruct (initialize_weights _ _ _ _) as [[W g2]|e]; cbn [bind fst snd]; [|reflexivity]);
      cbn [initialize_parameters bind]; destruct (initialize_parameters_random _ _ _) as [[o1 T1] g']; reflexivity. }
  rewrite CH.
  destruct (choose_initial _ _ _ _ _ _ _ _ _) as [[[D W] g]|e] eqn:CI; cbn [bind]; [|reflexivity].
  destruct (initialize_parameters_random k (n_lags (mo_cfg o)) g) as [[o1 T1] g'] eqn:PI. cbn [bind]. rewrite HN. cbn [bind].
  assert (SH : is_mat k d D /\ is_mat n k W /\ length o1 = n_lags (mo_cfg o) /\ is_stack (n_lags (mo_cfg o)) k T1 /\ prob_vec o1 /\ stack_stochastic T1).
  { assert (CN : mtd_choose_initial (mo_cfg o) k data None None None None true true true None (mo_rng o) = Ok (D, W, o1, T1, g')).
    { rewrite <- CH. unfold mtd_choose_initial. destruct Hi as [-> | [-> | ->]]; reflexivity. }
    apply mtd_choose_initial_ok in CN; [|discriminate..]. rewrite x1, x2 in CN. destruct CN as (A1 & A2 & A3 & A4 & _ & _ & A5).
    destruct A5 as [A5 A6]; [discriminate | discriminate | exact Hr|]. auto 10. }
  destruct SH as (HD & HW & HO & HT & SO & ST).
  pose proof (short_iterate data n d k (mo_cfg o) fuel o1 T1 HX HM SO ST true true true t m
     (gw_of (mtd_initialize_workspace (mo_cfg o) data W D o1 T1)) (mtd_initialize_workspace (mo_cfg o) data W D o1 T1)) as SIM.
  assert (S0 : srel data n d k (mo_cfg o) o1 T1 (gw_of (mtd_initialize_workspace (mo_cfg o) data W D o1 T1)) (mtd_initialize_workspace (mo_cfg o) data W D o1 T1)).
  { split; [reflexivity|]. destruct (start_minv (mo_cfg o) data W D o1 T1 n d k HX HW HD HO HT) as (S & _ & _ & _).
    split; [exact S|]. split; [|split; reflexivity]. cbn. destruct (mc_memory (mo_cfg o)); [lia|discriminate]. }
  specialize (SIM S0). unfold initialize_workspace. cbn [w_X w_Gamma w_S]. unfold res_rel in SIM.
  match goal with |- context [gpnh_iterate ?a ?b ?c ?d ?e ?f ?g ?h] => change (gpnh_iterate a b c d e f g h) with (gpnh_iterate fuel (gc_of (mo_cfg o)) k true true t m (gw_of (mtd_initialize_workspace (mo_cfg o) data W D o1 T1))) end.
  destruct (gpnh_iterate _ _ _ _ _ _ _ _) as [[[[g2 c2] n2] l2]|e], (mtd_iterate _ _ _ _ _ _ _ _ _) as [[[[w2 c2'] n2'] l2']|e'];
    cbn [bind fst snd] in *; try contradiction; [|congruence].
  destruct SIM as ((-> & _ & _ & Q1 & Q2) & <- & <- & <-).
  cbn [bind gr_obj go_ws mr_obj mo_ws]. eexists _, o1, T1. split; [reflexivity|]. cbn. split; [repeat split|]. split; [reflexivity|].
  split; [exists w2; auto|]. exact PI.
Qed.
Print Assumptions C88_short_fit.

(** transform of a fitted object *)
Theorem C88_short_transform : forall fuel (o : mtd R) (og : gpnh R) data n d k L w g,
  is_mat n d data -> (0 < n)%nat -> (0 < d)%nat -> largest_lag (mc_lags (mo_cfg o)) L -> (n < L)%nat ->
  comp_count (mo_n_components o) d k -> (0 < mc_memory (mo_cfg o))%nat ->
  mo_ws o = Some w -> wf (m_S w) ->
  length (m_order_weights w) = length (mc_lags (mo_cfg o)) -> prob_vec (m_order_weights w) ->
  is_stack (length (mc_lags (mo_cfg o))) k (m_transition_matrices w) -> stack_stochastic (m_transition_matrices w) ->
  plain_twin og o -> go_ws og = Some g -> w_S g = m_S w ->
  match transform fuel og data with
  | Ok (rg, W) => exists r, mtd_transform fuel o data = Ok (r, W) /\ same_run rg r
      /\ has_parameters (mr_obj r) (m_order_weights w) (m_transition_matrices w)
  | Raise e => mtd_transform fuel o data = Raise e
  end.
Proof.
  intros fuel o og data n d k L w g HX Hn Hd HL Hs Hc Hm Ew WS LO SO HT ST (P1 & P2 & P3) Eg ES.
  assert (HM : (n < max_lag (mo_cfg o))%nat) by (unfold max_lag; rewrite (largest_max _ _ HL); exact Hs).
  assert (HN : check_max_lag (mo_cfg o) = Ok tt) by (destruct HL as [I _]; unfold check_max_lag; destruct (mc_lags (mo_cfg o)); [destruct I | reflexivity]).
  destruct (proj1 (is_mat_wf _ _ _) HX) as (x1 & x2 & _).
  unfold transform, gpnh_convex_coding, mtd_transform, mtd_convex_coding. rewrite Ew, Eg, ES, P1, P2, P3, x2.
  cbn [plain_settings gc_max_iterations gc_tolerance]. apply comp_count_resolve in Hc. rewrite Hc.
  destruct (check_params (PInt (Z.of_nat k)) (mc_max_iterations (mo_cfg o)) (mc_tolerance (mo_cfg o))) as [[[k' m] t]|e] eqn:EP; cbn [bind]; [|reflexivity].
  assert (k' = k) as ->.
  { unfold check_params in EP. destruct (Z.of_nat k <=? 0)%Z; [discriminate|]. cbn [bind] in EP. apply bind_ok in EP. destruct EP as (m1 & _ & EP).
    apply bind_ok in EP. destruct EP as (t1 & _ & EP). injection EP as <- _ _. apply Nat2Z.id. }
  assert (CH : mtd_choose_initial (mo_cfg o) k data (Some (m_S w)) None (Some (m_order_weights w)) (Some (m_transition_matrices w)) false true false None (mo_rng o)
     = match choose_initial (plain_settings (mo_cfg o)) k data (Some (m_S w)) None false true None (mo_rng o) with
       | Ok (D, W, g) => Ok (D, W, m_order_weights w, m_transition_matrices w, g)
       | Raise e => Raise e end).
  { unfold mtd_choose_initial, choose_initial. cbn [plain_settings gc_init]. cbv zeta. cbn [andb negb].
    change (n_lags (mo_cfg o)) with (length (mc_lags (mo_cfg o))).
    rewrite check_init_order_weights_prob, (check_init_transition_stochastic _ _ k) by assumption.
    destruct (mc_init (mo_cfg o)); try (cbn [bind check_init_weights]; reflexivity);
      (destruct (check_init_dictionary _ _ _) as [D|e]; cbn [bind fst snd]; [|reflexivity]);
      (destruct (initialize_weights _ _ _ _) as [[W g2]|e]; cbn [bind fst snd]; reflexivity). }
  rewrite CH.
  destruct (choose_initial _ _ _ _ _ _ _ _ _) as [[[D W] g1]|e] eqn:CI; cbn [bind]; [|reflexivity].
  rewrite HN. cbn [bind].
  assert (SH : is_mat k d D /\ is_mat n k W).
  { apply mtd_choose_initial_ok in CH.
    - rewrite x1, x2 in CH. destruct CH as (A1 & A2 & _). auto.
    - intros A [= <-]. exact WS.
    - discriminate.
    - intros A [= <-]. apply Forall_forall. intros M HM'. destruct (In_nth _ _ (mkmat 0 0 []) HM') as (i & Hi & <-). destruct HT as [T1 T2].
      apply is_mat_wf with (1 := T2 i ltac:(lia)). }
  destruct SH as (HD & HW).
  pose proof (short_iterate data n d k (mo_cfg o) fuel (m_order_weights w) (m_transition_matrices w) HX HM SO ST false true false t m
     (gw_of (mtd_initialize_workspace (mo_cfg o) data W D (m_order_weights w) (m_transition_matrices w)))
     (mtd_initialize_workspace (mo_cfg o) data W D (m_order_weights w) (m_transition_matrices w))) as SIM.
  assert (S0 : srel data n d k (mo_cfg o) (m_order_weights w) (m_transition_matrices w)
     (gw_of (mtd_initialize_workspace (mo_cfg o) data W D (m_order_weights w) (m_transition_matrices w)))
     (mtd_initialize_workspace (mo_cfg o) data W D (m_order_weights w) (m_transition_matrices w))).
  { split; [reflexivity|]. destruct (start_minv (mo_cfg o) data W D _ _ n d k HX HW HD LO HT) as (S & _ & _ & _).
    split; [exact S|]. split; [|split; reflexivity]. cbn. destruct (mc_memory (mo_cfg o)); [lia|discriminate]. }
  specialize (SIM S0). unfold initialize_workspace. cbn [w_X w_Gamma w_S]. unfold res_rel in SIM.
  match goal with |- context [gpnh_iterate ?a ?b ?c ?d ?e ?f ?g ?h] => change (gpnh_iterate a b c d e f g h) with (gpnh_iterate fuel (gc_of (mo_cfg o)) k false true t m (gw_of (mtd_initialize_workspace (mo_cfg o) data W D (m_order_weights w) (m_transition_matrices w)))) end.
  destruct (gpnh_iterate _ _ _ _ _ _ _ _) as [[[[g2 c2] n2] l2]|e], (mtd_iterate _ _ _ _ _ _ _ _ _) as [[[[w2 c2'] n2'] l2']|e'];
    cbn [bind fst snd] in *; try contradiction; [|congruence].
  destruct SIM as ((-> & _ & _ & Q1 & Q2) & <- & <- & <-).
  cbn [bind gr_obj go_ws mr_obj mo_ws]. eexists. split; [reflexivity|]. cbn. split; [repeat split|]. exists w2; auto.
Qed.
Print Assumptions C88_short_transform.

(** two samples, lags 1 and 5 *)
Definition es_cfg : mtd_cfg R := mk_mtd_cfg [1; 5]%nat 1 1 InitRandom (PFloat (1/1000000)) (PInt 100) default_ls 1 false.
Definition es_mtd : mtd R := mk_mtd es_cfg (PInt 2) ex_rng None None None None None.
Lemma es_twin : plain_twin (ex_gpnh false) es_mtd. Proof. repeat split. Qed.
Lemma es_lag : largest_lag (mc_lags es_cfg) 5.
Proof. split; [right; left; reflexivity|]. intros l [<-|[<-|[]]]; lia. Qed.
Example C88_fit_example : plain_twin (ex_gpnh false) es_mtd /\ largest_lag (mc_lags es_cfg) 5 /\ exists fuel rg r W,
  fit_transform fuel (ex_gpnh false) ex_data None None true true None = Ok (rg, W)
  /\ mtd_fit_transform fuel es_mtd ex_data None None None None true true true None = Ok (r, W).
Proof.
  split; [exact es_twin|]. split; [exact es_lag|]. destruct ex_fit as (fuel & rg & W & E).
  assert (N : drawn_start (mc_init (mo_cfg es_mtd))) by (right; left; reflexivity).
  pose proof (C88_short_fit fuel es_mtd (ex_gpnh false) ex_data None None None None 2 2 2 5 ex_data_mat ltac:(lia) ltac:(lia) es_lag ltac:(lia) N ltac:(cbn; lia)
    (or_introl eq_refl) em_rng_ok es_twin) as H. rewrite E in H. destruct H as (r & o0 & T0 & H & _). eauto 10.
Qed.
(** a fitted object *)
Definition es_ws : mws R := mtd_initialize_workspace es_cfg ex_data (mkmat 2 2 [[1; 0]; [0; 1]]) em_S em_ow em_T.
Definition es_fitted : mtd R := mk_mtd es_cfg (PInt 2) ex_rng (Some es_ws) None None None None.
Definition es_plain : gpnh R := mk_gpnh (ex_cfg false) (PInt 2) ex_rng (Some (gw_of es_ws)) None None None None.
Example C88_transform_example : plain_twin es_plain es_fitted /\ prob_vec (m_order_weights es_ws) /\ stack_stochastic (m_transition_matrices es_ws)
  /\ exists fuel rg r W, transform fuel es_plain ex_data = Ok (rg, W) /\ mtd_transform fuel es_fitted ex_data = Ok (r, W)
     /\ has_parameters (mr_obj r) em_ow em_T.
Proof.
  assert (TW : plain_twin es_plain es_fitted) by (repeat split).
  destruct em_params as (_ & HT & LO & _ & SO & ST & HS).
  split; [exact TW|]. split; [exact SO|]. split; [exact ST|].
  destruct (transform_total (ex_cfg false) 2 2 2 100 (1/1000000) ex_data em_S ex_rng) as [M HM]; try exact ex_data_mat; try exact HS; try exact ex_rng_ok; try lia; try reflexivity.
  - right. split; [reflexivity|]. numR. apply Rltb_false. lra.
  - right; left; reflexivity.
  - repeat split; cbn; lra.
  - cbn; lia.
  - exists M. destruct (HM M (le_n _) es_plain (gw_of es_ws)) as [[rg W] E]; try reflexivity; [left; reflexivity|].
    pose proof (C88_short_transform M es_fitted es_plain ex_data 2 2 2 5 es_ws (gw_of es_ws) ex_data_mat ltac:(lia) ltac:(lia) es_lag ltac:(lia) (or_introl eq_refl) ltac:(cbn; lia)
      eq_refl ltac:(apply (proj1 (is_mat_wf 2 2 em_S) HS)) LO SO HT ST TW eq_refl eq_refl) as H.
    rewrite E in H. destruct H as (r & H1 & _ & H2). exists rg, r, W. auto.
Qed.

(** the reduced-order model *)
Theorem C88_short_crom : forall fuel (o : crom R) n d k L data Din Win ud uw kw rg W,
  is_mat n d data -> (0 < n)%nat -> (0 < d)%nat -> comp_count (go_n_components (co_gpnh o)) d k ->
  Forall (fun z => (1 <= z)%Z) (co_lags o) -> largest_lag (map Z.to_nat (co_lags o)) L -> (n < L)%nat ->
  (forall D, Din = Some D -> wf D) -> (forall W0, Win = Some W0 -> wf W0 /\ row_stochastic W0) ->
  mrng_ok (length (co_lags o)) k (go_rng (co_gpnh o)) -> (0 < gc_memory (go_cfg (co_gpnh o)))%nat ->
  0 < ls_sigma_one (gc_ls (go_cfg (co_gpnh o))) -> ls_sigma_two (gc_ls (go_cfg (co_gpnh o))) < 1 ->
  fit_transform fuel (co_gpnh o) data Din Win ud uw kw = Ok (rg, W) ->
  exists r ow Ts t m, crom_fit_transform fuel o data Din Win ud uw kw = Ok (r, W) /\ cr_gpnh r = rg
    /\ co_parameters (cr_obj r) = Some (ow, Ts)
    /\ initialize_parameters_random k (length (co_lags o)) (go_rng (gr_obj rg)) = (ow, Ts, go_rng (co_gpnh (cr_obj r)))
    /\ tol_value (gc_tolerance (go_cfg (co_gpnh o))) t /\ gc_max_iterations (go_cfg (co_gpnh o)) = PInt (Z.of_nat m)
    /\ (0 < t -> cr_n_iter r = 0%nat /\ cr_log r = [0; 0])
    /\ (t = 0 -> cr_n_iter r = (m - 1)%nat /\ cr_log r = repeat 0 (S m)).
Proof.
  intros fuel o n d k L data Din Win ud uw kw rg W HX Hn Hd Hc HP HL Hs WD WW Hr Hm H1 H2 H.
  destruct (proj1 (is_mat_wf _ _ _) HX) as (x1 & x2 & _).
  destruct (C14_fit_weights_stochastic fuel (co_gpnh o) n d k data Din Win ud uw kw rg W HX Hc WD (fun A E => proj1 (WW A E)) (fun A E => proj2 (WW A E))
     (proj1 (proj1 Hr)) (proj2 (proj1 Hr)) H1 H2 H) as [W1 _].
  apply comp_count_resolve in Hc.
  unfold crom_fit_transform. rewrite H. cbn [bind]. pose proof H as E'. apply fit_transform_inv in E'.
  destruct E' as (k' & m & t & D & W0 & g0 & w2 & A1 & A2 & A3 & A4 & A5 & A6 & A7 & A8 & _ & A9).
  rewrite x2, Hc in A1. injection A1 as A1. apply Nat2Z.inj in A1. subst k'.
  rewrite A8. cbn [go_cfg go_n_components go_rng]. rewrite A3, (check_params_total k m _ t) by assumption. cbn [bind].
  set (c := crom_cfg (go_cfg (co_gpnh o)) (co_lags o)).
  assert (Lp : n_lags c = length (co_lags o)) by (unfold n_lags, c; cbn; apply map_length).
  assert (HM : (n < max_lag c)%nat) by (unfold max_lag, c; cbn [crom_cfg mc_lags]; rewrite (largest_max _ _ HL); exact Hs).
  assert (HN : check_max_lag c = Ok tt).
  { destruct HL as [I _]. unfold check_max_lag, c. cbn [crom_cfg mc_lags]. destruct (map Z.to_nat (co_lags o)); [destruct I | reflexivity]. }
  unfold crom_fit_parameters. destruct (initialize_parameters_random k (n_lags c) g0) as [[ow Ts] g'] eqn:E0. rewrite HN. cbn [bind].
  pose proof E0 as E0'. apply initialize_random_ok in E0'. destruct E0' as (HO & HT & _ & HS).
  destruct HS as [SO ST].
  { rewrite Lp. apply choose_initial_streams in A6. destruct A6 as (A6 & _). eapply mrng_ok_stream; [exact A6 | exact Hr]. }
  destruct (start_cinv c k n W ow Ts W1 HO HT) as (I0 & _).
  assert (P0 : cstill W n k c ow Ts (crom_initialize_workspace c W ow Ts)).
  { split; [exact I0|]. split; [|split; reflexivity]. cbn. destruct (gc_memory (go_cfg (co_gpnh o))); [lia|discriminate]. }
  assert (T0 : 0 <= t).
  { destruct A5 as [(z & _ & -> & Hz)|[_ E]]; [numR; apply IZR_le; lia|]. numR. apply Rltb_false in E. lra. }
  unfold iterate. rewrite x1, (cshort_cost W n k c ow Ts HM _ P0).
  destruct (still_loop (crom_fit_residual c k n W) (mc_monotone c) (cstill W n k c ow Ts) (crom_update_parameters fuel c k n W) t
     (cshort_cost W n k c ow Ts HM) (cshort_update W n k c fuel ow Ts eq_refl HM SO ST) T0 m 0%nat _ [0] P0 A4) as (s' & (_ & _ & Q1 & Q2) & E).
  rewrite E. destruct (Rlt_dec 0 t) as [Lt|Lt]; cbn [bind].
  - eexists _, ow, Ts, t, m. split; [reflexivity|]. cbn. rewrite Q1, Q2. repeat (split; [reflexivity|]). rewrite <- Lp.
    split; [exact E0|]. split; [exact A5|]. split; [reflexivity|]. split; [auto|]. intros ->. destruct (Rlt_irrefl _ Lt).
  - eexists _, ow, Ts, t, m. split; [reflexivity|]. cbn. rewrite Q1, Q2. repeat (split; [reflexivity|]). rewrite <- Lp.
    split; [exact E0|]. split; [exact A5|]. split; [reflexivity|]. split; [intros; contradiction|]. intros _. split; reflexivity.
Qed.
Print Assumptions C88_short_crom.
Definition es_crom : crom R := mk_crom (ex_gpnh false) [1; 5]%Z None.
Example C88_crom_example : exists fuel r W ow Ts, crom_fit_transform fuel es_crom ex_data None None true true None = Ok (r, W)
  /\ cr_n_iter r = 0%nat /\ cr_log r = [0; 0] /\ co_parameters (cr_obj r) = Some (ow, Ts).
Proof.
  destruct ex_fit as (fuel & rg & W & E).
  destruct (C88_short_crom fuel es_crom 2 2 2 5 ex_data None None true true None rg W) as (r & ow & Ts & t & m & H1 & _ & H2 & _ & H3 & _ & H4 & _);
    try exact E; try exact ex_data_mat; try discriminate; try exact em_rng_ok; try (cbn; lia); try (cbn; lra).
  - left; reflexivity.
  - repeat constructor; lia.
  - exact es_lag.
  - assert (T : 0 < t). { destruct H3 as [(z & Hz & _)|[Hz _]]; [discriminate|]. cbn in Hz. injection Hz as <-. lra. }
    destruct (H4 T) as [H5 H6]. eauto 10.
Qed.
