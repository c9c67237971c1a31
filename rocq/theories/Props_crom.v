(** Property theorems for GPNHConvexCodingCROM: C39 and its share of C22, C24, C25, C37, C38, C58. *)
From Coq Require Import List Arith Lia ZArith Reals Lra Bool.
From Verif Require Import Num Mat Py NumExt Spec M_simplex M_spg M_iter M_random M_furthest M_gpnh M_mtd M_crom.
From Verif Require Import P_lin P_simplex P_spg P_random P_mat P_iter P_gpnh P_gpnh_run P_mtd P_mtd_upd P_mtd_run P_mtd_pred P_crom.
From Verif Require Import Props_base Props_gpnh Props_mtd.
Import ListNotations.
Local Open Scope R_scope.

(** ** Example objects *)
Definition ec_crom : crom R := mk_crom (ex_gpnh false) [1%Z] None.
Lemma ec_positive : Forall (fun z => (1 <= z)%Z) (co_lags ec_crom).
Proof. constructor; [lia | constructor]. Qed.

(** ** C39 *)
(** what the GPNH fit produces is left as it is (any arithmetic) *)
Theorem C39_weights_and_dictionary_of_the_fit : forall (T : Type) (N : Num T) fuel (o : crom T) data dictionary weights ud uw kw r W,
  crom_fit_transform fuel o data dictionary weights ud uw kw = Ok (r, W) ->
  fit_transform fuel (co_gpnh o) data dictionary weights ud uw kw = Ok (cr_gpnh r, W)
  /\ let fitted := gr_obj (cr_gpnh r) in let after := co_gpnh (cr_obj r) in
     go_cfg after = go_cfg fitted /\ go_n_components after = go_n_components fitted /\ go_ws after = go_ws fitted
     /\ go_dictionary_ after = go_dictionary_ fitted /\ go_cost_ after = go_cost_ fitted /\ go_n_iter_ after = go_n_iter_ fitted
     /\ go_n_components_ after = go_n_components_ fitted
     /\ co_lags (cr_obj r) = co_lags o.
Proof.
  intros T N fuel o data Din Win ud uw kw r W H. apply crom_fit_inv in H.
  destruct H as (k & m & t & w & g' & A1 & A2 & A3 & A4 & A5 & A6 & A7 & A8). split; [exact A1|]. rewrite A8. cbn.
  repeat (split; [reflexivity|]). reflexivity.
Qed.
Print Assumptions C39_weights_and_dictionary_of_the_fit.
Theorem C39_fit_stochastic : forall fuel (o : crom R) n d k data dictionary weights ud uw kw r W,
  is_mat n d data -> comp_count (go_n_components (co_gpnh o)) d k -> Forall (fun z => (1 <= z)%Z) (co_lags o) ->
  (forall D, dictionary = Some D -> wf D) ->
  (forall W0, weights = Some W0 -> wf W0 /\ row_stochastic W0) ->
  (let u := r_uniform (go_rng (co_gpnh o)) in let p := length (co_lags o) in
   (forall q, 0 <= u q) /\ (forall q, Sum k (fun j => u (q + j)%nat) <> 0) /\ (forall q, Sum p (fun j => u (q + j)%nat) <> 0)
   /\ (forall q j, (j < k)%nat -> Sum k (fun i => u (q + i * k + j)%nat) <> 0)) ->
  0 < ls_sigma_one (gc_ls (go_cfg (co_gpnh o))) -> ls_sigma_two (gc_ls (go_cfg (co_gpnh o))) < 1 ->
  crom_fit_transform fuel o data dictionary weights ud uw kw = Ok (r, W) ->
  is_mat n k W /\ row_stochastic W
  /\ exists ow Ts, co_parameters (cr_obj r) = Some (ow, Ts)
     /\ length ow = length (co_lags o) /\ prob_vec ow
     /\ is_stack (length (co_lags o)) k Ts /\ stack_stochastic Ts.
Proof.
  intros fuel o n d k data Din Win ud uw kw r W HX Hc Hl WD WW (U1 & U2 & U3 & U4) H1 H2 H.
  apply crom_fit_inv in H. destruct H as (k' & m & t & w & g' & A1 & A2 & A3 & A4 & A5 & A6 & A7 & A8).
  assert (nr data = n /\ nc data = d) as [x1 x2] by (split; apply HX).
  pose proof Hc as Hc'. apply comp_count_resolve in Hc'. rewrite x2 in A2. assert (k' = k) as -> by (rewrite Hc' in A2; injection A2; lia).
  destruct (C14_fit_weights_stochastic fuel (co_gpnh o) n d k data Din Win ud uw kw (cr_gpnh r) W HX Hc WD (fun A E => proj1 (WW A E)) (fun A E => proj2 (WW A E)) U1 U2 H1 H2 A1) as [W1 W2].
  split; [exact W1|]. split; [exact W2|].
  apply crom_fit_parameters_inv in A7. destruct A7 as (Hne & ow & Ts & cost & E0 & E1).
  set (c := crom_cfg (go_cfg (co_gpnh o)) (co_lags o)) in *.
  apply initialize_random_ok in E0. destruct E0 as (HO & HT & _ & HS).
  assert (Lp : n_lags c = length (co_lags o)) by (unfold n_lags, c; cbn [crom_cfg mc_lags]; apply map_length).
  rewrite x1 in E1.
  pose proof (start_cinv c k n W ow Ts W1 HO HT) as I0.
  apply (iterate_ok _ (cinv c n k W (prob_vec ow /\ stack_stochastic Ts))) in E1; [|intros u s s' [<-|[]] Is Es; eapply crom_update_inv; eauto | exact A5 | exact I0].
  destruct E1 as (((_ & B1 & B2 & _) & _ & B3) & _).
  destruct B3 as [P1 P2].
  { apply HS. rewrite Lp. apply fit_transform_inv in A1.
    destruct A1 as (k1 & m1 & t1 & D1 & W3 & g1 & w2 & _ & _ & _ & _ & _ & F6 & _ & F8 & _).
    apply choose_initial_streams in F6. destruct F6 as (F6 & _). rewrite F8. cbn [go_rng].
    eapply mrng_ok_stream; [exact F6|]. split; [split; assumption|]. split; assumption. }
  exists (cw_order_weights w), (cw_transition_matrices w). rewrite A8. split; [reflexivity|]. rewrite <- Lp. auto.
Qed.
Print Assumptions C39_fit_stochastic.
(** the residuals of the parameter fit: each is the mean squared one-step error of the weights under the
    current transition model, they never increase under the default guard, and the last one belongs
    to the transition model kept *)
Theorem C39_residuals : forall fuel (o : crom R) n d k data dictionary weights ud uw kw r W,
  is_mat n d data -> comp_count (go_n_components (co_gpnh o)) d k -> Forall (fun z => (1 <= z)%Z) (co_lags o) ->
  (forall D, dictionary = Some D -> wf D) -> (forall W0, weights = Some W0 -> wf W0) ->
  n <> max_of (map Z.to_nat (co_lags o)) ->
  0 < ls_sigma_one (gc_ls (go_cfg (co_gpnh o))) -> ls_sigma_two (gc_ls (go_cfg (co_gpnh o))) < 1 ->
  crom_fit_transform fuel o data dictionary weights ud uw kw = Ok (r, W) ->
  let lags := map Z.to_nat (co_lags o) in
  let residual ow Ts := if Nat.eqb k 1 then 0 else mtd_misfit lags ow Ts W / (INR k * (INR n - INR (max_of lags))) in
  (gc_monotone (go_cfg (co_gpnh o)) = true ->
     forall i j, (i <= j < length (cr_log r))%nat -> nth j (cr_log r) 0 <= nth i (cr_log r) 0)
  /\ (exists ow0 Ts0, length ow0 = length lags /\ is_stack (length lags) k Ts0 /\ nth 0 (cr_log r) 0 = residual ow0 Ts0)
  /\ exists ow Ts, co_parameters (cr_obj r) = Some (ow, Ts) /\ last (cr_log r) 0 = residual ow Ts
     /\ length (cr_log r) = (cr_n_iter r + 2)%nat.
Proof.
  intros fuel o n d k data Din Win ud uw kw r W HX Hc Hl WD WW Hne H1 H2 H lags residual.
  apply crom_fit_inv in H. destruct H as (k' & m & t & w & g' & A1 & A2 & A3 & A4 & A5 & A6 & A7 & A8).
  assert (nr data = n /\ nc data = d) as [x1 x2] by (split; apply HX).
  apply comp_count_resolve in Hc. rewrite x2 in A2. assert (k' = k) as -> by (rewrite Hc in A2; injection A2; lia).
  assert (W1 : is_mat n k W).
  { apply fit_transform_inv in A1. destruct A1 as (k1 & m1 & t1 & D1 & W3 & g1 & w2 & F1 & F2 & _ & F4 & _ & F6 & F7 & F8 & _ & ->).
    rewrite x2 in F1. assert (k1 = k) as -> by (rewrite Hc in F1; injection F1; lia).
    apply choose_initial_ok in F6; try assumption. rewrite x1, x2 in F6. destruct F6 as (HD & HW & _).
    pose proof (start_ginv (go_cfg (co_gpnh o)) data W3 D1 n d k HX HW HD) as I0.
    destruct (gpnh_iterate_inv n d k data _ _ _ _ _ _ _ _ _ _ _ _ F2 F4 H1 H2 I0 F7) as ((_ & G & _) & _). exact G. }
  apply crom_fit_parameters_inv in A7. destruct A7 as (Hle & ow & Ts & cost & E0 & E1).
  set (c := crom_cfg (go_cfg (co_gpnh o)) (co_lags o)) in *.
  apply initialize_random_ok in E0. destruct E0 as (HO & HT & _ & _). rewrite x1 in E1.
  pose proof (start_cinv c k n W ow Ts W1 HO HT) as I0.
  apply (iterate_ok _ (cinv c n k W (prob_vec ow /\ stack_stochastic Ts))) in E1; [|intros u s s' [<-|[]] Is Es; eapply crom_update_inv; eauto | exact A5 | exact I0].
  destruct E1 as ((B1 & _) & B2 & B3 & B4 & B5 & B6 & B7 & B8 & B9). numR. split; [|split].
  - intros Hmono.
    assert (Mono : forall i, (S i < length (cr_log r))%nat -> nth (S i) (cr_log r) 0 <= nth i (cr_log r) 0).
    { intros i Hi. destruct (B9 i ltac:(lia)) as [L _]. specialize (L ltac:(discriminate)). unfold cost_increased in L.
      change (mc_monotone c) with (gc_monotone (go_cfg (co_gpnh o))) in L. rewrite Hmono, andb_true_r in L.
      numR. apply Rltb_false in L. lra. }
    intros i j [Hij Hj]. revert Hj. induction Hij as [|j Hij IH]; intros Hj; [lra|].
    eapply Rle_trans; [apply Mono; exact Hj | apply IH; lia].
  - exists ow, Ts. split; [exact HO|]. split; [exact HT|]. rewrite B5. apply (crom_residual_spec c n k W). apply I0.
  - exists (cw_order_weights w), (cw_transition_matrices w). rewrite A8. split; [reflexivity|]. split; [|lia].
    rewrite last_nth, B4. cbn [pred]. rewrite B6, B2. apply (crom_residual_spec c n k W w B1).
Qed.
Print Assumptions C39_residuals.
(** the direction of each parameter step is taken along the exact gradient of that residual *)
Theorem C39_gradient : forall (c : gpnh_cfg R) lags n k W ow Ts dw dT,
  is_mat n k W -> length ow = length lags -> is_stack (length lags) k Ts ->
  (0 < n)%nat -> (2 <= k)%nat -> n <> max_of (map Z.to_nat lags) ->
  length dw = length lags -> is_stack (length lags) k dT ->
  let w := crom_initialize_workspace (crom_cfg c lags) W ow Ts in
  let go := crom_order_gradient (crom_cfg c lags) k n W w in
  let gT := crom_transition_gradient (crom_cfg c lags) k n W w in
  length go = length lags /\ is_stack (length lags) k gT /\
  derivable_pt_lim (fun s => mtd_misfit (map Z.to_nat lags) (@vadd R Num_R ow (vscale s dw)) (tadd Ts (tscale s dT)) W
                             / (INR k * (INR n - INR (max_of (map Z.to_nat lags))))) 0 (vdot go dw + stack_dot gT dT).
Proof.
  intros c lags n k W ow Ts dw dT HW HO HT Hn Hk Hne Hdw HdT w go gT.
  set (mc := crom_cfg c lags) in *.
  assert (Lp : length (mc_lags mc) = length lags) by apply map_length.
  assert (E1 : go = mtd_order_gradient mc k (at_params mc (mzeros n 1) W (mzeros k 1) ow Ts))
    by (unfold go; rewrite crom_order_gradient_of; reflexivity).
  assert (E2 : gT = mtd_transition_gradient mc k (at_params mc (mzeros n 1) W (mzeros k 1) ow Ts))
    by (unfold gT; rewrite crom_transition_gradient_of; reflexivity).
  pose proof (C35_parameters_gradient mc n 1 k (mzeros n 1) W (mzeros k 1) ow Ts dw dT) as P. rewrite Lp in P.
  destruct P as (P1 & P2 & P3); try assumption; try lia; try apply is_mat_mbuild.
  rewrite <- E1 in P1, P3. rewrite <- E2 in P2, P3. split; [exact P1|]. split; [exact P2|].
  intros eps He. destruct (P3 eps He) as [del Hd]. exists del. intros h Hh0 Hh. specialize (Hd h Hh0 Hh).
  rewrite !objective_split in Hd. pose proof HW as (w1 & w2 & _). rewrite w1, w2 in Hd. destruct (Nat.eqb_spec k 1); [lia|].
  change (mc_eps_weights mc) with 1 in Hd. change (mc_lags mc) with (map Z.to_nat lags) in Hd.
  match goal with |- Rabs (?a - _) < _ => match type of Hd with Rabs (?b - _) < _ => replace a with b; [exact Hd|] end end.
  f_equal. ring.
Qed.
Print Assumptions C39_gradient.
Lemma ec_fit : exists fuel r W, crom_fit_transform fuel ec_crom ex_data None None true true None = Ok (r, W).
Proof.
  assert (Hls : ls_valid (mc_ls (crom_cfg (ex_cfg false) [1%Z]))) by (repeat split; cbn; lra).
  assert (Et : tol_value (PFloat (1 / 1000000)) (1 / 1000000)) by (right; split; [reflexivity|]; numR; apply Rltb_false; lra).
  destruct (fit_total (ex_cfg false) 2 2 2 100 (1/1000000) ex_data None None None ex_rng) as [M HM]; try exact ex_data_mat; try exact ex_rng_ok; try lia; try reflexivity; try exact Et.
  { right; left; reflexivity. }
  { exact Hls. }
  { cbn; lia. }
  destruct (crom_parameters_total (crom_cfg (ex_cfg false) [1%Z]) Hls) as [M2 HM2]; [cbn; lia|].
  exists (max M M2). destruct (HM (max M M2) ltac:(lia) (ex_gpnh false)) as [[r W] E]; try reflexivity; [left; reflexivity|].
  unfold crom_fit_transform. cbn [co_gpnh ec_crom co_lags]. rewrite E. cbn [bind].
  destruct (C14_fit_weights_stochastic (max M M2) (ex_gpnh false) 2 2 2 ex_data None None true true None r W) as [HW _]; try exact E;
    try exact ex_data_mat; try (intros; discriminate); try apply ex_rng_ok; try (cbn; lra); [left; reflexivity|].
  pose proof E as E'. apply fit_transform_inv in E'. destruct E' as (k & m & t & D & W0 & g0 & w2 & A1 & A2 & A3 & A4 & A5 & A6 & A7 & A8 & _ & A9).
  assert (k = 2)%nat as -> by (cbn in A1; injection A1; lia).
  rewrite A8. cbn [go_cfg go_n_components go_rng]. change (go_cfg (ex_gpnh false)) with (ex_cfg false) in *. rewrite A3, (check_params_total 2 m _ t) by (exact A5 || lia).
  cbn [bind]. destruct (HM2 (max M M2) ltac:(lia) 2%nat 2%nat W t m g0 ltac:(lia) HW) as [[r2 E2]|[[_ E2]|[_ E2]]]; [|discriminate ..].
  change (nr ex_data) with 2%nat. rewrite E2. destruct r2 as [[[w g'] ni] lg]. cbn [bind]. eauto.
Qed.
Example C39_example : is_mat 2 2 ex_data /\ mrng_ok 1 2 (go_rng (co_gpnh ec_crom)) /\ Forall (fun z => (1 <= z)%Z) (co_lags ec_crom)
  /\ 2%nat <> max_of (map Z.to_nat (co_lags ec_crom))
  /\ exists fuel r W, crom_fit_transform fuel ec_crom ex_data None None true true None = Ok (r, W).
Proof.
  split; [exact ex_data_mat|]. split; [|split; [exact ec_positive|]; split; [cbn; lia | exact ec_fit]].
  split; [exact ex_rng_ok|]. split; [|apply em_rng_ok]. intros q. cbn [Sum].
  pose proof (proj1 ex_rng_ok). cbn [co_gpnh ec_crom ex_gpnh gpnh_new go_rng ex_rng r_uniform] in *.
  assert (0 < / (1 + INR (q + 0))) by (apply Rinv_0_lt_compat; pose proof (pos_INR (q + 0)); lra). lra.
Qed.

(** ** C37: the prediction of the reduced-order model *)
Theorem C37_crom_nan_rows : forall (T : Type) (N : Num T) fuel (o : crom T) data h o' r Y i j,
  (forall x : T, nadd nnan x = nnan /\ nadd x nnan = nnan /\ nmul nnan x = nnan /\ nmul x nnan = nnan) ->
  Forall (fun z => (1 <= z)%Z) (co_lags o) ->
  crom_predict fuel o data h = Ok (o', r, Y) -> h <> 0%Z ->
  (S i < max_of (map Z.to_nat (co_lags o)))%nat -> (i < nr Y)%nat -> (j < nc Y)%nat ->
  mget Y i j = nnan.
Proof.
  intros T N fuel o data h o' r Y i j Hnan _ H Hh Hi Hr Hc. apply crom_predict_inv in H.
  destruct H as (W & w & E1 & E2 & E3 & E4 & PW & -> & [[? _]|(_ & _ & ow & Ts & E5 & ->)]); [congruence|].
  change (max_of (map Z.to_nat (co_lags o))) with (max_lag (crom_cfg (go_cfg (co_gpnh o)) (co_lags o))) in Hi.
  apply transform_inv in E1. destruct E1 as (k & m & t & D & W0 & g' & w2 & A1 & A2 & A3 & A4 & A5 & A6 & A7 & A8 & A9 & ->).
  rewrite A8 in E3. cbn [go_ws] in E3. injection E3 as <-.
  assert (Sk : (0 < nr (w_S w2))%nat).
  { pose proof (transform_keeps_S _ _ _ _ _ _ _ _ _ _ A4 A7) as K. rewrite K. cbn [start_ws w_S].
    unfold choose_initial in A6. cbv zeta in A6.
    destruct (gc_init (go_cfg (co_gpnh o))); cbn [andb negb] in A6;
      try (apply bind_ok in A6; destruct A6 as (D1 & F1 & F2); apply bind_ok in F2; destruct F2 as (x & _ & F2); injection F2 as <- _ _;
           apply check_init_dictionary_ok_inv in F1; destruct F1 as (_ & F3 & _); lia).
    apply bind_ok in A6. destruct A6 as (? & F1 & _). discriminate. }
  cbn [nr nc mmul mbuild] in Hr, Hc. unfold mmul. rewrite mget_mbuild by assumption.
  apply nsum_nan; [exact Hnan | | ].
  - cbn [nc mtd_predict_weights mbuild]. lia.
  - exists 0%nat. split; [cbn [nc mtd_predict_weights mbuild]; lia|].
    rewrite mtd_predict_nan; [apply Hnan | lia | cbn [nr mtd_predict_weights mbuild] in Hr; exact Hr | lia].
Qed.
Print Assumptions C37_crom_nan_rows.
Theorem C37_crom_forecast : forall fuel (o : crom R) n d k data h o' r Y w0 ow Ts,
  is_mat n d data -> comp_count (go_n_components (co_gpnh o)) d k -> go_ws (co_gpnh o) = Some w0 -> co_parameters o = Some (ow, Ts) ->
  Forall (fun z => (1 <= z)%Z) (co_lags o) -> co_lags o <> [] ->
  wf (w_S w0) -> length ow = length (co_lags o) -> is_stack (length (co_lags o)) k Ts -> prob_vec ow -> stack_stochastic Ts ->
  (forall q, 0 <= r_uniform (go_rng (co_gpnh o)) q) -> (forall q, Sum k (fun j => r_uniform (go_rng (co_gpnh o)) (q + j)%nat) <> 0) ->
  0 < ls_sigma_one (gc_ls (go_cfg (co_gpnh o))) -> ls_sigma_two (gc_ls (go_cfg (co_gpnh o))) < 1 ->
  (0 <= h)%Z -> crom_predict fuel o data h = Ok (o', r, Y) ->
  nr Y = n /\ nc Y = d /\
  exists W, transform fuel (co_gpnh o) data = Ok (r, W) /\ is_mat n k W /\ row_stochastic W /\ is_mat k d (w_S w0) /\
  forall i, (max_of (map Z.to_nat (co_lags o)) - 1 <= i < n)%nat ->
    let hh := Z.to_nat h in
    let forecast a := mtd_path (map Z.to_nat (co_lags o)) k ow Ts (ent W) i hh (i + hh) a in
    (forall j, (j < d)%nat -> ent Y i j = Sum k (fun a => forecast a * ent (w_S w0) a j))
    /\ (forall a, (a < k)%nat -> 0 <= forecast a) /\ Sum k forecast = 1
    /\ in_hull (w_S w0) (fun j => ent Y i j).
Proof.
  intros fuel o n d k data h o' r Y w0 ow Ts HX Hc Ew Ep Hl Hne WS LO HT PO ST U1 U2 H1 H2 Hh H.
  apply crom_predict_inv in H. destruct H as (W & w & E1 & _ & E3 & E4 & PW & -> & HPW). pose proof E1 as E0.
  apply transform_inv in E1. destruct E1 as (k' & m & t & D & W0 & g' & w2 & A1 & A2 & A3 & A4 & A5 & A6 & A7 & A8 & A9 & ->).
  rewrite A8 in E3. cbn [go_ws] in E3. injection E3 as <-.
  assert (nr data = n /\ nc data = d) as [x1 x2] by (split; apply HX).
  pose proof Hc as Hc'. apply comp_count_resolve in Hc'. rewrite x2 in A1. assert (k' = k) as -> by (rewrite Hc' in A1; injection A1; lia).
  destruct (C14_transform_weights_stochastic fuel (co_gpnh o) n d k data r (w_Gamma w2)) as [B2 B7]; try assumption.
  { intros w E. congruence. }
  pose proof (transform_keeps_S _ _ _ _ _ _ _ _ _ _ A4 A7) as K1. cbn [start_ws w_S] in K1.
  rewrite Ew in A6. cbn [option_map] in A6.
  assert (ED : D = w_S w0).
  { unfold choose_initial in A6. cbv zeta in A6. destruct (gc_init (go_cfg (co_gpnh o))); cbn [andb negb] in A6;
      try (apply bind_ok in A6; destruct A6 as (D1 & F1 & F2); apply bind_ok in F2; destruct F2 as (x & _ & F2); injection F2 as <- _ _;
           apply check_init_dictionary_ok_inv in F1; destruct F1 as (F1 & _); congruence).
    apply bind_ok in A6. destruct A6 as (? & F1 & _). discriminate. }
  apply choose_initial_ok in A6; [|intros A [= <-]; exact WS | intros A E; discriminate].
  rewrite x1, x2 in A6. destruct A6 as (HD & _). rewrite ED in K1, HD. pose proof HD as (s1 & s2 & _).
  set (c := crom_cfg (go_cfg (co_gpnh o)) (co_lags o)) in *.
  assert (Lp : n_lags c = length (co_lags o)) by apply map_length.
  assert (Hle : mc_lags c <> []) by (unfold c; cbn [crom_cfg mc_lags]; destruct (co_lags o); [congruence | discriminate]).
  assert (Hl' : Forall (fun l => (0 < l)%nat) (mc_lags c)).
  { unfold c; cbn [crom_cfg mc_lags]. apply Forall_map. eapply Forall_impl; [|exact Hl]. intros z Hz. cbn in Hz. lia. }
  rewrite <- Lp in HT, LO.
  assert (HP : is_mat n k PW).
  { destruct HPW as [[_ ->]|(_ & _ & ow' & Ts' & _ & ->)]; [exact B2|]. destruct B2 as (b1 & b2 & _). unfold mtd_predict_weights. rewrite b1, b2. apply is_mat_mbuild. }
  pose proof HP as (p1 & p2 & _). rewrite K1.
  split; [exact p1|]. split; [exact s2|]. exists (w_Gamma w2). split; [exact E0|]. split; [exact B2|]. split; [exact B7|]. split; [exact HD|].
  intros i Hi hh forecast. change (max_of (map Z.to_nat (co_lags o))) with (max_lag c) in Hi.
  assert (F : forall a, (a < k)%nat -> ent PW i a = forecast a).
  { intros a Ha. unfold forecast. destruct HPW as [[E ->]|(_ & _ & ow' & Ts' & E5 & ->)].
    - unfold hh. rewrite E. cbn [Z.to_nat mtd_path]. rewrite Nat.add_0_r. reflexivity.
    - rewrite Ep in E5. injection E5 as <- <-. apply (predict_path c k ow Ts (w_Gamma w2) n B2 HT Hl' Hle i a h Hi Ha). }
  assert (PP : (forall a, (a < k)%nat -> 0 <= forecast a) /\ Sum k forecast = 1).
  { pose proof (max_lag_pos c Hl' Hle) as HL.
    apply (path_prob c k ow Ts (w_Gamma w2) n B2 HT Hl' Hle B7 PO LO ST i hh Hi (i + hh)); lia. }
  assert (EY : forall j, (j < d)%nat -> ent (mmul PW (w_S w0)) i j = Sum k (fun a => forecast a * ent (w_S w0) a j)).
  { intros j Hj. rewrite ent_mmul by lia. rewrite p2. apply Sum_ext. intros a Ha. rewrite (F a Ha). reflexivity. }
  split; [exact EY|]. destruct PP as [P1 P2]. split; [exact P1|]. split; [exact P2|].
  exists forecast. rewrite s1, s2. split; [exact P1|]. split; [exact P2|]. exact EY.
Qed.
Print Assumptions C37_crom_forecast.
Theorem C37_crom_zero_horizon : forall (T : Type) (N : Num T) fuel (o o' : crom T) data r Y,
  crom_predict fuel o data 0 = Ok (o', r, Y) ->
  exists W, transform fuel (co_gpnh o) data = Ok (r, W) /\ inverse_transform (gr_obj r) W = Ok Y.
Proof.
  intros T N fuel o o' data r Y H. apply crom_predict_inv in H. destruct H as (W & w & E1 & _ & E3 & E4 & PW & -> & [[_ ->]|[? _]]); [|congruence].
  exists W. split; [exact E1|]. unfold inverse_transform. rewrite E3. destruct (Nat.eqb_spec (nc W) (nr (w_S w))); [reflexivity | congruence].
Qed.
Print Assumptions C37_crom_zero_horizon.
Theorem C37_crom_predict_keeps_model : forall (T : Type) (N : Num T) fuel (o o' : crom T) data h r Y w0,
  go_ws (co_gpnh o) = Some w0 -> crom_predict fuel o data h = Ok (o', r, Y) ->
  co_parameters o' = co_parameters o /\ co_lags o' = co_lags o
  /\ go_dictionary_ (co_gpnh o') = go_dictionary_ (co_gpnh o)
  /\ exists w, go_ws (co_gpnh o') = Some w /\ w_S w = w_S w0.
Proof.
  intros T N fuel o o' data h r Y w0 Ew H. apply crom_predict_inv in H. destruct H as (W & w & E1 & -> & E3 & _).
  cbn [co_parameters co_lags co_gpnh]. split; [reflexivity|]. split; [reflexivity|].
  destruct (C23_transform_keeps_fit T N fuel (co_gpnh o) data r W E1) as (K1 & _ & _ & _ & w1 & w' & K5 & K6 & K7).
  split; [exact K1|]. exists w'. split; [exact K6|]. congruence.
Qed.
Print Assumptions C37_crom_predict_keeps_model.

(** ** C38: the reduced-order model accepts only arrays and validates no lag *)
Theorem C38_crom_lags : forall (T : Type) (c : gpnh_cfg T) (l : list Z) k g,
  (exists o, crom_new c (CLArray l) (PInt (Z.of_nat k)) g = Ok o /\ co_lags o = l)
  /\ (exists o, crom_new c CLNone (PInt (Z.of_nat k)) g = Ok o /\ co_lags o = [1%Z])
  /\ (forall v, crom_new c CLOther v g = Raise AttributeError).
Proof.
  intros T c l k g. unfold crom_new. cbn [bind]. destruct (Z.ltb_spec (Z.of_nat k) 0); [lia|].
  split; [eexists; split; reflexivity|]. split; [eexists; split; reflexivity|]. reflexivity.
Qed.
Print Assumptions C38_crom_lags.
(** n_components=None, documented as allowed, is refused by the constructor *)
Theorem C38_crom_components : forall (T : Type) (c : gpnh_cfg T) (l : list Z) v g,
  (exists o, crom_new c (CLArray l) v g = Ok o) <-> exists z, v = PInt z /\ (0 <= z)%Z.
Proof.
  intros T c l v g. unfold crom_new. cbn [bind]. split.
  - intros [o H]. destruct v as [|z|x|]; try discriminate. destruct (Z.ltb_spec z 0); [discriminate|]. eauto.
  - intros (z & -> & Hz). destruct (Z.ltb_spec z 0); [lia|]. eauto.
Qed.
Print Assumptions C38_crom_components.
Example C38_crom_example : exists o, crom_new exZ_cfg (CLArray [-3; 0]%Z) (PInt 2) exZ_rng = Ok o /\ co_lags o = [-3; 0]%Z.
Proof. eexists. split; reflexivity. Qed.

(** ** C24 *)
Theorem C24_crom_custom_predict_fails : forall (T : Type) (N : Num T) fuel (o : crom T) data h,
  gc_init (go_cfg (co_gpnh o)) = InitCustom ->
  crom_transform fuel o data = Raise ValueError /\ crom_predict fuel o data h = Raise ValueError.
Proof.
  intros T N fuel o data h Hi. pose proof (C24_gpnh_custom_transform_fails T N fuel (co_gpnh o) data Hi) as E.
  assert (E1 : crom_transform fuel o data = Raise ValueError) by (unfold crom_transform; rewrite E; reflexivity).
  split; [exact E1|]. unfold crom_predict. rewrite E1. reflexivity.
Qed.
Print Assumptions C24_crom_custom_predict_fails.
Definition ecZ_data : mat Z := mkmat 3 2 [[4; 0]; [0; 4]; [4; 0]]%Z.
Definition ecZ_fit (init : init_method) := @crom_fit_transform Z Num_Z_demo 5
  (mk_crom (gpnh_new (mk_gpnh_cfg 0%Z init (PInt 0) (PInt 2) (mk_ls 0 1 1 1 1 1)%Z 1 false) (PInt 2) exZ_rng) [1; 2]%Z None) ecZ_data
  (Some (mkmat 2 2 [[4; 0]; [0; 4]]%Z)) (match init with InitCustom => Some (mkmat 3 2 [[1; 0]; [0; 1]; [1; 0]]%Z) | _ => None end) 
  (match init with InitCustom => true | _ => false end) true None.
Example C24_crom_example : match ecZ_fit InitCustom with
  | Ok (r, _) => gc_init (go_cfg (co_gpnh (cr_obj r))) = InitCustom | Raise _ => False end.
Proof. vm_compute. reflexivity. Qed.
Example C37_crom_example : match ecZ_fit InitRandom with
  | Ok (r, _) => match @crom_predict Z Num_Z_demo 5 (cr_obj r) ecZ_data 1 with
                 | Ok (_, _, Y) => nr Y = 3%nat /\ nc Y = 2%nat | Raise _ => False end
  | Raise _ => False end.
Proof. vm_compute. auto. Qed.

(** ** C21, C22: the loop of the parameter fit *)
Theorem C22_crom_stopping : forall (T : Type) (N : Num T) fuel (o : crom T) data dictionary weights ud uw kw r W,
  crom_fit_transform fuel o data dictionary weights ud uw kw = Ok (r, W) ->
  exists m t, gc_max_iterations (go_cfg (co_gpnh o)) = PInt (Z.of_nat m) /\ tol_value (gc_tolerance (go_cfg (co_gpnh o))) t
    /\ (cr_n_iter r <= m - 1)%nat /\ length (cr_log r) = (cr_n_iter r + 2)%nat
    /\ let small i := nltb (nabs (nsub (nth (S i) (cr_log r) n0) (nth i (cr_log r) n0))) t in
       (forall i, (i < cr_n_iter r)%nat -> small i = false)
       /\ (cr_n_iter r < m - 1 -> small (cr_n_iter r) = true)%nat.
Proof.
  intros T N fuel o data Din Win ud uw kw r W H. apply crom_fit_inv in H.
  destruct H as (k & m & t & w & g' & A1 & A2 & A3 & A4 & A5 & A6 & A7 & A8).
  apply crom_fit_parameters_inv in A7. destruct A7 as (Hle & ow & Ts & cost & E0 & E1).
  apply (iterate_ok _ (fun _ => True)) in E1; auto. destruct E1 as (_ & B2 & B3 & B4 & B5 & B6 & B7 & B8 & B9).
  exists m, t. split; [exact A4|]. split; [exact A6|]. split; [lia|]. split; [lia|]. intros small. split; [exact B7|].
  intros Hlt. destruct B8 as [B8|B8]; [lia | exact B8].
Qed.
Print Assumptions C22_crom_stopping.
Example C22_crom_example : match ecZ_fit InitCustom with
  | Ok (r, _) => (cr_n_iter r = 1)%nat /\ length (cr_log r) = 3%nat | Raise _ => False end.
Proof. vm_compute. auto. Qed.

(** ** C25 *)
Theorem C25_crom_history_independent : forall (T : Type) (N : Num T) fuel (o1 o2 : crom T) data dictionary weights ud uw kw,
  go_cfg (co_gpnh o1) = go_cfg (co_gpnh o2) -> go_n_components (co_gpnh o1) = go_n_components (co_gpnh o2) ->
  go_rng (co_gpnh o1) = go_rng (co_gpnh o2) -> co_lags o1 = co_lags o2 ->
  crom_fit_transform fuel o1 data dictionary weights ud uw kw = crom_fit_transform fuel o2 data dictionary weights ud uw kw.
Proof.
  intros T N fuel o1 o2 data Din Win ud uw kw E1 E2 E3 E4. unfold crom_fit_transform.
  rewrite (C25_gpnh_history_independent T N fuel (co_gpnh o1) (co_gpnh o2) data Din Win ud uw kw E1 E2 E3), E4. reflexivity.
Qed.
Print Assumptions C25_crom_history_independent.
(** objects reachable by calls on o *)
Inductive crom_history {T} {N : Num T} (o : crom T) : crom T -> Prop :=
| ch_start : crom_history o o
| ch_fit o1 fuel data dictionary weights ud uw kw r W : crom_history o o1 ->
    crom_fit_transform fuel o1 data dictionary weights ud uw kw = Ok (r, W) -> crom_history o (cr_obj r)
| ch_transform o1 fuel data o2 r W : crom_history o o1 -> crom_transform fuel o1 data = Ok (o2, r, W) -> crom_history o o2
| ch_predict o1 fuel data h o2 r Y : crom_history o o1 -> crom_predict fuel o1 data h = Ok (o2, r, Y) -> crom_history o o2.
Theorem C25_crom_history_configuration : forall (T : Type) (N : Num T) (o o' : crom T) z,
  crom_history o o' -> go_n_components (co_gpnh o) = PInt z ->
  co_lags o' = co_lags o /\ go_cfg (co_gpnh o') = go_cfg (co_gpnh o) /\ go_n_components (co_gpnh o') = go_n_components (co_gpnh o)
  /\ r_uniform (go_rng (co_gpnh o')) = r_uniform (go_rng (co_gpnh o))
  /\ r_normal (go_rng (co_gpnh o')) = r_normal (go_rng (co_gpnh o)) /\ r_int (go_rng (co_gpnh o')) = r_int (go_rng (co_gpnh o)).
Proof.
  intros T N o o' z H Ez.
  assert (Tr : forall (o1 : crom T) fuel data r W, go_n_components (co_gpnh o1) = PInt z -> transform fuel (co_gpnh o1) data = Ok (r, W) ->
     go_cfg (gr_obj r) = go_cfg (co_gpnh o1) /\ go_n_components (gr_obj r) = go_n_components (co_gpnh o1)
     /\ r_uniform (go_rng (gr_obj r)) = r_uniform (go_rng (co_gpnh o1))
     /\ r_normal (go_rng (gr_obj r)) = r_normal (go_rng (co_gpnh o1)) /\ r_int (go_rng (gr_obj r)) = r_int (go_rng (co_gpnh o1))).
  { intros o1 fuel data r W E1 E. eapply C25_gpnh_history_configuration; [|exact E1]. eapply gh_transform; [apply gh_start | exact E]. }
  induction H as [|o1 fuel data Din Win ud uw kw r W H IH E|o1 fuel data o2 r W H IH E|o1 fuel data h o2 r Y H IH E]; [repeat split| | |];
    destruct IH as (I0 & I1 & I2 & I3 & I4 & I5).
  - apply crom_fit_inv in E. destruct E as (k & m & t & w & g' & A1 & A2 & A3 & A4 & A5 & A6 & A7 & ->).
    cbn [co_lags co_gpnh set_rng go_cfg go_n_components go_rng].
    destruct (C25_gpnh_history_configuration T N (co_gpnh o1) (gr_obj (cr_gpnh r)) z) as (K1 & K2 & K3 & K4 & K5);
      [eapply gh_fit; [apply gh_start | exact A1] | congruence |].
    apply crom_fit_parameters_inv in A7. destruct A7 as (_ & ow & Ts & cost & E0 & _).
    assert (S : r_uniform g' = r_uniform (go_rng (gr_obj (cr_gpnh r))) /\ r_normal g' = r_normal (go_rng (gr_obj (cr_gpnh r))) /\ r_int g' = r_int (go_rng (gr_obj (cr_gpnh r)))).
    { eapply initialize_parameters_streams. exact E0. }
    destruct S as (S1 & S2 & S3). repeat split; congruence.
  - unfold crom_transform in E. apply bind_ok in E. destruct E as ([r1 W1] & E & E2). injection E2 as <- _ _. cbn [co_lags co_gpnh].
    apply Tr in E; [|congruence]. destruct E as (K1 & K2 & K3 & K4 & K5). repeat split; congruence.
  - apply crom_predict_inv in E. destruct E as (W & w & E & -> & _). cbn [co_lags co_gpnh].
    apply Tr in E; [|congruence]. destruct E as (K1 & K2 & K3 & K4 & K5). repeat split; congruence.
Qed.
Print Assumptions C25_crom_history_configuration.
Example C25_crom_example : match ecZ_fit InitCustom with
  | Ok (r, _) => co_parameters (cr_obj r) <> None /\ co_lags (cr_obj r) = [1; 2]%Z | Raise _ => False end.
Proof. vm_compute. split; [discriminate | reflexivity]. Qed.

(** ** C26 *)
Theorem C26_crom_validation : forall (T : Type) (N : Num T) fuel (o : crom T) data dictionary weights ud uw kw,
  ~ (valid_components (go_n_components (co_gpnh o)) (nc data) /\ valid_max (gc_max_iterations (go_cfg (co_gpnh o)))
     /\ valid_tolerance (gc_tolerance (go_cfg (co_gpnh o)))) ->
  crom_fit_transform fuel o data dictionary weights ud uw kw = Raise ValueError.
Proof.
  intros T N fuel o data Din Win ud uw kw H. unfold crom_fit_transform. rewrite C26_gpnh_validation by exact H. reflexivity.
Qed.
Print Assumptions C26_crom_validation.
Example C26_crom_example : ~ valid_max (T := Z) (PInt 0).
Proof. intros (m & E & Hm). injection E. lia. Qed.

(** ** C58 *)
Theorem C58_crom_terminates : forall (c : gpnh_cfg R) (lags : list Z),
  0 < ls_sigma_one (gc_ls c) -> ls_sigma_two (gc_ls c) < 1 -> 0 < ls_step_tol (gc_ls c) -> (0 < gc_memory c)%nat ->
  exists M, forall fuel, (M <= fuel)%nat -> forall (o : crom R) n d data dictionary weights ud uw kw,
    go_cfg (co_gpnh o) = c -> co_lags o = lags -> is_mat n d data ->
    (forall D, dictionary = Some D -> wf D) -> (forall W0, weights = Some W0 -> wf W0) ->
    (exists r, crom_fit_transform fuel o data dictionary weights ud uw kw = Ok r)
    \/ (exists e, crom_fit_transform fuel o data dictionary weights ud uw kw = Raise e
          /\ (e = ValueError \/ e = IndexError \/ e = TypeError \/ (e = RuntimeError /\ gc_monotone c = true))).
Proof.
  intros c lags H1 H2 H3 Hm. destruct (C58_gpnh_terminates c H1 H2 H3 Hm) as [M HM].
  destruct (crom_parameters_total (crom_cfg c lags)) as [M2 HM2]; [repeat split; assumption | exact Hm|].
  exists (max M M2). intros fuel Hf o n d data Din Win ud uw kw Ec El HX WD WW. unfold crom_fit_transform.
  destruct (HM fuel ltac:(lia) (co_gpnh o) n d data Din Win ud uw kw Ec HX WD WW) as [[[r W] E]|(e & E & He)]; rewrite E; cbn [bind];
    [|right; exists e; auto].
  pose proof E as E'. apply fit_transform_inv in E'. destruct E' as (k & m & t & D & W0 & g0 & w2 & A1 & A2 & A3 & A4 & A5 & A6 & A7 & A8 & _ & A9).
  assert (W1 : is_mat n k W).
  { subst W. assert (nr data = n /\ nc data = d) as [x1 x2] by (split; apply HX).
    apply choose_initial_ok in A6; try assumption. rewrite x1, x2 in A6. destruct A6 as (HD & HW & _).
    pose proof (start_ginv (go_cfg (co_gpnh o)) data W0 D n d k HX HW HD) as I0.
    rewrite Ec in *.
    destruct (gpnh_iterate_inv n d k data _ _ _ _ _ _ _ _ _ _ _ _ A2 A4 H1 H2 I0 A7) as ((_ & G & _) & _). exact G. }
  rewrite A8. cbn [go_cfg go_n_components go_rng]. rewrite A3, (check_params_total k m _ t) by assumption. cbn [bind].
  rewrite Ec, El. replace (nr data) with n by (symmetry; apply HX).
  destruct (HM2 fuel ltac:(lia) n k W t m g0 A2 W1) as [[r2 E2]|[[E2 Hmo]|[E2 _]]]; rewrite E2; cbn [bind].
  - destruct r2 as [[[w g'] ni] lg]. left. eauto.
  - right. exists RuntimeError. split; [reflexivity|]. right; right; right. split; [reflexivity | exact Hmo].
  - right. exists ValueError. auto.
Qed.
Print Assumptions C58_crom_terminates.
Example C58_crom_example : 0 < ls_sigma_one (gc_ls (ex_cfg false)) /\ ls_sigma_two (gc_ls (ex_cfg false)) < 1
  /\ 0 < ls_step_tol (gc_ls (ex_cfg false)) /\ (0 < gc_memory (ex_cfg false))%nat.
Proof. cbn. repeat split; try lra; lia. Qed.
