(** C87: a series exactly as long as the largest lag makes the fit of the transition model produce
    zeros without an error.  The arithmetic is [Num_E] (exact, with infinities and NaN). *)
From Coq Require Import List Arith Lia ZArith Reals Lra Bool.
From Verif Require Import Num NumExt Mat Py Spec_nan Spec_edge M_simplex M_spg M_iter M_random M_furthest M_gpnh M_mtd M_crom.
From Verif Require Import P_lin P_gpnh_run P_mtd_run P_crom P_nan P_nan_gpnh P_nan_mtd P_edge P_edge_mtd P_edge_crom Props_nan Props_gpnh.
Import ListNotations.

Lemma succ_row_of c n t : has_successor (mc_lags c) n t -> @succ_row n c t.
Proof. intros (l & Hl & H). apply In_nth with (d := 0%nat) in Hl. destruct Hl as (i & Hi & <-). exists i. split; assumption. Qed.
Lemma check_zero_sum p : @check_init_order_weights ext Num_E (Some (repeat (Fin 0) p)) p = Raise ValueError.
Proof.
  unfold check_init_order_weights. rewrite repeat_length, Nat.eqb_refl. unfold check_unit_vec_sum, vsum. rewrite repeat_length.
  assert (S : forall q, @nsum ext Num_E q (vget (repeat (Fin 0) p)) = Fin 0).
  { induction q as [|q IH]; [reflexivity|]. cbn [nsum]. rewrite IH. unfold vget. change (@n0 ext Num_E) with (Fin 0). rewrite nth_repeat. cbn. f_equal. ring. }
  rewrite S. assert (F : @isclose_one ext Num_E (Fin 0) = false); [|rewrite F; reflexivity].
  apply not_true_iff_false. intros F. unfold isclose_one in F. cbn in F. rewrite Rabs_R1 in F. replace (0 + - (1))%R with (-1)%R in F by ring. rewrite Rabs_left in F by lra.
  destruct (Req_EM_T 100000000 0); [lra|]. destruct (Req_EM_T 100000 0); [lra|]. cbn in F.
  unfold Rltb in F. destruct (Rlt_dec _ _) as [G|G]; [lra|]. destruct (Req_EM_T _ _) as [G2|G2]; [lra|]. discriminate F.
Qed.

(** ** MTD convex coding *)
(** from random starting values the fit returns: all iterations with cost NaN, no warning, zero weights
    for the times that precede another one, order weights and transition matrices zero; the model cannot
    transform any data afterwards *)
Theorem C87_mtd_fit : forall fuel (o : mtd ext) data Din Win ow Ts k m t, largest_lag (mc_lags (mo_cfg o)) (nr data) -> good_draws (mo_rng o) -> (0 < mc_memory (mo_cfg o))%nat ->
  comp_count (mo_n_components o) (nc data) k -> (2 <= k)%nat -> mc_max_iterations (mo_cfg o) = PInt (Z.of_nat m) -> (0 < m)%nat ->
  tol_value (mc_tolerance (mo_cfg o)) t -> mc_init (mo_cfg o) = InitRandom \/ mc_init (mo_cfg o) = InitNone ->
  exists r W w, mtd_fit_transform fuel o data Din Win ow Ts true true true None = Ok (r, W)
    /\ nan_outcome m (mr_cost r) (mr_n_iter r) (mr_log r) (mr_warned r)
    /\ nr W = nr data /\ nc W = k
    /\ (forall i, (i < nr data)%nat -> has_successor (mc_lags (mo_cfg o)) (nr data) i -> row_zero W i)
    /\ mo_ws (mr_obj r) = Some w
    /\ zero_vector (length (mc_lags (mo_cfg o))) (m_order_weights w) /\ zero_stack (length (mc_lags (mo_cfg o))) k (m_transition_matrices w)
    /\ (forall fuel2 data2, mtd_transform fuel2 (mr_obj r) data2 = Raise ValueError).
Proof.
  intros fuel o data Din Win ow Ts k m t HL HG HM HC Hk Hm1 Hm Ht Hi. apply comp_count_resolve in HC.
  destruct (mtd_random_edge fuel o data Din Win ow Ts k m t) as (r & E); try assumption.
  destruct (mtd_run_edge _ _ _ _ _ _ _ _ _ _ _ _ _ HL HG HM HC Hk E) as (w & m' & t' & D & W & ow0 & Ts0 & g & A3 & A4 & A5 & A6 & A7 & A8 & I & Z & P).
  rewrite Hm1 in A3. injection A3 as A3. apply Nat2Z.inj in A3. subst m'. specialize (Z eq_refl). destruct (P eq_refl) as (P1 & P2). destruct I.
  unfold mtd_fit_transform. rewrite E. cbn [bind]. rewrite A8. cbn [mo_ws mo_cfg mo_n_components mo_rng]. eexists _, (m_Gamma w), w. split; [reflexivity|]. cbn [mr_cost mr_n_iter mr_log mr_warned mr_obj mo_ws].
  split; [exact A7|]. split; [assumption|]. split; [assumption|]. split.
  { intros i Hi' HS j Hj. apply Z; [exact Hi'|lia|apply succ_row_of, HS]. }
  split; [reflexivity|]. split; [exact P1|]. split; [exact P2|].
  intros fuel2 data2. unfold mtd_transform. cbn [mo_ws]. unfold mtd_convex_coding. cbn [mo_n_components mo_cfg mo_rng resolve_components]. cbv zeta.
  rewrite Hm1, (check_params_total k m _ t) by (assumption || lia). cbn [bind]. unfold mtd_choose_initial. rewrite P1. fold (n_lags (mo_cfg o)). rewrite check_zero_sum.
  assert (CD : forall D a b e, @check_init_dictionary ext Num_E (Some D) a b = Raise e -> e = ValueError).
  { intros D' a b e. unfold check_init_dictionary, check_array, check_array_shape. destruct (all_finite D'); cbn [bind]; [|congruence]. destruct (andb _ _); cbn [bind]; congruence. }
  destruct Hi as [Hi|Hi]; rewrite Hi; destruct (check_init_dictionary _ _ _) eqn:EC; cbn [bind initialize_weights]; try reflexivity; apply CD in EC; subst; reflexivity.
Qed.
Print Assumptions C87_mtd_fit.
(** any initialisation, any update flags: what a fit that returns has done *)
Theorem C87_mtd_any_fit : forall fuel (o : mtd ext) data Din Win ow Ts ud uw up kw r W k, largest_lag (mc_lags (mo_cfg o)) (nr data) -> good_draws (mo_rng o) -> (0 < mc_memory (mo_cfg o))%nat ->
  comp_count (mo_n_components o) (nc data) k -> (2 <= k)%nat -> mtd_fit_transform fuel o data Din Win ow Ts ud uw up kw = Ok (r, W) ->
  (exists m, mc_max_iterations (mo_cfg o) = PInt (Z.of_nat m) /\ nan_outcome m (mr_cost r) (mr_n_iter r) (mr_log r) (mr_warned r))
  /\ nr W = nr data /\ nc W = k
  /\ (uw = true -> forall i, (i < nr data)%nat -> has_successor (mc_lags (mo_cfg o)) (nr data) i -> row_zero W i)
  /\ exists w, mo_ws (mr_obj r) = Some w
    /\ (up = true -> zero_vector (length (mc_lags (mo_cfg o))) (m_order_weights w) /\ zero_stack (length (mc_lags (mo_cfg o))) k (m_transition_matrices w)).
Proof.
  intros fuel o data Din Win ow Ts ud uw up kw r W k HL HG HM HC Hk H. apply comp_count_resolve in HC. unfold mtd_fit_transform in H. apply bind_ok in H. destruct H as (r0 & E0 & H).
  destruct (mtd_run_edge _ _ _ _ _ _ _ _ _ _ _ _ _ HL HG HM HC Hk E0) as (w & m & t & D & W0 & ow0 & Ts0 & g & A3 & A4 & A5 & A6 & A7 & A8 & I & Z & P). destruct I.
  rewrite A8 in H. cbn [mo_ws mo_cfg mo_n_components mo_rng] in H. injection H as <- <-. cbn [mr_cost mr_n_iter mr_log mr_warned mr_obj mo_ws].
  split; [exists m; split; assumption|]. split; [assumption|]. split; [assumption|]. split.
  - intros Hu i Hi HS j Hj. apply (Z Hu); [exact Hi|lia|apply succ_row_of, HS].
  - exists w. split; [reflexivity|exact P].
Qed.
Print Assumptions C87_mtd_any_fit.
(** transform of such a series by a model fitted before *)
Theorem C87_mtd_transform : forall fuel (o : mtd ext) data r W k, largest_lag (mc_lags (mo_cfg o)) (nr data) -> good_draws (mo_rng o) -> (0 < mc_memory (mo_cfg o))%nat ->
  comp_count (mo_n_components o) (nc data) k -> (2 <= k)%nat -> mtd_transform fuel o data = Ok (r, W) ->
  (exists m, mc_max_iterations (mo_cfg o) = PInt (Z.of_nat m) /\ nan_outcome m (mr_cost r) (mr_n_iter r) (mr_log r) (mr_warned r))
  /\ nr W = nr data /\ nc W = k /\ forall i, (i < nr data)%nat -> has_successor (mc_lags (mo_cfg o)) (nr data) i -> row_zero W i.
Proof.
  intros fuel o data r W k HL HG HM HC Hk H. apply comp_count_resolve in HC. unfold mtd_transform in H. apply bind_ok in H. destruct H as (r0 & E0 & H).
  destruct (mtd_run_edge _ _ _ _ _ _ _ _ _ _ _ _ _ HL HG HM HC Hk E0) as (w & m & t & D & W0 & ow0 & Ts0 & g & A3 & A4 & A5 & A6 & A7 & A8 & I & Z & P). destruct I.
  rewrite A8 in H. cbn [mo_ws] in H. injection H as <- <-. split; [exists m; split; assumption|]. split; [assumption|]. split; [assumption|].
  intros i Hi HS j Hj. apply (Z eq_refl); [exact Hi|lia|apply succ_row_of, HS].
Qed.
Print Assumptions C87_mtd_transform.

Definition demo_edge_data : mat ext := mkmat 2 2 [[Fin 1; Fin 2]; [Fin 5; Fin 6]].
Lemma demo_edge_lag : largest_lag [1; 2]%nat (nr demo_edge_data).
Proof. split; [right; left; reflexivity|]. intros l [<-|[<-|[]]]; cbn; lia. Qed.
(** two samples of finite data, lags 1 and 2: the first sample gets zero weights, the model is all zero *)
Example C87_mtd_example : forall fuel, exists r W w, mtd_fit_transform fuel demo_mtd demo_edge_data None None None None true true true None = Ok (r, W)
  /\ mr_cost r = NaN /\ mr_n_iter r = 19%nat /\ mr_warned r = false /\ row_zero W 0 /\ mo_ws (mr_obj r) = Some w /\ m_order_weights w = [Fin 0; Fin 0].
Proof.
  intros fuel. destruct (C87_mtd_fit fuel demo_mtd demo_edge_data None None None None 2 20 (Fin (1/1000000)) demo_edge_lag demo_draws_good) as (r & W & w & H); try (cbn; lia); try reflexivity.
  - left. reflexivity.
  - exact demo_tol.
  - left. reflexivity.
  - destruct H as (H1 & (C1 & C2 & C3 & C4) & H2 & H3 & H4 & H5 & H6 & _). exists r, W, w. repeat (split; [first [assumption | lia]|]). split.
    + apply H4; [cbn; lia|]. exists 1%nat. split; [left; reflexivity|cbn; lia].
    + split; [exact H5|exact H6].
Qed.

(** ** reduced-order model *)
(** the coding is kept, and the fit of the transition model that follows returns zeros *)
Theorem C87_crom_fit : forall fuel (o : crom ext) data Din Win ud uw kw rg W k, Forall (fun z => (1 <= z)%Z) (co_lags o) -> largest_lag (map Z.to_nat (co_lags o)) (nr data) ->
  good_draws (go_rng (co_gpnh o)) -> (0 < gc_memory (go_cfg (co_gpnh o)))%nat -> comp_count (go_n_components (co_gpnh o)) (nc data) k -> (2 <= k)%nat ->
  fit_transform fuel (co_gpnh o) data Din Win ud uw kw = Ok (rg, W) ->
  exists r m ow Ts, crom_fit_transform fuel o data Din Win ud uw kw = Ok (r, W) /\ cr_gpnh r = rg
    /\ gc_max_iterations (go_cfg (co_gpnh o)) = PInt (Z.of_nat m) /\ S (cr_n_iter r) = m /\ cr_log r = repeat NaN (S m)
    /\ co_parameters (cr_obj r) = Some (ow, Ts) /\ zero_vector (length (co_lags o)) ow /\ zero_stack (length (co_lags o)) k Ts
    /\ co_lags (cr_obj r) = co_lags o /\ go_cfg (co_gpnh (cr_obj r)) = go_cfg (co_gpnh o).
Proof.
  intros fuel o data Din Win ud uw kw rg W k HP HL HG HM HC Hk H. apply comp_count_resolve in HC.
  destruct (gpnh_weights_shape _ _ _ _ _ _ _ _ _ _ _ HG H HC) as (W1 & W2 & HG').
  unfold crom_fit_transform. rewrite H. cbn [bind]. pose proof H as E'. apply fit_transform_inv in E'. destruct E' as (k' & m & t & D & W0 & g0 & w2 & A1 & A2 & A3 & A4 & A5 & A6 & A7 & A8 & _ & A9).
  rewrite HC in A1. injection A1 as A1. apply Nat2Z.inj in A1. subst k'.
  rewrite A8. cbn [go_cfg go_n_components go_rng]. rewrite A3, (check_params_total k m _ t) by assumption. cbn [bind]. rewrite A8 in HG'. cbn [go_rng] in HG'.
  set (c := crom_cfg (go_cfg (co_gpnh o)) (co_lags o)). assert (Lp : n_lags c = length (co_lags o)) by (unfold n_lags, c; cbn; apply map_length).
  destruct (cfit W (nr data) k c fuel W1 W2 Hk) with (tol := t) (m := m) (g := g0) as (w & g' & E & Z1 & Z2); try assumption.
  - apply largest_max. exact HL.
  - rewrite Lp. destruct HL as (HL & _). destruct (co_lags o); [contradiction|cbn; lia].
  - rewrite E. cbn [bind]. eexists _, m, (cw_order_weights w), (cw_transition_matrices w). split; [reflexivity|]. cbn [cr_gpnh cr_n_iter cr_log cr_obj co_parameters co_lags co_gpnh set_rng go_cfg].
    rewrite Lp in Z1, Z2. split; [reflexivity|]. split; [reflexivity|]. split; [lia|]. repeat (split; [assumption||reflexivity|]). reflexivity.
Qed.
Print Assumptions C87_crom_fit.
(** every forecast of such a model is the zero vector *)
Theorem C87_crom_forecast : forall fuel (o : crom ext) data h o' r Y W w ow Ts k, Forall (fun z => (1 <= z)%Z) (co_lags o) -> co_lags o <> [] ->
  co_parameters o = Some (ow, Ts) -> zero_vector (length (co_lags o)) ow -> zero_stack (length (co_lags o)) k Ts ->
  crom_predict fuel o data h = Ok (o', r, Y) -> (0 < h)%Z ->
  transform fuel (co_gpnh o) data = Ok (r, W) -> nc W = k -> all_real W -> go_ws (gr_obj r) = Some w -> all_real (w_S w) ->
  nr Y = nr W /\ forall i L, largest_lag (map Z.to_nat (co_lags o)) L -> (L <= S i)%nat -> (i < nr Y)%nat -> row_zero Y i.
Proof.
  intros fuel o data h o' r Y W w ow Ts k HP HN EP Z1 Z2 H Hh ET EW HW Ew HS. apply crom_predict_inv in H.
  destruct H as (W' & w' & E1 & _ & E3 & E4 & PW & -> & [[? _]|(_ & _ & ow' & Ts' & E5 & ->)]); [lia|].
  rewrite ET in E1. injection E1 as <-. rewrite Ew in E3. injection E3 as <-. rewrite EP in E5. injection E5 as <- <-. split; [reflexivity|].
  intros i L HL Hi1 Hi2 j Hj. cbn [nr nc mmul mbuild] in Hi2, Hj. set (c := crom_cfg (go_cfg (co_gpnh o)) (co_lags o)) in *.
  assert (Lp : n_lags c = length (co_lags o)) by (unfold n_lags, c; cbn; apply map_length). pose proof (largest_max _ _ HL) as HM. change (max_lag c = L) in HM.
  assert (FP : Forall (fun l => (1 <= l)%nat) (mc_lags c)).
  { apply Forall_forall. intros l Hl. cbn in Hl. apply in_map_iff in Hl. destruct Hl as (z & <- & Hz). rewrite Forall_forall in HP. specialize (HP z Hz). lia. }
  assert (PL : (0 < max_lag c)%nat). { rewrite HM. destruct HL as (HL & _). rewrite Forall_forall in FP. specialize (FP L HL). lia. }
  unfold mmul. rewrite cell_mbuild by assumption. cbn [nc mtd_predict_weights mbuild]. rewrite EW.
  assert (V : forall q, (q <= k)%nat -> @nsum ext Num_E q (fun l => nmul (mget (mtd_predict_weights c ow Ts W h) i l) (mget (w_S w) l j)) = Fin 0); [|apply V; lia].
  induction q as [|q IHq]; intros Hq; [reflexivity|]. cbn [nsum]. rewrite IHq by lia. rewrite (mget_entry (mtd_predict_weights c ow Ts W h)). rewrite (zero_predict c k) by (rewrite ?Lp; try assumption; lia).
  rewrite (mget_entry (w_S w)). destruct (HS q j) as (x & ->); [lia|exact Hj|]. cbn. f_equal. ring.
Qed.
Print Assumptions C87_crom_forecast.

(** two samples of finite data and lags 1 and 2, given dictionary and weights left as they are *)
Definition demo_edge_W : mat ext := mkmat 2 2 [[Fin 1; Fin 0]; [Fin 0; Fin 1]].
Definition demo_crom (p : option (list ext * list (mat ext))) : crom ext :=
  mk_crom (mk_gpnh (mk_gpnh_cfg (Fin 0) InitCustom (PFloat (Fin (1/1000000))) (PInt 1) demo_ls 10 true) (PInt 2) demo_draws None None None None None) [1; 2]%Z p.
Lemma demo_crom_coding fuel : exists rg W, fit_transform fuel (co_gpnh (demo_crom None)) demo_edge_data (Some demo_edge_data) (Some demo_edge_W) false false None = Ok (rg, W).
Proof.
  unfold fit_transform, gpnh_convex_coding. cbn [co_gpnh demo_crom go_cfg go_n_components resolve_components gc_max_iterations gc_tolerance]. cbv zeta.
  rewrite (check_params_total 2 1 _ (Fin (1/1000000))) by (try lia; try reflexivity; exact demo_tol). cbn [bind].
  assert (CI : choose_initial (mk_gpnh_cfg (Fin 0) InitCustom (PFloat (Fin (1/1000000))) (PInt 1) demo_ls 10 true) 2 demo_edge_data (Some demo_edge_data) (Some demo_edge_W) false false None demo_draws = Ok (demo_edge_data, demo_edge_W, demo_draws)).
  { assert (F1 : all_finite demo_edge_data = true).
    { unfold all_finite. apply forallb_forall. intros a Ha. apply forallb_forall. intros j Hj. apply in_seq in Ha, Hj. cbn in Ha, Hj. apply finite_E. destruct a as [|[|a]]; [..|lia]; destruct j as [|[|j]]; try lia; cbn; eauto. }
    assert (F2 : all_finite demo_edge_W = true).
    { unfold all_finite. apply forallb_forall. intros a Ha. apply forallb_forall. intros j Hj. apply in_seq in Ha, Hj. cbn in Ha, Hj. apply finite_E. destruct a as [|[|a]]; [..|lia]; destruct j as [|[|j]]; try lia; cbn; eauto. }
    unfold choose_initial. cbn [gc_init]. unfold check_init_weights, check_init_dictionary, check_array. rewrite F1, F2. cbn [bind]. unfold check_array_shape. cbn [nr nc demo_edge_W demo_edge_data Nat.eqb andb bind].
    assert (RS : check_unit_row_sums demo_edge_W = Ok tt); [|cbn [bind] in *; try rewrite RS; reflexivity].
    unfold check_unit_row_sums. assert (F3 : forallb isclose_one (tab (nr demo_edge_W) (fun i => nsum (nc demo_edge_W) (fun j => mget demo_edge_W i j))) = true); [|rewrite F3; reflexivity].
    assert (C1 : forall x, x = 1%R -> @isclose_one ext Num_E (Fin x) = true).
    { intros x ->. unfold isclose_one. cbn. rewrite Rabs_R1. replace (1 + - (1))%R with 0%R by ring. rewrite Rabs_R0. destruct (Req_EM_T 100000000 0); [lra|]. destruct (Req_EM_T 100000 0); [lra|]. cbn.
      unfold Rltb. destruct (Rlt_dec _ _) as [G|G]; [reflexivity|exfalso; lra]. }
    apply forallb_forall. intros x Hx. cbn in Hx. destruct Hx as [<-|[<-|[]]]; apply C1; ring. }
  cbn [go_rng]. rewrite CI. cbn [bind]. unfold gpnh_iterate, iterate. cbn [enabled app iterate_loop run_updates bind].
  match goal with |- context [if ?b then _ else _] => destruct b end; cbn [bind gr_obj go_ws]; eauto.
Qed.
Example C87_crom_example : forall fuel, exists r W Ts, crom_fit_transform fuel (demo_crom None) demo_edge_data (Some demo_edge_data) (Some demo_edge_W) false false None = Ok (r, W)
  /\ cr_log r = [NaN; NaN] /\ co_parameters (cr_obj r) = Some ([Fin 0; Fin 0], Ts) /\ zero_stack 2 2 Ts.
Proof.
  intros fuel. destruct (demo_crom_coding fuel) as (rg & W & E).
  destruct (C87_crom_fit fuel (demo_crom None) demo_edge_data (Some demo_edge_data) (Some demo_edge_W) false false None rg W 2) as (r & m & ow & Ts & H1 & _ & H2 & H3 & H4 & H5 & H6 & H7 & _);
    try exact demo_draws_good; try exact E; try (cbn; lia).
  - repeat constructor; lia.
  - exact demo_edge_lag.
  - left. reflexivity.
  - cbn in H2. injection H2 as H2. assert (Em : m = 1%nat) by lia. rewrite Em in H4. exists r, W, Ts. split; [exact H1|]. split; [exact H4|]. split; [|exact H7]. rewrite H5, H6. reflexivity.
Qed.
(** a forecast with such a model, here of two samples with NaN (their weights are known from C84) *)
Definition demo_edge_bad : mat ext := mkmat 2 2 [[NaN; Fin 2]; [NaN; Fin 6]].
Definition demo_crom_zero : crom ext :=
  mk_crom (mk_gpnh (go_cfg demo_gpnh) (PInt 2) demo_draws (Some (start_ws (go_cfg demo_gpnh) demo_edge_data demo_edge_W demo_edge_data)) None None None None) [1; 2]%Z
    (Some ([Fin 0; Fin 0], [mzeros 2 2; mzeros 2 2])).
Example C87_crom_forecast_example : forall fuel, exists o' r Y, crom_predict fuel demo_crom_zero demo_edge_bad 1 = Ok (o', r, Y) /\ nr Y = 2%nat /\ row_zero Y 1.
Proof.
  intros fuel. assert (RD : all_real demo_edge_data).
  { intros a j Ha Hj. cbn in Ha, Hj. destruct a as [|[|a]]; [..|lia]; destruct j as [|[|j]]; try lia; cbn; eauto. }
  edestruct (C84_gpnh_transform fuel (co_gpnh demo_crom_zero)) with (data := demo_edge_bad) (k := 2%nat) (m := 100%nat) as (r & W & H1 & H2 & H3 & H4 & H5);
    try exact demo_draws_good; try reflexivity; try (cbn; lia).
  - exists 0%nat, 0%nat. split; [cbn; lia|]. split; [cbn; lia|reflexivity].
  - intros a j Ha Hj. apply RD; assumption.
  - exact demo_tol.
  - left. reflexivity.
  - pose proof H1 as T. apply transform_inv in T. destruct T as (k & m & t & D & W0 & g & w2 & A1 & A2 & A3 & A4 & A5 & A6 & A7 & A8 & _ & A9).
    assert (RW : all_real W).
    { intros i j Hi Hj. exists 0%R. rewrite H3 in Hi. apply (H5 i 0%nat); [|exact Hj]. split; [exact Hi|]. split; [cbn; lia|]. cbn in Hi. destruct i as [|[|i]]; [reflexivity|reflexivity|lia]. }
    destruct (C23_transform_keeps_fit ext Num_E fuel (co_gpnh demo_crom_zero) demo_edge_bad r W H1) as (_ & _ & _ & _ & w1 & w' & K5 & K6 & K7).
    assert (SW : w_S w' = demo_edge_data) by (cbn in K5; injection K5 as <-; exact K7).
    assert (EP : exists o' Y, crom_predict fuel demo_crom_zero demo_edge_bad 1 = Ok (o', r, Y)).
    { unfold crom_predict, crom_transform. rewrite H1. cbn [bind Z.eqb co_parameters demo_crom_zero]. unfold check_max_lag. cbn [crom_cfg mc_lags co_lags demo_crom_zero map bind co_gpnh].
      unfold inverse_transform. rewrite K6. cbn [nc mtd_predict_weights mbuild]. rewrite H4, SW. cbn [nr demo_edge_data Nat.eqb bind]. eauto. }
    destruct EP as (o' & Y & EP). exists o', r, Y. split; [exact EP|].
    edestruct (C87_crom_forecast fuel demo_crom_zero demo_edge_bad 1 o' r Y W w' [Fin 0; Fin 0] [mzeros 2 2; mzeros 2 2] 2) as (Q1 & Q2); try exact EP; try exact H1; try exact RW; try assumption; try reflexivity; try lia.
    + repeat constructor; lia.
    + discriminate.
    + split; [reflexivity|]. assert (Z : nr (@mzeros ext Num_E 2 2) = 2%nat /\ nc (@mzeros ext Num_E 2 2) = 2%nat /\ all_zero (@mzeros ext Num_E 2 2)).
      { split; [reflexivity|]. split; [reflexivity|]. intros a Ha b Hb. apply cell_mbuild; assumption. }
      repeat constructor; apply Z.
    + rewrite SW. exact RD.
    + rewrite H3 in Q1. split; [exact Q1|]. apply (Q2 1%nat 2%nat); [exact demo_edge_lag|lia|rewrite Q1; cbn; lia].
Qed.
