(** C77: FEM-BV-VARX on integer data *)
From Coq Require Import List Arith ZArith Bool Reals Lra Lia.
From Verif Require Import Num Mat Py Lp M_random M_iter M_gpnh M_furthest M_fembv M_varx M_int Spec Spec_fembv Spec_varx Spec_int.
From Verif Require Import P_lin P_random P_iter P_mat P_gpnh_run P_furthest P_fembv P_fembv_upd P_fembv_run P_varx P_varx_run P_int P_int_varx.
From Verif Require Import Props_base Props_gpnh Props_fembv Props_varx.
Import ListNotations.
Local Open Scope R_scope.

Notation ivx lstsq inv memory := (int_varx_class toward_zero lstsq inv memory).

Lemma ivx_start lstsq inv memory c k old data ext weights init (g g' : rng R) w : lstsq_shape lstsq ->
  fembv_initialize (ivx lstsq inv memory) c k old data ext weights init g = Ok (w, g') ->
  iok memory k data ext (f_params w) /\ fembv_initialize_weights k (nr data - mem_max memory) weights init g = Ok (f_Gamma w, g')
  /\ int_varx_initialize toward_zero lstsq inv memory k data ext init old g = Ok (f_params w, g).
Proof.
  intros Hs H. apply fembv_initialize_inv in H. destruct H as (p & g1 & E1 & E2 & E3 & E4 & <- & _). cbn [int_varx_class cl_initialize cl_distance] in *.
  pose proof E1 as E1'. apply initialize_iok in E1'; [|exact Hs]. destruct E1' as [-> HI]. split; [exact HI|]. split; [|exact E1].
  destruct HI as (_ & EX & _). unfold int_varx_distance, mmap, varx_distance in E3. cbn [mbuild nr] in E3. rewrite EX in E3. exact E3.
Qed.

(** weights below 1 are stored as 0: a fit that updates the parameters does not return *)
Theorem C77_weights_lost : forall lstsq inv solver memory (o : fembv R (vparams R)) k data ext weights init uw r W,
  lstsq_shape lstsq -> (forall S, inv (mzeros (nc data) (nc data)) <> Ok S) ->
  comp_count (fo_n_components o) (nc data) k -> (k <= length memory)%nat ->
  ((2 <= k)%nat /\ (forall i, 0 < r_uniform (fo_rng o) i) /\ (init = InitCustom -> weights = None)
   \/ init = InitCustom /\ exists W0 i, weights = Some W0 /\ (i < k)%nat /\ forall t, Rabs (ent W0 t i) < 1) ->
  fembv_fit_transform (ivx lstsq inv memory) solver o data ext weights init true uw <> Ok (r, W).
Proof.
  intros lstsq inv solver memory o k data ext weights init uw r W Hs Hz Hc Hk Hw H.
  apply fembv_fit_inv in H. destruct H as (k' & m & t & w & g' & w' & A1 & A2 & A3 & A4 & A5 & A6 & A7 & A8 & A9 & ->).
  apply comp_count_resolve in Hc. rewrite Hc in A1. assert (k' = k) as -> by (injection A1; lia).
  apply ivx_start in A6; [|exact Hs]. destruct A6 as (I0 & EW & _).
  assert (SM : exists i, (i < k)%nat /\ forall t, (t < nr (f_Gamma w))%nat -> Rabs (ent (f_Gamma w) t i) < 1).
  { destruct Hw as [(K2 & Hg & Hi)|(-> & W0 & i & -> & Hi & HW)].
    - exists 0%nat. split; [lia|]. intros q Hq.
      assert (NG : nr (f_Gamma w) = (nr data - mem_max memory)%nat).
      { revert EW. unfold fembv_initialize_weights. generalize (f_Gamma w); intros G EW.
        assert (E : Ok (right_stochastic_matrix (nr data - mem_max memory) k (fo_rng o)) = Ok (G, g')).
        { destruct init, weights; try exact EW; specialize (Hi eq_refl); discriminate. }
        assert (E' : fst (right_stochastic_matrix (nr data - mem_max memory) k (fo_rng o)) = G) by (revert E; generalize (right_stochastic_matrix (nr data - mem_max memory) k (fo_rng o)); intros pp E; injection E as ->; reflexivity).
        rewrite <- E'. reflexivity. }
      rewrite NG in Hq. destruct (default_weights_positive _ _ _ _ _ _ _ Hg Hi EW q 0%nat Hq ltac:(lia)) as [P1 P2]. specialize (P2 ltac:(lia)). rewrite Rabs_pos_eq; lra.
    - exists i. split; [exact Hi|]. intros q _. unfold fembv_initialize_weights in EW. apply bind_ok in EW. destruct EW as (W' & E & EW). injection EW as <- _.
      apply check_init_weights_ok_inv in E. destruct E as (E & _). injection E as <-. apply HW. }
  destruct SM as (i & Hi & SM). apply fembv_iterate_path in A7; [|exact A4]. destruct A7 as (N' & f & h & F0 & F1 & F2 & F3 & F4).
  destruct (F3 0%nat ltac:(lia)) as (S1 & _). rewrite F0 in S1. cbn [half_step] in S1. unfold fembv_update_parameters in S1. apply bind_ok in S1. destruct S1 as (s & E1 & _).
  cbn [int_varx_class cl_update] in E1. destruct I0 as (HS & _ & _ & _ & HM). apply (int_update_spec _ _ _ _ _ k) in E1; try assumption. destruct E1 as (_ & _ & UP).
  destruct (UP i Hi) as (m1 & m2 & M1 & M2 & M3 & _). destruct (HM i Hi) as (m0 & M0 & IM & _). rewrite M1 in M0. injection M0 as <-.
  apply (zero_weights_covariance lstsq inv memory data ext i) in M3; [destruct M3 as [S ES]; exact (Hz S ES) | exact IM |].
  intros q. unfold int_component_weights.
  rewrite skipn_app, repeat_length, Nat.sub_diag, (skipn_all2 (repeat _ _)) by (rewrite repeat_length; apply le_n). cbn [app skipn]. unfold at_.
  destruct (le_lt_dec (nr (f_Gamma w)) q) as [O|I]; [apply nth_overflow; rewrite map_length, length_mcol; exact O|].
  rewrite <- tz_0 at 1. rewrite map_nth. apply tz_small. unfold mcol. rewrite nth_tab by exact I. rewrite mget_ent. apply SM. exact I.
Qed.
Print Assumptions C77_weights_lost.

(** 0/1 data without memory: the errors are below 1, so the residuals are stored as 0 and the initial
    guess already fails.  (With one sample the code divides 0 by 0, hence the assumption on nr.) *)
Theorem C77_binary_data : forall lstsq inv solver memory (o : fembv R (vparams R)) k data weights init up uw i r W,
  lstsq_shape lstsq -> lstsq_minimises lstsq -> (forall S, inv (mzeros (nc data) (nc data)) <> Ok S) ->
  comp_count (fo_n_components o) (nc data) k -> (k <= length memory)%nat -> (i < k)%nat -> nth i memory 0%Z = 0%Z ->
  (2 <= nr data - mem_max memory)%nat ->
  (forall t f, (t < nr data)%nat -> (f < nc data)%nat -> ent data t f = 0 \/ ent data t f = 1) ->
  fembv_fit_transform (ivx lstsq inv memory) solver o data None weights init up uw <> Ok (r, W).
Proof.
  intros lstsq inv solver memory o k data weights init up uw i r W Hs Hm Hz Hc Hk Hi Hmem Hn Hb H.
  apply fembv_fit_inv in H. destruct H as (k' & m & t & w & g' & w' & A1 & A2 & A3 & A4 & A5 & A6 & _).
  apply comp_count_resolve in Hc. rewrite Hc in A1. assert (k' = k) as -> by (injection A1; lia).
  apply ivx_start in A6; [|exact Hs]. destruct A6 as (_ & _ & E). apply int_initialize_inv in E. destruct E as (_ & _ & _ & _ & _ & _ & E).
  destruct (E i Hi) as (m0 & m1 & E0 & Ef & _). pose proof (new_imodel memory data None i m0 E0) as IM.
  assert (M0 : mem_at memory i = 0%nat) by (unfold mem_at; rewrite Hmem; reflexivity).
  set (y := component_data memory data i) in *. assert (Ny : nr y = (nr data - mem_max memory)%nat).
  { unfold y. rewrite component_rows by lia. rewrite M0. lia. }
  assert (Cy : nc y = nc data) by reflexivity.
  assert (By : forall t f, (t < nr y)%nat -> (f < nc y)%nat -> ent y t f = 0 \/ ent y t f = 1).
  { intros q f Hq Hf. unfold y, component_data. rewrite ent_mslice; [apply Hb|  |]; try (rewrite Ny in Hq; unfold mem_max in *; rewrite Hmem in *; rewrite ?Z.sub_0_r, ?Nat.min_id in *; lia). }
  pose proof Ef as Ef'. apply int_fit_float in Ef'. destruct Ef' as (mf & Ff & _ & _ & _ & _ & ER & _).
  pose proof IM as [(l1 & l2 & l3 & l4) L]. rewrite M0 in L. fold y in L, l3.
  destruct (fit_inv lstsq _ Hs _ _ _ _ _ _ _ L (fun _ => eq_refl) Ff) as (B & S & _ & SB & (a1 & a2 & a3 & a4 & _) & _ & EE & _).
  unfold errors_of in EE. rewrite a1, a2, a3, a4 in EE. cbn [Nat.max option_map] in EE.
  assert (EE' : forall t f, (t < nr y)%nat -> (f < nc y)%nat -> ent (vx_residuals mf) t f = ent y t f - ent B 0 f).
  { intros q f Hq Hf. specialize (EE q f). rewrite Nat.sub_0_r in EE. cbn [Nat.add] in EE. rewrite EE by assumption. unfold design_row. cbn [Sum]. ring. }
  assert (Mean : forall f, (f < nc y)%nat -> ent B 0 f = Sum (nr y) (fun t => ent y t f) / INR (nr y)).
  { intros f0 Hf0. apply (minimiser_mean (nr y) (fun t => ent y t f0)); [lia|].
    set (c := Sum (nr y) (fun t => ent y t f0) / INR (nr y)). 
    pose proof (fit_minimises lstsq _ _ None mf y 0 None 0 Hs Hm L (fun _ => eq_refl) ltac:(discriminate) Ff (fun _ f => if Nat.eqb f f0 then c else ent B 0 f)) as FM.
    unfold weighted_error in FM. cbn [Nat.max weight_at Nat.add] in FM. rewrite Nat.sub_0_r in FM.
    assert (G : forall F : nat -> nat -> R, Sum (nr y) (fun t => 1 * Sum (nc y) (fun f => F t f)) = Sum (nc y) (fun f => Sum (nr y) (fun t => F t f))).
    { intros F. rewrite Sum_swap. apply Sum_ext; intros; ring. }
    rewrite !G in FM. clear G.
    set (P f := Sum (nr y) (fun t => (ent y t f - ent B 0 f) ^ 2)). set (Q f := if Nat.eqb f f0 then Sum (nr y) (fun t => (ent y t f - c) ^ 2) else P f).
    assert (FM' : Sum (nc y) P <= Sum (nc y) Q).
    { refine (Rle_trans _ _ _ (Req_le _ _ _) (Rle_trans _ _ _ FM (Req_le _ _ _))).
      - apply Sum_ext; intros f Hf. apply Sum_ext; intros q Hq. rewrite EE' by assumption. ring.
      - apply Sum_ext; intros f Hf. unfold Q, P. destruct (Nat.eqb_spec f f0); apply Sum_ext; intros q Hq; unfold design_row; cbn [Sum]; f_equal; [destruct (Nat.eqb_spec f f0); [ring | contradiction] | destruct (Nat.eqb_spec f f0); [contradiction | ring]]. }
    assert (D : P f0 <= Q f0).
    { destruct (Rle_dec (P f0) (Q f0)) as [|Nle]; [assumption|]. exfalso. assert (Sum (nc y) Q < Sum (nc y) P); [|lra].
      apply (Sum_lt (nc y) Q P f0); [|exact Hf0 | lra]. intros f Hf. unfold Q at 1. destruct (Nat.eqb_spec f f0) as [->|]; [|lra]. unfold Q in Nle. rewrite Nat.eqb_refl in Nle. lra. }
    unfold Q, P in D. rewrite Nat.eqb_refl in D. exact D. }
  apply (zero_residuals_covariance lstsq inv memory data None i) in Ef; [destruct Ef as [S' ES]; exact (Hz S' ES) | exact IM |].
  intros q f Hq Hf. rewrite M0 in *. fold y in Hq. rewrite Nat.sub_0_r in Hq. cbn [Nat.add]. rewrite ER, ent_mbuild by (rewrite l3; assumption). rewrite l1, l2. cbn [Nat.max Nat.ltb Nat.leb].
  rewrite mget_ent, EE', Mean by assumption. apply tz_small. apply (binary_mean_close (nr y) (fun t => ent y t f)); [exact Hq|]. intros j Hj. apply By; assumption.
Qed.
Print Assumptions C77_binary_data.

(** a fit that returns reports truncated coefficients; its residuals are the truncated errors of the
    coefficients of the local models, with truncated external factors *)
Theorem C77_reported : forall lstsq inv solver memory (o : fembv R (vparams R)) k data ext weights init uw r W,
  lstsq_shape lstsq -> comp_count (fo_n_components o) (nc data) k -> (k <= length memory)%nat ->
  fembv_fit_transform (ivx lstsq inv memory) solver o data ext weights init true uw = Ok (r, W) ->
  exists s, option_map f_params (fo_ws (fr_obj r)) = Some s /\
  forall i, (i < k)%nat ->
    let p := Z.to_nat (nth i memory 0%Z) in
    let y := mslice (Z.to_nat (zmax memory - nth i memory 0%Z)) (nr data) data in
    exists m, nth_error (vp_models s) i = Some m
    /\ (forall f, (f < nc data)%nat -> ent (vp_mu s) i f = toward_zero (at_ (vx_mu m) f))
    /\ (forall A, vp_A s = Some A -> forall tau a b, (tau < p)%nat ->
          ent (nth tau (nth i A []) no_mat) a b = toward_zero (ent (nth tau (reported_list (vx_A m)) no_mat) a b))
    /\ (forall B0, vp_B0 s = Some B0 -> ext <> None -> forall a b, ent (nth i B0 no_mat) a b = toward_zero (ent (reported_mat (vx_B0 m)) a b))
    /\ (forall t f, (t < nr y)%nat -> (f < nc data)%nat ->
          ent (vx_residuals m) t f = if Nat.ltb t p then 0
            else toward_zero (ent y t f - varx_forecast p 0 y (option_map (mmap toward_zero) ext)
                                (vx_mu m) (reported_list (vx_A m)) (reported_list (vx_B m)) (reported_mat (vx_B0 m)) t f)).
Proof.
  intros lstsq inv solver memory o k data ext weights init uw r W Hs Hc Hk H.
  apply fembv_fit_inv in H. destruct H as (k' & m & t & w & g' & w' & A1 & A2 & A3 & A4 & A5 & A6 & A7 & A8 & A9 & ->).
  apply comp_count_resolve in Hc. rewrite Hc in A1. assert (k' = k) as -> by (injection A1; lia).
  apply ivx_start in A6; [|exact Hs]. destruct A6 as (I0 & _ & _). rewrite A8. cbn [fo_ws option_map]. exists (f_params w'). split; [reflexivity|].
  apply fembv_iterate_path in A7; [|exact A4]. destruct A7 as (N' & f & h & F0 & F1 & F2 & F3 & _).
  pose proof (F2 (fr_n_iter r) ltac:(lia)) as EA.
  assert (I1 : iok memory k data ext (f_params (f (fr_n_iter r)))).
  { eapply after_params_inv; [|exact I0 | exact EA]. intros G q q' HI E. cbn [int_varx_class cl_update] in E. eapply update_iok; eassumption. }
  destruct (F3 (fr_n_iter r) (le_n _)) as (S1 & S2 & _). rewrite F1 in S2. apply other_params in S2. cbn [half_step] in S1. unfold fembv_update_parameters in S1. apply bind_ok in S1.
  destruct S1 as (s & E1 & S1). injection S1 as S1. rewrite <- S1 in S2. cbn [f_params] in S2. cbn [int_varx_class cl_update] in E1.
  destruct (update_iok lstsq inv memory k data ext Hs Hk _ _ _ I1 E1) as [_ RP]. rewrite S2. intros i Hi. destruct (RP i Hi) as (mi & M1 & M2 & M3 & M4 & M5).
  exists mi. split; [exact M1|]. split; [exact M3|]. split; [|split; [|exact M2]].
  - intros A EA0 tau a b Ht. rewrite <- M4 by exact Ht. unfold A_of. rewrite EA0. reflexivity.
  - intros B0 EB0 Hu a b. rewrite <- M5 by exact Hu. unfold B0_of. rewrite EB0. reflexivity.
Qed.
Print Assumptions C77_reported.

(** one component without memory, fitted to the integers 0, 1, 4 *)
Definition ei_inv (S : mat R) : res (mat R) := if Req_EM_T (ent S 0 0) 0 then Raise LinAlgError else Ok S.
Definition ei_data : mat R := mkmat 3 1 [[0]; [1]; [4]].
Definition ei_ones : mat R := mkmat 3 1 [[1]; [1]; [1]].
Definition ei_m0 : varx R := mk_varx 0 0 ei_data None ei_ones (mzeros 3 1) [0] None None None (mzeros 1 1) None.
Definition ei_m1 : varx R := mk_varx 0 0 ei_data None ei_ones (mkmat 3 1 [[-1]; [0]; [2]]) [5 / 3] None None None (mkmat 1 1 [[5 / 2]]) (Some (mkmat 1 1 [[5 / 2]])).
Definition ei_cfg : fembv_cfg R := mk_fembv_cfg None InitNone (PInt 1) (PInt 0) false.
Definition ei_obj : fembv R (vparams R) := fembv_new ei_cfg (PInt 1) ex_rng.
Ltac three i := let i' := fresh in destruct i as [|[|[|i']]]; [| | |exfalso; lia].
Lemma ei_data_mat : is_mat 3 1 ei_data.
Proof. apply is_mat_wf. split; [reflexivity|]. split; [reflexivity|]. split; [reflexivity|]. intros r [<-|[<-|[<-|[]]]]; reflexivity. Qed.
Lemma ei_ones_mat : is_mat 3 1 ei_ones.
Proof. apply is_mat_wf. split; [reflexivity|]. split; [reflexivity|]. split; [reflexivity|]. intros r [<-|[<-|[<-|[]]]]; reflexivity. Qed.
Lemma mat11 (a b : R) : a = b -> mkmat 1 1 [[a]] = mkmat 1 1 [[b]].
Proof. intros ->. reflexivity. Qed.
Lemma ei_lstsq (v z y : mat R) : nr v = 3%nat -> nc v = 1%nat -> nr y = 3%nat -> nc y = 1%nat -> nc z = 1%nat ->
  (forall t, (t < 3)%nat -> ent z t 0 = 1 /\ ent y t 0 = ent ei_data t 0) -> ev_lstsq z y = Ok (mkmat 1 1 [[5 / 3]]).
Proof.
  intros _ _ Hy Cy Cz H. unfold ev_lstsq. rewrite Cz, Hy, Cy. f_equal. change (mkmat 1 1 [[(fun f => Sum 3 (fun t => ent z t 0 * ent y t f) / Sum 3 (fun t => ent z t 0 * ent z t 0)) 0%nat]] = mkmat 1 1 [[5 / 3]]).
  apply mat11. cbn [Sum]. destruct (H 0%nat ltac:(lia)) as [-> ->], (H 1%nat ltac:(lia)) as [-> ->], (H 2%nat ltac:(lia)) as [-> ->]. unfold ent; cbn. field.
Qed.
Lemma ei_tz0 : toward_zero (0 - 5 / 3) = -1.
Proof. rewrite tz_neg by lra. rewrite (tz_unique _ 1) by lra. lra. Qed.
Lemma ei_tz1 : toward_zero (1 - 5 / 3) = 0.
Proof. apply tz_small. rewrite Rabs_left; lra. Qed.
Lemma ei_tz2 : toward_zero (4 - 5 / 3) = 2.
Proof. apply (tz_unique _ 2); lra. Qed.
Lemma ei_fit m w : vx_p m = 0%nat -> vx_s m = 0%nat -> vx_y m = ei_data -> vx_u m = None -> vx_z m = ei_ones -> vx_A m = None -> vx_B m = None -> vx_B0 m = None ->
  (w = None \/ w = Some [1; 1; 1]) -> int_varx_fit toward_zero ev_lstsq ei_inv m w = Ok ei_m1.
Proof.
  intros H1 H2 H3 H4 H5 H6 H7 H8 Hw. unfold int_varx_fit.
  assert (EP : varx_params ev_lstsq m w = Ok (mkmat 1 1 [[5 / 3]])).
  { unfold varx_params. rewrite H1, H2, H3, H5. cbn [Nat.max]. destruct Hw as [-> | ->].
    - apply (ei_lstsq ei_ones); try reflexivity. intros t Ht. split; [three t; reflexivity|]. rewrite ent_mslice by (cbn; lia). reflexivity.
    - cbn [length ei_data nr Nat.eqb negb]. apply (ei_lstsq ei_ones); try reflexivity. intros t Ht. rewrite !ent_mul_rows by (cbn; lia). rewrite ent_mslice by (cbn; lia).
      split; three t; unfold at_, ent; cbn; rewrite sqrt_1; lra. }
  rewrite EP. cbn [bind]. rewrite H1, H2, H3, H4, H5, H6, H7, H8. change (Nat.ltb 0 0) with false. cbn [Nat.max fst snd ei_data nr nc].
  set (res := mbuild 3 1 _). assert (ER : res = mkmat 3 1 [[-1]; [0]; [2]]).
  { apply (mat_ext_R 3 1); [apply is_mat_mbuild | apply is_mat_wf; split; [reflexivity | split; [reflexivity | split; [reflexivity | intros r [<-|[<-|[<-|[]]]]; reflexivity]]]|].
    intros t f Ht Hf. assert (f = 0%nat) as -> by lia. unfold res. rewrite ent_mbuild by lia. change (Nat.ltb t 0) with false. cbv iota. rewrite Nat.sub_0_r.
    assert (E1 : mget (mmul ei_ones (mkmat 1 1 [[5 / 3]])) t 0 = 5 / 3).
    { rewrite mget_ent, ent_mmul by (cbn; lia). cbn [ei_ones nc Sum]. three t; unfold ent; cbn; lra. }
    rewrite E1, mget_ent. numR. three t; unfold ent at 1; cbn; [exact ei_tz0 | exact ei_tz1 | exact ei_tz2]. }
  rewrite ER. clear ER res.
  assert (ES : varx_covariance m w (mkmat 3 1 [[-1]; [0]; [2]]) = mkmat 1 1 [[5 / 2]]).
  { unfold varx_covariance. rewrite H1, H2, H3, H4. cbn [Nat.max ei_data nr nc Nat.mul]. destruct Hw as [-> | ->].
    - change (mkmat 1 1 [[mget (mmul (mtr (mslice 0 3 (mkmat 3 1 [[-1]; [0]; [2]]))) (mslice 0 3 (mkmat 3 1 [[-1]; [0]; [2]]))) 0 0 / IZR 2]] = mkmat 1 1 [[5 / 2]]).
      apply mat11. rewrite mget_ent, ent_mmul by (cbn; lia). change (nc (mtr (mslice 0 3 (mkmat 3 1 [[-1]; [0]; [2]])))) with 3%nat. cbn [Sum]. rewrite !ent_mtr by (cbn; lia). rewrite !ent_mslice by (cbn; lia).
      unfold ent; cbn. field.
    - set (wr := mul_rows _ _). change (mkmat 1 1 [[mget (mmul (mtr wr) wr) 0 0 / (vsum [1; 1; 1] - 1)]] = mkmat 1 1 [[5 / 2]]).
      apply mat11. rewrite mget_ent, ent_mmul by (cbn; lia). change (nc (mtr wr)) with 3%nat. cbn [Sum]. rewrite !ent_mtr by (cbn; lia). unfold wr. rewrite !ent_mul_rows by (cbn; lia). rewrite !ent_mslice by (cbn; lia).
      unfold vsum. rewrite nsum_Sum. cbn [length Sum]. unfold ent, at_, vget; cbn. rewrite !sqrt_1. field. }
  rewrite ES. unfold ei_inv at 1. destruct (Req_EM_T _ 0) as [E|_]; [unfold ent in E; cbn in E; lra|]. reflexivity.
Qed.
Lemma ei_new : int_varx_new toward_zero (component_data [0%Z] ei_data 0) (PInt 0) None (PInt 0) = Ok ei_m0.
Proof. reflexivity. Qed.
Definition ei_s (mu : R) : vparams R := mk_vparams ei_data None [ei_m1] (mkmat 1 1 [[mu]]) None None.
Lemma ei_initialize old (g : rng R) : (forall o, old = Some o -> vp_A o = None /\ vp_B0 o = None) ->
  int_varx_initialize toward_zero ev_lstsq ei_inv [0%Z] 1 ei_data None InitCustom old g = Ok (ei_s 0, g).
Proof.
  intros Ho. unfold int_varx_initialize. cbn [bind seq map_res].
  change (mslice _ (nr ei_data) ei_data) with (component_data [0%Z] ei_data 0). change (nth 0 [0%Z] 0%Z) with 0%Z. rewrite ei_new. cbn [bind map_res].
  rewrite (ei_fit ei_m0 None) by (auto; reflexivity). cbn [bind].
  match goal with |- (if negb ?b then _ else _) = _ => assert (Eb : b = true) by reflexivity; rewrite Eb end. cbn [negb zmax fold_left Z.ltb Z.compare].
  assert (E : match old with Some o => vp_A o | None => None end = None /\ match old with Some o => vp_B0 o | None => None end = None) by (destruct old as [o|]; [apply Ho; reflexivity | split; reflexivity]).
  destruct E as [-> ->]. reflexivity.
Qed.
Lemma ei_mcol : mcol ei_ones 0 = [1; 1; 1]. Proof. reflexivity. Qed.
Lemma tz_1 : toward_zero 1 = 1. Proof. apply (tz_IZR 1). Qed.
Lemma ei_update mu : int_varx_update toward_zero ev_lstsq ei_inv [0%Z] ei_ones (ei_s mu) = Ok (ei_s 1).
Proof.
  unfold int_varx_update. cbn [ei_s vp_models length seq int_varx_update_from]. unfold int_varx_update_one. change (vp_models (ei_s mu)) with [ei_m1]. cbn [nth_error]. change (Z.to_nat (nth 0 [0%Z] 0%Z)) with 0%nat. cbn [repeat app].
  rewrite ei_mcol. cbn [map]. rewrite tz_1. rewrite (ei_fit ei_m1 (Some [1; 1; 1])) by (auto; reflexivity). cbn [bind Nat.ltb Nat.leb vp_A vp_u vp_B0 ei_s set_nth vp_X]. f_equal. unfold ei_s. f_equal.
  change (mkmat 1 1 [[toward_zero (5 / 3)]] = mkmat 1 1 [[1]]). apply mat11. apply (tz_unique _ 1); lra.
Qed.
(** the mean of the data is 5/3, the reported intercept 1, the reported residuals -1, 0 and 2 *)
Example C77_example : lstsq_shape ev_lstsq /\ comp_count (fo_n_components ei_obj) (nc ei_data) 1 /\
  exists r W, fembv_fit_transform (ivx ev_lstsq ei_inv [0%Z]) (fun _ _ => LpFailed) ei_obj ei_data None (Some ei_ones) InitCustom true false = Ok (r, W)
    /\ option_map f_params (fo_ws (fr_obj r)) = Some (ei_s 1) /\ vp_models (ei_s 1) = [ei_m1]
    /\ ent (vp_mu (ei_s 1)) 0 0 = 1 /\ vx_mu ei_m1 = [5 / 3] /\ vx_residuals ei_m1 = mkmat 3 1 [[-1]; [0]; [2]].
Proof.
  split; [exact ev_lstsq_shape|]. split; [left; reflexivity|].
  assert (EX : exists r W, fembv_fit_transform (ivx ev_lstsq ei_inv [0%Z]) (fun _ _ => LpFailed) ei_obj ei_data None (Some ei_ones) InitCustom true false = Ok (r, W)
    /\ option_map f_params (fo_ws (fr_obj r)) = Some (ei_s 1)).
  { unfold fembv_fit_transform, fembv_fit, ei_obj, fembv_new. cbn [fo_cfg fo_n_components fo_rng fo_ws ei_cfg fc_max_iterations fc_tolerance option_map resolve_components].
    change (@PInt R 1) with (@PInt R (Z.of_nat 1)). rewrite (check_params_total 1 1 (PInt 0) (nofZ 0)); [|lia|lia|left; exists 0%Z; repeat split; lia]. cbn [bind].
    unfold fembv_initialize. cbn [int_varx_class cl_initialize]. rewrite ei_initialize by discriminate. cbn [bind].
    set (D := cl_distance _ _). assert (ED : nr D = 3%nat /\ nc D = 1%nat) by (split; reflexivity). destruct ED as [-> ->]. cbn [Nat.eqb negb].
    unfold fembv_initialize_weights. rewrite (check_init_weights_stochastic ei_ones 3 1 ei_ones_mat).
    2:{ intros i Hi. cbn [ei_ones nr] in Hi. split; [intros j Hj; cbn [ei_ones nc] in Hj; assert (j = 0%nat) as -> by lia; three i; unfold ent; cbn; lra | three i; unfold ent; cbn; lra]. }
    cbn [bind]. unfold initialize_constraints. cbn [Nat.leb bind].
    unfold fembv_iterate, iterate. cbn [Z.of_nat Pos.of_succ_nat enabled app iterate_loop run_updates]. unfold fembv_update_parameters. cbn [int_varx_class cl_update f_Gamma f_params]. rewrite ei_update. cbn [bind].
    match goal with |- context [fembv_bad ?a ?b ?c ?d ?e] => assert (Eb : fembv_bad a b c d e = false) by reflexivity; rewrite Eb; clear Eb end.
    cbn [bind]. match goal with |- context [if nltb ?a ?b then _ else _] => destruct (nltb a b) end; cbn [bind fo_ws fr_obj]; eexists _, _; split; reflexivity. }
  destruct EX as (r & W & E1 & E2). exists r, W. split; [exact E1|]. split; [exact E2|]. repeat split.
Qed.
(** hypotheses of the failing fits: two components without memory and 0/1 data *)
Example C77_example_fails :
  (forall S, ei_inv (mzeros 1 1) <> Ok S) /\ lstsq_shape ev_lstsq /\ lstsq_minimises ev_lstsq
  /\ (forall i, 0 < r_uniform ex_rng i)
  /\ (forall r W, fembv_fit_transform (ivx ev_lstsq ei_inv [0%Z; 1%Z]) ef_solver (fembv_new ef_cfg (PInt 2) ex_rng) ei_data None None InitRandom true true <> Ok (r, W))
  /\ (forall r W, fembv_fit_transform (ivx ev_lstsq ei_inv [0%Z; 0%Z]) ef_solver (fembv_new ef_cfg (PInt 2) ex_rng) ef_data None None InitRandom false true <> Ok (r, W)).
Proof.
  assert (Z : forall S, ei_inv (mzeros 1 1) <> Ok S).
  { intros S. unfold ei_inv. rewrite ent_mzeros. destruct (Req_EM_T 0 0); [discriminate | contradiction]. }
  assert (P : forall i, 0 < r_uniform ex_rng i) by (intros i; cbn [ex_rng r_uniform]; apply Rinv_0_lt_compat; pose proof (pos_INR i); lra).
  split; [exact Z|]. split; [exact ev_lstsq_shape|]. split; [exact ev_lstsq_minimises|]. split; [exact P|]. split; intros r W.
  - apply (C77_weights_lost ev_lstsq ei_inv ef_solver [0%Z; 1%Z] (fembv_new ef_cfg (PInt 2) ex_rng) 2); [exact ev_lstsq_shape | exact Z | left; reflexivity | cbn; lia|].
    left. split; [lia|]. split; [exact P | discriminate].
  - apply (C77_binary_data ev_lstsq ei_inv ef_solver [0%Z; 0%Z] (fembv_new ef_cfg (PInt 2) ex_rng) 2 ef_data None InitRandom false true 0%nat);
      [exact ev_lstsq_shape | exact ev_lstsq_minimises | exact Z | left; reflexivity | cbn; lia | lia | reflexivity | cbn; lia |].
    intros t f Ht Hf. cbn [ef_data nr nc] in Ht, Hf. assert (f = 0%nat) as -> by lia. two t; unfold ent; cbn; [left | right]; reflexivity.
Qed.
