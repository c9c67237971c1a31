(** C84: NaN in the data of a convex coding or of archetypal analysis is not reported.  The
    arithmetic is [Num_E]: exact, with the infinities and NaN, and NaN rules as in IEEE 754. *)
From Coq Require Import List Arith Lia ZArith Reals Lra Bool.
From Verif Require Import Num NumExt Mat Py Spec_nan M_simplex M_spg M_iter M_random M_furthest M_gpnh M_mtd M_aa.
From Verif Require Import P_lin P_simplex P_random P_gpnh_run P_aa_run P_mtd_run P_nan P_nan_gpnh P_nan_mtd P_nan_aa.
Import ListNotations.

Lemma random_dictionary_nan data k kw (g g' : rng ext) init D : has_nan data -> init = InitRandom \/ init = InitNone -> initialize_dictionary data k init kw g = Ok (D, g') ->
  forall a j, (a < k)%nat -> (j < nc data)%nat -> cell D a j = NaN.
Proof.
  intros (i & j & H1 & H2 & H3) HI H a b Ha Hb.
  assert (E : initialize_dictionary_random data k g = (D, g')) by (unfold initialize_dictionary in H; destruct HI; subst init; congruence).
  unfold initialize_dictionary_random in E. cbn [draw_normal_mat] in E.
  rewrite (msum_nan (mmap nabs data) i j) in E; [|exact H1|exact H2|].
  - injection E as <- _. rewrite mscale_entry by assumption. reflexivity.
  - rewrite <- mget_entry. unfold mmap. rewrite mget_mbuild by assumption. rewrite mget_entry, H3. reflexivity.
Qed.
Lemma check_dictionary_nan D r c : has_nan D -> @check_init_dictionary ext Num_E (Some D) r c = Raise ValueError.
Proof. intros (i & j & H). unfold check_init_dictionary, check_array. rewrite (all_finite_nan D i j H). reflexivity. Qed.
Lemma check_aa_dictionary_zero D r c : all_zero D -> (0 < nr D)%nat -> @check_init_aa_dictionary ext Num_E (Some D) r c = Raise ValueError.
Proof.
  intros Z HD. unfold check_init_aa_dictionary, check_array. destruct (all_finite D); [|reflexivity]. cbn [bind].
  unfold check_array_shape. destruct (andb _ _); [|reflexivity]. cbn [bind]. unfold check_unit_row_sums.
  assert (F : forallb isclose_one (tab (nr D) (fun i => nsum (nc D) (fun j => mget D i j))) = false); [|rewrite F; reflexivity].
  apply not_true_iff_false. intros F. rewrite forallb_forall in F. specialize (F (nsum (nc D) (fun j => mget D 0 j))).
  assert (S0 : forall m, (m <= nc D)%nat -> @nsum ext Num_E m (fun j => mget D 0 j) = Fin 0).
  { induction m as [|m IH]; intros Hm; [reflexivity|]. cbn [nsum]. rewrite IH by lia. rewrite mget_entry, Z by lia. cbn. f_equal. ring. }
  rewrite S0 in F by lia. assert (I : In (Fin 0) (tab (nr D) (fun i => nsum (nc D) (fun j => mget D i j)))).
  { rewrite <- (S0 (nc D)) by lia. unfold tab. apply in_map_iff. exists 0%nat. split; [reflexivity|]. apply in_seq. lia. }
  specialize (F I). unfold isclose_one in F. cbn in F. rewrite Rabs_R1 in F. replace (0 + - (1))%R with (-1)%R in F by ring. rewrite Rabs_left in F by lra.
  destruct (Req_EM_T 100000000 0); [lra|]. destruct (Req_EM_T 100000 0); [lra|]. cbn in F.
  unfold Rltb in F. destruct (Rlt_dec _ _) as [G|G]; [lra|]. destruct (Req_EM_T _ _) as [G2|G2]; [lra|]. discriminate F.
Qed.

(** ** the projection onto the simplex *)
Theorem C84_projection_nan : forall v, In NaN v -> @simplex_project_vector ext Num_E v = repeat (Fin 0) (length v).
Proof. intros v H. rewrite project_nan by exact H. induction v as [|x v IH] in |- *; [reflexivity|]. cbn [map length repeat]. rewrite IH. reflexivity. Qed.
Print Assumptions C84_projection_nan.
Example C84_projection_example : @simplex_project_vector ext Num_E [Fin 3; NaN; Fin (1/2)] = [Fin 0; Fin 0; Fin 0].
Proof. apply C84_projection_nan. right. left. reflexivity. Qed.

(** ** GPNH convex coding *)
(** a fit from random starting values returns normally; weights all zero, dictionary all NaN, and only
    a later transform fails *)
Theorem C84_gpnh_fit : forall fuel (o : gpnh ext) data Din Win k m t, has_nan data -> good_draws (go_rng o) -> (0 < gc_memory (go_cfg o))%nat ->
  comp_count (go_n_components o) (nc data) k -> (0 < k)%nat -> gc_max_iterations (go_cfg o) = PInt (Z.of_nat m) -> (0 < m)%nat ->
  tol_value (gc_tolerance (go_cfg o)) t -> gc_init (go_cfg o) = InitRandom \/ gc_init (go_cfg o) = InitNone ->
  exists r W D, fit_transform fuel o data Din Win true true None = Ok (r, W)
    /\ nan_outcome m (gr_cost r) (gr_n_iter r) (gr_log r) (gr_warned r)
    /\ nr W = nr data /\ nc W = k /\ all_zero W
    /\ go_cost_ (gr_obj r) = Some NaN
    /\ go_dictionary_ (gr_obj r) = Some D /\ nr D = k /\ nc D = nc data /\ all_nan D
    /\ (exists Y, inverse_transform (gr_obj r) W = Ok Y /\ nr Y = nr data /\ nc Y = nc data /\ all_nan Y)
    /\ forall fuel2 data2, transform fuel2 (gr_obj r) data2 = Raise ValueError.
Proof.
  intros fuel o data Din Win k m t HN HG HM HC Hk Hm1 Hm Ht Hi. apply comp_count_resolve in HC.
  destruct (gpnh_run_nan fuel o data Din Win true true None HN HG HM) as [(e & _ & [E|(k' & m' & t' & E1 & E2)])|(r & w & k' & m' & t' & D & W & g & E & A1 & A2 & A3 & A4 & A5 & A6 & A7 & A8 & G1 & G2 & S1 & S2 & A9 & A10)].
  - exfalso. rewrite HC, Hm1, (check_params_total k m _ t) in E by assumption. discriminate.
  - exfalso. unfold choose_initial in E2. destruct Hi as [Hi|Hi]; rewrite Hi in E2; cbn [negb andb initialize_dictionary bind initialize_weights] in E2; discriminate E2.
  - rewrite HC in A1. injection A1 as A1. apply Nat2Z.inj in A1. subst k'. rewrite Hm1 in A3. injection A3 as A3. apply Nat2Z.inj in A3. subst m'.
    unfold fit_transform. rewrite E. cbn [bind]. rewrite A8. cbn [go_ws go_cfg go_n_components go_rng]. eexists _, (w_Gamma w), (w_S w). split; [reflexivity|]. cbn [gr_cost gr_n_iter gr_log gr_warned gr_obj go_cost_ go_dictionary_].
    split; [exact A7|]. split; [exact G1|]. split; [exact G2|]. assert (ZW : all_zero (w_Gamma w)) by (intros i Hi' j Hj; apply A9; auto; lia). split; [exact ZW|].
    destruct A7 as (C1 & _). rewrite C1. split; [reflexivity|]. split; [reflexivity|]. split; [exact S1|]. split; [exact S2|].
    assert (ND : forall a j, (a < k)%nat -> (j < nc data)%nat -> cell D a j = NaN).
    { unfold choose_initial in A6. assert (Q : exists D' g', initialize_dictionary data k (gc_init (go_cfg o)) fs_default (go_rng o) = Ok (D', g') /\ D = D').
      { destruct Hi as [Hi|Hi]; rewrite Hi in A6 |- *; cbn [negb andb] in A6; apply bind_ok in A6; destruct A6 as ((D' & g') & E1 & A6); exists D', g'; (split; [exact E1|]); cbn [bind initialize_weights] in A6; injection A6; auto. }
      destruct Q as (D' & g' & Q1 & ->). eapply random_dictionary_nan; eassumption. }
    assert (NS : all_nan (w_S w)) by (intros a j Ha Hj; apply A10; [lia|lia|]; left; apply ND; lia). split; [exact NS|]. split.
    + unfold inverse_transform. cbn [go_ws]. rewrite G2, S1, Nat.eqb_refl. eexists. split; [reflexivity|]. split; [exact G1|]. split; [exact S2|]. intros i j Hi' Hj. cbn [nr nc mmul mbuild] in Hi', Hj.
      apply mmul_nan_r with (l := 0%nat); try lia. apply NS; lia.
    + intros fuel2 data2. assert (HS : has_nan (w_S w)) by (destruct HN as (i & j & _ & Hj & _); exists 0%nat, j; split; [lia|]; split; [lia|]; apply NS; lia).
      unfold transform. cbn [go_ws]. unfold gpnh_convex_coding. cbn [go_n_components go_cfg go_rng resolve_components]. cbv zeta.
      rewrite Hm1, (check_params_total k m _ t) by assumption. cbn [bind]. unfold choose_initial. rewrite check_dictionary_nan by exact HS.
      destruct Hi as [Hi|Hi]; rewrite Hi; reflexivity.
Qed.
Print Assumptions C84_gpnh_fit.

(** whatever the initialisation and the update flags: if the fit returns, nothing is reported, the columns
    of the dictionary that belong to columns with NaN are NaN and the weights are zero (the rows with NaN
    if only the weights are updated) *)
Theorem C84_gpnh_any_fit : forall fuel (o : gpnh ext) data Din Win ud uw kw r W, has_nan data -> good_draws (go_rng o) -> (0 < gc_memory (go_cfg o))%nat ->
  fit_transform fuel o data Din Win ud uw kw = Ok (r, W) ->
  (exists m, gc_max_iterations (go_cfg o) = PInt (Z.of_nat m) /\ nan_outcome m (gr_cost r) (gr_n_iter r) (gr_log r) (gr_warned r))
  /\ nr W = nr data
  /\ (uw = true -> forall i, (i < nr data)%nat -> ud = true \/ (exists j, nan_at data i j) -> row_zero W i)
  /\ (ud = true -> exists D, go_dictionary_ (gr_obj r) = Some D /\ nc D = nc data /\ forall i j, nan_at data i j -> column_nan D j).
Proof.
  intros fuel o data Din Win ud uw kw r W HN HG HM H. unfold fit_transform in H. apply bind_ok in H. destruct H as (r0 & E0 & H).
  destruct (gpnh_run_nan fuel o data Din Win ud uw kw HN HG HM) as [(e & E & _)|(r1 & w & k & m & t & D & W0 & g & E & A1 & A2 & A3 & A4 & A5 & A6 & A7 & A8 & G1 & G2 & S1 & S2 & A9 & A10)]; [rewrite E in E0; discriminate|].
  rewrite E0 in E. injection E as <-. rewrite A8 in H. cbn [go_ws go_cfg go_n_components go_rng] in H. injection H as <- <-. cbn [gr_cost gr_n_iter gr_log gr_warned gr_obj go_dictionary_].
  split; [exists m; split; assumption|]. split; [exact G1|]. split.
  - intros Hu i Hi HR j Hj. apply A9; auto. lia.
  - intros Hu. exists (w_S w). split; [reflexivity|]. split; [exact S2|]. intros i j Hij a Ha. apply A10; [lia|apply Hij|]. right. split; [exact Hu|]. exists i. exact Hij.
Qed.
Print Assumptions C84_gpnh_any_fit.

(** transform of data with NaN by a model fitted before: the rows with NaN get zero weights *)
Theorem C84_gpnh_transform : forall fuel (o : gpnh ext) w data k m t, has_nan data -> good_draws (go_rng o) -> (0 < gc_memory (go_cfg o))%nat ->
  go_ws o = Some w -> nr (w_S w) = k -> nc (w_S w) = nc data -> (forall a j, (a < k)%nat -> (j < nc data)%nat -> exists x, cell (w_S w) a j = Fin x) ->
  go_n_components o = PInt (Z.of_nat k) -> (0 < k)%nat -> gc_max_iterations (go_cfg o) = PInt (Z.of_nat m) -> (0 < m)%nat ->
  tol_value (gc_tolerance (go_cfg o)) t -> gc_init (go_cfg o) = InitRandom \/ gc_init (go_cfg o) = InitNone \/ gc_init (go_cfg o) = InitFurthestSum ->
  exists r W, transform fuel o data = Ok (r, W)
    /\ nan_outcome m (gr_cost r) (gr_n_iter r) (gr_log r) (gr_warned r)
    /\ nr W = nr data /\ nc W = k
    /\ forall i j, nan_at data i j -> row_zero W i.
Proof.
  intros fuel o w data k m t HN HG HM Ew S1 S2 SF HC Hk Hm1 Hm Ht Hi.
  assert (F : all_finite (w_S w) = true).
  { unfold all_finite. apply forallb_forall. intros a Ha. apply forallb_forall. intros j Hj. apply in_seq in Ha, Hj. apply finite_E. rewrite mget_entry. apply SF; lia. }
  destruct (gpnh_run_nan fuel o data (Some (w_S w)) None false true None HN HG HM) as [(e & _ & [E|(k' & m' & t' & E1 & E2)])|(r & w' & k' & m' & t' & D & W & g & E & A1 & A2 & A3 & A4 & A5 & A6 & A7 & A8 & G1 & G2 & S1' & S2' & A9 & A10)].
  - exfalso. rewrite HC in E. cbn [resolve_components] in E. rewrite Hm1, (check_params_total k m _ t) in E by assumption. discriminate.
  - exfalso. rewrite HC in E1. cbn [resolve_components] in E1. rewrite Hm1, (check_params_total k m _ t) in E1 by assumption. injection E1 as <- <- <-.
    unfold choose_initial in E2. cbn [negb andb] in E2. unfold check_init_dictionary, check_array, check_array_shape in E2. rewrite F in E2. cbn [bind] in E2. rewrite S1, S2, !Nat.eqb_refl in E2. cbn [andb bind] in E2.
    destruct Hi as [Hi|[Hi|Hi]]; rewrite Hi in E2; discriminate E2.
  - rewrite HC in A1. cbn [resolve_components] in A1. injection A1 as A1. apply Nat2Z.inj in A1. subst k'. rewrite Hm1 in A3. injection A3 as A3. apply Nat2Z.inj in A3. subst m'.
    unfold transform. rewrite Ew, E. cbn [bind]. rewrite A8. cbn [go_ws]. exists r, (w_Gamma w'). split; [reflexivity|].
    split; [exact A7|]. split; [exact G1|]. split; [exact G2|]. intros i j Hij a Ha. apply A9; [apply Hij|lia|reflexivity|]. right. exists j. exact Hij.
Qed.
Print Assumptions C84_gpnh_transform.

Definition demo_ls : ls_params ext := mk_ls (Fin (1/10000)) (Fin (1/1000)) (Fin 1000) (Fin (1/10)) (Fin (9/10)) (Fin (1/100000)).
Definition demo_draws : rng ext := mkrng (fun n => Fin (1 / (1 + INR n))) (fun n => Fin (INR n)) (fun n => n) 0.
Lemma demo_draws_good : good_draws demo_draws.
Proof.
  intros n. exists (1 / (1 + INR n))%R. split; [reflexivity|]. pose proof (pos_INR n) as P. assert (Q : (0 < 1 + INR n)%R) by lra. split.
  - apply Rdiv_lt_0_compat; lra.
  - apply Rmult_le_reg_r with (1 + INR n)%R; [exact Q|]. unfold Rdiv. rewrite Rmult_assoc, Rinv_l by lra. lra.
Qed.
Definition demo_data : mat ext := mkmat 3 2 [[Fin 1; Fin 2]; [NaN; Fin 4]; [Fin 5; Fin 6]].
Lemma demo_data_nan : has_nan demo_data.
Proof. exists 1%nat, 0%nat. split; [cbn; lia|]. split; [cbn; lia|reflexivity]. Qed.
Definition demo_gpnh : gpnh ext := mk_gpnh (mk_gpnh_cfg (Fin 0) InitRandom (PFloat (Fin (1/1000000))) (PInt 100) demo_ls 10 true) (PInt 2) demo_draws None None None None None.
Lemma demo_tol : @tol_value ext Num_E (PFloat (Fin (1/1000000))) (Fin (1/1000000)).
Proof. right. split; [reflexivity|]. cbn. unfold Rltb. destruct (Rlt_dec _ _); [lra|reflexivity]. Qed.
(** one NaN among six numbers: 100 iterations, zero weights, a dictionary of NaN *)
Example C84_gpnh_example : forall fuel, exists r W D, fit_transform fuel demo_gpnh demo_data None None true true None = Ok (r, W)
  /\ gr_cost r = NaN /\ gr_n_iter r = 99%nat /\ gr_warned r = false /\ all_zero W /\ nr W = 3%nat /\ go_dictionary_ (gr_obj r) = Some D /\ all_nan D.
Proof.
  intros fuel. destruct (C84_gpnh_fit fuel demo_gpnh demo_data None None 2 100 (Fin (1/1000000)) demo_data_nan demo_draws_good) as (r & W & D & H); try (cbn; lia); try reflexivity.
  - left. reflexivity.
  - exact demo_tol.
  - left. reflexivity.
  - destruct H as (H1 & (C1 & C2 & C3 & C4) & H2 & H3 & H4 & H5 & H6 & H7 & H8 & H9 & _). exists r, W, D. repeat (split; [first [assumption | lia]|]). assumption.
Qed.
Definition demo_fitted : gpnh ext := mk_gpnh (go_cfg demo_gpnh) (PInt 2) demo_draws
  (Some (start_ws (go_cfg demo_gpnh) demo_data demo_data (mkmat 2 2 [[Fin 1; Fin 2]; [Fin 5; Fin 6]]))) None None None None.
Example C84_gpnh_transform_example : forall fuel, exists r W, transform fuel demo_fitted demo_data = Ok (r, W) /\ gr_cost r = NaN /\ row_zero W 1.
Proof.
  intros fuel. edestruct (C84_gpnh_transform fuel demo_fitted) with (data := demo_data) (k := 2%nat) (m := 100%nat) as (r & W & H1 & H2 & H3 & H4 & H5).
  - exact demo_data_nan.
  - exact demo_draws_good.
  - cbn. lia.
  - reflexivity.
  - reflexivity.
  - reflexivity.
  - intros a j Ha Hj. destruct a as [|[|a]]; [| |lia]; destruct j as [|[|j]]; try (cbn in Hj; lia); eexists; reflexivity.
  - reflexivity.
  - lia.
  - reflexivity.
  - lia.
  - exact demo_tol.
  - left. reflexivity.
  - exists r, W. split; [exact H1|]. split; [apply H2|]. apply (H5 1%nat 0%nat). split; [cbn; lia|]. split; [cbn; lia|reflexivity].
Qed.

(** ** archetypal analysis *)
Theorem C84_aa_fit : forall fuel (o : aa ext) K Din Win k m t, has_nan K -> nc K = nr K -> good_draws (ao_rng o) -> (0 < ac_memory (ao_cfg o))%nat ->
  comp_count (ao_n_components o) (nr K) k -> (0 < k)%nat -> ac_max_iterations (ao_cfg o) = PInt (Z.of_nat m) -> (0 < m)%nat ->
  tol_value (ac_tolerance (ao_cfg o)) t -> ac_init (ao_cfg o) = InitRandom ->
  exists r W D, aa_fit_transform fuel o K Din Win true true None = Ok (r, W)
    /\ nan_outcome m (ar_cost r) (ar_n_iter r) (ar_log r) (ar_warned r)
    /\ nr W = nr K /\ nc W = k /\ all_zero W
    /\ ao_dictionary_ (ar_obj r) = Some D /\ nr D = k /\ nc D = nr K /\ all_zero D
    /\ forall fuel2 K2, aa_transform fuel2 (ar_obj r) K2 = Raise ValueError.
Proof.
  intros fuel o K Din Win k m t HN HS HG HM HC Hk Hm1 Hm Ht Hi. apply comp_count_resolve in HC.
  destruct (kernel_aa_random_nan fuel o K Din Win k m t) as (r & E); try assumption.
  destruct (kernel_aa_nan _ _ _ _ _ _ _ _ _ HN HG HM E) as (w & k' & m' & t' & D & W & g & A0 & A1 & A2 & A3 & A4 & A5 & A6 & A7 & A8 & G1 & G2 & S1 & S2 & A9 & A10).
  rewrite HC in A1. injection A1 as A1. apply Nat2Z.inj in A1. subst k'. rewrite Hm1 in A3. injection A3 as A3. apply Nat2Z.inj in A3. subst m'.
  unfold aa_fit_transform. rewrite E. cbn [bind]. unfold aa_set_fitted. rewrite A8. cbn [ao_ws ao_cfg ao_n_components ao_rng ao_seeded]. eexists _, (a_S w), (a_C w). split; [reflexivity|]. cbn [ar_cost ar_n_iter ar_log ar_warned ar_obj ao_cost_ ao_dictionary_].
  split; [exact A7|]. split; [exact G1|]. split; [exact G2|]. split; [exact A10|]. split; [reflexivity|]. split; [exact S1|]. split; [exact S2|]. split; [exact A9|].
  intros fuel2 K2. unfold aa_transform. cbn [ao_ws]. unfold kernel_aa. cbn [ao_n_components ao_cfg ao_rng resolve_components]. cbv zeta.
  destruct (negb _); [reflexivity|]. rewrite Hm1, (check_params_total k m _ t) by assumption. cbn [bind]. unfold aa_choose_initial. rewrite Hi. cbn [negb andb].
  rewrite check_aa_dictionary_zero; [reflexivity|exact A9|lia].
Qed.
Print Assumptions C84_aa_fit.
(** any initialisation and flags *)
Theorem C84_aa_any_fit : forall fuel (o : aa ext) K Din Win ud uw kw r W, has_nan K -> good_draws (ao_rng o) -> (0 < ac_memory (ao_cfg o))%nat ->
  aa_fit_transform fuel o K Din Win ud uw kw = Ok (r, W) ->
  (exists m, ac_max_iterations (ao_cfg o) = PInt (Z.of_nat m) /\ nan_outcome m (ar_cost r) (ar_n_iter r) (ar_log r) (ar_warned r))
  /\ nr W = nr K /\ (uw = true -> all_zero W)
  /\ (ud = true -> exists D, ao_dictionary_ (ar_obj r) = Some D /\ nc D = nr K /\ all_zero D).
Proof.
  intros fuel o K Din Win ud uw kw r W HN HG HM H. unfold aa_fit_transform in H. apply bind_ok in H. destruct H as (r0 & E0 & H).
  destruct (kernel_aa_nan _ _ _ _ _ _ _ _ _ HN HG HM E0) as (w & k & m & t & D & W0 & g & A0 & A1 & A2 & A3 & A4 & A5 & A6 & A7 & A8 & G1 & G2 & S1 & S2 & A9 & A10).
  unfold aa_set_fitted in H. rewrite A8 in H. cbn [ao_ws ao_cfg ao_n_components ao_rng ao_seeded] in H. injection H as <- <-. cbn [ar_cost ar_n_iter ar_log ar_warned ar_obj ao_dictionary_].
  split; [exists m; split; assumption|]. split; [exact G1|]. split; [intros ->; exact A10|]. intros ->. exists (a_C w). auto.
Qed.
Print Assumptions C84_aa_any_fit.
(** a NaN in the data makes the default kernel contain NaN: ArchetypalAnalysis behaves the same *)
Theorem C84_arch_fit : forall fuel (o : aa ext) X Din Win ud uw kw r W, has_nan X -> good_draws (ao_rng o) -> (0 < ac_memory (ao_cfg o))%nat ->
  arch_fit_transform fuel None o X Din Win ud uw kw = Ok (r, W) ->
  ar_cost r = NaN /\ ar_warned r = false /\ nr W = nr X /\ (uw = true -> all_zero W)
  /\ (ud = true -> exists D, ao_dictionary_ (ar_obj r) = Some D /\ nc D = nr X /\ all_zero D).
Proof.
  intros fuel o X Din Win ud uw kw r W (i & j & Hi & Hj & HE) HG HM H.
  assert (HN : has_nan (mmul X (mtr X))).
  { exists i, i. split; [exact Hi|]. split; [exact Hi|]. apply mmul_nan_l with (l := j); assumption. }
  destruct (C84_aa_any_fit fuel o (mmul X (mtr X)) Din Win ud uw kw r W HN HG HM H) as ((m & _ & C1 & _ & _ & C4) & E1 & E2 & E3).
  split; [exact C1|]. split; [exact C4|]. split; [exact E1|]. split; [exact E2|exact E3].
Qed.
Print Assumptions C84_arch_fit.
(** transform of a kernel with NaN: all weights are zero, in every row *)
Theorem C84_aa_transform : forall fuel (o : aa ext) K r W, has_nan K -> good_draws (ao_rng o) -> (0 < ac_memory (ao_cfg o))%nat ->
  aa_transform fuel o K = Ok (r, W) ->
  (exists m, ac_max_iterations (ao_cfg o) = PInt (Z.of_nat m) /\ nan_outcome m (ar_cost r) (ar_n_iter r) (ar_log r) (ar_warned r))
  /\ nr W = nr K /\ all_zero W.
Proof.
  intros fuel o K r W HN HG HM H. unfold aa_transform in H. apply bind_ok in H. destruct H as (r0 & E0 & H).
  destruct (kernel_aa_nan _ _ _ _ _ _ _ _ _ HN HG HM E0) as (w & k & m & t & D & W0 & g & A0 & A1 & A2 & A3 & A4 & A5 & A6 & A7 & A8 & G1 & G2 & S1 & S2 & A9 & A10).
  rewrite A8 in H. cbn [ao_ws] in H. injection H as <- <-. split; [exists m; split; assumption|]. split; [exact G1|exact A10].
Qed.
Print Assumptions C84_aa_transform.
Definition demo_kernel : mat ext := mkmat 2 2 [[Fin 1; NaN]; [NaN; Fin 4]].
Lemma demo_kernel_nan : has_nan demo_kernel.
Proof. exists 0%nat, 1%nat. split; [cbn; lia|]. split; [cbn; lia|reflexivity]. Qed.
Definition demo_aa : aa ext := mk_aa (mk_aa_cfg (Fin (1/2)) InitRandom (PFloat (Fin (1/1000000))) (PInt 50) demo_ls 1 true) (PInt 2) false demo_draws None None None None None.
Example C84_aa_example : forall fuel, exists r W D, aa_fit_transform fuel demo_aa demo_kernel None None true true None = Ok (r, W)
  /\ ar_cost r = NaN /\ ar_n_iter r = 49%nat /\ all_zero W /\ ao_dictionary_ (ar_obj r) = Some D /\ all_zero D.
Proof.
  intros fuel. destruct (C84_aa_fit fuel demo_aa demo_kernel None None 2 50 (Fin (1/1000000)) demo_kernel_nan eq_refl demo_draws_good) as (r & W & D & H); try (cbn; lia); try reflexivity.
  - left. reflexivity.
  - exact demo_tol.
  - destruct H as (H1 & (C1 & C2 & C3 & C4) & H2 & H3 & H4 & H6 & H7 & H8 & H9 & _). exists r, W, D. repeat (split; [first [assumption | lia]|]). assumption.
Qed.

(** ** MTD convex coding *)
Theorem C84_mtd_fit : forall fuel (o : mtd ext) data Din Win ow Ts k m t, has_nan data -> good_draws (mo_rng o) -> (0 < mc_memory (mo_cfg o))%nat -> mc_lags (mo_cfg o) <> [] ->
  comp_count (mo_n_components o) (nc data) k -> (0 < k)%nat -> mc_max_iterations (mo_cfg o) = PInt (Z.of_nat m) -> (0 < m)%nat ->
  tol_value (mc_tolerance (mo_cfg o)) t -> mc_init (mo_cfg o) = InitRandom \/ mc_init (mo_cfg o) = InitNone ->
  exists r W D, mtd_fit_transform fuel o data Din Win ow Ts true true true None = Ok (r, W)
    /\ nan_outcome m (mr_cost r) (mr_n_iter r) (mr_log r) (mr_warned r)
    /\ nr W = nr data /\ nc W = k /\ all_zero W
    /\ mo_cost_ (mr_obj r) = Some NaN
    /\ mo_dictionary_ (mr_obj r) = Some D /\ nr D = k /\ nc D = nc data /\ all_nan D
    /\ forall fuel2 data2, mtd_transform fuel2 (mr_obj r) data2 = Raise ValueError.
Proof.
  intros fuel o data Din Win ow Ts k m t HN HG HM HL HC Hk Hm1 Hm Ht Hi. apply comp_count_resolve in HC.
  destruct (mtd_random_nan fuel o data Din Win ow Ts k m t) as (r & E); try assumption.
  destruct (mtd_run_nan _ _ _ _ _ _ _ _ _ _ _ _ HN HG HM E) as (w & k' & m' & t' & D & W & ow0 & Ts0 & g & A1 & A2 & A3 & A4 & A5 & A6 & A7 & A8 & G1 & G2 & S1 & S2 & A9 & A10).
  rewrite HC in A1. injection A1 as A1. apply Nat2Z.inj in A1. subst k'. rewrite Hm1 in A3. injection A3 as A3. apply Nat2Z.inj in A3. subst m'.
  unfold mtd_fit_transform. rewrite E. cbn [bind]. rewrite A8. cbn [mo_ws mo_cfg mo_n_components mo_rng]. eexists _, (m_Gamma w), (m_S w). split; [reflexivity|]. cbn [mr_cost mr_n_iter mr_log mr_warned mr_obj mo_cost_ mo_dictionary_].
  split; [exact A7|]. split; [exact G1|]. split; [exact G2|]. split; [intros i Hi' j Hj; apply A9; auto; lia|].
  destruct A7 as (C1 & _). rewrite C1. split; [reflexivity|]. split; [reflexivity|]. split; [exact S1|]. split; [exact S2|].
  assert (ND : forall a j, (a < k)%nat -> (j < nc data)%nat -> cell D a j = NaN).
  { unfold mtd_choose_initial in A6. assert (Q : exists D' g', initialize_dictionary data k (mc_init (mo_cfg o)) fs_default (mo_rng o) = Ok (D', g') /\ D = D').
    { destruct Hi as [Hi|Hi]; rewrite Hi in A6 |- *; apply bind_ok in A6; destruct A6 as ((D' & g') & E1 & A6); exists D', g'; (split; [exact E1|]); cbn [bind initialize_weights initialize_parameters fst] in A6;
      destruct (initialize_parameters_random _ _ _) as [[? ?] ?]; injection A6; auto. }
    destruct Q as (D' & g' & Q1 & ->). eapply random_dictionary_nan; eassumption. }
  assert (NS : all_nan (m_S w)) by (intros a j Ha Hj; apply A10; [lia|lia|]; left; apply ND; lia). split; [exact NS|].
  intros fuel2 data2. assert (HS : has_nan (m_S w)) by (destruct HN as (i & j & _ & Hj & _); exists 0%nat, j; split; [lia|]; split; [lia|]; apply NS; lia).
  unfold mtd_transform. cbn [mo_ws]. unfold mtd_convex_coding. cbn [mo_n_components mo_cfg mo_rng resolve_components]. cbv zeta.
  rewrite Hm1, (check_params_total k m _ t) by assumption. cbn [bind]. unfold mtd_choose_initial. rewrite check_dictionary_nan by exact HS.
  destruct Hi as [Hi|Hi]; rewrite Hi; reflexivity.
Qed.
Print Assumptions C84_mtd_fit.
Theorem C84_mtd_any_fit : forall fuel (o : mtd ext) data Din Win ow Ts ud uw up kw r W, has_nan data -> good_draws (mo_rng o) -> (0 < mc_memory (mo_cfg o))%nat ->
  mtd_fit_transform fuel o data Din Win ow Ts ud uw up kw = Ok (r, W) ->
  (exists m, mc_max_iterations (mo_cfg o) = PInt (Z.of_nat m) /\ nan_outcome m (mr_cost r) (mr_n_iter r) (mr_log r) (mr_warned r))
  /\ nr W = nr data
  /\ (uw = true -> forall i, (i < nr data)%nat -> ud = true \/ (exists j, nan_at data i j) -> row_zero W i)
  /\ (ud = true -> exists D, mo_dictionary_ (mr_obj r) = Some D /\ nc D = nc data /\ forall i j, nan_at data i j -> column_nan D j).
Proof.
  intros fuel o data Din Win ow Ts ud uw up kw r W HN HG HM H. unfold mtd_fit_transform in H. apply bind_ok in H. destruct H as (r0 & E0 & H).
  destruct (mtd_run_nan _ _ _ _ _ _ _ _ _ _ _ _ HN HG HM E0) as (w & k & m & t & D & W0 & ow0 & Ts0 & g & A1 & A2 & A3 & A4 & A5 & A6 & A7 & A8 & G1 & G2 & S1 & S2 & A9 & A10).
  rewrite A8 in H. cbn [mo_ws mo_cfg mo_n_components mo_rng] in H. injection H as <- <-. cbn [mr_cost mr_n_iter mr_log mr_warned mr_obj mo_dictionary_].
  split; [exists m; split; assumption|]. split; [exact G1|]. split.
  - intros Hu i Hi HR j Hj. apply A9; auto. lia.
  - intros Hu. exists (m_S w). split; [reflexivity|]. split; [exact S2|]. intros i j Hij a Ha. apply A10; [lia|apply Hij|]. right. split; [exact Hu|]. exists i. exact Hij.
Qed.
Print Assumptions C84_mtd_any_fit.
Theorem C84_mtd_transform : forall fuel (o : mtd ext) data r W, has_nan data -> good_draws (mo_rng o) -> (0 < mc_memory (mo_cfg o))%nat ->
  mtd_transform fuel o data = Ok (r, W) ->
  (exists m, mc_max_iterations (mo_cfg o) = PInt (Z.of_nat m) /\ nan_outcome m (mr_cost r) (mr_n_iter r) (mr_log r) (mr_warned r))
  /\ nr W = nr data /\ forall i j, nan_at data i j -> row_zero W i.
Proof.
  intros fuel o data r W HN HG HM H. unfold mtd_transform in H. apply bind_ok in H. destruct H as (r0 & E0 & H).
  destruct (mtd_run_nan _ _ _ _ _ _ _ _ _ _ _ _ HN HG HM E0) as (w & k & m & t & D & W0 & ow0 & Ts0 & g & A1 & A2 & A3 & A4 & A5 & A6 & A7 & A8 & G1 & G2 & S1 & S2 & A9 & A10).
  rewrite A8 in H. cbn [mo_ws] in H. injection H as <- <-. split; [exists m; split; assumption|]. split; [exact G1|].
  intros i j Hij a Ha. apply A9; [apply Hij|lia|reflexivity|]. right. exists j. exact Hij.
Qed.
Print Assumptions C84_mtd_transform.
Definition demo_mtd : mtd ext := mk_mtd (mk_mtd_cfg [1; 2]%nat (Fin 0) (Fin 0) InitRandom (PFloat (Fin (1/1000000))) (PInt 20) demo_ls 3 true) (PInt 2) demo_draws None None None None None.
Example C84_mtd_example : forall fuel, exists r W D, mtd_fit_transform fuel demo_mtd demo_data None None None None true true true None = Ok (r, W)
  /\ mr_cost r = NaN /\ mr_n_iter r = 19%nat /\ mr_warned r = false /\ all_zero W /\ nr W = 3%nat /\ mo_dictionary_ (mr_obj r) = Some D /\ all_nan D.
Proof.
  intros fuel. destruct (C84_mtd_fit fuel demo_mtd demo_data None None None None 2 20 (Fin (1/1000000)) demo_data_nan demo_draws_good) as (r & W & D & H); try (cbn; lia); try reflexivity.
  - discriminate.
  - left. reflexivity.
  - exact demo_tol.
  - left. reflexivity.
  - destruct H as (H1 & (C1 & C2 & C3 & C4) & H2 & H3 & H4 & H5 & H6 & H7 & H8 & H9 & _). exists r, W, D. repeat (split; [first [assumption | lia]|]). assumption.
Qed.
