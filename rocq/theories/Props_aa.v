(** Property theorems C27 - C32 and C59 - C61, and the archetypal-analysis parts of C21, C22, C24,
    C25, C26 and C58. *)
From Coq Require Import List Arith Lia ZArith Reals Lra.
From Verif Require Import Num Mat Py Spec M_simplex M_spg M_iter M_random M_furthest M_gpnh M_aa.
From Verif Require Import P_lin P_simplex P_spg P_furthest P_random P_mat P_iter P_gpnh P_gpnh_run P_aa P_aa_run P_aa_delta.
From Verif Require Import Props_base Props_gpnh.
Import ListNotations.
Local Open Scope R_scope.

(** Instances used by the examples: three samples in the plane, two archetypes, default line search. *)
Definition ea_X : mat R := mkmat 3 2 [[1; 0]; [0; 1]; [1; 1]].
Definition ea_K : mat R := mmul ea_X (mtr ea_X).
Definition ea_cfg (delta : R) (mono : bool) : aa_cfg R :=
  mk_aa_cfg delta InitFurthestSum (PFloat (1/1000000)) (PInt 100) default_ls 1 mono.
Definition ea_aa (delta : R) (mono : bool) : aa R := mk_aa (ea_cfg delta mono) (PInt 2) true ex_rng None None None None None.
Lemma ea_X_mat : is_mat 3 2 ea_X.
Proof. repeat split. intros row [<-|[<-|[<-|[]]]]; reflexivity. Qed.
Lemma ea_K_mat : is_mat 3 3 ea_K.
Proof. apply (is_mat_mbuild 3 3). Qed.
Lemma ea_fit delta : exists fuel r W, aa_fit_transform fuel (ea_aa delta false) ea_K None None true true None = Ok (r, W).
Proof.
  destruct (aa_fit_total (ea_cfg delta false) 3 2 100 (1/1000000) ea_K None None None ex_rng) as [M HM];
    try exact ea_K_mat; try exact ex_rng_ok; try lia; try reflexivity.
  - right; split; [reflexivity|]. numR. apply Rltb_false; lra.
  - left. split; [right; reflexivity|]. split; [reflexivity | lia].
  - split; [|split]; cbn; lra.
  - cbn; lia.
  - destruct (HM M (le_n _) (ea_aa delta false)) as [[r W] E]; [reflexivity | left; reflexivity | reflexivity|]. exists M, r, W. exact E.
Qed.

(** ** C27 *)
(** the cost function of the solver is the reconstruction error, for all factors *)
Theorem C27_cost_is_reconstruction_error : forall (c : aa_cfg R) n d k X S C,
  is_mat n d X -> is_mat n k S -> is_mat k n C ->
  let w := aa_initialize_workspace c k (arch_kernel None X) S C in
  aa_evaluate_cost c w = archetype_error X S C /\ aa_cached_cost w = archetype_error X S C
  /\ 0 <= aa_evaluate_cost c w.
Proof.
  intros c n d k X S C HX HS HC w. cbn [arch_kernel] in w.
  assert (nr X = n /\ nc X = d) as [x1 x2] by (split; apply HX).
  assert (HK : is_mat n n (@mmul R Num_R X (mtr X))) by (apply is_mat_mmul; mdim; assumption).
  pose proof (start_ainv c n k _ S C HK HS HC) as I. fold w in I. apply ainv_cost in I.
  destruct I as [E1 E2]. cbn [w aa_initialize_workspace a_S a_C] in E1, E2.
  rewrite (gram_error n d) in E1, E2 by exact HX. split; [exact E1|]. split; [exact E2|]. rewrite E1.
  unfold archetype_error. apply Sum_nonneg; intros; apply Sum_nonneg; intros; apply pow2_ge_0.
Qed.
Print Assumptions C27_cost_is_reconstruction_error.
Theorem C27_fit_cost : forall fuel (o : aa R) n d X dictionary weights ud uw kw r W,
  is_mat n d X -> (0 < n)%nat ->
  (forall D, dictionary = Some D -> wf D) -> (forall W0, weights = Some W0 -> wf W0) ->
  0 < ls_sigma_one (ac_ls (ao_cfg o)) -> ls_sigma_two (ac_ls (ao_cfg o)) < 1 ->
  arch_fit_transform fuel None o X dictionary weights ud uw kw = Ok (r, W) ->
  exists C cost, ao_dictionary_ (ar_obj r) = Some C /\ ao_cost_ (ar_obj r) = Some cost
    /\ cost = archetype_error X W C /\ 0 <= cost /\ is_mat n (nr C) W /\ is_mat (nr C) n C.
Proof.
  intros fuel o n d X Din Win ud uw kw r W HX Hn WD WW H1 H2 H.
  assert (nr X = n /\ nc X = d) as [x1 x2] by (split; apply HX).
  change (aa_fit_transform fuel o (mmul X (mtr X)) Din Win ud uw kw = Ok (r, W)) in H.
  assert (HK : is_mat n n (@mmul R Num_R X (mtr X))) by (apply is_mat_mmul; mdim; assumption).
  apply aa_fit_transform_inv in H. destruct H as (k & m & t & D & W0 & g' & w2 & A0 & A1 & A2 & A3 & A4 & A5 & A6 & A7 & A8 & A9 & ->).
  pose proof (aa_iterate_log _ _ _ _ _ _ _ _ _ _ _ A4 A7) as (C1 & _).
  apply aa_choose_initial_ok in A6; try assumption. destruct A6 as (HD & HW & _). replace (nr (mmul X (mtr X))) with n in * by (symmetry; apply HK).
  apply (aa_iterate_inv n k (mmul X (mtr X)) _ False False) in A7; try assumption; [|split; [apply start_ainv; assumption | split; tauto]].
  destruct A7 as [I _]. pose proof (ainv_cost _ _ _ _ _ I) as [E _]. rewrite (gram_error n d) in E by exact HX.
  destruct I as (_ & (_ & s2 & s3 & _) & _). pose proof s3 as (s4 & _).
  exists (a_C w2), (ar_cost r). rewrite A8. cbn [ao_dictionary_ ao_cost_]. rewrite C1, E, s4.
  do 3 (split; [reflexivity|]). split; [|split; assumption].
  unfold archetype_error. apply Sum_nonneg; intros; apply Sum_nonneg; intros; apply pow2_ge_0.
Qed.
Print Assumptions C27_fit_cost.
(** ArchetypalAnalysis is KernelAA on the Gram matrix (any arithmetic) *)
Theorem C27_archetypal_is_kernel : forall (T : Type) (N : Num T) fuel (o : aa T) X dictionary weights ud uw kw,
  let K := mbuild (nr X) (nr X) (fun i j => nsum (nc X) (fun f => nmul (mget X i f) (mget X j f))) in
  arch_fit_transform fuel None o X dictionary weights ud uw kw = aa_fit_transform fuel o K dictionary weights ud uw kw
  /\ arch_transform fuel None o X = aa_transform fuel o K.
Proof.
  intros T N fuel o X Din Win ud uw kw K.
  assert (E : arch_kernel None X = K).
  { unfold arch_kernel, K, mmul. mdim. apply mbuild_ext; intros i j Hi Hj. apply nsum_ext; intros f Hf.
    f_equal. unfold mtr. rewrite mget_mbuild by lia. reflexivity. }
  unfold arch_fit_transform, arch_transform. rewrite E. split; reflexivity.
Qed.
Print Assumptions C27_archetypal_is_kernel.
(** a fit of the three samples; the error of two archetypes at the first two samples *)
Example C27_example : (exists fuel r W, arch_fit_transform fuel None (ea_aa 0 false) ea_X None None true true None = Ok (r, W))
  /\ archetype_error ea_X (mkmat 3 2 [[1; 0]; [0; 1]; [1/2; 1/2]]) (mkmat 2 3 [[1; 0; 0]; [0; 1; 0]]) = 1 / 2.
Proof. split; [exact (ea_fit 0) | unfold archetype_error, coef, ent; cbn; field]. Qed.

(** ** C28 *)
Theorem C28_fit_stochastic : forall fuel (o : aa R) n k K dictionary weights ud uw kw r W,
  is_mat n n K -> (0 < n)%nat -> comp_count (ao_n_components o) n k ->
  (forall D, dictionary = Some D -> wf D) -> (forall W0, weights = Some W0 -> wf W0) ->
  (forall D, dictionary = Some D -> row_stochastic D) -> (forall W0, weights = Some W0 -> row_stochastic W0) ->
  (forall p, 0 <= r_uniform (ao_rng o) p) ->
  (forall p, Sum k (fun j => r_uniform (ao_rng o) (p + j)) <> 0) ->
  (forall p, Sum n (fun j => r_uniform (ao_rng o) (p + j)) <> 0) ->
  0 < ls_sigma_one (ac_ls (ao_cfg o)) -> ls_sigma_two (ac_ls (ao_cfg o)) < 1 ->
  aa_fit_transform fuel o K dictionary weights ud uw kw = Ok (r, W) ->
  is_mat n k W /\ row_stochastic W
  /\ exists C, ao_dictionary_ (ar_obj r) = Some C /\ is_mat k n C /\ row_stochastic C.
Proof.
  intros fuel o n k K Din Win ud uw kw r W HK Hn Hc WD WW SD SW U1 U2 U3 H1 H2 H.
  apply aa_fit_transform_inv in H. destruct H as (k' & m & t & D & W0 & g' & w2 & A0 & A1 & A2 & A3 & A4 & A5 & A6 & A7 & A8 & A9 & ->).
  assert (nr K = n) as x1 by apply HK.
  apply comp_count_resolve in Hc. rewrite x1 in A1. assert (k' = k) as -> by (rewrite Hc in A1; injection A1; lia).
  apply aa_choose_initial_ok in A6; try assumption. rewrite x1 in A6. destruct A6 as (HD & HW & _ & S1 & S2).
  apply (aa_iterate_inv n k K _ True True) in A7; try assumption.
  2:{ split; [apply start_ainv; assumption|]. cbn [aa_initialize_workspace a_S a_C]. split; intros _; [apply S1 | apply S2]; try assumption; split; assumption. }
  destruct A7 as ((_ & (_ & s2 & s3 & _) & _) & P1 & P2). rewrite A8. cbn [ao_dictionary_].
  split; [exact s2|]. split; [apply P1, I|]. exists (a_C w2). split; [reflexivity|]. split; [exact s3 | apply P2, I].
Qed.
Print Assumptions C28_fit_stochastic.
Theorem C28_transform_stochastic : forall fuel (o : aa R) n k K r W,
  is_mat n n K -> (0 < n)%nat -> comp_count (ao_n_components o) n k ->
  (forall w, ao_ws o = Some w -> wf (a_C w)) ->
  (forall p, 0 <= r_uniform (ao_rng o) p) -> (forall p, Sum k (fun j => r_uniform (ao_rng o) (p + j)) <> 0) ->
  0 < ls_sigma_one (ac_ls (ao_cfg o)) -> ls_sigma_two (ac_ls (ao_cfg o)) < 1 ->
  aa_transform fuel o K = Ok (r, W) -> is_mat n k W /\ row_stochastic W.
Proof.
  intros fuel o n k K r W HK Hn Hc WC U1 U2 H1 H2 H.
  apply aa_transform_inv in H. destruct H as (k' & m & t & D & W0 & g' & w2 & A0 & A1 & A2 & A3 & A4 & A5 & A6 & A7 & A8 & A9 & ->).
  assert (nr K = n) as x1 by apply HK.
  apply comp_count_resolve in Hc. rewrite x1 in A1. assert (k' = k) as -> by (rewrite Hc in A1; injection A1; lia).
  apply aa_choose_initial_ok in A6; [|assumption|intros A EA; destruct (ao_ws o) eqn:E; cbn in EA; [injection EA as <-; apply WC; reflexivity | discriminate] | intros A EA; discriminate].
  rewrite x1 in A6. destruct A6 as (HD & HW & _ & S1 & _).
  apply (aa_iterate_inv n k K _ True False) in A7; try assumption.
  2:{ split; [apply start_ainv; assumption|]. cbn [aa_initialize_workspace a_S a_C]. split; [intros _; apply S1; [intros A EA; discriminate | split; assumption] | tauto]. }
  destruct A7 as ((_ & (_ & s2 & _) & _) & P1 & _). split; [exact s2 | apply P1, I].
Qed.
Print Assumptions C28_transform_stochastic.
Example C28_example : is_mat 3 3 ea_K /\ rng_ok 2 ex_rng /\ rng_ok 3 ex_rng
  /\ exists fuel r W, aa_fit_transform fuel (ea_aa 0 false) ea_K None None true true None = Ok (r, W).
Proof.
  split; [exact ea_K_mat|]. split; [exact ex_rng_ok|]. split; [|exact (ea_fit 0)].
  split; [apply ex_rng_ok|]. intros p.
  assert (P : forall n, 0 < / (1 + INR n)) by (intros n; apply Rinv_0_lt_compat; pose proof (pos_INR n); lra).
  apply Rgt_not_eq, (Sum_pos 3 _ 0); try lia; [intros; left; apply P | apply P].
Qed.

(** ** C29 *)
(** [D] is the dictionary in effect; the remainder is a quadratic form, non-negative for psd kernels *)
Definition aa_quadratic (K : mat R) (n k : nat) (Q : mat R -> R) : Prop :=
  (psd K -> forall H, is_mat n k H -> 0 <= Q H) /\ (forall s H, is_mat n k H -> Q (@mscale R Num_R s H) = s * s * Q H).
Lemma scaled_effD c alpha C : scaled_dictionary (ac_delta c) alpha C = effD c alpha C.
Proof.
  unfold scaled_dictionary, effD. destruct (Rlt_dec 0 (ac_delta c)) as [L|L].
  - rewrite (proj2 (Rltb_true _ _) L). reflexivity.
  - rewrite (proj2 (Rltb_false _ _)) by lra. reflexivity.
Qed.
Lemma spec_caches n k c w : is_mat n n (a_K w) -> is_mat k n (a_C w) -> length (a_alpha w) = k ->
  let D := scaled_dictionary (ac_delta c) (a_alpha w) (a_C w) in
  a_trace_K w = mtrace (a_K w) -> a_StS w = mmul (mtr (a_S w)) (a_S w) -> a_CK w = mmul D (a_K w) ->
  a_CKCt w = mmul (mmul D (a_K w)) (mtr D) -> caches c w.
Proof.
  intros HK HC Ha D E1 E2 E3 E4. unfold D in *. rewrite scaled_effD in *.
  split; [exact E1|]. split; [exact E2|]. rewrite (scaled_CK_eff k n) by assumption. split; [exact E3|].
  rewrite E3, E4. symmetry. apply (scaled_CKCt_eff k n); assumption.
Qed.
Theorem C29_weights_gradient : forall n k (c : aa_cfg R) (w : aws R),
  is_mat n n (a_K w) -> is_mat n k (a_S w) -> is_mat k n (a_C w) -> length (a_alpha w) = k -> symmetric (a_K w) ->
  let D := scaled_dictionary (ac_delta c) (a_alpha w) (a_C w) in
  a_trace_K w = mtrace (a_K w) -> a_StS w = mmul (mtr (a_S w)) (a_S w) ->
  a_CK w = mmul D (a_K w) -> a_CKCt w = mmul (mmul D (a_K w)) (mtr D) ->
  is_mat n k (aa_weights_gradient c w) /\
  exists Q, aa_quadratic (a_K w) n k Q /\ forall H, is_mat n k H ->
    kernel_error (a_K w) (@madd R Num_R (a_S w) H) D
    = kernel_error (a_K w) (a_S w) D + frob (aa_weights_gradient c w) H + Q H.
Proof.
  intros n k c w HK HS HC Ha Hsym D E1 E2 E3 E4.
  assert (Hs : shapes n k w) by (split; [|split; [|split]]; assumption).
  assert (Hc : caches c w) by (apply (spec_caches n k); assumption).
  split; [apply weights_gradient_shape, Hs|]. unfold D. rewrite scaled_effD. clear D E1 E2 E3 E4.
  exists (fun H => kquad (a_K w) (coef H (effD c (a_alpha w) (a_C w)))). split; [split|].
  - intros P H HH. apply kquad_psd, P.
  - intros s H HH. rewrite <- kquad_scal. apply kquad_ext; intros i j Hi Hj. assert (nr (a_K w) = n) as x1 by apply HK.
    rewrite !(coef_k k) by (mdim; apply HH). rewrite <- Sum_scal_l. apply Sum_ext; intros a Hk.
    destruct HH as (h1 & h2 & _). rewrite ent_mscale by lia. ring.
  - intros H HH. pose proof (error_weights_step n k c w H 1 Hs Hc Hsym HH) as E. rewrite madd_mscale_1 in E by (apply (is_mat_wf n k), HH). lra.
Qed.
Print Assumptions C29_weights_gradient.
Theorem C29_dictionary_gradient : forall n k (c : aa_cfg R) (w : aws R),
  is_mat n n (a_K w) -> is_mat n k (a_S w) -> is_mat k n (a_C w) -> length (a_alpha w) = k -> symmetric (a_K w) ->
  let D C := scaled_dictionary (ac_delta c) (a_alpha w) C in
  a_trace_K w = mtrace (a_K w) -> a_StS w = mmul (mtr (a_S w)) (a_S w) ->
  a_CK w = mmul (D (a_C w)) (a_K w) -> a_CKCt w = mmul (mmul (D (a_C w)) (a_K w)) (mtr (D (a_C w))) ->
  is_mat k n (aa_dictionary_gradient c w) /\
  exists Q, aa_quadratic (a_K w) k n Q /\ forall H, is_mat k n H ->
    kernel_error (a_K w) (a_S w) (D (@madd R Num_R (a_C w) H))
    = kernel_error (a_K w) (a_S w) (D (a_C w)) + frob (aa_dictionary_gradient c w) H + Q H.
Proof.
  intros n k c w HK HS HC Ha Hsym D E1 E2 E3 E4.
  assert (Hs : shapes n k w) by (split; [|split; [|split]]; assumption).
  assert (Hc : caches c w) by (apply (spec_caches n k); assumption).
  split; [apply dictionary_gradient_shape, Hs|]. clear E1 E2 E3 E4.
  exists (fun H => kquad (a_K w) (coef (a_S w) (effD c (a_alpha w) H))). split; [split|].
  - intros P H HH. apply kquad_psd, P.
  - intros s H HH. rewrite <- kquad_scal. apply kquad_ext; intros i j Hi Hj. assert (nr (a_K w) = n) as x1 by apply HK.
    assert (HH' : is_mat k n (@mscale R Num_R s H)) by (destruct HH as (h1 & h2 & _); rewrite <- h1, <- h2; apply is_mat_mbuild).
    rewrite !(coef_k k) by apply HS. rewrite <- Sum_scal_l. apply Sum_ext; intros a Hk.
    rewrite !(ent_effD k n) by (assumption || lia). destruct HH as (h1 & h2 & _). rewrite ent_mscale by lia. ring.
  - intros H HH. pose proof (error_dictionary_step n k c w H 1 Hs Hc Hsym HH) as E. rewrite madd_mscale_1 in E by (apply (is_mat_wf k n), HH).
    unfold D. rewrite !scaled_effD. lra.
Qed.
Print Assumptions C29_dictionary_gradient.
(** the scale factors: derivative along any direction of factors *)
Theorem C29_scale_gradient : forall n k (w : aws R),
  is_mat n n (a_K w) -> is_mat n k (a_S w) -> is_mat k n (a_C w) -> length (a_alpha w) = k -> symmetric (a_K w) ->
  a_StS w = mmul (mtr (a_S w)) (a_S w) -> a_CKCt w = mmul (mmul (a_C w) (a_K w)) (mtr (a_C w)) ->
  a_CKS w = mmul (mmul (a_C w) (a_K w)) (a_S w) ->
  length (aa_scale_gradient w) = k /\
  exists Q : list R -> R, (psd (a_K w) -> forall h, length h = k -> 0 <= Q h) /\
    forall h s, length h = k ->
    kernel_error (a_K w) (a_S w) (scale_rows (tab k (fun a => at_ (a_alpha w) a + s * at_ h a)) (a_C w))
    = kernel_error (a_K w) (a_S w) (scale_rows (a_alpha w) (a_C w))
      + s * Sum k (fun a => at_ (aa_scale_gradient w) a * at_ h a) + s * s * Q h.
Proof.
  intros n k w HK HS HC Ha Hsym E1 E2 E3.
  assert (Hs : shapes n k w) by (split; [|split; [|split]]; assumption).
  assert (Hc : scale_caches w) by (split; [|split]; assumption).
  split; [apply (scale_gradient_length n k); assumption|].
  exists (fun h => kquad (a_K w) (coef (a_S w) (scale_rows h (a_C w)))).
  split; [intros P h _; apply kquad_psd, P|]. intros h s Hh. apply (error_scale_step n k); assumption.
Qed.
Print Assumptions C29_scale_gradient.
(** a workspace as the solver builds it, delta > 0, with the Gram kernel of the three samples *)
Definition ea_ws : aws R := aa_initialize_workspace (ea_cfg (1/10) true) 2 ea_K (mkmat 3 2 [[1; 0]; [0; 1]; [1/2; 1/2]]) (mkmat 2 3 [[1; 0; 0]; [0; 1; 0]]).
Example C29_example : is_mat 3 3 (a_K ea_ws) /\ symmetric (a_K ea_ws) /\ psd (a_K ea_ws) /\ 0 < ac_delta (ea_cfg (1/10) true)
  /\ (let D := scaled_dictionary (ac_delta (ea_cfg (1/10) true)) (a_alpha ea_ws) (a_C ea_ws) in
      a_CK ea_ws = mmul D (a_K ea_ws) /\ a_CKCt ea_ws = mmul (mmul D (a_K ea_ws)) (mtr D))
  /\ a_CKS ea_ws = mmul (mmul (a_C ea_ws) (a_K ea_ws)) (a_S ea_ws).
Proof.
  split; [exact ea_K_mat|]. split; [exact (gram_symmetric ea_X)|]. split; [exact (gram_psd ea_X)|]. split; [cbn; lra|]. split; [|reflexivity].
  cbv zeta. rewrite scaled_effD. cbn [ea_ws aa_initialize_workspace a_alpha a_C a_K a_CK a_CKCt].
  change (@n1 R Num_R) with 1. rewrite (effD_ones 2 3); [split; reflexivity|]. repeat split. intros row [<-|[<-|[]]]; reflexivity.
Qed.

(** ** C30 *)
Theorem C30_delta_has_no_effect : forall (o o' : aa R) K,
  ac_init (ao_cfg o) = ac_init (ao_cfg o') -> ac_tolerance (ao_cfg o) = ac_tolerance (ao_cfg o') ->
  ac_max_iterations (ao_cfg o) = ac_max_iterations (ao_cfg o') -> ac_ls (ao_cfg o) = ac_ls (ao_cfg o') ->
  ac_memory (ao_cfg o) = ac_memory (ao_cfg o') -> ac_monotone (ao_cfg o) = ac_monotone (ao_cfg o') ->
  ao_n_components o = ao_n_components o' -> ao_seeded o = ao_seeded o' -> ao_rng o = ao_rng o' ->
  0 < ls_sigma_one (ac_ls (ao_cfg o)) -> ls_sigma_two (ac_ls (ao_cfg o)) < 1 -> 0 < ls_step_tol (ac_ls (ao_cfg o)) ->
  (0 < ac_memory (ao_cfg o))%nat -> wf K -> (0 < nr K)%nat ->
  exists M, forall fuel, (M <= fuel)%nat -> forall dictionary weights ud uw kw,
    (forall D, dictionary = Some D -> wf D) -> (forall W0, weights = Some W0 -> wf W0) ->
    match aa_fit_transform fuel o K dictionary weights ud uw kw, aa_fit_transform fuel o' K dictionary weights ud uw kw with
    | Ok (r, W), Ok (r', W') => W = W' /\ ar_cost r = ar_cost r' /\ ar_n_iter r = ar_n_iter r' /\ ar_log r = ar_log r'
        /\ ao_dictionary_ (ar_obj r) = ao_dictionary_ (ar_obj r') /\ ao_cost_ (ar_obj r) = ao_cost_ (ar_obj r')
        /\ ao_n_iter_ (ar_obj r) = ao_n_iter_ (ar_obj r')
    | Raise e, Raise e' => e = e'
    | _, _ => False
    end.
Proof.
  intros o o' K E1 E2 E3 E4 E5 E6 E7 E8 E9 H1 H2 H3 Hm WK Hn.
  destruct (aa_fit_sim o o' K) as [M HM]; try assumption; [do 5 (split; [assumption|]); assumption | split; [|split]; assumption|].
  exists M. intros fuel Hf Din Win ud uw kw WD WW. specialize (HM fuel Hf Din Win ud uw kw WD WW). unfold res_rel in HM.
  destruct (aa_fit_transform fuel o K Din Win ud uw kw) as [[r W]|e], (aa_fit_transform fuel o' K Din Win ud uw kw) as [[r' W']|e']; try exact HM.
  cbn [fst snd] in HM. tauto.
Qed.
Print Assumptions C30_delta_has_no_effect.
Theorem C30_scale_factors_one : forall fuel (o : aa R) K dictionary weights ud uw kw r W,
  wf K -> (0 < nr K)%nat ->
  (forall D, dictionary = Some D -> wf D) -> (forall W0, weights = Some W0 -> wf W0) ->
  0 < ls_sigma_one (ac_ls (ao_cfg o)) -> ls_sigma_two (ac_ls (ao_cfg o)) < 1 ->
  aa_fit_transform fuel o K dictionary weights ud uw kw = Ok (r, W) ->
  exists w k, ao_ws (ar_obj r) = Some w /\ length (a_alpha w) = k /\ (0 < k)%nat /\ forall i, (i < k)%nat -> at_ (a_alpha w) i = 1.
Proof.
  intros fuel o K Din Win ud uw kw r W WK Hn WD WW H1 H2 H.
  apply aa_fit_transform_inv in H. destruct H as (k & m & t & D & W0 & g' & w2 & A0 & A1 & A2 & A3 & A4 & A5 & A6 & A7 & A8 & A9 & ->).
  assert (HK : is_mat (nr K) (nr K) K) by (destruct WK as [u1 u2]; split; [reflexivity|]; split; [exact A0|]; split; [exact u1 | rewrite <- A0; exact u2]).
  apply aa_choose_initial_ok in A6; try assumption. destruct A6 as (HD & HW & _).
  apply (aa_iterate_inv (nr K) k K _ False False) in A7; try assumption; [|split; [apply start_ainv; assumption | split; tauto]].
  destruct A7 as [(_ & (_ & _ & _ & L) & Ea & _) _]. exists w2, k. rewrite A8. split; [reflexivity|]. split; [exact L|]. split; [exact A2|].
  intros i Hi. rewrite Ea. apply at_repeat, Hi.
Qed.
Print Assumptions C30_scale_factors_one.
Example C30_example : wf ea_K /\ (0 < nr ea_K)%nat /\ 0 < ls_sigma_one default_ls /\ ls_sigma_two default_ls < 1 /\ 0 < ls_step_tol default_ls
  /\ (exists fuel r W, aa_fit_transform fuel (ea_aa (1/2) false) ea_K None None true true None = Ok (r, W))
  /\ (exists fuel r W, aa_fit_transform fuel (ea_aa 0 false) ea_K None None true true None = Ok (r, W)).
Proof.
  split; [apply (is_mat_wf 3 3), ea_K_mat|]. split; [cbn; lia|]. split; [cbn; lra|]. split; [cbn; lra|]. split; [cbn; lra|].
  split; apply ea_fit.
Qed.

(** ** C31 *)
(** the workspaces a run goes through *)
Inductive aa_reached (fuel : nat) (c : aa_cfg R) (k : nat) (K S C : mat R) : aws R -> Prop :=
| ar_start : aa_reached fuel c k K S C (aa_initialize_workspace c k K S C)
| ar_evaluate w : aa_reached fuel c k K S C w -> aa_reached fuel c k K S C (aa_refresh c w)
| ar_dictionary w w' : aa_reached fuel c k K S C w -> aa_update_dictionary fuel c w = Ok w' -> aa_reached fuel c k K S C w'
| ar_weights w w' : aa_reached fuel c k K S C w -> aa_update_weights fuel c w = Ok w' -> aa_reached fuel c k K S C w'.
Theorem C31_cached_cost_is_cost : forall fuel (c : aa_cfg R) n k K S C w,
  is_mat n n K -> is_mat n k S -> is_mat k n C -> (0 < n)%nat -> (0 < k)%nat ->
  0 < ls_sigma_one (ac_ls c) -> ls_sigma_two (ac_ls c) < 1 ->
  aa_reached fuel c k K S C w ->
  aa_cached_cost w = kernel_error K (a_S w) (a_C w) /\ aa_evaluate_cost c w = kernel_error K (a_S w) (a_C w)
  (* and at every trial point of the two line searches *)
  /\ (forall S', is_mat n k S' -> aa_cached_cost (set_S_StS S' w) = kernel_error K S' (a_C w))
  /\ (forall C', is_mat k n C' -> aa_cached_cost (set_C_CK c C' w) = kernel_error K (a_S w) C').
Proof.
  intros fuel c n k K S C w HK HS HC Hn Hk H1 H2 H.
  assert (I : ainv n k K c w).
  { induction H as [|w H IH|w w' H IH E|w w' H IH E].
    - apply start_ainv; assumption.
    - rewrite (ainv_refresh n k K c w IH). exact IH.
    - apply (aa_update_dictionary_inv n k K) in E; try assumption. apply E.
    - apply (aa_update_weights_inv n k K) in E; try assumption. apply E. }
  destruct (ainv_cost _ _ _ _ _ I) as [E1 E2]. split; [exact E2|]. split; [exact E1|].
  split; intros; [eapply (set_S_cost n k K c) | apply (set_C_cost n k K c)]; eassumption.
Qed.
Print Assumptions C31_cached_cost_is_cost.
Theorem C31_reported_cost : forall fuel (o : aa R) n K dictionary weights ud uw kw r W,
  is_mat n n K -> (0 < n)%nat ->
  (forall D, dictionary = Some D -> wf D) -> (forall W0, weights = Some W0 -> wf W0) ->
  0 < ls_sigma_one (ac_ls (ao_cfg o)) -> ls_sigma_two (ac_ls (ao_cfg o)) < 1 ->
  aa_fit_transform fuel o K dictionary weights ud uw kw = Ok (r, W) ->
  (exists C, ao_dictionary_ (ar_obj r) = Some C /\ ao_cost_ (ar_obj r) = Some (kernel_error K W C))
  /\ last (ar_log r) 0 = ar_cost r /\ ao_cost_ (ar_obj r) = Some (ar_cost r)
  /\ (exists D0 W0, nth 0 (ar_log r) 0 = kernel_error K W0 D0
       /\ (ac_init (ao_cfg o) = InitCustom -> dictionary = Some D0 /\ weights = Some W0))
  /\ (ac_monotone (ao_cfg o) = true ->
      forall i j, (i <= j < length (ar_log r))%nat -> nth j (ar_log r) 0 <= nth i (ar_log r) 0).
Proof.
  intros fuel o n K Din Win ud uw kw r W HK Hn WD WW H1 H2 H.
  apply aa_fit_transform_inv in H. destruct H as (k & m & t & D & W0 & g' & w2 & A0 & A1 & A2 & A3 & A4 & A5 & A6 & A7 & A8 & A9 & ->).
  assert (nr K = n) as x1 by apply HK.
  assert (Hcust : ac_init (ao_cfg o) = InitCustom -> Din = Some D /\ Win = Some W0).
  { intros E. unfold aa_choose_initial in A6. rewrite E in A6. apply bind_ok in A6. destruct A6 as (W1 & E1 & A6).
    apply bind_ok in A6. destruct A6 as (D1 & E2 & A6). injection A6 as <- <- _.
    apply check_init_weights_ok_inv in E1. apply check_init_aa_dictionary_inv in E2. split; [apply E2 | apply E1]. }
  apply aa_choose_initial_ok in A6; try assumption. rewrite x1 in A6. destruct A6 as (HD & HW & _).
  pose proof (aa_iterate_log _ _ _ _ _ _ _ _ _ _ _ A4 A7) as (C1 & C2 & C3 & C4 & C5 & C6 & C7 & C8).
  pose proof (start_ainv (ao_cfg o) n k K W0 D HK HW HD) as I0.
  apply (aa_iterate_inv n k K _ False False) in A7; try assumption; [|split; [exact I0 | split; tauto]].
  destruct A7 as [I _]. destruct (ainv_cost _ _ _ _ _ I) as [E1 _]. rewrite A8. cbn [ao_dictionary_ ao_cost_].
  split; [exists (a_C w2); split; [reflexivity | rewrite C1, E1; reflexivity]|].
  split; [rewrite last_nth, C3; exact C5|]. split; [reflexivity|]. split.
  - exists D, W0. split; [|exact Hcust]. rewrite (ainv_refresh n k K _ _ I0) in C4.
    change 0 with (@n0 R Num_R) at 1. rewrite C4. apply (ainv_cost n k K _ _ I0).
  - intros Hmono.
    assert (Mono : forall i, (S i < length (ar_log r))%nat -> nth (S i) (ar_log r) 0 <= nth i (ar_log r) 0).
    { intros i Hi. destruct (C8 i ltac:(lia) Hmono) as [L|L]; numR; [apply Rltb_false in L; exact L | lra]. }
    intros i j [Hij Hj]. revert Hj. induction Hij as [|j Hij IH]; intros Hj; [lra|].
    eapply Rle_trans; [apply Mono; exact Hj | apply IH; lia].
Qed.
Print Assumptions C31_reported_cost.
Lemma ea_K_bound : entries_le ea_K 2.
Proof.
  intros i j Hi Hj. cbn in Hi, Hj. apply Rabs_le.
  destruct i as [|[|[|i]]]; try lia; destruct j as [|[|[|j]]]; try lia; unfold ent; cbn; lra.
Qed.
Lemma ea_bound : ls_step_tol default_ls * (2 * Rmax 1 (ls_alpha_max default_ls) * (2 * INR 3 * (INR 3 + INR 2))) <= 1 - ls_gamma default_ls.
Proof. cbn [default_ls ls_step_tol ls_alpha_max ls_gamma]. rewrite Rmax_right by lra. cbn; lra. Qed.
Lemma ea_fit_mono : exists fuel r W, aa_fit_transform fuel (ea_aa 0 true) ea_K None None true true None = Ok (r, W).
Proof.
  destruct (aa_fit_no_guard (ea_cfg 0 true) 3 2 100 (1/1000000) ea_K 2 None None None ex_rng ea_K_mat ltac:(lia) ltac:(lia) ltac:(lia)
    (gram_symmetric ea_X) ltac:(lra) ea_K_bound eq_refl) as [M HM];
    [right; split; [reflexivity | numR; apply (proj2 (Rltb_false _ _)); lra]
    | left; split; [right; reflexivity | split; [reflexivity | lia]]
    | exact ex_rng_ok | cbn; lra | cbn; lra | cbn; lra | cbn; lra | reflexivity | cbn; lra | exact ea_bound|].
  destruct (HM M (le_n _) (ea_aa 0 true)) as [[r W] E]; [reflexivity | left; reflexivity | reflexivity|]. exists M, r, W. exact E.
Qed.
Example C31_example : ac_monotone (ao_cfg (ea_aa 0 true)) = true
  /\ exists fuel r W, aa_fit_transform fuel (ea_aa 0 true) ea_K None None true true None = Ok (r, W).
Proof. exact (conj eq_refl ea_fit_mono). Qed.

(** ** C32 *)
Theorem C32_furthest_sum_dictionary : forall (K : mat R) k kw (g g' : rng R) D,
  (0 < k)%nat -> (forall s, fk_start_index kw = Some s -> (0 <= s)%Z) ->
  aa_dictionary_furthest_sum K k kw g = Ok (D, g') ->
  is_mat k (nr K) D /\ exists pos : nat -> nat,
    (forall i j, (i < k)%nat -> (j < nr K)%nat -> ent D i j = if Nat.eqb j (pos i) then 1 else 0)
    /\ (forall i, (i < k)%nat -> (pos i < nr K)%nat /\ ~ In (Z.of_nat (pos i)) (fk_exclude kw))
    /\ (forall i i', (i < k)%nat -> (i' < k)%nat -> pos i = pos i' -> i = i').
Proof.
  intros K k kw g g' D Hk Hs H. pose proof (aa_furthest_ok _ _ _ _ _ _ Hk H) as (HD & _).
  apply aa_furthest_inv in H; [|exact Hk]. destruct H as (_ & start & sel & S1 & S2 & S3 & S4 & S5 & S6).
  split; [exact HD|].
  assert (Hst : (0 <= start)%Z). { destruct (fk_start_index kw) as [s|] eqn:E; [rewrite (S1 s eq_refl); apply Hs; reflexivity | apply S2; reflexivity]. }
  apply furthest_distinct in S3; [|exact Hst]. destruct S3 as (L & Nd & In1).
  assert (In2 : forall i, (i < k)%nat -> In (nth i sel 0%Z) sel) by (intros; apply nth_In; lia).
  assert (Hp : forall i, (i < k)%nat -> Z.of_nat (pyindex (nr K) (nth i sel 0%Z)) = nth i sel 0%Z).
  { intros i Hi. destruct (In1 _ (In2 i Hi)) as [[P _] _]. unfold pyindex. destruct (Z.ltb_spec (nth i sel 0%Z) 0); [lia|]. apply Z2Nat.id. lia. }
  exists (fun i => pyindex (nr K) (nth i sel 0%Z)). split; [|split].
  - intros i j Hi Hj. rewrite S6, ent_mbuild by assumption. reflexivity.
  - intros i Hi. split; [apply S5, In2, Hi|]. rewrite Hp by exact Hi. apply In1, In2, Hi.
  - intros i i' Hi Hi' E. apply (f_equal Z.of_nat) in E. rewrite !Hp in E by assumption.
    apply (proj1 (NoDup_nth sel 0%Z) Nd); [lia | lia | exact E].
Qed.
Print Assumptions C32_furthest_sum_dictionary.
(** GPNH: the rows are distinct, non-excluded data rows *)
Theorem C32_gpnh_furthest_sum_dictionary : forall (X : mat R) k kw (g g' : rng R) D,
  (0 < k)%nat -> (forall s, fk_start_index kw = Some s -> (0 <= s)%Z) ->
  initialize_dictionary_furthest_sum X k kw g = Ok (D, g') ->
  is_mat k (nc X) D /\ exists pos : nat -> nat,
    (forall i j, (i < k)%nat -> (j < nc X)%nat -> ent D i j = ent X (pos i) j)
    /\ (forall i, (i < k)%nat -> (pos i < nr X)%nat /\ ~ In (Z.of_nat (pos i)) (fk_exclude kw))
    /\ (forall i i', (i < k)%nat -> (i' < k)%nat -> pos i = pos i' -> i = i').
Proof.
  intros X k kw g g' D Hk Hs H.
  apply gpnh_furthest_inv in H; [|exact Hk]. destruct H as (_ & start & sel & S1 & S2 & S3 & S4 & S5 & S6).
  split; [rewrite S6; apply is_mat_mbuild|].
  assert (Hst : (0 <= start)%Z). { destruct (fk_start_index kw) as [s|] eqn:E; [rewrite (S1 s eq_refl); apply Hs; reflexivity | apply S2; reflexivity]. }
  apply furthest_distinct in S3; [|exact Hst]. destruct S3 as (L & Nd & In1). change (nr (kernel_dissimilarities (mmul X (mtr X)))) with (nr X) in In1.
  assert (In2 : forall i, (i < k)%nat -> In (nth i sel 0%Z) sel) by (intros; apply nth_In; lia).
  assert (Hp : forall i, (i < k)%nat -> Z.of_nat (pyindex (nr X) (nth i sel 0%Z)) = nth i sel 0%Z).
  { intros i Hi. destruct (In1 _ (In2 i Hi)) as [[P _] _]. unfold pyindex. destruct (Z.ltb_spec (nth i sel 0%Z) 0); [lia|]. apply Z2Nat.id. lia. }
  exists (fun i => pyindex (nr X) (nth i sel 0%Z)). split; [|split].
  - intros i j Hi Hj. rewrite S6, ent_mbuild by assumption. reflexivity.
  - intros i Hi. split; [apply S5, In2, Hi|]. rewrite Hp by exact Hi. apply In1, In2, Hi.
  - intros i i' Hi Hi' E. apply (f_equal Z.of_nat) in E. rewrite !Hp in E by assumption.
    apply (proj1 (NoDup_nth sel 0%Z) Nd); [lia | lia | exact E].
Qed.
Print Assumptions C32_gpnh_furthest_sum_dictionary.
(** the dissimilarities are Euclidean distances *)
Theorem C32_dissimilarities_are_distances : forall n d (X : mat R) i j,
  is_mat n d X -> (i < n)%nat -> (j < n)%nat ->
  ent (kernel_dissimilarities (mmul X (mtr X))) i j = sqrt (Sum d (fun f => (ent X i f - ent X j f) ^ 2)).
Proof.
  intros n d X i j HX Hi Hj. pose proof HX as (x1 & x2 & _). unfold kernel_dissimilarities.
  rewrite ent_mbuild by (mdim; lia). numR. f_equal. rewrite !mget_ent, !ent_mmul by (mdim; lia). rewrite x2.
  rewrite <- Sum_scal_l, <- Sum_minus, <- Sum_plus. apply Sum_ext; intros f Hf. rewrite !ent_mtr by lia. ring.
Qed.
Print Assumptions C32_dissimilarities_are_distances.
(** executed on integers: samples 0, 3 and 10 on a line (the distance matrix of X X^T); the two
    extreme samples are selected *)
Example C32_example : match @aa_dictionary_furthest_sum Z Num_Z_demo (mkmat 3 3 [[0;0;0]; [0;9;30]; [0;30;100]]%Z) 2 (mk_fs_kwargs (Some 1%Z) 5 []) exZ_rng with
  | Ok (D, _) => dat D = [[0; 0; 1]; [1; 0; 0]]%Z \/ dat D = [[1; 0; 0]; [0; 0; 1]]%Z
  | Raise _ => False end.
Proof. vm_compute. auto. Qed.

(** ** C21, C22 (any arithmetic) *)
Theorem C21_aa_iterations : forall (T : Type) (N : Num T) fuel (o : aa T) K dictionary weights ud uw kw r W,
  aa_fit_transform fuel o K dictionary weights ud uw kw = Ok (r, W) ->
  exists m, ac_max_iterations (ao_cfg o) = PInt (Z.of_nat m)
    /\ ao_n_iter_ (ar_obj r) = Some (ar_n_iter r) /\ (ar_n_iter r <= m - 1)%nat /\ (0 < m)%nat
    /\ length (ar_log r) = (ar_n_iter r + 2)%nat /\ ar_warned r = false.
Proof.
  intros T N fuel o K Din Win ud uw kw r W H.
  apply aa_fit_transform_inv in H. destruct H as (k & m & t & D & W0 & g' & w2 & A0 & A1 & A2 & A3 & A4 & A5 & A6 & A7 & A8 & A9 & ->).
  pose proof (aa_iterate_log _ _ _ _ _ _ _ _ _ _ _ A4 A7) as (C1 & C2 & C3 & _).
  exists m. rewrite A8, A9. cbn [ao_n_iter_]. repeat split; try assumption; try lia.
  destruct (Nat.eqb_spec (ar_n_iter r) m); [lia | reflexivity].
Qed.
Print Assumptions C21_aa_iterations.
Theorem C21_aa_transform_iterations : forall (T : Type) (N : Num T) fuel (o : aa T) K r W,
  aa_transform fuel o K = Ok (r, W) ->
  exists m, ac_max_iterations (ao_cfg o) = PInt (Z.of_nat m) /\ (ar_n_iter r <= m - 1)%nat
    /\ length (ar_log r) = (ar_n_iter r + 2)%nat /\ ar_warned r = false.
Proof.
  intros T N fuel o K r W H.
  apply aa_transform_inv in H. destruct H as (k & m & t & D & W0 & g' & w2 & A0 & A1 & A2 & A3 & A4 & A5 & A6 & A7 & A8 & A9 & ->).
  pose proof (aa_iterate_log _ _ _ _ _ _ _ _ _ _ _ A4 A7) as (C1 & C2 & C3 & _).
  exists m. rewrite A9. repeat split; try assumption; try lia.
  destruct (Nat.eqb_spec (ar_n_iter r) m); [lia | reflexivity].
Qed.
Print Assumptions C21_aa_transform_iterations.
Theorem C22_aa_stopping : forall (T : Type) (N : Num T) fuel (o : aa T) K dictionary weights ud uw kw r W,
  aa_fit_transform fuel o K dictionary weights ud uw kw = Ok (r, W) ->
  exists m t, ac_max_iterations (ao_cfg o) = PInt (Z.of_nat m) /\ tol_value (ac_tolerance (ao_cfg o)) t
    /\ let small i := nltb (nabs (nsub (nth (S i) (ar_log r) n0) (nth i (ar_log r) n0))) t in
       (forall i, (i < ar_n_iter r)%nat -> small i = false)
       /\ (ar_n_iter r < m - 1 -> small (ar_n_iter r) = true)%nat.
Proof.
  intros T N fuel o K Din Win ud uw kw r W H.
  apply aa_fit_transform_inv in H. destruct H as (k & m & t & D & W0 & g' & w2 & A0 & A1 & A2 & A3 & A4 & A5 & A6 & A7 & A8 & A9 & ->).
  pose proof (aa_iterate_log _ _ _ _ _ _ _ _ _ _ _ A4 A7) as (C1 & C2 & C3 & C4 & C5 & C6 & C7 & _).
  exists m, t. split; [exact A3|]. split; [exact A5|]. intros small. split; [exact C6|].
  intros Hlt. destruct C7 as [C7|C7]; [lia | exact C7].
Qed.
Print Assumptions C22_aa_stopping.
(** executed on integers, tolerance 0: both iterations are made, n_iter_ is 1 *)
Definition eaZ_cfg (tol max : Z) : aa_cfg Z := mk_aa_cfg 0%Z InitCustom (PInt tol) (PInt max) (mk_ls 0 1 1 1 1 1)%Z 1 false.
Definition eaZ_K : mat Z := mkmat 2 2 [[4; 0]; [0; 4]]%Z.
Definition eaZ_fit (tol max : Z) := @aa_fit_transform Z Num_Z_demo 5 (mk_aa (eaZ_cfg tol max) (PInt 2) true exZ_rng None None None None None)
  eaZ_K (Some (mkmat 2 2 [[1; 0]; [0; 1]]%Z)) (Some (mkmat 2 2 [[0; 1]; [1; 0]]%Z)) true true None.
Example C21_aa_example : match eaZ_fit 0 2 with Ok (r, W) => ar_n_iter r = 1%nat /\ length (ar_log r) = 3%nat | Raise _ => False end.
Proof. vm_compute. auto. Qed.
Example C22_aa_example : match eaZ_fit 1 50 with Ok (r, W) => (ar_n_iter r < 49)%nat | Raise _ => False end.
Proof. vm_compute. lia. Qed.

(** ** C24 (any arithmetic) *)
Theorem C24_aa_custom_transform_fails : forall (T : Type) (N : Num T) fuel (o : aa T) K kf X,
  ac_init (ao_cfg o) = InitCustom ->
  aa_transform fuel o K = Raise ValueError /\ arch_transform fuel kf o X = Raise ValueError.
Proof.
  intros T N fuel o K kf X Hi.
  assert (A : forall K Cin, kernel_aa fuel o K Cin None false true None = Raise ValueError).
  { intros K0 Cin. unfold kernel_aa. destruct (negb _); [reflexivity|].
    destruct (check_params _ _ _) as [[[k m] t]|e] eqn:E1; cbn [bind].
    - unfold aa_choose_initial. rewrite Hi. reflexivity.
    - apply check_params_raise in E1. rewrite E1. reflexivity. }
  unfold aa_transform, arch_transform. rewrite !A. split; reflexivity.
Qed.
Print Assumptions C24_aa_custom_transform_fails.
Example C24_aa_example : match eaZ_fit 0 2 with
  | Ok (r, _) => @aa_transform Z Num_Z_demo 5 (ar_obj r) eaZ_K = Raise ValueError | Raise _ => False end.
Proof. vm_compute. reflexivity. Qed.

(** ** C25 (any arithmetic) *)
Theorem C25_aa_history_independent : forall (T : Type) (N : Num T) fuel (o1 o2 : aa T) K dictionary weights ud uw kw,
  ao_cfg o1 = ao_cfg o2 -> ao_n_components o1 = ao_n_components o2 -> ao_seeded o1 = ao_seeded o2 -> ao_rng o1 = ao_rng o2 ->
  aa_fit_transform fuel o1 K dictionary weights ud uw kw = aa_fit_transform fuel o2 K dictionary weights ud uw kw.
Proof.
  intros T N fuel o1 o2 K Din Win ud uw kw E1 E2 E3 E4. unfold aa_fit_transform, kernel_aa. rewrite E1, E2, E3, E4.
  destruct (negb _); [reflexivity|].
  destruct (check_params _ _ _) as [[[k m] t]|e]; cbn [bind]; [|reflexivity].
  destruct (aa_choose_initial _ _ _ _ _ _ _ _ _) as [[[D W] g']|e]; cbn [bind]; [|reflexivity].
  destruct (aa_iterate _ _ _ _ _ _ _) as [[[[w2 cost] n_iter] log]|e]; reflexivity.
Qed.
Print Assumptions C25_aa_history_independent.
(** an object after any sequence of successful fits and transforms *)
Inductive aa_history {T} {N : Num T} (o : aa T) : aa T -> Prop :=
| ah_start : aa_history o o
| ah_fit o1 fuel K dictionary weights ud uw kw r W : aa_history o o1 ->
    aa_fit_transform fuel o1 K dictionary weights ud uw kw = Ok (r, W) -> aa_history o (ar_obj r)
| ah_transform o1 fuel K r W : aa_history o o1 ->
    aa_transform fuel o1 K = Ok (r, W) -> aa_history o (ar_obj r).
(** with an integer seed (a fresh generator per call) every later fit gives the same result *)
Theorem C25_aa_refit : forall (T : Type) (N : Num T) (o o' : aa T) z fuel K dictionary weights ud uw kw,
  aa_history o o' -> ao_n_components o = PInt z -> ao_seeded o = true ->
  aa_fit_transform fuel o' K dictionary weights ud uw kw = aa_fit_transform fuel o K dictionary weights ud uw kw.
Proof.
  intros T N o o' z fuel K Din Win ud uw kw H Ez Es.
  assert (A : ao_cfg o' = ao_cfg o /\ ao_n_components o' = ao_n_components o /\ ao_seeded o' = ao_seeded o /\ ao_rng o' = ao_rng o).
  { clear fuel K Din Win ud uw kw. induction H as [|o1 fuel K Din Win ud uw kw r W H IH E|o1 fuel K r W H IH E]; [auto| |].
    - apply aa_fit_transform_inv in E. destruct E as (k & m & t & D & W0 & g' & w2 & A0 & A1 & A2 & A3 & A4 & A5 & A6 & A7 & A8 & A9 & _).
      destruct IH as (I1 & I2 & I3 & I4). rewrite A8. cbn [ao_cfg ao_n_components ao_seeded ao_rng].
      rewrite I2, Ez in A1. cbn in A1. rewrite I3, Es, <- A1, Ez. auto.
    - apply aa_transform_inv in E. destruct E as (k & m & t & D & W0 & g' & w2 & A0 & A1 & A2 & A3 & A4 & A5 & A6 & A7 & A8 & A9 & _).
      destruct IH as (I1 & I2 & I3 & I4). rewrite A8. cbn [ao_cfg ao_n_components ao_seeded ao_rng].
      rewrite I2, Ez in A1. cbn in A1. rewrite I3, Es, <- A1, Ez. auto. }
  destruct A as (A1 & A2 & A3 & A4). apply C25_aa_history_independent; assumption.
Qed.
Print Assumptions C25_aa_refit.
(** an object that has been fitted refits to the same weights and costs *)
Example C25_aa_example : match eaZ_fit 0 2 with
  | Ok (r, W) => ao_cost_ (ar_obj r) <> None /\ match @aa_fit_transform Z Num_Z_demo 5 (ar_obj r) eaZ_K (Some (mkmat 2 2 [[1; 0]; [0; 1]]%Z)) (Some (mkmat 2 2 [[0; 1]; [1; 0]]%Z)) true true None with
      | Ok (r', W') => W' = W /\ ar_log r' = ar_log r | Raise _ => False end
  | Raise _ => False end.
Proof. vm_compute. repeat split; discriminate. Qed.

(** ** C26 (any arithmetic) *)
Theorem C26_aa_validation : forall (T : Type) (N : Num T) fuel (o : aa T) K dictionary weights ud uw kw,
  ~ (nr K = nc K /\ valid_components (ao_n_components o) (nr K) /\ valid_max (ac_max_iterations (ao_cfg o)) /\ valid_tolerance (ac_tolerance (ao_cfg o))) ->
  aa_fit_transform fuel o K dictionary weights ud uw kw = Raise ValueError.
Proof.
  intros T N fuel o K Din Win ud uw kw H. unfold aa_fit_transform, kernel_aa.
  destruct (Nat.eqb_spec (nc K) (nr K)) as [Hsq|]; [cbn [negb]|reflexivity].
  destruct (check_params _ _ _) as [[[k m] t]|e] eqn:E1; cbn [bind].
  - exfalso. apply H. apply check_params_ok in E1. destruct E1 as (K1 & K2 & M1 & M2 & T1).
    split; [symmetry; exact Hsq|]. split; [exists k; split; [apply comp_count_resolve, K1 | exact K2]|]. split; [exists m; auto|].
    destruct T1 as [(z & -> & _ & Hz)|[-> Hz]]; [left; eauto | right; eauto].
  - apply check_params_raise in E1. rewrite E1. reflexivity.
Qed.
Print Assumptions C26_aa_validation.
Theorem C26_aa_resolution : forall (T : Type) (N : Num T) fuel (o : aa T) K dictionary weights ud uw kw r W,
  aa_fit_transform fuel o K dictionary weights ud uw kw = Ok (r, W) ->
  nr K = nc K /\ valid_max (ac_max_iterations (ao_cfg o)) /\ valid_tolerance (ac_tolerance (ao_cfg o)) /\
  exists k, comp_count (ao_n_components o) (nr K) k /\ (0 < k)%nat /\ ao_n_components (ar_obj r) = PInt (Z.of_nat k)
    /\ forall n' k', comp_count (ao_n_components (ar_obj r)) n' k' -> k' = k.
Proof.
  intros T N fuel o K Din Win ud uw kw r W H.
  apply aa_fit_transform_inv in H. destruct H as (k & m & t & D & W0 & g' & w2 & A0 & A1 & A2 & A3 & A4 & A5 & A6 & A7 & A8 & A9 & ->).
  split; [symmetry; exact A0|]. split; [exists m; auto|]. split; [destruct A5 as [(z & -> & _ & Hz)|[-> Hz]]; [left; eauto | right; eauto]|].
  exists k. split; [apply comp_count_resolve, A1|]. split; [exact A2|]. rewrite A8. cbn [ao_n_components]. split; [reflexivity|].
  intros n' k' [E|[E _]]; [injection E; lia | discriminate].
Qed.
Print Assumptions C26_aa_resolution.
(** the constructor of KernelAA already evaluates np.ones(n_components): only None and non-negative
    integers get as far as fit, and 0 is rejected there *)
Theorem C26_aa_constructor : forall (T : Type) (N : Num T) (c : aa_cfg T) v seeded g,
  match v with
  | PNone => exists o, aa_new c v seeded g = Ok o /\ ao_n_components o = v
  | PInt z => ((z < 0)%Z -> aa_new c v seeded g = Raise ValueError)
              /\ ((0 <= z)%Z -> exists o, aa_new c v seeded g = Ok o /\ ao_n_components o = v)
  | _ => aa_new c v seeded g = Raise TypeError
  end.
Proof.
  intros T N c [|z|x|] seeded g; cbn; eauto.
  destruct (Z.ltb_spec z 0); (split; [intros; try lia; reflexivity | intros; try lia; eauto]).
Qed.
Print Assumptions C26_aa_constructor.
Example C26_aa_example : ~ valid_components (T := Z) (PInt 0) 3 /\ valid_components (T := Z) PNone 3
  /\ @aa_fit_transform Z Num_Z_demo 5 (mk_aa (eaZ_cfg 0 0) (PInt 2) true exZ_rng None None None None None) eaZ_K None None true true None = Raise ValueError.
Proof. split; [apply C26_example|]. split; [apply C26_example | reflexivity]. Qed.

(** ** C58 *)
Theorem C58_aa_terminates : forall (c : aa_cfg R),
  0 < ls_sigma_one (ac_ls c) -> ls_sigma_two (ac_ls c) < 1 -> 0 < ls_step_tol (ac_ls c) -> (0 < ac_memory c)%nat ->
  exists M, forall fuel, (M <= fuel)%nat -> forall (o : aa R) K dictionary weights ud uw kw,
    ao_cfg o = c -> wf K -> (0 < nr K)%nat ->
    (forall D, dictionary = Some D -> wf D) -> (forall W0, weights = Some W0 -> wf W0) ->
    (exists r, aa_fit_transform fuel o K dictionary weights ud uw kw = Ok r)
    \/ (exists e, aa_fit_transform fuel o K dictionary weights ud uw kw = Raise e
          /\ (e = ValueError \/ e = IndexError \/ e = TypeError \/ (e = RuntimeError /\ ac_monotone c = true))).
Proof.
  intros c H1 H2 H3 Hm. destruct (kernel_aa_ends c) as [M HM]; [repeat split; assumption | exact Hm|].
  exists M. intros fuel Hf o K Din Win ud uw kw Eo WK Hn WD WW.
  destruct (HM fuel Hf o K Din Win ud uw kw Eo WK Hn WD WW) as [[r E]|(e & E & He)]; unfold aa_fit_transform; rewrite E; cbn [bind].
  - apply kernel_aa_inv in E. destruct E as (k & m & t & D & W0 & g' & w2 & A0 & A1 & A2 & A3 & A4 & A5 & A6 & A7 & A8 & A9).
    unfold aa_set_fitted. rewrite A8. cbn. left. eauto.
  - right. exists e. auto.
Qed.
Print Assumptions C58_aa_terminates.
Theorem C58_aa_transform_terminates : forall (c : aa_cfg R),
  0 < ls_sigma_one (ac_ls c) -> ls_sigma_two (ac_ls c) < 1 -> 0 < ls_step_tol (ac_ls c) -> (0 < ac_memory c)%nat ->
  exists M, forall fuel, (M <= fuel)%nat -> forall (o : aa R) K,
    ao_cfg o = c -> wf K -> (0 < nr K)%nat -> (forall w, ao_ws o = Some w -> wf (a_C w)) ->
    (exists r, aa_transform fuel o K = Ok r)
    \/ (exists e, aa_transform fuel o K = Raise e
          /\ (e = ValueError \/ e = IndexError \/ e = TypeError \/ (e = RuntimeError /\ ac_monotone c = true))).
Proof.
  intros c H1 H2 H3 Hm. destruct (kernel_aa_ends c) as [M HM]; [repeat split; assumption | exact Hm|].
  exists M. intros fuel Hf o K Eo WK Hn WC. unfold aa_transform.
  destruct (HM fuel Hf o K (match ao_ws o with Some w => Some (a_C w) | None => None end) None false true None Eo WK Hn) as [[r E]|(e & E & He)].
  - intros A EA. destruct (ao_ws o) as [w|]; [injection EA as <-; apply WC; reflexivity | discriminate].
  - intros A EA; discriminate.
  - rewrite E; cbn [bind]. apply kernel_aa_inv in E. destruct E as (k & m & t & D & W0 & g' & w2 & A0 & A1 & A2 & A3 & A4 & A5 & A6 & A7 & A8 & A9).
    rewrite A8. cbn. left. eauto.
  - rewrite E; cbn [bind]. right. exists e. auto.
Qed.
Print Assumptions C58_aa_transform_terminates.
Example C58_aa_example : 0 < ls_sigma_one default_ls /\ ls_sigma_two default_ls < 1 /\ 0 < ls_step_tol default_ls
  /\ (0 < ac_memory (ea_cfg 0 true))%nat /\ wf ea_K /\ (0 < nr ea_K)%nat.
Proof.
  split; [cbn; lra|]. split; [cbn; lra|]. split; [cbn; lra|]. split; [cbn; lia|]. split; [apply (is_mat_wf 3 3), ea_K_mat | cbn; lia].
Qed.

(** ** C59: transform on new data *)
Theorem C59_transform_needs_same_sample_count : forall (T : Type) (N : Num T) fuel (o : aa T) w X,
  ao_ws o = Some w -> nr X <> nc (a_C w) ->
  aa_transform fuel o X = Raise ValueError /\ arch_transform fuel None o X = Raise ValueError.
Proof.
  intros T N fuel o w X Ew Hne.
  assert (A : forall K, nr K = nr X -> kernel_aa fuel o K (Some (a_C w)) None false true None = Raise ValueError).
  { intros K EK. unfold kernel_aa. destruct (negb _); [reflexivity|].
    destruct (check_params _ _ _) as [[[k m] t]|e] eqn:E1; cbn [bind].
    - destruct (aa_choose_initial (ao_cfg o) k K (Some (a_C w)) None false true None (ao_rng o)) as [[[D W] g']|e] eqn:E2.
      + exfalso. unfold aa_choose_initial in E2. destruct (ac_init (ao_cfg o)); cbn [negb andb] in E2; try discriminate.
        all: apply bind_ok in E2; destruct E2 as (D1 & E2 & _); apply check_init_aa_dictionary_inv in E2; destruct E2 as (E2 & _ & E3);
          injection E2 as <-; congruence.
      + cbn [bind]. f_equal. unfold aa_choose_initial in E2. destruct (ac_init (ao_cfg o)); cbn [negb andb] in E2.
        4: injection E2; auto.
        all: destruct (check_init_aa_dictionary (Some (a_C w)) k (nr K)) as [D1|e1] eqn:E3; cbn [bind] in E2;
          [apply check_init_aa_dictionary_inv in E3; destruct E3 as (E4 & _ & E5); injection E4 as <-; congruence
          |apply check_init_aa_dictionary_raise in E3; congruence].
    - apply check_params_raise in E1. rewrite E1. reflexivity. }
  unfold aa_transform, arch_transform. rewrite Ew, !A by reflexivity. split; reflexivity.
Qed.
Print Assumptions C59_transform_needs_same_sample_count.
(** the reported cost is that of archetypes C X_new, rebuilt from the NEW samples *)
Theorem C59_transform_uses_new_samples : forall fuel (o : aa R) n d X r W,
  is_mat n d X -> (0 < n)%nat -> (forall w, ao_ws o = Some w -> wf (a_C w)) ->
  0 < ls_sigma_one (ac_ls (ao_cfg o)) -> ls_sigma_two (ac_ls (ao_cfg o)) < 1 ->
  arch_transform fuel None o X = Ok (r, W) ->
  exists w w', ao_ws o = Some w /\ ao_ws (ar_obj r) = Some w' /\ a_C w' = a_C w /\ nc (a_C w) = n
    /\ ar_cost r = archetype_error X W (a_C w)
    /\ ao_dictionary_ (ar_obj r) = ao_dictionary_ o /\ ao_cost_ (ar_obj r) = ao_cost_ o.
Proof.
  intros fuel o n d X r W HX Hn WC H1 H2 H.
  assert (nr X = n /\ nc X = d) as [x1 x2] by (split; apply HX).
  change (aa_transform fuel o (mmul X (mtr X)) = Ok (r, W)) in H.
  assert (HK : is_mat n n (@mmul R Num_R X (mtr X))) by (apply is_mat_mmul; mdim; assumption).
  apply aa_transform_inv in H. destruct H as (k & m & t & D & W0 & g' & w2 & A0 & A1 & A2 & A3 & A4 & A5 & A6 & A7 & A8 & A9 & ->).
  pose proof (aa_iterate_log _ _ _ _ _ _ _ _ _ _ _ A4 A7) as (C1 & _).
  pose proof (aa_transform_keeps_C _ _ _ _ _ _ _ _ _ A4 A7) as K1. cbn [aa_initialize_workspace a_C] in K1.
  assert (E : option_map a_C (ao_ws o) = Some D).
  { unfold aa_choose_initial in A6. destruct (ac_init (ao_cfg o)); cbn [negb andb] in A6; try discriminate.
    all: apply bind_ok in A6; destruct A6 as (D1 & E2 & A6); apply bind_ok in A6; destruct A6 as (r2 & E3 & A6);
      injection A6 as <- _ _; apply check_init_aa_dictionary_inv in E2; apply E2. }
  destruct (ao_ws o) as [w|] eqn:Ew; [|discriminate]. cbn [option_map] in *. injection E as <-.
  apply aa_choose_initial_ok in A6; [|assumption|intros A EA; injection EA as <-; apply WC; reflexivity|intros A EA; discriminate].
  destruct A6 as (HD & HW & _). replace (nr (mmul X (mtr X))) with n in * by (symmetry; apply HK).
  apply (aa_iterate_inv n k (mmul X (mtr X)) _ False False) in A7; try assumption; [|split; [apply start_ainv; assumption | split; tauto]].
  destruct A7 as [I _]. destruct (ainv_cost _ _ _ _ _ I) as [E _]. rewrite (gram_error n d) in E by exact HX.
  exists w, w2. rewrite A8. cbn [ao_ws ao_dictionary_ ao_cost_]. rewrite C1, E, K1.
  do 3 (split; [reflexivity|]). split; [apply HD|]. do 2 (split; [reflexivity|]). reflexivity.
Qed.
Print Assumptions C59_transform_uses_new_samples.
(** of the fit, only the coefficients C matter: not the data the model was fitted to (any arithmetic) *)
Theorem C59_transform_ignores_training_data : forall (T : Type) (N : Num T) fuel (o o' : aa T) w w' X,
  ao_cfg o = ao_cfg o' -> ao_n_components o = ao_n_components o' -> ao_rng o = ao_rng o' ->
  ao_ws o = Some w -> ao_ws o' = Some w' -> a_C w = a_C w' ->
  match arch_transform fuel None o X, arch_transform fuel None o' X with
  | Ok (r, W), Ok (r', W') => W = W' /\ ar_cost r = ar_cost r' /\ ar_n_iter r = ar_n_iter r'
  | Raise e, Raise e' => e = e'
  | _, _ => False
  end.
Proof.
  intros T N fuel o o' w w' X E1 E2 E3 E4 E5 E6. unfold arch_transform, kernel_aa. rewrite E4, E5, E6, E1, E2, E3.
  destruct (negb _); cbn [bind]; [reflexivity|].
  destruct (check_params _ _ _) as [[[k m] t]|e]; cbn [bind]; [|reflexivity].
  destruct (aa_choose_initial _ _ _ _ _ _ _ _ _) as [[[D W] g']|e]; cbn [bind]; [|reflexivity].
  destruct (aa_iterate _ _ _ _ _ _ _) as [[[[w2 cost] n_iter] log]|e]; cbn; auto.
Qed.
Print Assumptions C59_transform_ignores_training_data.
(** after the example fit, transform of other data with three samples succeeds *)
Example C59_example : exists fuel r W fuel' r' W', aa_fit_transform fuel (ea_aa 0 false) ea_K None None true true None = Ok (r, W)
  /\ arch_transform fuel' None (ar_obj r) (mkmat 3 1 [[5]; [7]; [9]]) = Ok (r', W').
Proof.
  destruct (ea_fit 0) as (fuel & r & W & E). exists fuel, r, W.
  pose proof E as E0. apply aa_fit_transform_inv in E0.
  destruct E0 as (k & m & t & D & W0 & g' & w2 & A0 & A1 & A2 & A3 & A4 & A5 & A6 & A7 & A8 & A9 & _).
  assert (k = 2%nat) as -> by (cbn in A1; injection A1; lia).
  apply aa_choose_initial_ok in A6; [|lia|intros ? ?; discriminate|intros ? ?; discriminate]. destruct A6 as (HD & HW & _ & _ & SD).
  apply (aa_iterate_inv 3 2 ea_K (ea_cfg 0 false) False True) in A7; try lia; try (cbn; lra).
  2:{ split; [apply start_ainv; [exact ea_K_mat | exact HW | exact HD]|]. split; [tauto|]. intros _. cbn [aa_initialize_workspace a_C]. apply SD; [intros ? ?; discriminate|].
      apply C28_example. }
  destruct A7 as ((_ & (_ & _ & HC & _) & _) & _ & P).
  destruct (aa_transform_total (ea_cfg 0 false) 3 2 100 (1/1000000) (arch_kernel None (mkmat 3 1 [[5]; [7]; [9]])) (a_C w2) ex_rng) as [M HM];
    try exact HC; try exact ex_rng_ok; try lia; try reflexivity.
  - apply (is_mat_mbuild 3 3).
  - apply P, I.
  - right; split; [reflexivity|]. numR. apply Rltb_false; lra.
  - right; right; reflexivity.
  - split; [|split]; cbn; lra.
  - cbn; lia.
  - destruct (HM M (le_n _) (ar_obj r) w2) as [[r' W'] E2]; try (rewrite A8; reflexivity); try reflexivity; [rewrite A8; left; reflexivity|].
    exists M, r', W'. split; [exact E | exact E2].
Qed.

(** ** C60: the monotonicity guard *)
Theorem C60_fit_guard_never_fires : forall (c : aa_cfg R) n k m tol K B dictionary weights kw g,
  is_mat n n K -> (0 < n)%nat -> (0 < k)%nat -> (0 < m)%nat -> symmetric K -> 0 <= B -> entries_le K B ->
  ac_max_iterations c = PInt (Z.of_nat m) -> ac_tolerance c = PFloat tol -> 0 <= tol ->
  aa_start_ready (ac_init c) n k kw g dictionary weights -> rng_ok k g ->
  0 < ls_sigma_one (ac_ls c) -> ls_sigma_two (ac_ls c) < 1 -> 0 <= ls_gamma (ac_ls c) <= 1 ->
  0 < ls_alpha_min (ac_ls c) <= ls_alpha_max (ac_ls c) -> ac_memory c = 1%nat ->
  0 < ls_step_tol (ac_ls c) <= ls_sigma_one (ac_ls c) ->
  ls_step_tol (ac_ls c) * (2 * Rmax 1 (ls_alpha_max (ac_ls c)) * (B * INR n * (INR n + INR k))) <= 1 - ls_gamma (ac_ls c) ->
  exists M, forall fuel, (M <= fuel)%nat ->
    forall o, ao_cfg o = c -> comp_count (ao_n_components o) n k -> ao_rng o = g ->
    exists r, aa_fit_transform fuel o K dictionary weights true true kw = Ok r.
Proof.
  intros c n k m tol K B Din Win kw g HK Hn Hk Hm Hsym HB HKB Em Et Ht Hs Hr H1 H2 Hg Ha Hmem Ht1 Ht2.
  eapply (aa_fit_no_guard c n k m tol K B); try assumption. right. split; [exact Et|]. numR. apply (proj2 (Rltb_false _ _)). lra.
Qed.
Print Assumptions C60_fit_guard_never_fires.
Theorem C60_transform_guard_never_fires : forall (c : aa_cfg R) n k m tol K B C g,
  is_mat n n K -> is_mat k n C -> row_stochastic C -> (0 < n)%nat -> (0 < k)%nat -> (0 < m)%nat ->
  symmetric K -> 0 <= B -> entries_le K B ->
  ac_max_iterations c = PInt (Z.of_nat m) -> ac_tolerance c = PFloat tol -> 0 <= tol ->
  transform_init (ac_init c) -> rng_ok k g ->
  0 < ls_sigma_one (ac_ls c) -> ls_sigma_two (ac_ls c) < 1 -> 0 <= ls_gamma (ac_ls c) <= 1 ->
  0 < ls_alpha_min (ac_ls c) <= ls_alpha_max (ac_ls c) -> ac_memory c = 1%nat ->
  0 < ls_step_tol (ac_ls c) <= ls_sigma_one (ac_ls c) ->
  ls_step_tol (ac_ls c) * (2 * Rmax 1 (ls_alpha_max (ac_ls c)) * (B * INR n * (INR n + INR k))) <= 1 - ls_gamma (ac_ls c) ->
  exists M, forall fuel, (M <= fuel)%nat -> forall o w, ao_cfg o = c -> comp_count (ao_n_components o) n k -> ao_rng o = g ->
    ao_ws o = Some w -> a_C w = C -> exists r, aa_transform fuel o K = Ok r.
Proof.
  intros c n k m tol K B C g HK HC SC Hn Hk Hm Hsym HB HKB Em Et Ht Hi Hr H1 H2 Hg Ha Hmem Ht1 Ht2.
  eapply (aa_transform_no_guard c n k m tol K B); try assumption. right. split; [exact Et|]. numR. apply (proj2 (Rltb_false _ _)). lra.
Qed.
Print Assumptions C60_transform_guard_never_fires.
(** the guard is the only source of RuntimeError (any arithmetic) *)
Theorem C60_guard_only_source : forall (T : Type) (N : Num T) fuel (o : aa T) K dictionary weights ud uw kw,
  ac_monotone (ao_cfg o) = false ->
  aa_fit_transform fuel o K dictionary weights ud uw kw <> Raise RuntimeError.
Proof.
  intros T N fuel o K Din Win ud uw kw Hmono H. unfold aa_fit_transform in H.
  destruct (kernel_aa fuel o K Din Win ud uw kw) as [r0|e0] eqn:E; cbn [bind] in H.
  { unfold aa_set_fitted in H. destruct (ao_ws (ar_obj r0)); discriminate. }
  injection H as ->. unfold kernel_aa in E. destruct (negb _); [discriminate|].
  destruct (check_params _ _ _) as [[[k m] t]|e] eqn:E1; cbn [bind] in E;
    [|apply check_params_raise in E1; congruence].
  destruct (aa_choose_initial _ _ _ _ _ _ _ _ _) as [[[D W] g']|e] eqn:E2; cbn [bind] in E;
    [|apply aa_choose_initial_raise in E2; destruct E2 as [?|[?|?]]; congruence].
  destruct (aa_iterate _ _ _ _ _ _ _) as [[[[w2 cost] n_iter] log]|e] eqn:E3; cbn [bind] in E; [discriminate|].
  injection E as ->. unfold aa_iterate, iterate in E3.
  pose proof (iterate_loop_raise _ (fun _ => True) _ _ _ (fun _ _ _ _ _ _ => I) _ _ _ _ _ _ E3 eq_refl I) as E4.
  destruct E4 as [[_ (i & s0 & s & _ & _ & B)]|(u & s & Iu & _ & Eu)].
  - unfold cost_increased in B. rewrite Hmono, Bool.andb_false_r in B. discriminate.
  - apply in_app_or in Iu. rewrite !in_enabled in Iu. destruct Iu as [[_ ->]|[_ ->]].
    + unfold and_refresh in Eu. destruct (aa_update_dictionary fuel (ao_cfg o) s) as [x|e] eqn:E5; cbn [bind] in Eu; [discriminate|].
      injection Eu as ->. apply aa_update_dictionary_raise in E5. destruct E5 as [?|?]; discriminate.
    + unfold and_refresh in Eu. destruct (aa_update_weights fuel (ao_cfg o) s) as [x|e] eqn:E5; cbn [bind] in Eu; [discriminate|].
      injection Eu as ->. apply aa_update_weights_raise in E5. destruct E5 as [?|?]; discriminate.
Qed.
Print Assumptions C60_guard_only_source.
(** the default line search meets the bound for the example kernel; and the fit with the guard on succeeds *)
Example C60_example : symmetric ea_K /\ entries_le ea_K 2
  /\ ls_step_tol default_ls * (2 * Rmax 1 (ls_alpha_max default_ls) * (2 * INR 3 * (INR 3 + INR 2))) <= 1 - ls_gamma default_ls
  /\ exists fuel r W, aa_fit_transform fuel (ea_aa 0 true) ea_K None None true true None = Ok (r, W).
Proof.
  split; [exact (gram_symmetric ea_X)|]. split; [exact ea_K_bound|]. split; [exact ea_bound | exact ea_fit_mono].
Qed.

(** ** C61: reconstructions are convex combinations of the samples *)
Theorem C61_inverse_transform : forall (o : aa R) w W M,
  ao_ws o = Some w -> row_stochastic (a_C w) -> row_stochastic W -> aa_inverse_transform o W = Ok M ->
  nr M = nr W /\ nc M = nc (a_C w) /\ row_stochastic M
  /\ forall n d X, is_mat n d X -> nc (a_C w) = n -> forall i, (i < nr W)%nat ->
      in_hull X (fun f => Sum n (fun j => ent M i j * ent X j f)).
Proof.
  intros o w W M Ew SC SW H. unfold aa_inverse_transform in H. rewrite Ew in H.
  destruct (Nat.eqb_spec (nc W) (nr (a_C w))) as [E|]; [|discriminate]. injection H as <-.
  assert (SM : row_stochastic (@mmul R Num_R W (a_C w))).
  { intros i Hi. mdim. change (nr (mmul W (a_C w))) with (nr W) in Hi. destruct (SW i Hi) as [P S]. split.
    - intros j Hj. rewrite ent_mmul by assumption. apply Sum_nonneg; intros a Ha. apply Rmult_le_pos; [apply P, Ha | apply SC; lia].
    - erewrite Sum_ext; [|intros j Hj; rewrite ent_mmul by assumption; reflexivity].
      rewrite Sum_swap. erewrite Sum_ext; [exact S|]. intros a Ha. cbv beta.
      pose proof (proj2 (SC a ltac:(lia))) as E1. change (nc (mmul W (a_C w))) with (nc (a_C w)). rewrite (Sum_scal_l (nc (a_C w)) (ent W i a) (fun j => ent (a_C w) a j)), E1. ring. }
  split; [reflexivity|]. split; [reflexivity|]. split; [exact SM|].
  intros n d X HX Hn i Hi. destruct HX as (x1 & x2 & _). destruct (SM i Hi) as [P S].
  exists (fun j => ent (@mmul R Num_R W (a_C w)) i j). rewrite x1. change (nc (mmul W (a_C w))) with (nc (a_C w)) in P, S. rewrite Hn in P, S.
  split; [exact P|]. split; [exact S|]. intros f Hf. reflexivity.
Qed.
Print Assumptions C61_inverse_transform.
Theorem C61_inverse_transform_errors : forall (T : Type) (N : Num T) (o : aa T) W,
  (ao_ws o = None -> aa_inverse_transform o W = Raise TypeError)
  /\ (forall w, ao_ws o = Some w -> nc W <> nr (a_C w) -> aa_inverse_transform o W = Raise ValueError).
Proof.
  intros T N o W. unfold aa_inverse_transform. split; [intros ->; reflexivity|]. intros w -> Hne.
  destruct (Nat.eqb_spec (nc W) (nr (a_C w))); [contradiction | reflexivity].
Qed.
Print Assumptions C61_inverse_transform_errors.
(** the example fit can be inverted *)
Example C61_example : exists fuel r W M w, aa_fit_transform fuel (ea_aa 0 false) ea_K None None true true None = Ok (r, W)
  /\ ao_ws (ar_obj r) = Some w /\ row_stochastic (a_C w) /\ row_stochastic W /\ aa_inverse_transform (ar_obj r) W = Ok M.
Proof.
  destruct (ea_fit 0) as (fuel & r & W & E). exists fuel, r, W.
  destruct C28_example as (HK & R2 & R3 & _).
  pose proof (C28_fit_stochastic fuel (ea_aa 0 false) 3 2 ea_K None None true true None r W HK ltac:(lia) (or_introl eq_refl)
    ltac:(discriminate) ltac:(discriminate) ltac:(discriminate) ltac:(discriminate) (proj1 R2) (proj2 R2) (proj2 R3) ltac:(cbn; lra) ltac:(cbn; lra) E) as (F1 & F2 & C & F3 & F4 & F5).
  apply aa_fit_transform_inv in E as E0.
  destruct E0 as (k & m & t & D & W0 & g' & w2 & A0 & A1 & A2 & A3 & A4 & A5 & A6 & A7 & A8 & A9 & EW).
  rewrite A8 in F3. cbn [ao_dictionary_] in F3. injection F3 as F3. subst C.
  exists (mmul W (a_C w2)), w2. split; [exact E|]. split; [rewrite A8; reflexivity|]. split; [exact F5|]. split; [exact F2|].
  unfold aa_inverse_transform. rewrite A8. cbn [ao_ws]. destruct F1 as (_ & f2 & _), F4 as (f4 & _). rewrite f2, f4. reflexivity.
Qed.
