(** Proofs about mtd_convex_coding.py: stochastic constraints and the three updates. *)
From Coq Require Import List Arith Lia ZArith Reals Lra Psatz Bool.
From Verif Require Import Num Mat Py Spec M_simplex M_spg M_iter M_random M_furthest M_gpnh M_mtd.
From Verif Require Import P_lin P_simplex P_spg P_random P_mat P_iter P_gpnh P_mtd.
Import ListNotations.
Local Open Scope R_scope.

(** ** predicted weights *)
Lemma fc_prob p k lg w M G t : (forall i, (i < p)%nat -> 0 <= w i) -> Sum p w = 1 ->
  (forall i b, (i < p)%nat -> (b < k)%nat -> (forall a, (a < k)%nat -> 0 <= M i a b) /\ Sum k (fun a => M i a b) = 1) ->
  (forall i, (i < p)%nat -> (forall b, (b < k)%nat -> 0 <= G (t - lg i)%nat b) /\ Sum k (G (t - lg i)%nat) = 1) ->
  (forall a, (a < k)%nat -> 0 <= fc p k lg w M G t a) /\ Sum k (fc p k lg w M G t) = 1.
Proof.
  intros W0 W1 HM HG. split.
  - intros a Ha. apply Sum_nonneg; intros i Hi. apply Rmult_le_pos; [apply W0, Hi|]. apply Sum_nonneg; intros b Hb.
    apply Rmult_le_pos; [apply (HM i b Hi Hb), Ha | apply (HG i Hi), Hb].
  - unfold fc. rewrite Sum_swap. rewrite <- W1. apply Sum_ext; intros i Hi. rewrite Sum_scal_l.
    rewrite Sum_swap. rewrite (Sum_ext k _ (G (t - lg i)%nat)).
    + rewrite (proj2 (HG i Hi)). ring.
    + intros b Hb. rewrite Sum_scal_r, (proj2 (HM i b Hi Hb)). ring.
Qed.
Lemma predicted_stochastic c n k ow Ts G : is_mat n k G -> is_stack (n_lags c) k Ts -> length ow = n_lags c ->
  row_stochastic G -> prob_vec ow -> stack_stochastic Ts ->
  row_stochastic (@predicted_weights R Num_R c ow Ts G).
Proof.
  intros HG HT Ho SG [P0 P1] ST t Ht. pose proof (predicted_shape c n k ow Ts G HG) as (z1 & z2 & _).
  rewrite z1 in Ht. rewrite z2. pose proof HG as (g1 & g2 & _).
  assert (E : forall a, (a < k)%nat -> ent (predicted_weights c ow Ts G) t a
     = if Nat.ltb t (max_lag c) then ent G t a else mfc c k ow Ts G t a) by (intros; apply (predicted_ent c n k); assumption).
  erewrite Sum_ext; [|exact E].
  destruct (Nat.ltb_spec t (max_lag c)) as [H|H].
  - destruct (SG t ltac:(lia)) as [A B]. rewrite g2 in *. split; [intros a Ha; rewrite E by exact Ha; apply A, Ha | exact B].
  - destruct (fc_prob (n_lags c) k (lag c) (at_ ow) (tent Ts) (ent G) t) as [A B].
    + rewrite Ho in P0. exact P0.
    + rewrite Ho in P1. exact P1.
    + intros i b Hi Hb. destruct (stack_dim _ _ _ i HT Hi) as [t1 t2].
      specialize (ST i ltac:(destruct HT; lia) b). change (nth i Ts (mkmat 0 0 [])) with (tmat Ts i) in ST.
      rewrite t1, t2 in ST. exact (ST Hb).
    + intros i Hi. destruct (SG (t - lag c i)%nat ltac:(lia)) as [A B]. rewrite g2 in *. split; assumption.
    + split; [intros a Ha; rewrite E by exact Ha; apply A, Ha | exact B].
Qed.

(** ** convex combinations *)
Lemma prob_vec_step v P s : length P = length v -> prob_vec v -> prob_vec P -> 0 <= s <= 1 ->
  prob_vec (@vadd R Num_R v (vscale s (vsub P v))).
Proof.
  intros HL [V0 V1] [Q0 Q1] Hs.
  assert (EL : length (@vadd R Num_R v (vscale s (vsub P v))) = length v) by (unfold vadd, vmap2; apply length_tab).
  assert (E : forall i, (i < length v)%nat -> at_ (@vadd R Num_R v (vscale s (vsub P v))) i = (1 - s) * at_ v i + s * at_ P i).
  { intros i Hi. rewrite at_vadd by exact Hi. rewrite at_vscale by (unfold vsub, vmap2; rewrite length_tab; lia).
    rewrite at_vsub by lia. ring. }
  split; rewrite EL.
  - intros i Hi. rewrite E by exact Hi. pose proof (V0 i Hi). pose proof (Q0 i ltac:(lia)).
    assert (0 <= (1 - s) * at_ v i) by (apply Rmult_le_pos; lra). assert (0 <= s * at_ P i) by (apply Rmult_le_pos; lra). lra.
  - erewrite Sum_ext; [|exact E]. rewrite Sum_plus, !Sum_scal_l. rewrite HL in Q1. rewrite V1, Q1. ring.
Qed.
Lemma col_stochastic_step n k G P s : is_mat n k G -> is_mat n k P -> col_stochastic G -> col_stochastic P ->
  0 <= s <= 1 -> col_stochastic (@madd R Num_R G (mscale s (msub P G))).
Proof.
  intros HG HP SG SP Hs. destruct HG as (g1 & g2 & _), HP as (p1 & p2 & _).
  intros j Hj. pose proof (is_mat_madd n k G (mscale s (msub P G)) g1 g2) as (b1 & b2 & _). rewrite b2 in Hj. rewrite b1.
  destruct (SG j ltac:(lia)) as [G0 G1]. destruct (SP j ltac:(lia)) as [P0 P1]. rewrite g1 in *. rewrite p1 in *.
  assert (E : forall i, (i < n)%nat -> ent (@madd R Num_R G (mscale s (msub P G))) i j = (1 - s) * ent G i j + s * ent P i j).
  { intros i Hi. rewrite ent_madd by lia. rewrite ent_mscale by (mdim; lia). rewrite ent_msub by lia. ring. }
  split.
  - intros i Hi. rewrite E by exact Hi. pose proof (G0 i Hi). pose proof (P0 i Hi).
    assert (0 <= (1 - s) * ent G i j) by (apply Rmult_le_pos; lra). assert (0 <= s * ent P i j) by (apply Rmult_le_pos; lra). lra.
  - erewrite Sum_ext; [|exact E]. rewrite Sum_plus, !Sum_scal_l. rewrite G1, P1. ring.
Qed.
Lemma stack_stochastic_step p k Ts Ps s : is_stack p k Ts -> is_stack p k Ps -> stack_stochastic Ts -> stack_stochastic Ps ->
  0 <= s <= 1 -> stack_stochastic (@tadd R Num_R Ts (tscale s (tsub Ps Ts))).
Proof.
  intros HT HP ST SP Hs i Hi. pose proof HT as [LT ST']. pose proof HP as [LP SP'].
  assert (Hi' : (i < p)%nat) by (unfold tadd in Hi; rewrite length_tab in Hi; lia).
  change (nth i (tadd Ts (tscale s (tsub Ps Ts))) (mkmat 0 0 [])) with (tmat (tadd Ts (tscale s (tsub Ps Ts))) i).
  rewrite tmat_tadd by lia. unfold tscale. rewrite tmat_map by (unfold tsub; rewrite length_tab; lia). rewrite tmat_tsub by lia.
  apply (col_stochastic_step k k); [apply ST', Hi' | apply SP', Hi' | apply ST; lia | apply SP; lia | exact Hs].
Qed.
Lemma project_stack_stochastic p k A : is_stack p k A -> (0 < k)%nat ->
  is_stack p k (map (@simplex_project_columns R Num_R) A) /\ stack_stochastic (map simplex_project_columns A).
Proof.
  intros HA Hk. split; [apply stack_map; [exact HA | intros M; apply is_mat_project_cols]|].
  intros i Hi. rewrite map_length in Hi. change (nth i (map simplex_project_columns A) (mkmat 0 0 [])) with (tmat (map simplex_project_columns A) i).
  rewrite tmat_map by exact Hi. destruct HA as [LA SA]. specialize (SA i ltac:(lia)).
  change (is_mat k k (tmat A i)) in SA. apply project_cols_stochastic; [apply (proj1 (is_mat_wf k k (tmat A i)) SA) | destruct SA as (-> & _); exact Hk].
Qed.

(** ** the three updates *)
Definition mrefresh_d (w0 : mws R) : mws R :=
  mk_mws (m_X w0) (m_Gamma w0) (m_S w0) (m_order_weights w0) (m_transition_matrices w0)
     (mmul (mtr (m_Gamma w0)) (m_Gamma w0)) (mmul (mtr (m_Gamma w0)) (m_X w0))
     (m_XSt w0) (mmul (m_S w0) (mtr (m_S w0))) (m_Z w0)
     (m_alpha_Gamma w0) (m_alpha_S w0) (m_alpha_parameters w0)
     (m_f_S_mem w0) (m_f_Gamma_mem w0) (m_f_parameters_mem w0).
Definition mrefresh_w (w0 : mws R) : mws R :=
  mk_mws (m_X w0) (m_Gamma w0) (m_S w0) (m_order_weights w0) (m_transition_matrices w0)
     (m_GtG w0) (m_GtX w0) (mmul (m_X w0) (mtr (m_S w0))) (mmul (m_S w0) (mtr (m_S w0))) (m_Z w0)
     (m_alpha_Gamma w0) (m_alpha_S w0) (m_alpha_parameters w0)
     (m_f_S_mem w0) (m_f_Gamma_mem w0) (m_f_parameters_mem w0).
Definition mdir_d c k (w : mws R) : mat R :=
  msub (msub (m_S w) (mscale (m_alpha_S w) (mtd_dictionary_gradient c k w))) (m_S w).
Definition mproj_w c k (w : mws R) : mat R :=
  simplex_project_rows (msub (m_Gamma w) (mscale (m_alpha_Gamma w) (mtd_weights_gradient c k w))).
Definition mdir_w c k (w : mws R) : mat R := msub (mproj_w c k w) (m_Gamma w).
Definition mproj_o c k (w : mws R) : list R :=
  simplex_project_vector (vsub (m_order_weights w) (vscale (m_alpha_parameters w) (mtd_order_gradient c k w))).
Definition mdir_o c k (w : mws R) : list R := vsub (mproj_o c k w) (m_order_weights w).
Definition mproj_t c k (w : mws R) : list (mat R) :=
  map simplex_project_columns (tsub (m_transition_matrices w) (tscale (m_alpha_parameters w) (mtd_transition_gradient c k w))).
Definition mdir_t c k (w : mws R) : list (mat R) := tsub (mproj_t c k w) (m_transition_matrices w).

Lemma mrefresh_d_ok c n d k X w : mok c n d k X w -> mok c n d k X (mrefresh_d w) /\ mcache_d (mrefresh_d w).
Proof. intros (A & B & C & D & E & F & G). split; [exact (conj A (conj B (conj C (conj eq_refl (conj E (conj F G)))))) | split; reflexivity]. Qed.
Lemma mrefresh_w_ok c n d k X w : mok c n d k X w -> mok c n d k X (mrefresh_w w) /\ mcache_w (mrefresh_w w).
Proof. intros (A & B & C & D & E & F & G). split; [exact (conj A (conj B (conj C (conj eq_refl (conj E (conj F G)))))) | reflexivity]. Qed.
Lemma mrefresh_p_eq c n d k X w : mok c n d k X w ->
  mtd_set_parameters c (m_order_weights w) (m_transition_matrices w) w = w.
Proof. intros (_ & _ & _ & _ & _ & _ & G). destruct w. unfold mtd_set_parameters. cbn in *. rewrite <- G. reflexivity. Qed.
Lemma mrefresh_cost c n d k X w : mok c n d k X w ->
  mtd_evaluate_cost c k (mrefresh_d w) = mtd_evaluate_cost c k w /\ mtd_evaluate_cost c k (mrefresh_w w) = mtd_evaluate_cost c k w.
Proof.
  intros (_ & _ & _ & D & _).
  split; unfold mtd_evaluate_cost, mtd_loss_function, mtd_dictionary_penalty, mtd_weights_penalty, mtd_normalization, mtd_residual, mrefresh_d, mrefresh_w;
    cbn [m_X m_Gamma m_S m_SSt m_Z]; rewrite D; reflexivity.
Qed.
Lemma mset_S_ok c n d k X w S : mok c n d k X w -> is_mat k d S -> mok c n d k X (mtd_set_S S w).
Proof. intros (A & B & C & D & E & F & G) HS. exact (conj A (conj B (conj HS (conj eq_refl (conj E (conj F G)))))). Qed.
Lemma mset_Gamma_ok c n d k X w W : mok c n d k X w -> is_mat n k W -> mok c n d k X (mtd_set_Gamma c W w).
Proof. intros (A & B & C & D & E & F & G) HS. exact (conj A (conj HS (conj C (conj D (conj E (conj F eq_refl)))))). Qed.
Lemma mset_parameters_ok c n d k X w ow Ts : mok c n d k X w -> length ow = n_lags c -> is_stack (n_lags c) k Ts ->
  mok c n d k X (mtd_set_parameters c ow Ts w).
Proof. intros (A & B & C & D & E & F & G) HO HT. exact (conj A (conj B (conj C (conj D (conj HO (conj HT eq_refl)))))). Qed.

Lemma mdir_d_shape c n d k X w : mok c n d k X w -> is_mat k d (mdir_d c k w).
Proof. intros (A & B & C & D & _). apply is_mat_msub; apply C. Qed.
Lemma mproj_w_shape c n d k X w : mok c n d k X w -> is_mat n k (mproj_w c k w).
Proof. intros (A & B & _). apply is_mat_project, is_mat_msub; apply B. Qed.
Lemma mdir_w_shape c n d k X w : mok c n d k X w -> is_mat n k (mdir_w c k w).
Proof. intros H. apply is_mat_msub; apply (mproj_w_shape c n d k X w H). Qed.
Lemma mproj_o_length c n d k X w : mok c n d k X w -> length (mproj_o c k w) = n_lags c.
Proof. intros (_ & _ & _ & _ & E & _). unfold mproj_o. rewrite proj_length. unfold vsub, vmap2. rewrite length_tab. exact E. Qed.
Lemma mdir_o_length c n d k X w : mok c n d k X w -> length (mdir_o c k w) = n_lags c.
Proof. intros H. unfold mdir_o, vsub, vmap2. rewrite length_tab. apply (mproj_o_length c n d k X w H). Qed.
Lemma mproj_t_stack c n d k X w : mok c n d k X w -> is_stack (n_lags c) k (mproj_t c k w).
Proof. intros (_ & _ & _ & _ & _ & F & _). apply stack_map; [apply stack_tsub, F | intros M; apply is_mat_project_cols]. Qed.
Lemma mdir_t_stack c n d k X w : mok c n d k X w -> is_stack (n_lags c) k (mdir_t c k w).
Proof. intros H. apply stack_tsub, (mproj_t_stack c n d k X w H). Qed.

Lemma vadd_vscale_1 v h : length h = length v -> @vadd R Num_R v (vscale 1 h) = vadd v h.
Proof.
  intros H. unfold vadd, vmap2. apply tab_ext. intros i Hi. f_equal.
  change (@vget R Num_R) with at_. rewrite at_vscale by lia. ring.
Qed.
Lemma tadd_tscale_1 p k A H : is_stack p k A -> is_stack p k H -> @tadd R Num_R A (tscale 1 H) = tadd A H.
Proof.
  intros [LA SA] [LH SH]. unfold tadd. apply tab_ext. intros i Hi. unfold tscale. rewrite tmat_map by lia.
  apply madd_mscale_1. apply (proj1 (is_mat_wf k k (tmat H i)) (SH i ltac:(lia))).
Qed.

(** what a successful update did *)
Lemma mtd_update_dictionary_ok c n d k X fuel w0 w' : mok c n d k X w0 ->
  0 < ls_sigma_one (mc_ls c) -> ls_sigma_two (mc_ls c) < 1 ->
  mtd_update_dictionary fuel c k w0 = Ok w' ->
  let w := mrefresh_d w0 in
  exists s a, 0 < s <= 1
    /\ line_search fuel (mc_ls c) (mtd_evaluate_cost c k) (fun s => mtd_set_S (madd (m_S w) (mscale s (mdir_d c k w))) w)
         (mtd_set_S (madd (m_S w) (mscale 1 (mdir_d c k w))) w)
         (m_f_S_mem w0) (mtd_evaluate_cost c k w0) (minner (mdir_d c k w) (mtd_dictionary_gradient c k w))
       = Ok (mtd_set_S (madd (m_S w) (mscale s (mdir_d c k w))) w, s, tl (m_f_S_mem w0) ++ [mtd_evaluate_cost c k w0])
    /\ m_f_S_mem w0 <> []
    /\ w' = mtd_set_S_mem a (tl (m_f_S_mem w0) ++ [mtd_evaluate_cost c k w0]) (mtd_set_S (madd (m_S w) (mscale s (mdir_d c k w))) w)
    /\ (ls_alpha_min (mc_ls c) <= ls_alpha_max (mc_ls c) -> ls_alpha_min (mc_ls c) <= a <= ls_alpha_max (mc_ls c)).
Proof.
  intros Hw H1 H2 H w. unfold mtd_update_dictionary in H. cbv zeta in H. fold (mrefresh_d w0) in H. fold w in H.
  fold (mdir_d c k w) in H. apply bind_ok in H. destruct H as (((w1 & s) & mem) & EL & H). injection H as <-.
  unfold mtd_dictionary_line_search in EL. cbv zeta in EL.
  destruct (mrefresh_cost c n d k X w0 Hw) as [Ec _]. fold w in Ec. rewrite Ec in EL.
  change (m_f_S_mem w) with (m_f_S_mem w0) in EL.
  rewrite <- (madd_mscale_1 (m_S w) (mdir_d c k w)) in EL by apply wf_msub.
  pose proof (line_search_range fuel (mc_ls c) (mtd_evaluate_cost c k)
    (fun s => mtd_set_S (madd (m_S w) (mscale s (mdir_d c k w))) w) _ _ _ _ _ _ H1 H2 EL) as (E1 & Hs & Em & Hne).
  exists s. eexists. split; [exact Hs|]. rewrite E1, Em in EL. split; [exact EL|]. split; [exact Hne|].
  split; [rewrite Em, E1; reflexivity|]. intros Hm. apply alpha_bounds, Hm.
Qed.
Lemma mtd_update_weights_ok c n d k X fuel w0 w' : mok c n d k X w0 ->
  0 < ls_sigma_one (mc_ls c) -> ls_sigma_two (mc_ls c) < 1 ->
  mtd_update_weights fuel c k w0 = Ok w' ->
  let w := mrefresh_w w0 in
  exists s a, 0 < s <= 1
    /\ line_search fuel (mc_ls c) (mtd_evaluate_cost c k) (fun s => mtd_set_Gamma c (madd (m_Gamma w) (mscale s (mdir_w c k w))) w)
         (mtd_set_Gamma c (madd (m_Gamma w) (mscale 1 (mdir_w c k w))) w)
         (m_f_Gamma_mem w0) (mtd_evaluate_cost c k w0) (minner (mdir_w c k w) (mtd_weights_gradient c k w))
       = Ok (mtd_set_Gamma c (madd (m_Gamma w) (mscale s (mdir_w c k w))) w, s, tl (m_f_Gamma_mem w0) ++ [mtd_evaluate_cost c k w0])
    /\ m_f_Gamma_mem w0 <> []
    /\ w' = mtd_set_Gamma_mem a (tl (m_f_Gamma_mem w0) ++ [mtd_evaluate_cost c k w0]) (mtd_set_Gamma c (madd (m_Gamma w) (mscale s (mdir_w c k w))) w)
    /\ (ls_alpha_min (mc_ls c) <= ls_alpha_max (mc_ls c) -> ls_alpha_min (mc_ls c) <= a <= ls_alpha_max (mc_ls c)).
Proof.
  intros Hw H1 H2 H w. unfold mtd_update_weights in H. cbv zeta in H. fold (mrefresh_w w0) in H. fold w in H.
  fold (mproj_w c k w) in H. fold (mdir_w c k w) in H. apply bind_ok in H. destruct H as (((w1 & s) & mem) & EL & H). injection H as <-.
  unfold mtd_weights_line_search in EL. cbv zeta in EL.
  destruct (mrefresh_cost c n d k X w0 Hw) as [_ Ec]. fold w in Ec. rewrite Ec in EL.
  change (m_f_Gamma_mem w) with (m_f_Gamma_mem w0) in EL.
  rewrite <- (madd_mscale_1 (m_Gamma w) (mdir_w c k w)) in EL by apply wf_msub.
  pose proof (line_search_range fuel (mc_ls c) (mtd_evaluate_cost c k)
    (fun s => mtd_set_Gamma c (madd (m_Gamma w) (mscale s (mdir_w c k w))) w) _ _ _ _ _ _ H1 H2 EL) as (E1 & Hs & Em & Hne).
  exists s. eexists. split; [exact Hs|]. rewrite E1, Em in EL. split; [exact EL|]. split; [exact Hne|].
  split; [rewrite Em, E1; reflexivity|]. intros Hm. apply alpha_bounds, Hm.
Qed.
Lemma mtd_update_parameters_ok c n d k X fuel w0 w' : mok c n d k X w0 ->
  0 < ls_sigma_one (mc_ls c) -> ls_sigma_two (mc_ls c) < 1 ->
  mtd_update_parameters fuel c k w0 = Ok w' ->
  let tr := fun s => mtd_set_parameters c (vadd (m_order_weights w0) (vscale s (mdir_o c k w0)))
                       (tadd (m_transition_matrices w0) (tscale s (mdir_t c k w0))) w0 in
  exists s a, 0 < s <= 1
    /\ line_search fuel (mc_ls c) (mtd_evaluate_cost c k) tr (tr 1)
         (m_f_parameters_mem w0) (mtd_evaluate_cost c k w0)
         (vinner (mdir_o c k w0) (mtd_order_gradient c k w0) + tinner (mdir_t c k w0) (mtd_transition_gradient c k w0))
       = Ok (tr s, s, tl (m_f_parameters_mem w0) ++ [mtd_evaluate_cost c k w0])
    /\ m_f_parameters_mem w0 <> []
    /\ w' = mtd_set_parameters_mem a (tl (m_f_parameters_mem w0) ++ [mtd_evaluate_cost c k w0]) (tr s)
    /\ (ls_alpha_min (mc_ls c) <= ls_alpha_max (mc_ls c) -> ls_alpha_min (mc_ls c) <= a <= ls_alpha_max (mc_ls c)).
Proof.
  intros Hw H1 H2 H tr. unfold mtd_update_parameters in H. cbv zeta in H.
  rewrite (mrefresh_p_eq c n d k X w0 Hw) in H.
  fold (mproj_o c k w0) in H. fold (mdir_o c k w0) in H. fold (mproj_t c k w0) in H. fold (mdir_t c k w0) in H.
  apply bind_ok in H. destruct H as (((w1 & s) & mem) & EL & H). injection H as <-.
  unfold mtd_parameters_line_search in EL. cbv zeta in EL.
  rewrite <- (vadd_vscale_1 (m_order_weights w0) (mdir_o c k w0)) in EL
    by (rewrite (mdir_o_length c n d k X w0 Hw); symmetry; apply Hw).
  rewrite <- (tadd_tscale_1 (n_lags c) k (m_transition_matrices w0) (mdir_t c k w0)) in EL
    by (apply Hw || apply (mdir_t_stack c n d k X w0 Hw)).
  fold tr in EL. change (mtd_set_parameters c (vadd (m_order_weights w0) (vscale 1 (mdir_o c k w0)))
                       (tadd (m_transition_matrices w0) (tscale 1 (mdir_t c k w0))) w0) with (tr 1) in EL.
  pose proof (line_search_range fuel (mc_ls c) (mtd_evaluate_cost c k) tr _ _ _ _ _ _ H1 H2 EL) as (E1 & Hs & Em & Hne).
  exists s. eexists. split; [exact Hs|]. rewrite E1, Em in EL. split; [exact EL|]. split; [exact Hne|].
  split; [rewrite Em, E1; reflexivity|]. intros Hm. apply alpha_bounds, Hm.
Qed.

Lemma mem_length (m : list R) x : m <> [] -> length (tl m ++ [x]) = length m.
Proof. intros H. rewrite app_length. destruct m; [congruence|]. cbn; lia. Qed.

(** invariants kept by the updates: shapes, caches, stochastic constraints, step lengths *)
Definition alpha_ok (c : mtd_cfg R) (a : R) : Prop :=
  ls_alpha_min (mc_ls c) <= ls_alpha_max (mc_ls c) -> ls_alpha_min (mc_ls c) <= a <= ls_alpha_max (mc_ls c).
Lemma mtd_update_dictionary_inv c n d k X fuel w0 w' : mok c n d k X w0 ->
  0 < ls_sigma_one (mc_ls c) -> ls_sigma_two (mc_ls c) < 1 ->
  mtd_update_dictionary fuel c k w0 = Ok w' ->
  mok c n d k X w' /\ exists S a mem, w' = mtd_set_S_mem a mem (mtd_set_S S (mrefresh_d w0))
    /\ is_mat k d S /\ alpha_ok c a /\ length mem = length (m_f_S_mem w0).
Proof.
  intros Hw H1 H2 H. destruct (mtd_update_dictionary_ok c n d k X fuel w0 w' Hw H1 H2 H) as (s & a & Hs & _ & Hne & -> & Ha).
  destruct (mrefresh_d_ok c n d k X w0 Hw) as [Hr _].
  assert (HS : is_mat k d (madd (m_S (mrefresh_d w0)) (mscale s (mdir_d c k (mrefresh_d w0))))) by (apply is_mat_madd; apply Hr).
  split.
  - exact (mset_S_ok c n d k X _ _ Hr HS).
  - do 3 eexists. split; [reflexivity|]. split; [exact HS|]. split; [exact Ha|]. apply mem_length, Hne.
Qed.
Lemma mtd_update_weights_inv c n d k X fuel w0 w' : mok c n d k X w0 -> (0 < k)%nat ->
  0 < ls_sigma_one (mc_ls c) -> ls_sigma_two (mc_ls c) < 1 ->
  mtd_update_weights fuel c k w0 = Ok w' ->
  mok c n d k X w' /\ exists G a mem, w' = mtd_set_Gamma_mem a mem (mtd_set_Gamma c G (mrefresh_w w0))
    /\ is_mat n k G /\ alpha_ok c a /\ length mem = length (m_f_Gamma_mem w0)
    /\ (row_stochastic (m_Gamma w0) -> row_stochastic G).
Proof.
  intros Hw Hk H1 H2 H. destruct (mtd_update_weights_ok c n d k X fuel w0 w' Hw H1 H2 H) as (s & a & Hs & _ & Hne & -> & Ha).
  destruct (mrefresh_w_ok c n d k X w0 Hw) as [Hr _].
  assert (HG : is_mat n k (madd (m_Gamma (mrefresh_w w0)) (mscale s (mdir_w c k (mrefresh_w w0))))) by (apply is_mat_madd; apply Hr).
  split.
  - exact (mset_Gamma_ok c n d k X _ _ Hr HG).
  - do 3 eexists. split; [reflexivity|]. split; [exact HG|]. split; [exact Ha|]. split; [apply mem_length, Hne|].
    intros SG. apply (row_stochastic_step n k); [apply Hr | apply (mproj_w_shape c n d k X _ Hr) | exact SG | | lra].
    apply project_rows_stochastic; [apply wf_msub|]. cbn [nc msub mmap2 mbuild]. destruct Hr as (_ & (_ & -> & _) & _). exact Hk.
Qed.
Lemma mtd_update_parameters_inv c n d k X fuel w0 w' : mok c n d k X w0 -> (0 < k)%nat -> mc_lags c <> [] ->
  0 < ls_sigma_one (mc_ls c) -> ls_sigma_two (mc_ls c) < 1 ->
  mtd_update_parameters fuel c k w0 = Ok w' ->
  mok c n d k X w' /\ exists ow Ts a mem, w' = mtd_set_parameters_mem a mem (mtd_set_parameters c ow Ts w0)
    /\ length ow = n_lags c /\ is_stack (n_lags c) k Ts /\ alpha_ok c a /\ length mem = length (m_f_parameters_mem w0)
    /\ (prob_vec (m_order_weights w0) -> prob_vec ow)
    /\ (stack_stochastic (m_transition_matrices w0) -> stack_stochastic Ts).
Proof.
  intros Hw Hk Hl H1 H2 H. destruct (mtd_update_parameters_ok c n d k X fuel w0 w' Hw H1 H2 H) as (s & a & Hs & _ & Hne & -> & Ha).
  pose proof Hw as (_ & _ & _ & _ & HO & HT & _).
  assert (HO' : length (vadd (m_order_weights w0) (vscale s (mdir_o c k w0))) = n_lags c)
    by (unfold vadd, vmap2; rewrite length_tab; exact HO).
  assert (HT' : is_stack (n_lags c) k (tadd (m_transition_matrices w0) (tscale s (mdir_t c k w0)))) by (apply stack_tadd, HT).
  split.
  - exact (mset_parameters_ok c n d k X _ _ _ Hw HO' HT').
  - do 4 eexists. split; [reflexivity|]. split; [exact HO'|]. split; [exact HT'|]. split; [exact Ha|].
    split; [apply mem_length, Hne|]. split.
    + intros SG. apply prob_vec_step; [rewrite (mproj_o_length c n d k X w0 Hw); congruence | exact SG | | lra].
      apply proj_prob. intros E. apply (f_equal (@length R)) in E. unfold vsub, vmap2 in E. rewrite length_tab in E.
      unfold n_lags in HO. destruct (mc_lags c); [congruence|]. cbn in *. lia.
    + intros ST. apply (stack_stochastic_step (n_lags c) k); [exact HT | apply (mproj_t_stack c n d k X w0 Hw) | exact ST | | lra].
      apply (project_stack_stochastic (n_lags c) k); [apply stack_tsub, HT | exact Hk].
Qed.

Lemma mtd_update_dictionary_total c : ls_valid (mc_ls c) -> exists M, forall fuel k w0, (M <= fuel)%nat ->
  m_f_S_mem w0 <> [] -> exists w', @mtd_update_dictionary R Num_R fuel c k w0 = Ok w'.
Proof.
  intros (H1 & H2 & H3). destruct (line_search_terminates (mc_ls c) H1 H2 H3) as [M HM].
  exists M. intros fuel k w0 Hf Hne. unfold mtd_update_dictionary, mtd_dictionary_line_search. cbv zeta.
  match goal with |- context [@line_search ?T ?N ?St fuel ?p ?co ?tr ?fu ?me ?cc ?sl] =>
    destruct (HM St co tr fu me cc sl fuel Hne Hf) as (((w1 & s) & mem) & E) end.
  rewrite E; cbn [bind]. eauto.
Qed.
Lemma mtd_update_weights_total c : ls_valid (mc_ls c) -> exists M, forall fuel k w0, (M <= fuel)%nat ->
  m_f_Gamma_mem w0 <> [] -> exists w', @mtd_update_weights R Num_R fuel c k w0 = Ok w'.
Proof.
  intros (H1 & H2 & H3). destruct (line_search_terminates (mc_ls c) H1 H2 H3) as [M HM].
  exists M. intros fuel k w0 Hf Hne. unfold mtd_update_weights, mtd_weights_line_search. cbv zeta.
  match goal with |- context [@line_search ?T ?N ?St fuel ?p ?co ?tr ?fu ?me ?cc ?sl] =>
    destruct (HM St co tr fu me cc sl fuel Hne Hf) as (((w1 & s) & mem) & E) end.
  rewrite E; cbn [bind]. eauto.
Qed.
Lemma mtd_update_parameters_total c : ls_valid (mc_ls c) -> exists M, forall fuel k w0, (M <= fuel)%nat ->
  m_f_parameters_mem w0 <> [] -> exists w', @mtd_update_parameters R Num_R fuel c k w0 = Ok w'.
Proof.
  intros (H1 & H2 & H3). destruct (line_search_terminates (mc_ls c) H1 H2 H3) as [M HM].
  exists M. intros fuel k w0 Hf Hne. unfold mtd_update_parameters, mtd_parameters_line_search. cbv zeta.
  match goal with |- context [@line_search ?T ?N ?St fuel ?p ?co ?tr ?fu ?me ?cc ?sl] =>
    destruct (HM St co tr fu me cc sl fuel Hne Hf) as (((w1 & s) & mem) & E) end.
  rewrite E; cbn [bind]. eauto.
Qed.
