(** The reduced-order model of a series shorter than the largest lag. *)
From Coq Require Import List Arith Lia ZArith Reals Lra Psatz Bool.
From Verif Require Import Num Mat Py Spec M_simplex M_spg M_iter M_random M_furthest M_gpnh M_mtd M_crom.
From Verif Require Import P_lin P_simplex P_spg P_random P_mat P_iter P_gpnh P_gpnh_run P_mtd P_mtd_upd P_mtd_run P_mtd_pred P_crom P_aa_delta P_short.
Import ListNotations.
Local Open Scope R_scope.

(** a run whose updates keep the cost at zero *)
Lemma still_loop {St} (cost : St -> R) mono (P : St -> Prop) (u : St -> res St) tol :
  (forall s, P s -> cost s = 0) -> (forall s, P s -> exists s', u s = Ok s' /\ P s') -> 0 <= tol ->
  forall left n s log, P s -> (0 < left)%nat -> exists s', P s' /\
    @iterate_loop R Num_R St cost (cost_increased mono) [u] tol left n s 0 log
    = if Rlt_dec 0 tol then Ok (s', 0, n, log ++ [0]) else Ok (s', 0, (n + left - 1)%nat, log ++ repeat 0 left).
Proof.
  intros HC HU Ht. induction left as [|left IH]; intros n s log Ps Hl; [lia|]. cbn [iterate_loop run_updates].
  destruct (HU s Ps) as (s1 & E & P1). rewrite E. cbn [bind]. rewrite (HC s1 P1), bad_refl. cbn [bind]. numR.
  unfold Rltb. replace (Rabs (0 - 0)) with 0 by (rewrite Rminus_0_r, Rabs_R0; reflexivity).
  destruct (Rlt_dec 0 tol) as [L|L]; [exists s1; auto|].
  destruct left as [|left]; [exists s1; split; [exact P1|]; replace (n + 1 - 1)%nat with n by lia; reflexivity|].
  destruct (IH (S n) s1 (log ++ [0]) P1 ltac:(lia)) as (s' & Ps' & E'). exists s'. split; [exact Ps'|]. rewrite E'.
  rewrite <- app_assoc. cbn [repeat app]. replace (S n + S left - 1)%nat with (n + S (S left) - 1)%nat by lia. reflexivity.
Qed.

Section C.
  Variables (G : mat R) (n k : nat) (c : mtd_cfg R) (fuel : nat) (ow0 : list R) (Ts0 : list (mat R)).
  Hypothesis He : mc_eps_weights c = 1.
  Hypothesis HL : (n < max_lag c)%nat.
  Hypothesis Ho : prob_vec ow0.
  Hypothesis Ht : stack_stochastic Ts0.
  Definition cstill (w : cws R) : Prop := cok c n k G w /\ cw_mem w <> [] /\ cw_order_weights w = ow0 /\ cw_transition_matrices w = Ts0.

  Lemma cshort_cost w : cstill w -> crom_fit_residual c k n G w = 0.
  Proof using HL.
    intros (H & _). unfold crom_fit_residual. destruct (Nat.eqb k 1); [reflexivity|]. cbv zeta. rewrite nsq_mnorm. unfold frob2.
    change (crom_residual c G w) with (mtd_residual c (cemb n k G w)).
    rewrite (short_residual (mzeros n 1) n 1 k c HL _ (cok_mok _ _ _ _ _ H)). cbn [Sum]. numR. ring.
  Qed.
  Lemma cshort_update w : cstill w -> exists w', crom_update_parameters fuel c k n G w = Ok w' /\ cstill w'.
  Proof using He HL Ho Ht.
    intros CS. pose proof CS as (H & HM & E1 & E2). pose proof H as (_ & LO & SK & _). pose proof (cok_mok _ _ _ _ _ H) as HK.
    assert (HX : is_mat n 1 (@mzeros R Num_R n 1)) by apply is_mat_mbuild.
    unfold crom_update_parameters. cbv zeta. rewrite (crom_refresh c n k G w H).
    rewrite (crom_order_gradient_of c n k G w He), (crom_transition_gradient_of c n k G w He).
    set (go := mtd_order_gradient c k (cemb n k G w)). set (gt := mtd_transition_gradient c k (cemb n k G w)).
    assert (PO : simplex_project_vector (vsub (cw_order_weights w) (vscale (cw_alpha w) go)) = cw_order_weights w).
    { rewrite vsub_zero; [rewrite E1; apply proj_fixed, Ho | unfold go; rewrite order_gradient_length; congruence |].
      intros i Hi. apply (short_order_gradient (mzeros n 1) n 1 k c HX HL); [exact HK|lia]. }
    pose proof (transition_gradient_stack n 1 k (mzeros n 1) c _ HK) as GS.
    assert (PT : map simplex_project_columns (tsub (cw_transition_matrices w) (tscale (cw_alpha w) gt)) = cw_transition_matrices w).
    { rewrite (stack_eq (n_lags c) k (tsub _ _) (cw_transition_matrices w)).
      - rewrite <- (map_id (cw_transition_matrices w)) at 2. apply map_ext_in. intros M HM'. destruct (In_nth _ _ (mkmat 0 0 []) HM') as (i & Hi & <-).
        destruct SK as [SK1 SK2]. apply project_cols_fixed; [apply is_mat_wf with (1 := SK2 i ltac:(lia)) | rewrite E2 in *; apply Ht; exact Hi].
      - apply stack_tsub, SK.
      - exact SK.
      - intros i a b Hi Ha Hb. rewrite (tent_tsub (n_lags c) k) by assumption. rewrite (tent_tscale (n_lags c) k) by assumption.
        unfold gt. rewrite (short_transition_gradient (mzeros n 1) n 1 k c HX HL) by assumption. ring. }
    rewrite PO, PT.
    assert (SI : is_stack (n_lags c) k (tsub (cw_transition_matrices w) (cw_transition_matrices w))) by apply stack_tsub, SK.
    assert (TI : forall g, @tinner R Num_R (tsub (cw_transition_matrices w) (cw_transition_matrices w)) g = 0).
    { intros g. unfold tinner. rewrite nsum_Sum. rewrite (Sum_ext _ _ (fun _ => 0)); [apply Sum_zero; reflexivity|]. intros i Hi. rewrite (proj1 SI) in Hi.
      rewrite minner_SS. destruct (stack_dim _ _ _ i SI Hi) as [t1 t2]. rewrite t1, t2. apply SS_zero. intros a b Ha Hb.
      change (tent (tsub (cw_transition_matrices w) (cw_transition_matrices w)) i a b * ent (tmat g i) a b = 0). rewrite (tent_tsub (n_lags c) k) by assumption. ring. }
    assert (TA : tadd (cw_transition_matrices w) (tsub (cw_transition_matrices w) (cw_transition_matrices w)) = cw_transition_matrices w).
    { apply (stack_eq (n_lags c) k); [apply stack_tadd, SK | exact SK|]. intros i a b Hi Ha Hb.
      rewrite (tent_tadd (n_lags c) k), (tent_tsub (n_lags c) k) by assumption. ring. }
    assert (TV : vadd (cw_order_weights w) (vsub (cw_order_weights w) (cw_order_weights w)) = cw_order_weights w).
    { rewrite <- vadd_vscale_1 by (unfold vsub, vmap2; apply length_tab). apply vadd_self. }
    unfold crom_line_search. cbv zeta. rewrite TV, TA, vinner_self, TI, (crom_refresh c n k G w H), (cshort_cost w CS).
    unfold line_search. rewrite (cshort_cost w CS). destruct (cw_mem w) as [|m0 rest]; [contradiction|].
    destruct (mem_max (rest ++ [0])) as [fm|] eqn:EM.
    2:{ destruct (rest ++ [0]) as [|x l] eqn:EL; [destruct rest; discriminate|]. destruct (mem_max_cons x l) as (m & E). congruence. }
    assert (LE : 0 <= fm) by (apply mem_max_spec in EM; apply EM, in_or_app; right; left; reflexivity).
    assert (B : forall tr, backtrack fuel (mc_ls c) (crom_fit_residual c k n G) tr (nadd 0 0) 0 fm (nmul (ls_gamma (mc_ls c)) (nadd 0 0)) w n1 0 = Ok (w, n1)).
    { intros tr. destruct fuel; cbn [backtrack]; numR; unfold Rltb; (destruct (Rlt_dec _ _) as [Q|_]; [exfalso; revert Q; apply Rle_not_lt; replace (fm + _) with fm by ring; exact LE | reflexivity]). }
    cbv zeta. rewrite B. cbn [bind fst snd]. eexists. split; [reflexivity|].
    split; [exact H|]. split; [|split; [exact E1 | exact E2]]. cbn. destruct rest; discriminate.
  Qed.
End C.
