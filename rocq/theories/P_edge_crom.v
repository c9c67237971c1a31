(** Reduced-order model fitted to a series exactly as long as the largest lag. *)
From Coq Require Import List Arith Lia ZArith Reals Bool Lra.
From Verif Require Import Num NumExt Mat Py Spec_nan Spec_edge M_simplex M_spg M_iter M_random M_furthest M_gpnh M_mtd M_crom.
From Verif Require Import P_lin P_simplex P_spg P_random P_mat P_iter P_gpnh P_gpnh_run P_mtd_run P_crom P_nan P_nan_gpnh P_nan_mtd P_edge P_edge_mtd.
Import ListNotations.

(** shape of the weights of a coding *)
Section Shape.
  Variables (c : gpnh_cfg ext) (fuel k a b : nat).
  Definition gshape (w : gws ext) : Prop := nr (w_Gamma w) = a /\ nc (w_Gamma w) = b.
  Lemma gshape_weights w w' : gshape w -> update_weights fuel c k w = Ok w' -> gshape w'.
  Proof using.
    intros (H1 & H2) H. unfold update_weights, weights_line_search in H. cbv zeta in H. apply bind_ok in H. destruct H as (((w1 & st) & mem) & E & H). injection H as <-.
    apply line_search_ok in E. destruct E as (m0 & rest & fm & _ & _ & _ & E). cbn [fst snd] in E. apply backtrack_exit in E; [|reflexivity].
    assert (Q : gshape w1) by (destruct E as (_ & [[-> _]| ->]); split; assumption). exact Q.
  Qed.
  Lemma gshape_dictionary w w' : gshape w -> update_dictionary fuel c k w = Ok w' -> gshape w'.
  Proof using.
    intros (H1 & H2) H. unfold update_dictionary, dictionary_line_search in H. cbv zeta in H. apply bind_ok in H. destruct H as (((w1 & st) & mem) & E & H). injection H as <-.
    apply line_search_ok in E. destruct E as (m0 & rest & fm & _ & _ & _ & E). cbn [fst snd] in E. apply backtrack_exit in E; [|reflexivity].
    assert (Q : gshape w1) by (destruct E as (_ & [[-> _]| ->]); split; assumption). exact Q.
  Qed.
End Shape.
Lemma gpnh_weights_shape fuel (o : gpnh ext) data Din Win ud uw kw r W k : good_draws (go_rng o) ->
  fit_transform fuel o data Din Win ud uw kw = Ok (r, W) -> resolve_components (go_n_components o) (nc data) = PInt (Z.of_nat k) ->
  nr W = nr data /\ nc W = k /\ good_draws (go_rng (gr_obj r)).
Proof.
  intros HG H Hc. apply fit_transform_inv in H. destruct H as (k' & m & t & D & W0 & g & w2 & A1 & A2 & A3 & A4 & A5 & A6 & A7 & A8 & A9 & ->).
  rewrite Hc in A1. injection A1 as A1. apply Nat2Z.inj in A1. subst k'.
  apply choose_initial_real in A6; [|exact HG]. destruct A6 as (S1 & S2 & _ & _ & _ & S3).
  unfold gpnh_iterate in A7. apply (iterate_ok (evaluate_cost (go_cfg o) k) (gshape (nr data) k)) in A7.
  - destruct A7 as ((B1 & B2) & _). split; [exact B1|]. split; [exact B2|]. rewrite A8. cbn [go_rng]. apply (good_stream (go_rng o)); assumption.
  - intros u s s' Hu Hs E. apply in_app_or in Hu. destruct Hu as [Hu|Hu]; apply in_enabled in Hu; destruct Hu as (_ & ->); [eapply gshape_dictionary|eapply gshape_weights]; eassumption.
  - exact A4.
  - split; assumption.
Qed.

Section C.
  Variables (G : mat ext) (n k : nat) (c : mtd_cfg ext) (fuel : nat).
  Hypothesis G1 : nr G = n.
  Hypothesis G2 : nc G = k.
  Hypothesis Hk : (2 <= k)%nat.
  Hypothesis HL : max_lag c = n.
  Hypothesis Hp : (0 < n_lags c)%nat.

  Record cinv (w : cws ext) : Prop := {
    ci_m : cw_mem w <> [];
    ci_ow1 : length (cw_order_weights w) = n_lags c;
    ci_ow2 : forall i, (i < n_lags c)%nat -> exists x, vget (cw_order_weights w) i = Fin x;
    ci_T : real_stack (n_lags c) k (cw_transition_matrices w) }.
  Definition czero (w : cws ext) : Prop := zero_vector (n_lags c) (cw_order_weights w) /\ zero_stack (n_lags c) k (cw_transition_matrices w).

  Lemma cnorm_inf : crom_normalization c k n = PInf.
  Proof using G1 G2 Hk HL Hp. unfold crom_normalization. apply edge_normalization. rewrite HL. lia. Qed.
  Lemma cresidual_empty w : nr (crom_residual c G w) = 0%nat.
  Proof using G1 G2 Hk HL Hp. unfold crom_residual. cbn. rewrite G1, HL. lia. Qed.
  Lemma ccost w : crom_fit_residual c k n G w = NaN.
  Proof using G1 G2 Hk HL Hp.
    unfold crom_fit_residual. destruct (Nat.eqb_spec k 1); [lia|]. cbv zeta. rewrite cnorm_inf, norm_empty by apply cresidual_empty.
    change (@nmul ext Num_E) with emul. apply unbounded_nought; [exact I|]. left. cbn. f_equal. ring.
  Qed.
  Lemma cupdate w : cinv w -> exists w', crom_update_parameters fuel c k n G w = Ok w' /\ cinv w' /\ czero w'.
  Proof using G1 G2 Hk HL Hp.
    intros H. unfold crom_update_parameters, crom_line_search. cbv zeta. destruct H.
    match goal with |- context [line_search ?f ?p ?co ?tr ?fu ?m ?cc ?i] => destruct (ls_nan f p co tr fu m cc i) as (mem' & E & Hm'); [assumption|apply ccost|rewrite E] end.
    cbn [bind]. eexists. split; [reflexivity|].
    match goal with |- _ /\ czero ?ww => assert (Z : czero ww) end.
    { match goal with |- context [crom_order_gradient c k n G ?w0] => set (w1 := w0) end.
      split; cbn [cw_order_weights cw_transition_matrices crom_set_parameters].
      - apply step_order_weights; try assumption.
        + unfold crom_order_gradient. apply length_tab.
        + intros i Hi. unfold crom_order_gradient. rewrite vget_tab by exact Hi. rewrite cnorm_inf. change (@nmul ext Num_E) with emul.
          apply unbounded_nought; [apply unbounded_mul_r; exact I|]. left. unfold mtrace. cbn [nr mmul mbuild]. rewrite cresidual_empty. reflexivity.
      - apply step_transition; try assumption; try lia.
        + unfold crom_transition_gradient. apply length_tab.
        + intros i Hi. unfold crom_transition_gradient. rewrite tmat_tab by exact Hi. split; [cbn; exact G2|]. split; [cbn; exact G2|].
          intros a b Ha Hb. rewrite mscale_entry by assumption. rewrite cnorm_inf. change (@nmul ext Num_E) with emul.
          apply unbounded_nought; [apply unbounded_mul_l, unbounded_mul_r; exact I|]. left. unfold mmul at 1. rewrite cell_mbuild by assumption. cbn [nc mtr mbuild]. rewrite cresidual_empty. reflexivity. }
    split; [|exact Z]. destruct Z as (Z1 & Z2). cbn [cw_order_weights cw_transition_matrices crom_set_parameters] in Z1, Z2.
    split; cbn [cw_mem cw_order_weights cw_transition_matrices crom_set_parameters]; try assumption.
    - rewrite Z1. apply repeat_length.
    - intros i Hi. exists 0%R. rewrite Z1. unfold vget. apply nth_repeat.
    - apply zero_stack_real, Z2.
  Qed.
  Lemma cfit tol m g : (0 < m)%nat -> good_draws g -> (0 < mc_memory c)%nat ->
    exists w g', crom_fit_parameters fuel c k n G tol m g = Ok (w, g', (m - 1)%nat, repeat NaN (S m)) /\ czero w.
  Proof using G1 G2 Hk HL Hp.
    intros Hm HG HM. unfold crom_fit_parameters. destruct (initialize_parameters_random k (n_lags c) g) as [[ow Ts] g'] eqn:E.
    destruct (drawn_params_real _ _ _ _ _ _ HG Hp E) as (O1 & O2 & O3).
    assert (QL : check_max_lag c = Ok tt) by (unfold check_max_lag; unfold n_lags in Hp; destruct (mc_lags c); [cbn in Hp; lia|reflexivity]). rewrite QL. cbn [bind].
    destruct (iterate_nan (crom_fit_residual c k n G) (mc_monotone c) [crom_update_parameters fuel c k n G] tol cinv (fun w => cinv w /\ czero w) m (crom_initialize_workspace c G ow Ts)) as (w & E2 & I & Z).
    - intros s _. apply ccost.
    - intros s [Hs _]. exact Hs.
    - intros s Hs. destruct (cupdate s Hs) as (s' & E1 & I1 & Z1). exists s'. cbn [run_updates]. rewrite E1. cbn [bind]. rewrite ccost. auto.
    - split; cbn [crom_initialize_workspace cw_mem cw_order_weights cw_transition_matrices]; try assumption. destruct (mc_memory c); [lia|discriminate].
    - exact Hm.
    - rewrite E2. cbn [bind]. exists w, g'. auto.
  Qed.
End C.

(** ** forecasts by a transition model of zeros *)
Lemma zero_next c k ow Ts (cur : mat ext) a : zero_vector (n_lags c) ow -> zero_stack (n_lags c) k Ts -> nr cur = max_lag c -> nc cur = k -> all_real cur ->
  Forall (fun l => (1 <= l)%nat) (mc_lags c) -> (a < k)%nat -> vget (mtd_next_weights c ow Ts cur) a = Fin 0.
Proof.
  intros Z1 (Z2 & Z3) E1 E2 HR HP Ha. unfold mtd_next_weights. rewrite E1, Nat.ltb_irrefl. rewrite vget_tab by lia.
  assert (S : forall p, (p <= n_lags c)%nat -> @nsum ext Num_E p (fun i => nmul (vget ow i) (vget (mvmul (tmat Ts i) (mrow cur (max_lag c - lag c i))) a)) = Fin 0).
  { induction p as [|p IH]; intros Hp; [reflexivity|]. cbn [nsum]. rewrite IH by lia. rewrite Z1. unfold vget at 1. rewrite nth_repeat.
    rewrite Forall_forall in Z3. destruct (Z3 (tmat Ts p)) as (t1 & t2 & t3); [unfold tmat; apply nth_In; lia|].
    assert (L1 : (1 <= lag c p <= max_lag c)%nat).
    { assert (Q : In (lag c p) (mc_lags c)) by (unfold lag; apply nth_In; exact Hp). rewrite Forall_forall in HP. split; [apply HP, Q|].
      assert (Q2 : Forall (fun x => x <= max_lag c)%nat (mc_lags c)) by (apply list_max_le; apply Nat.le_refl). rewrite Forall_forall in Q2. apply Q2, Q. }
    unfold mvmul. rewrite vget_tab by lia.
    assert (V : forall q, (q <= k)%nat -> @nsum ext Num_E q (fun l => nmul (mget (tmat Ts p) a l) (vget (mrow cur (max_lag c - lag c p)) l)) = Fin 0).
    { induction q as [|q IHq]; intros Hq; [reflexivity|]. cbn [nsum]. rewrite IHq by lia. rewrite mget_entry, t3 by lia. rewrite vget_mrow by lia. rewrite mget_entry.
      destruct (HR (max_lag c - lag c p)%nat q) as (x & ->); [lia|lia|]. cbn. f_equal. ring. }
    rewrite t2, V by lia. cbn. f_equal. ring. }
  apply S. lia.
Qed.
Lemma zero_lead c k ow Ts h : zero_vector (n_lags c) ow -> zero_stack (n_lags c) k Ts -> Forall (fun l => (1 <= l)%nat) (mc_lags c) -> (0 < max_lag c)%nat ->
  forall cur, nr cur = max_lag c -> nc cur = k -> all_real cur -> (forall a, (a < k)%nat -> cell cur (max_lag c - 1) a = Fin 0) \/ (0 < h)%nat ->
  let res := mtd_lead c ow Ts h cur in nr res = max_lag c /\ nc res = k /\ forall a, (a < k)%nat -> cell res (max_lag c - 1) a = Fin 0.
Proof.
  intros Z1 Z2 HP HL. induction h as [|h IH]; intros cur E1 E2 HR HZ; cbn [mtd_lead].
  - split; [exact E1|]. split; [exact E2|]. destruct HZ as [HZ|HZ]; [exact HZ|lia].
  - assert (ZN : forall a, (a < k)%nat -> vget (mtd_next_weights c ow Ts cur) a = Fin 0) by (intros a Ha; eapply zero_next; eassumption).
    set (nx := mtd_next_weights c ow Ts cur) in *. apply IH; try assumption.
    + intros i j Hi Hj. unfold mtd_shift in *. cbn [nr nc mbuild] in Hi, Hj. rewrite cell_mbuild by assumption. destruct (Nat.eqb_spec (S i) (nr cur)).
      * exists 0%R. apply ZN. lia.
      * rewrite mget_entry. apply HR; lia.
    + left. intros a Ha. unfold mtd_shift. rewrite cell_mbuild by lia. destruct (Nat.eqb_spec (S (max_lag c - 1)) (nr cur)); [|lia]. apply ZN. exact Ha.
Qed.
Lemma zero_predict c k ow Ts (W : mat ext) h i a : zero_vector (n_lags c) ow -> zero_stack (n_lags c) k Ts -> Forall (fun l => (1 <= l)%nat) (mc_lags c) -> (0 < max_lag c)%nat ->
  nc W = k -> all_real W -> (0 < h)%Z -> (max_lag c <= S i)%nat -> (i < nr W)%nat -> (a < k)%nat -> cell (mtd_predict_weights c ow Ts W h) i a = Fin 0.
Proof.
  intros Z1 Z2 HP HL E HR Hh Hi1 Hi2 Ha. unfold mtd_predict_weights. cbv zeta. rewrite cell_mbuild by lia. destruct (Nat.ltb_spec i (max_lag c - 1)); [lia|].
  set (sl := mslice (i + 1 - max_lag c) (i + 1) W). assert (N1 : nr sl = max_lag c) by (unfold sl; cbn; lia). assert (N2 : nc sl = k) by exact E.
  destruct (zero_lead c k ow Ts (Z.to_nat h) Z1 Z2 HP HL sl N1 N2) as (R1 & R2 & R3).
  - intros s b Hs Hb. rewrite N1 in Hs. rewrite N2 in Hb. unfold sl, mslice. rewrite cell_mbuild by lia. rewrite mget_entry. apply HR; lia.
  - right. lia.
  - rewrite R1, mget_entry. apply R3, Ha.
Qed.
