(** Property theorems C14 - C26 and C58: GPNH convex coding. *)
From Coq Require Import List Arith Lia ZArith Reals Lra.
From Verif Require Import Num Mat Py Spec M_simplex M_spg M_iter M_random M_furthest M_gpnh.
From Verif Require Import P_lin P_simplex P_spg P_random P_mat P_iter P_gpnh P_gpnh_run Props_base.
Import ListNotations.
Local Open Scope R_scope.

(** A concrete instance used by the examples below: two points of the plane, two components, random
    initialisation, the default line search, guard off. *)
Definition ex_data : mat R := mkmat 2 2 [[1; 0]; [0; 1]].
Definition ex_cfg (mono : bool) : gpnh_cfg R :=
  mk_gpnh_cfg 1 InitRandom (PFloat (1/1000000)) (PInt 100) default_ls 1 mono.
Definition ex_rng : rng R := mkrng (fun n => / (1 + INR n)) (fun n => INR n) (fun n => n) 0.
Definition ex_gpnh (mono : bool) : gpnh R := gpnh_new (ex_cfg mono) (PInt 2) ex_rng.
Lemma ex_data_mat : is_mat 2 2 ex_data.
Proof. repeat split. intros row [<-|[<-|[]]]; reflexivity. Qed.
Lemma ex_rng_ok : rng_ok 2 ex_rng.
Proof.
  assert (P : forall n, 0 < / (1 + INR n)) by (intros n; apply Rinv_0_lt_compat; pose proof (pos_INR n); lra).
  split; cbn [ex_rng r_uniform]; intros p; [left; apply P|].
  apply Rgt_not_eq, (Sum_pos 2 _ 0); try lia; [intros; left; apply P | apply P].
Qed.
Lemma ex_fit : exists fuel r W, fit_transform fuel (ex_gpnh false) ex_data None None true true None = Ok (r, W).
Proof.
  destruct (fit_total (ex_cfg false) 2 2 2 100 (1/1000000) ex_data None None None ex_rng) as [M HM]; try exact ex_data_mat; try exact ex_rng_ok; try lia; try reflexivity.
  - right; split; [reflexivity|]. numR. apply Rltb_false; lra.
  - right; left; reflexivity.
  - repeat split; cbn; lra.
  - cbn; lia.
  - exists M. destruct (HM M (le_n _) (ex_gpnh false)) as [[r W] E]; try reflexivity; [left; reflexivity|]. eauto.
Qed.
Lemma ex_fit_mono : exists t fuel r W, 0 < t /\
  fit_transform fuel (gpnh_new (with_step_tol (ex_cfg true) t) (PInt 2) ex_rng) ex_data None None true true None = Ok (r, W).
Proof.
  destruct (fit_no_guard (ex_cfg true) 2 2 2 100 (1/1000000) ex_data None None None ex_rng) as (tau & Ht & H); try exact ex_data_mat; try exact ex_rng_ok; try lia; try reflexivity; try (cbn; lra).
  - right; split; [reflexivity|]. numR. apply Rltb_false; lra.
  - right; left; reflexivity.
  - destruct (H tau ltac:(lra)) as [M HM].
    destruct (HM M (le_n _) (gpnh_new (with_step_tol (ex_cfg true) tau) (PInt 2) ex_rng)) as [[r W] E]; try reflexivity; [left; reflexivity|].
    exists tau, M, r, W. auto.
Qed.

(** ** C14 *)
(** hypotheses on user-supplied starts: proper arrays, feasible weights; on the stream: uniform draws
    are non-negative and no k consecutive ones are all zero *)
Theorem C14_fit_weights_stochastic : forall fuel (o : gpnh R) n d k data dictionary weights ud uw kw r W,
  is_mat n d data -> comp_count (go_n_components o) d k ->
  (forall D, dictionary = Some D -> wf D) ->
  (forall W0, weights = Some W0 -> wf W0) -> (forall W0, weights = Some W0 -> row_stochastic W0) ->
  (forall p, 0 <= r_uniform (go_rng o) p) ->
  (forall p, Sum k (fun j => r_uniform (go_rng o) (p + j)) <> 0) ->
  0 < ls_sigma_one (gc_ls (go_cfg o)) -> ls_sigma_two (gc_ls (go_cfg o)) < 1 ->
  fit_transform fuel o data dictionary weights ud uw kw = Ok (r, W) ->
  is_mat n k W /\ row_stochastic W.
Proof.
  intros fuel o n d k data Din Win ud uw kw r W HX Hc WD WW SW U1 U2 H1 H2 H.
  apply fit_transform_inv in H. destruct H as (k' & m & t & D & W0 & g' & w2 & A1 & A2 & A3 & A4 & A5 & A6 & A7 & A8 & A9 & ->).
  assert (nr data = n /\ nc data = d) as [x1 x2] by (split; apply HX).
  apply comp_count_resolve in Hc. rewrite x2 in A1. assert (k' = k) as -> by (rewrite Hc in A1; injection A1; lia).
  apply choose_initial_ok in A6; try assumption. destruct A6 as (HD & HW & _ & HSt). rewrite x1 in HW. rewrite x2 in HD.
  apply (gpnh_iterate_inv n d k data (go_cfg o) (row_stochastic W0)) in A7; try assumption; [|apply start_ginv; assumption].
  destruct A7 as ((_ & G & _) & _ & _ & S). split; [exact G|]. apply S, HSt; [exact SW | split; assumption].
Qed.
Print Assumptions C14_fit_weights_stochastic.
Theorem C14_transform_weights_stochastic : forall fuel (o : gpnh R) n d k data r W,
  is_mat n d data -> comp_count (go_n_components o) d k ->
  (forall w, go_ws o = Some w -> wf (w_S w)) ->
  (forall p, 0 <= r_uniform (go_rng o) p) ->
  (forall p, Sum k (fun j => r_uniform (go_rng o) (p + j)) <> 0) ->
  0 < ls_sigma_one (gc_ls (go_cfg o)) -> ls_sigma_two (gc_ls (go_cfg o)) < 1 ->
  transform fuel o data = Ok (r, W) ->
  is_mat n k W /\ row_stochastic W.
Proof.
  intros fuel o n d k data r W HX Hc WS U1 U2 H1 H2 H.
  apply transform_inv in H. destruct H as (k' & m & t & D & W0 & g' & w2 & A1 & A2 & A3 & A4 & A5 & A6 & A7 & A8 & A9 & ->).
  assert (nr data = n /\ nc data = d) as [x1 x2] by (split; apply HX).
  apply comp_count_resolve in Hc. rewrite x2 in A1. assert (k' = k) as -> by (rewrite Hc in A1; injection A1; lia).
  apply choose_initial_ok in A6; [|intros A EA; destruct (go_ws o) eqn:E; cbn in EA; [injection EA as <-; apply WS; reflexivity | discriminate] | intros A EA; discriminate].
  destruct A6 as (HD & HW & _ & HSt). rewrite x1 in HW. rewrite x2 in HD.
  apply (gpnh_iterate_inv n d k data (go_cfg o) (row_stochastic W0)) in A7; try assumption; [|apply start_ginv; assumption].
  destruct A7 as ((_ & G & _) & _ & _ & S). split; [exact G|]. apply S, HSt; [intros A EA; discriminate | split; assumption].
Qed.
Print Assumptions C14_transform_weights_stochastic.
Example C14_example : is_mat 2 2 ex_data /\ rng_ok 2 (go_rng (ex_gpnh false))
  /\ exists fuel r W, fit_transform fuel (ex_gpnh false) ex_data None None true true None = Ok (r, W).
Proof. exact (conj ex_data_mat (conj ex_rng_ok ex_fit)). Qed.

(** ** C15 *)
Theorem C15_reported_cost : forall fuel (o : gpnh R) n d data dictionary weights ud uw kw r W,
  is_mat n d data -> (0 < n)%nat -> (0 < d)%nat ->
  (forall D, dictionary = Some D -> wf D) -> (forall W0, weights = Some W0 -> wf W0) ->
  0 < ls_sigma_one (gc_ls (go_cfg o)) -> ls_sigma_two (gc_ls (go_cfg o)) < 1 ->
  fit_transform fuel o data dictionary weights ud uw kw = Ok (r, W) ->
  exists D cost, go_dictionary_ (gr_obj r) = Some D /\ go_cost_ (gr_obj r) = Some cost
    /\ cost = gpnh_objective (gc_epsilon (go_cfg o)) data W D
    /\ is_mat (nc W) d D.
Proof.
  intros fuel o n d data Din Win ud uw kw r W HX Hn Hd WD WW H1 H2 H.
  apply fit_transform_inv in H. destruct H as (k & m & t & D & W0 & g' & w2 & A1 & A2 & A3 & A4 & A5 & A6 & A7 & A8 & A9 & ->).
  assert (nr data = n /\ nc data = d) as [x1 x2] by (split; apply HX).
  apply choose_initial_ok in A6; try assumption. destruct A6 as (HD & HW & _ & _). rewrite x1 in HW. rewrite x2 in HD.
  pose proof (gpnh_iterate_log _ _ _ _ _ _ _ _ _ _ _ _ A4 A7) as (C1 & _).
  apply (gpnh_iterate_inv n d k data (go_cfg o) (row_stochastic W0)) in A7; try assumption; [|apply start_ginv; assumption].
  destruct A7 as (G & _). rewrite A8. exists (w_S w2), (gr_cost r). cbn [go_dictionary_ go_cost_].
  split; [reflexivity|]. split; [reflexivity|]. split.
  - rewrite C1. apply (cost_spec n d k data); assumption.
  - destruct G as (_ & (_ & g2 & _) & S & _). rewrite g2. exact S.
Qed.
Print Assumptions C15_reported_cost.
Example C15_example : is_mat 2 2 ex_data /\ (0 < 2)%nat
  /\ exists fuel r W, fit_transform fuel (ex_gpnh false) ex_data None None true true None = Ok (r, W).
Proof. exact (conj ex_data_mat (conj Nat.lt_0_2 ex_fit)). Qed.

(** ** C16 *)
Theorem C16_cost_decreases : forall fuel (o : gpnh R) n d data dictionary weights ud uw kw r W,
  is_mat n d data -> (0 < n)%nat -> (0 < d)%nat ->
  (forall D, dictionary = Some D -> wf D) -> (forall W0, weights = Some W0 -> wf W0) ->
  0 < ls_sigma_one (gc_ls (go_cfg o)) -> ls_sigma_two (gc_ls (go_cfg o)) < 1 ->
  gc_monotone (go_cfg o) = true ->
  fit_transform fuel o data dictionary weights ud uw kw = Ok (r, W) ->
  (forall i, (S i < length (gr_log r))%nat -> nth (S i) (gr_log r) 0 <= nth i (gr_log r) 0)
  /\ (forall i j, (i <= j < length (gr_log r))%nat -> nth j (gr_log r) 0 <= nth i (gr_log r) 0)
  /\ exists D0 W0, nth 0 (gr_log r) 0 = gpnh_objective (gc_epsilon (go_cfg o)) data W0 D0
     /\ (gc_init (go_cfg o) = InitCustom -> dictionary = Some D0 /\ weights = Some W0)
     /\ last (gr_log r) 0 = gr_cost r /\ go_cost_ (gr_obj r) = Some (gr_cost r)
     /\ gr_cost r <= gpnh_objective (gc_epsilon (go_cfg o)) data W0 D0.
Proof.
  intros fuel o n d data Din Win ud uw kw r W HX Hn Hd WD WW H1 H2 Hmono H.
  apply fit_transform_inv in H. destruct H as (k & m & t & D & W0 & g' & w2 & A1 & A2 & A3 & A4 & A5 & A6 & A7 & A8 & A9 & ->).
  assert (nr data = n /\ nc data = d) as [x1 x2] by (split; apply HX).
  assert (Hcust : gc_init (go_cfg o) = InitCustom -> Din = Some D /\ Win = Some W0).
  { intros E. unfold choose_initial in A6. rewrite E in A6. apply bind_ok in A6. destruct A6 as (W1 & E1 & A6).
    apply bind_ok in A6. destruct A6 as (D1 & E2 & A6). injection A6 as <- <- _.
    apply check_init_weights_ok_inv in E1. apply check_init_dictionary_ok_inv in E2. split; [apply E2 | apply E1]. }
  apply choose_initial_ok in A6; try assumption. destruct A6 as (HD & HW & _ & _). rewrite x1 in HW. rewrite x2 in HD.
  pose proof (gpnh_iterate_log _ _ _ _ _ _ _ _ _ _ _ _ A4 A7) as (C1 & C2 & C3 & C4 & C5 & C6 & C7 & C8).
  assert (Mono : forall i, (S i < length (gr_log r))%nat -> nth (S i) (gr_log r) 0 <= nth i (gr_log r) 0).
  { intros i Hi. destruct (C8 i ltac:(lia) Hmono) as [L|L].
    - numR. apply Rltb_false in L. exact L.
    - numR. lra. }
  assert (Mono2 : forall i j, (i <= j)%nat -> (j < length (gr_log r))%nat -> nth j (gr_log r) 0 <= nth i (gr_log r) 0).
  { intros i j Hij. induction Hij as [|j Hij IH]; intros Hj; [lra|].
    eapply Rle_trans; [apply Mono; exact Hj | apply IH; lia]. }
  split; [exact Mono|]. split; [intros i j [? ?]; apply Mono2; assumption|].
  assert (E0 : nth 0 (gr_log r) 0 = gpnh_objective (gc_epsilon (go_cfg o)) data W0 D).
  { change 0 with (@n0 R Num_R) at 1. rewrite C4. rewrite (cost_spec n d k data); try assumption; [reflexivity|].
    apply start_ws_ok; assumption. }
  exists D, W0. split; [exact E0|]. split; [exact Hcust|]. split; [|split; [rewrite A8; reflexivity|]].
  - rewrite last_nth, C3. exact C5.
  - rewrite <- E0, <- C5. apply (Mono2 0%nat (S (gr_n_iter r))); lia.
Qed.
Print Assumptions C16_cost_decreases.
(** the guard is the only source of RuntimeError *)
Theorem C16_guard : forall (T : Type) (N : Num T) fuel (o : gpnh T) data dictionary weights ud uw kw,
  gc_monotone (go_cfg o) = false ->
  fit_transform fuel o data dictionary weights ud uw kw <> Raise RuntimeError.
Proof.
  intros T N fuel o data Din Win ud uw kw Hmono H. unfold fit_transform in H.
  destruct (gpnh_convex_coding fuel o data Din Win ud uw kw) as [r0|e0] eqn:E; cbn [bind] in H.
  { destruct (go_ws (gr_obj r0)); discriminate. }
  injection H as ->. unfold gpnh_convex_coding in E.
  destruct (check_params _ _ _) as [[[k m] t]|e] eqn:E1; cbn [bind] in E;
    [|apply check_params_raise in E1; congruence].
  destruct (choose_initial _ _ _ _ _ _ _ _ _) as [[[D W] g']|e] eqn:E2; cbn [bind] in E;
    [|apply choose_initial_raise in E2; destruct E2 as [?|[?|?]]; congruence].
  destruct (gpnh_iterate _ _ _ _ _ _ _ _) as [[[[w2 cost] n_iter] log]|e] eqn:E3; cbn [bind] in E; [discriminate|].
  injection E as ->. unfold gpnh_iterate, iterate in E3.
  pose proof (iterate_loop_raise _ (fun _ => True) _ _ _ (fun _ _ _ _ _ _ => I) _ _ _ _ _ _ E3 eq_refl I) as E4.
  destruct E4 as [[_ (i & s0 & s & _ & _ & B)]|(u & s & Iu & _ & Eu)].
  - unfold cost_increased in B. rewrite Hmono, Bool.andb_false_r in B. discriminate.
  - apply in_app_or in Iu. rewrite !in_enabled in Iu. destruct Iu as [[_ ->]|[_ ->]].
    + apply update_dictionary_raise in Eu. destruct Eu as [[? _]|?]; discriminate.
    + apply update_weights_raise in Eu. destruct Eu as [[? _]|?]; discriminate.
Qed.
Print Assumptions C16_guard.
Example C16_example : exists t fuel r W, 0 < t /\
  gc_monotone (go_cfg (gpnh_new (with_step_tol (ex_cfg true) t) (PInt 2) ex_rng)) = true /\
  fit_transform fuel (gpnh_new (with_step_tol (ex_cfg true) t) (PInt 2) ex_rng) ex_data None None true true None = Ok (r, W).
Proof. destruct ex_fit_mono as (t & fuel & r & W & Ht & E). exists t, fuel, r, W. auto. Qed.

(** ** C17 *)
Theorem C17_penalty_is_spread : forall n d k X (c : gpnh_cfg R) (w : gws R),
  is_mat n d X -> w_X w = X -> is_mat k d (w_S w) -> w_SSt w = mmul (w_S w) (mtr (w_S w)) -> (0 < k)%nat -> (0 < d)%nat ->
  evaluate_dictionary_penalty c k w = gc_epsilon c * spread (w_S w)
  /\ (0 <= gc_epsilon c -> 0 <= evaluate_dictionary_penalty c k w)
  /\ (0 < gc_epsilon c ->
       (evaluate_dictionary_penalty c k w = 0 <->
        forall a b j, (a < k)%nat -> (b < k)%nat -> (j < d)%nat -> ent (w_S w) a j = ent (w_S w) b j))
  /\ (0 <= gc_epsilon c -> 0 <= evaluate_cost c k w).
Proof.
  intros n d k X c w HX EX HS ES Hk Hd.
  assert (E : evaluate_dictionary_penalty c k w = gc_epsilon c * spread (w_S w)).
  { destruct w as [wX wG wS a1 a2 a3 wSSt b1 b2 l1 l2]. cbn [w_X w_S w_SSt] in *.
    apply (penalty_spec n d k X c (mk_gws wX (mzeros n k) wS a1 a2 a3 wSSt b1 b2 l1 l2)); try assumption.
    repeat split; try apply HS; try assumption; try apply is_mat_mbuild. }
  assert (nr (w_S w) = k /\ nc (w_S w) = d) as [s1 s2] by (split; apply HS).
  assert (P : 0 <= gc_epsilon c -> 0 <= evaluate_dictionary_penalty c k w).
  { intros He. rewrite E. apply Rmult_le_pos; [exact He | apply spread_nonneg; lia]. }
  split; [exact E|]. split; [exact P|]. split.
  - intros He. rewrite E. pose proof (spread_zero (w_S w) ltac:(lia)) as Z. rewrite s1, s2 in Z. rewrite <- Z.
    split; intros Q; [|rewrite Q; ring]. apply Rmult_eq_reg_l with (gc_epsilon c); lra.
  - intros He. unfold evaluate_cost. numR. apply Rplus_le_le_0_compat; [|apply P, He].
    unfold evaluate_loss_function. rewrite nsq_mnorm, !nofnat_INR. numR. apply Rmult_le_pos; [|apply frob2_nonneg].
    unfold Rdiv. rewrite Rmult_1_l. destruct (Nat.eq_dec (nr (w_X w)) 0) as [->|].
    + cbn [INR]. rewrite Rmult_0_r, Rinv_0. lra.
    + left. apply Rinv_0_lt_compat. apply Rmult_lt_0_compat; apply lt_0_INR; [|lia]. rewrite EX. destruct HX as (_ & x2 & _). lia.
Qed.
Print Assumptions C17_penalty_is_spread.
Theorem C17_cost_nonneg : forall fuel (o : gpnh R) n d data dictionary weights ud uw kw r W,
  is_mat n d data -> (0 < n)%nat -> (0 < d)%nat ->
  (forall D, dictionary = Some D -> wf D) -> (forall W0, weights = Some W0 -> wf W0) ->
  0 < ls_sigma_one (gc_ls (go_cfg o)) -> ls_sigma_two (gc_ls (go_cfg o)) < 1 ->
  0 <= gc_epsilon (go_cfg o) ->
  fit_transform fuel o data dictionary weights ud uw kw = Ok (r, W) ->
  exists cost, go_cost_ (gr_obj r) = Some cost /\ 0 <= cost.
Proof.
  intros fuel o n d data Din Win ud uw kw r W HX Hn Hd WD WW H1 H2 He H.
  destruct (C15_reported_cost fuel o n d data Din Win ud uw kw r W HX Hn Hd WD WW H1 H2 H) as (D & cost & _ & E & -> & HD).
  exists (gpnh_objective (gc_epsilon (go_cfg o)) data W D). split; [exact E|].
  assert (nr data = n /\ nc data = d) as [x1 x2] by (split; apply HX).
  unfold gpnh_objective. apply Rplus_le_le_0_compat.
  - apply Rmult_le_pos; [apply sq_error_nonneg|]. left. apply Rinv_0_lt_compat, Rmult_lt_0_compat; apply lt_0_INR; lia.
  - apply Rmult_le_pos; [exact He | apply spread_nonneg]. destruct HD as (_ & d2 & _). lia.
Qed.
Print Assumptions C17_cost_nonneg.
(** three states in the plane: Phi = 2 * (1 + 1 + 2) / (3 * 2 * 2) = 2/3 *)
Example C17_example : spread (mkmat 3 2 [[1; 0]; [0; 0]; [0; 1]]) = 2 / 3.
Proof. unfold spread, row_dist2, ent; cbn. field. Qed.

(** ** C18 *)
(** the expansion identifies the gradient: its remainder is a non-negative quadratic form *)
Definition quadratic (n k : nat) (Q : mat R -> R) : Prop :=
  (forall H, is_mat n k H -> 0 <= Q H) /\ (forall s H, is_mat n k H -> Q (@mscale R Num_R s H) = s * s * Q H).
Theorem C18_dictionary_gradient : forall n d k X (c : gpnh_cfg R) (w : gws R),
  is_mat n d X -> w_X w = X -> is_mat n k (w_Gamma w) -> is_mat k d (w_S w) ->
  w_SSt w = mmul (w_S w) (mtr (w_S w)) ->
  w_GtG w = mmul (mtr (w_Gamma w)) (w_Gamma w) -> w_GtX w = mmul (mtr (w_Gamma w)) X ->
  (0 < n)%nat -> (0 < d)%nat -> (0 < k)%nat -> 0 <= gc_epsilon c ->
  is_mat k d (dictionary_gradient c k w) /\
  exists Q, quadratic k d Q /\ forall H, is_mat k d H ->
    gpnh_objective (gc_epsilon c) X (w_Gamma w) (@madd R Num_R (w_S w) H)
    = gpnh_objective (gc_epsilon c) X (w_Gamma w) (w_S w) + frob (dictionary_gradient c k w) H + Q H.
Proof.
  intros n d k X c w HX EX HG HS ES EG1 EG2 Hn Hd Hk He.
  assert (Hw : gok n d k X w) by (repeat split; try apply HG; try apply HS; assumption).
  split; [apply (dictionary_gradient_shape n d k X); exact Hw|].
  exists (fun H => SS n d (fun i j => Sum k (fun e => ent (w_Gamma w) i e * ent H e j) ^ 2) / (INR d * INR n) + gc_epsilon c * spread H).
  assert (Hdn : 0 < INR d * INR n) by (apply Rmult_lt_0_compat; apply lt_0_INR; assumption).
  split; [split|].
  - intros H HH. apply Rplus_le_le_0_compat.
    + apply Rmult_le_pos; [apply SS_nonneg; intros; apply pow2_ge_0 | left; apply Rinv_0_lt_compat; assumption].
    + apply Rmult_le_pos; [exact He | apply spread_nonneg; destruct HH as (_ & h2 & _); lia].
  - intros s H HH. rewrite (spread_scale k d) by exact HH.
    assert (E : SS n d (fun i j => Sum k (fun e => ent (w_Gamma w) i e * ent (@mscale R Num_R s H) e j) ^ 2)
      = s * s * SS n d (fun i j => Sum k (fun e => ent (w_Gamma w) i e * ent H e j) ^ 2)).
    { rewrite <- SS_scal. apply SS_ext; intros i j Hi Hj.
      assert (E1 : Sum k (fun e => ent (w_Gamma w) i e * ent (@mscale R Num_R s H) e j) = s * Sum k (fun e => ent (w_Gamma w) i e * ent H e j)).
      { rewrite <- Sum_scal_l. apply Sum_ext; intros e He'. destruct HH as (h1 & h2 & _). rewrite ent_mscale by lia. ring. }
      rewrite E1. ring. }
    rewrite E. field. assert (0 < INR d) by (apply lt_0_INR; exact Hd). assert (0 < INR n) by (apply lt_0_INR; exact Hn). lra.
  - intros H HH. apply objective_dict; try assumption. split; [exact EG1 | rewrite EX; exact EG2].
Qed.
Print Assumptions C18_dictionary_gradient.
Theorem C18_weights_gradient : forall n d k X eps (w : gws R),
  is_mat n d X -> w_X w = X -> is_mat n k (w_Gamma w) -> is_mat k d (w_S w) ->
  w_SSt w = mmul (w_S w) (mtr (w_S w)) -> w_XSt w = mmul X (mtr (w_S w)) ->
  (0 < n)%nat -> (0 < d)%nat ->
  is_mat n k (weights_gradient w) /\
  exists Q, quadratic n k Q /\ forall H, is_mat n k H ->
    gpnh_objective eps X (@madd R Num_R (w_Gamma w) H) (w_S w)
    = gpnh_objective eps X (w_Gamma w) (w_S w) + frob (weights_gradient w) H + Q H.
Proof.
  intros n d k X eps w HX EX HG HS ES EX2 Hn Hd.
  assert (Hw : gok n d k X w) by (repeat split; try apply HG; try apply HS; assumption).
  split; [apply (weights_gradient_shape n d k X); exact Hw|].
  exists (fun H => SS n d (fun i j => Sum k (fun e => ent H i e * ent (w_S w) e j) ^ 2) / (INR d * INR n)).
  assert (Hdn : 0 < INR d * INR n) by (apply Rmult_lt_0_compat; apply lt_0_INR; assumption).
  split; [split|].
  - intros H HH. apply Rmult_le_pos; [apply SS_nonneg; intros; apply pow2_ge_0 | left; apply Rinv_0_lt_compat; assumption].
  - intros s H HH.
    assert (E : SS n d (fun i j => Sum k (fun e => ent (@mscale R Num_R s H) i e * ent (w_S w) e j) ^ 2)
      = s * s * SS n d (fun i j => Sum k (fun e => ent H i e * ent (w_S w) e j) ^ 2)).
    { rewrite <- SS_scal. apply SS_ext; intros i j Hi Hj.
      assert (E1 : Sum k (fun e => ent (@mscale R Num_R s H) i e * ent (w_S w) e j) = s * Sum k (fun e => ent H i e * ent (w_S w) e j)).
      { rewrite <- Sum_scal_l. apply Sum_ext; intros e He'. destruct HH as (h1 & h2 & _). rewrite ent_mscale by lia. ring. }
      rewrite E1. ring. }
    rewrite E. field. assert (0 < INR d) by (apply lt_0_INR; exact Hd). assert (0 < INR n) by (apply lt_0_INR; exact Hn). lra.
  - intros H HH. apply objective_weights; try assumption. unfold gcache_w. rewrite EX. exact EX2.
Qed.
Print Assumptions C18_weights_gradient.
(** a workspace as the solver builds it *)
Definition ex_ws : gws R := start_ws (ex_cfg true) ex_data (mkmat 2 2 [[1/2; 1/2]; [0; 1]]) (mkmat 2 2 [[1; 2]; [3; 4]]).
Example C18_example : is_mat 2 2 ex_data /\ w_X ex_ws = ex_data /\ is_mat 2 2 (w_Gamma ex_ws) /\ is_mat 2 2 (w_S ex_ws)
  /\ w_SSt ex_ws = mmul (w_S ex_ws) (mtr (w_S ex_ws)) /\ w_XSt ex_ws = mmul ex_data (mtr (w_S ex_ws))
  /\ w_GtG ex_ws = mmul (mtr (w_Gamma ex_ws)) (w_Gamma ex_ws) /\ w_GtX ex_ws = mmul (mtr (w_Gamma ex_ws)) ex_data
  /\ row_stochastic (w_Gamma ex_ws).
Proof.
  split; [exact ex_data_mat|]. split; [reflexivity|].
  split; [repeat split; intros row [<-|[<-|[]]]; reflexivity|].
  split; [repeat split; intros row [<-|[<-|[]]]; reflexivity|]. do 4 (split; [reflexivity|]).
  intros i Hi. cbn in Hi. destruct i as [|[|i]]; try lia; (split; [intros j Hj; cbn in Hj; destruct j as [|[|j]]; try lia | ]); unfold ent; cbn; lra.
Qed.

(** ** C19 *)
Theorem C19_weights_direction : forall n d k X (w : gws R) (a : R),
  w_X w = X -> is_mat n d X -> is_mat n k (w_Gamma w) -> is_mat k d (w_S w) -> w_SSt w = mmul (w_S w) (mtr (w_S w)) ->
  (0 < k)%nat -> 0 < a -> row_stochastic (w_Gamma w) ->
  let grad := weights_gradient w in
  let dir := msub (simplex_project_rows (msub (w_Gamma w) (mscale a grad))) (w_Gamma w) in
  frob grad dir <= - frob2 dir / a
  /\ (frob grad dir = 0 -> forall i j, (i < n)%nat -> (j < k)%nat -> ent dir i j = 0).
Proof.
  intros n d k X w a EX HX HG HS ES Hk Ha Hst grad dir.
  assert (Hw : gok n d k X w) by (repeat split; try apply HG; try apply HS; assumption).
  pose proof (weights_gradient_shape n d k X w Hw) as HGr. fold grad in HGr.
  pose proof (project_direction n k (w_Gamma w) grad a HG HGr Hst Hk Ha) as A. cbv zeta in A. fold dir in A.
  assert (Hdim : nr dir = n /\ nc dir = k).
  { unfold dir. mdim. pose proof (is_mat_project n k (msub (w_Gamma w) (mscale a grad))) as P.
    destruct P as (p1 & p2 & _); [apply is_mat_msub; apply HG|]. auto. }
  destruct Hdim as [e1 e2]. destruct HGr as (q1 & q2 & _).
  split; [exact A|].
  intros Z i j Hi Hj. rewrite Z in A. pose proof (frob2_nonneg dir) as P.
  assert (F : frob2 dir = 0).
  { assert (0 <= frob2 dir / a) by (apply Rmult_le_pos; [exact P | left; apply Rinv_0_lt_compat; exact Ha]).
    assert (frob2 dir / a = 0) by (unfold Rdiv in *; lra).
    replace (frob2 dir) with (frob2 dir / a * a) by (field; lra). rewrite H0. ring. }
  rewrite frob2_SS in F. rewrite e1, e2 in F.
  pose proof (SS_zero_inv n k (fun i j => ent dir i j ^ 2) ltac:(intros; apply pow2_ge_0) F i j Hi Hj) as Z2. cbn in Z2.
  apply Rmult_integral in Z2. destruct Z2 as [Z2|Z2]; [exact Z2|]. rewrite Rmult_1_r in Z2. exact Z2.
Qed.
Print Assumptions C19_weights_direction.
Theorem C19_dictionary_direction : forall n d k X (c : gpnh_cfg R) (w : gws R),
  w_X w = X -> is_mat n d X -> is_mat n k (w_Gamma w) -> is_mat k d (w_S w) -> w_SSt w = mmul (w_S w) (mtr (w_S w)) ->
  0 < w_alpha_S w ->
  let grad := dictionary_gradient c k w in
  let dir := msub (msub (w_S w) (mscale (w_alpha_S w) grad)) (w_S w) in
  frob dir grad = - frob2 dir / w_alpha_S w
  /\ (forall i j, (i < k)%nat -> (j < d)%nat -> ent dir i j = - w_alpha_S w * ent grad i j).
Proof.
  intros n d k X c w EX HX HG HS ES Ha grad dir.
  assert (Hw : gok n d k X w) by (repeat split; try apply HG; try apply HS; assumption).
  split; [apply (dir_d_slope n d k X); assumption|].
  pose proof (dictionary_gradient_shape n d k X c w Hw) as (q1 & q2 & _). destruct HS as (s1 & s2 & _).
  intros i j Hi Hj. unfold dir. fold grad in q1, q2. rewrite ent_msub by (mdim; lia). rewrite ent_msub by lia. rewrite ent_mscale by lia. ring.
Qed.
Print Assumptions C19_dictionary_direction.
(** [ex_ws] above meets the hypotheses (C18_example) *)
Example C19_example : row_stochastic (w_Gamma ex_ws) /\ 0 < w_alpha_S ex_ws.
Proof. split; [apply C18_example | cbn; numR; lra]. Qed.

(** ** C20 *)
Theorem C20_weights_update_descends : forall n d k X fuel (c : gpnh_cfg R) (w w' : gws R) m0,
  is_mat n d X -> w_X w = X -> is_mat n k (w_Gamma w) -> is_mat k d (w_S w) -> w_SSt w = mmul (w_S w) (mtr (w_S w)) ->
  (0 < n)%nat -> (0 < k)%nat -> (0 < d)%nat -> row_stochastic (w_Gamma w) ->
  0 < ls_sigma_one (gc_ls c) -> ls_sigma_two (gc_ls c) < 1 -> 0 <= ls_gamma (gc_ls c) <= 1 ->
  w_f_Gamma_mem w = [m0] -> 0 < w_alpha_Gamma w ->
  0 < ls_step_tol (gc_ls c) <= ls_sigma_one (gc_ls c) ->
  ls_step_tol (gc_ls c) * (2 * w_alpha_Gamma w * (frob2 (w_S w) / (INR d * INR n))) <= 1 - ls_gamma (gc_ls c) ->
  update_weights fuel c k w = Ok w' ->
  gpnh_objective (gc_epsilon c) X (w_Gamma w') (w_S w') <= gpnh_objective (gc_epsilon c) X (w_Gamma w) (w_S w).
Proof.
  intros n d k X fuel c w w' m0 HX EX HG HS ES Hn Hk Hd Hst H1 H2 Hg Hm Ha Ht Hb H.
  assert (Hw : gok n d k X w) by (repeat split; try apply HG; try apply HS; assumption).
  pose proof (update_weights_inv n d k X fuel c w w' Hw Hk H1 H2 H) as (Hw' & _).
  rewrite <- (cost_spec n d k X c w'), <- (cost_spec n d k X c w) by assumption.
  eapply (update_weights_descends n d k X fuel c w w' m0 (w_alpha_Gamma w)); try eassumption. lra.
Qed.
Print Assumptions C20_weights_update_descends.
Theorem C20_dictionary_update_descends : forall n d k X fuel (c : gpnh_cfg R) (w w' : gws R) m0,
  is_mat n d X -> w_X w = X -> is_mat n k (w_Gamma w) -> is_mat k d (w_S w) -> w_SSt w = mmul (w_S w) (mtr (w_S w)) ->
  (0 < n)%nat -> (0 < k)%nat -> (0 < d)%nat -> 0 <= gc_epsilon c ->
  0 < ls_sigma_one (gc_ls c) -> ls_sigma_two (gc_ls c) < 1 -> 0 <= ls_gamma (gc_ls c) <= 1 ->
  w_f_S_mem w = [m0] -> 0 < w_alpha_S w ->
  0 < ls_step_tol (gc_ls c) <= ls_sigma_one (gc_ls c) ->
  ls_step_tol (gc_ls c) * (2 * w_alpha_S w * (frob2 (w_Gamma w) / (INR d * INR n)
      + gc_epsilon c * (if Nat.eqb k 1 then 0 else 2 / (INR d * (INR k - 1))))) <= 1 - ls_gamma (gc_ls c) ->
  update_dictionary fuel c k w = Ok w' ->
  gpnh_objective (gc_epsilon c) X (w_Gamma w') (w_S w') <= gpnh_objective (gc_epsilon c) X (w_Gamma w) (w_S w).
Proof.
  intros n d k X fuel c w w' m0 HX EX HG HS ES Hn Hk Hd He H1 H2 Hg Hm Ha Ht Hb H.
  assert (Hw : gok n d k X w) by (repeat split; try apply HG; try apply HS; assumption).
  pose proof (update_dictionary_inv n d k X fuel c w w' Hw H1 H2 H) as (Hw' & _).
  rewrite <- (cost_spec n d k X c w'), <- (cost_spec n d k X c w) by assumption.
  eapply (update_dictionary_descends n d k X fuel c w w' m0 (w_alpha_S w)); try eassumption. lra.
Qed.
Print Assumptions C20_dictionary_update_descends.
(** whole fits: below some positive step tolerance the guard never fires *)
Theorem C20_fit_guard_never_fires : forall (c : gpnh_cfg R) n d k m tol data dictionary weights kw g,
  is_mat n d data -> (0 < n)%nat -> (0 < d)%nat -> (0 < k)%nat -> (0 < m)%nat ->
  gc_max_iterations c = PInt (Z.of_nat m) -> gc_tolerance c = PFloat tol -> 0 <= tol ->
  start_ready (gc_init c) n d k dictionary weights -> rng_ok k g ->
  0 <= gc_epsilon c -> 0 < ls_sigma_one (gc_ls c) -> ls_sigma_two (gc_ls c) < 1 -> 0 <= ls_gamma (gc_ls c) < 1 ->
  0 < ls_alpha_min (gc_ls c) <= ls_alpha_max (gc_ls c) -> gc_memory c = 1%nat ->
  exists tau, 0 < tau /\ forall t, 0 < t <= tau -> exists M, forall fuel, (M <= fuel)%nat ->
    forall o, go_cfg o = with_step_tol c t -> comp_count (go_n_components o) d k -> go_rng o = g ->
    exists r, fit_transform fuel o data dictionary weights true true kw = Ok r.
Proof.
  intros c n d k m tol data Din Win kw g HX Hn Hd Hk Hm Em Et Ht Hs Hr He H1 H2 Hg Ha Hmem.
  eapply (fit_no_guard c n d k m tol); try assumption. right. split; [exact Et|]. numR. apply Rltb_false. lra.
Qed.
Print Assumptions C20_fit_guard_never_fires.
(** transform: the bound is explicit *)
Theorem C20_transform_guard_never_fires : forall (c : gpnh_cfg R) n d k m tol data S g,
  is_mat n d data -> is_mat k d S -> (0 < n)%nat -> (0 < d)%nat -> (0 < k)%nat -> (0 < m)%nat ->
  gc_max_iterations c = PInt (Z.of_nat m) -> gc_tolerance c = PFloat tol -> 0 <= tol ->
  transform_init (gc_init c) -> rng_ok k g ->
  0 < ls_sigma_one (gc_ls c) -> ls_sigma_two (gc_ls c) < 1 -> 0 <= ls_gamma (gc_ls c) <= 1 ->
  0 < ls_alpha_min (gc_ls c) <= ls_alpha_max (gc_ls c) -> gc_memory c = 1%nat ->
  0 < ls_step_tol (gc_ls c) <= ls_sigma_one (gc_ls c) ->
  ls_step_tol (gc_ls c) * (2 * Rmax 1 (ls_alpha_max (gc_ls c)) * (frob2 S / (INR d * INR n))) <= 1 - ls_gamma (gc_ls c) ->
  exists M, forall fuel, (M <= fuel)%nat -> forall o w, go_cfg o = c -> comp_count (go_n_components o) d k -> go_rng o = g ->
    go_ws o = Some w -> w_S w = S -> exists r, transform fuel o data = Ok r.
Proof.
  intros c n d k m tol data S g HX HS Hn Hd Hk Hm Em Et Ht Hi Hg H1 H2 Hga Ha Hmem Hts Hb.
  eapply (transform_no_guard c n d k m tol); try assumption. right. split; [exact Et|]. numR. apply Rltb_false. lra.
Qed.
Print Assumptions C20_transform_guard_never_fires.
(** the defaults meet the explicit bound for the dictionary of [ex_ws] *)
Example C20_example :
  ls_step_tol default_ls * (2 * Rmax 1 (ls_alpha_max default_ls) * (frob2 (w_S ex_ws) / (INR 2 * INR 2))) <= 1 - ls_gamma default_ls
  /\ 0 < ls_step_tol default_ls <= ls_sigma_one default_ls
  /\ start_ready (gc_init (ex_cfg true)) 2 2 2 None None.
Proof.
  split; [|split; [cbn; lra | right; left; reflexivity]].
  cbn [default_ls ls_step_tol ls_alpha_max ls_gamma]. rewrite Rmax_right by lra. unfold frob2, ent; cbn. lra.
Qed.

(** ** C21 (any arithmetic) *)
Theorem C21_gpnh_iterations : forall (T : Type) (N : Num T) fuel (o : gpnh T) data dictionary weights ud uw kw r W,
  fit_transform fuel o data dictionary weights ud uw kw = Ok (r, W) ->
  exists m, gc_max_iterations (go_cfg o) = PInt (Z.of_nat m)
    /\ go_n_iter_ (gr_obj r) = Some (gr_n_iter r) /\ (gr_n_iter r <= m - 1)%nat /\ (0 < m)%nat
    /\ length (gr_log r) = (gr_n_iter r + 2)%nat       (* initial cost + one per iteration *)
    /\ gr_warned r = false.
Proof.
  intros T N fuel o data Din Win ud uw kw r W H.
  apply fit_transform_inv in H. destruct H as (k & m & t & D & W0 & g' & w2 & A1 & A2 & A3 & A4 & A5 & A6 & A7 & A8 & A9 & ->).
  pose proof (gpnh_iterate_log _ _ _ _ _ _ _ _ _ _ _ _ A4 A7) as (C1 & C2 & C3 & _).
  exists m. rewrite A8, A9. cbn [go_n_iter_]. repeat split; try assumption; try lia.
  destruct (Nat.eqb_spec (gr_n_iter r) m); [lia | reflexivity].
Qed.
Print Assumptions C21_gpnh_iterations.
Theorem C21_gpnh_transform_iterations : forall (T : Type) (N : Num T) fuel (o : gpnh T) data r W,
  transform fuel o data = Ok (r, W) ->
  exists m, gc_max_iterations (go_cfg o) = PInt (Z.of_nat m) /\ (gr_n_iter r <= m - 1)%nat
    /\ length (gr_log r) = (gr_n_iter r + 2)%nat /\ gr_warned r = false.
Proof.
  intros T N fuel o data r W H.
  apply transform_inv in H. destruct H as (k & m & t & D & W0 & g' & w2 & A1 & A2 & A3 & A4 & A5 & A6 & A7 & A8 & A9 & ->).
  pose proof (gpnh_iterate_log _ _ _ _ _ _ _ _ _ _ _ _ A4 A7) as (C1 & C2 & C3 & _).
  exists m. rewrite A9. repeat split; try assumption; try lia.
  destruct (Nat.eqb_spec (gr_n_iter r) m); [lia | reflexivity].
Qed.
Print Assumptions C21_gpnh_transform_iterations.
(** executed on integers: tolerance 0 never stops the run; two iterations are made, n_iter_ is 1 and
    no warning is issued although max_iterations = 2 was exhausted *)
Definition exZ_cfg : gpnh_cfg Z := mk_gpnh_cfg 0%Z InitCustom (PInt 0) (PInt 2) (mk_ls 0 1 1 1 1 1)%Z 1 false.
Definition exZ_rng : rng Z := mkrng (fun _ => 1%Z) (fun _ => 1%Z) (fun n => n) 0.
Definition exZ_fit := @fit_transform Z Num_Z_demo 5 (gpnh_new exZ_cfg (PInt 2) exZ_rng)
  (mkmat 2 2 [[4; 0]; [0; 4]]%Z) (Some (mkmat 2 2 [[1; 0]; [0; 1]]%Z)) (Some (mkmat 2 2 [[1; 0]; [0; 1]]%Z)) true true None.
Example C21_example : match exZ_fit with Ok (r, W) => gr_n_iter r = 1%nat /\ length (gr_log r) = 3%nat | Raise _ => False end.
Proof. vm_compute. auto. Qed.

(** ** C22 (any arithmetic) *)
Theorem C22_gpnh_stopping : forall (T : Type) (N : Num T) fuel (o : gpnh T) data dictionary weights ud uw kw r W,
  fit_transform fuel o data dictionary weights ud uw kw = Ok (r, W) ->
  exists m t, gc_max_iterations (go_cfg o) = PInt (Z.of_nat m) /\ tol_value (gc_tolerance (go_cfg o)) t
    /\ let small i := nltb (nabs (nsub (nth (S i) (gr_log r) n0) (nth i (gr_log r) n0))) t in
       (forall i, (i < gr_n_iter r)%nat -> small i = false)
       /\ (gr_n_iter r < m - 1 -> small (gr_n_iter r) = true)%nat.
Proof.
  intros T N fuel o data Din Win ud uw kw r W H.
  apply fit_transform_inv in H. destruct H as (k & m & t & D & W0 & g' & w2 & A1 & A2 & A3 & A4 & A5 & A6 & A7 & A8 & A9 & ->).
  pose proof (gpnh_iterate_log _ _ _ _ _ _ _ _ _ _ _ _ A4 A7) as (C1 & C2 & C3 & C4 & C5 & C6 & C7 & _).
  exists m, t. split; [exact A3|]. split; [exact A5|]. intros small. split; [exact C6|].
  intros Hlt. destruct C7 as [C7|C7]; [lia | exact C7].
Qed.
Print Assumptions C22_gpnh_stopping.
(** the same run with tolerance 1 stops as soon as the cost is stationary *)
Example C22_example :
  match @fit_transform Z Num_Z_demo 5 (gpnh_new (mk_gpnh_cfg 0 InitCustom (PInt 1) (PInt 50) (mk_ls 0 1 1 1 1 1) 1 false)%Z (PInt 2) exZ_rng)
    (mkmat 2 2 [[4; 0]; [0; 4]]%Z) (Some (mkmat 2 2 [[1; 0]; [0; 1]]%Z)) (Some (mkmat 2 2 [[1; 0]; [0; 1]]%Z)) true true None
  with Ok (r, _) => (gr_n_iter r < 49)%nat | Raise _ => False end.
Proof. vm_compute. lia. Qed.

(** ** C23 *)
Theorem C23_transform_keeps_fit : forall (T : Type) (N : Num T) fuel (o : gpnh T) data r W,
  transform fuel o data = Ok (r, W) ->
  go_dictionary_ (gr_obj r) = go_dictionary_ o /\ go_cost_ (gr_obj r) = go_cost_ o
  /\ go_n_iter_ (gr_obj r) = go_n_iter_ o /\ go_n_components_ (gr_obj r) = go_n_components_ o
  /\ exists w w', go_ws o = Some w /\ go_ws (gr_obj r) = Some w' /\ w_S w' = w_S w.
Proof.
  intros T N fuel o data r W H.
  apply transform_inv in H. destruct H as (k & m & t & D & W0 & g' & w2 & A1 & A2 & A3 & A4 & A5 & A6 & A7 & A8 & A9 & ->).
  rewrite A8. cbn [go_dictionary_ go_cost_ go_n_iter_ go_n_components_ go_ws]. do 4 (split; [reflexivity|]).
  apply transform_keeps_S in A7; [|exact A4]. cbn [start_ws w_S] in A7.
  assert (E : option_map w_S (go_ws o) = Some D).
  { unfold choose_initial in A6. destruct (gc_init (go_cfg o)); cbn [negb andb] in A6.
    4:{ apply bind_ok in A6. destruct A6 as (W1 & E1 & A6). apply bind_ok in A6. destruct A6 as (D1 & E2 & A6). discriminate. }
    all: apply bind_ok in A6; destruct A6 as (D1 & E2 & A6); apply bind_ok in A6; destruct A6 as (r2 & E3 & A6);
      injection A6 as <- _ _; apply check_init_dictionary_ok_inv in E2; apply E2. }
  destruct (go_ws o) as [w|]; [|discriminate]. injection E as <-. exists w, w2. auto.
Qed.
Print Assumptions C23_transform_keeps_fit.
(** the fitted dictionary is the working dictionary, so transform encodes with [dictionary_] *)
Theorem C23_dictionary_attribute : forall (T : Type) (N : Num T) fuel (o : gpnh T) data dictionary weights ud uw kw r W,
  fit_transform fuel o data dictionary weights ud uw kw = Ok (r, W) ->
  exists w, go_ws (gr_obj r) = Some w /\ go_dictionary_ (gr_obj r) = Some (w_S w) /\ w_Gamma w = W.
Proof.
  intros T N fuel o data Din Win ud uw kw r W H.
  apply fit_transform_inv in H. destruct H as (k & m & t & D & W0 & g' & w2 & A1 & A2 & A3 & A4 & A5 & A6 & A7 & A8 & A9 & ->).
  exists w2. rewrite A8. auto.
Qed.
Print Assumptions C23_dictionary_attribute.
Theorem C23_inverse_transform_hull : forall (o : gpnh R) weights M w,
  inverse_transform o weights = Ok M -> go_ws o = Some w -> row_stochastic weights ->
  nr M = nr weights /\ nc M = nc (w_S w) /\ forall i, (i < nr weights)%nat -> in_hull (w_S w) (fun j => ent M i j).
Proof.
  intros o W M w H Ew SW. unfold inverse_transform in H. rewrite Ew in H.
  destruct (Nat.eqb_spec (nc W) (nr (w_S w))) as [E|]; [|discriminate]. injection H as <-.
  split; [reflexivity|]. split; [reflexivity|]. intros i Hi. destruct (SW i Hi) as [P S].
  exists (fun c => ent W i c). rewrite <- E. split; [exact P|]. split; [exact S|].
  intros j Hj. rewrite ent_mmul by assumption. reflexivity.
Qed.
Print Assumptions C23_inverse_transform_hull.
(** reconstruction stays between the extreme dictionary values, feature by feature *)
Theorem C23_inverse_transform_range : forall (o : gpnh R) weights M w i j lo hi,
  inverse_transform o weights = Ok M -> go_ws o = Some w -> row_stochastic weights ->
  (i < nr weights)%nat -> (j < nc (w_S w))%nat ->
  (forall c, (c < nr (w_S w))%nat -> lo <= ent (w_S w) c j <= hi) -> lo <= ent M i j <= hi.
Proof.
  intros o W M w i j lo hi H Ew SW Hi Hj Hb.
  destruct (C23_inverse_transform_hull o W M w H Ew SW) as (_ & _ & HH). destruct (HH i Hi) as (lam & L1 & L2 & L3).
  rewrite (L3 j Hj). split.
  - replace lo with (Sum (nr (w_S w)) (fun c => lam c * lo)) by (rewrite Sum_scal_r, L2; ring).
    apply Sum_le; intros c Hc. apply Rmult_le_compat_l; [apply L1, Hc | apply Hb, Hc].
  - replace hi with (Sum (nr (w_S w)) (fun c => lam c * hi)) by (rewrite Sum_scal_r, L2; ring).
    apply Sum_le; intros c Hc. apply Rmult_le_compat_l; [apply L1, Hc | apply Hb, Hc].
Qed.
Print Assumptions C23_inverse_transform_range.
(** after the example fit, transform of the same data succeeds, and so does inverse_transform *)
Example C23_example : exists fuel r W fuel' r' W' M,
  fit_transform fuel (ex_gpnh false) ex_data None None true true None = Ok (r, W)
  /\ transform fuel' (gr_obj r) ex_data = Ok (r', W') /\ inverse_transform (gr_obj r') W' = Ok M /\ row_stochastic W'.
Proof.
  destruct ex_fit as (fuel & r & W & E). exists fuel, r, W.
  pose proof E as E0. apply fit_transform_inv in E0.
  destruct E0 as (k & m & t & D & W0 & g' & w2 & A1 & A2 & A3 & A4 & A5 & A6 & A7 & A8 & A9 & _).
  assert (k = 2%nat) as -> by (cbn in A1; injection A1; lia).
  apply choose_initial_ok in A6; [|intros ? ?; discriminate|intros ? ?; discriminate]. destruct A6 as (HD & HW & Hg & _).
  apply (gpnh_iterate_inv 2 2 2 ex_data (ex_cfg false) (row_stochastic W0)) in A7; try lia; try (cbn; lra); [|apply start_ginv; assumption || exact ex_data_mat].
  destruct A7 as ((_ & HG & HS & _) & _).
  assert (Hg' : rng_ok 2 g') by (eapply rng_ok_stream; [exact Hg | exact ex_rng_ok]).
  destruct (transform_total (ex_cfg false) 2 2 2 100 (1/1000000) ex_data (w_S w2) g') as [M HM]; try exact ex_data_mat; try lia; try assumption; try reflexivity.
  - right; split; [reflexivity|]. numR. apply Rltb_false; lra.
  - right; left; reflexivity.
  - repeat split; cbn; lra.
  - cbn; lia.
  - destruct (HM M (le_n _) (gr_obj r) w2) as [[r' W'] E2]; try (rewrite A8; reflexivity); try reflexivity; [rewrite A8; left; reflexivity|].
    assert (WS : is_mat 2 2 W' /\ row_stochastic W').
    { apply (C14_transform_weights_stochastic M (gr_obj r) 2 2 2 ex_data r' W' ex_data_mat); [..|exact E2]; rewrite A8; try (apply Hg'); try (cbn; lra).
      - left; reflexivity.
      - cbn [go_ws]. intros w [= <-]. apply (is_mat_wf 2 2), HS. }
    destruct (C23_transform_keeps_fit R Num_R _ _ _ _ _ E2) as (_ & _ & _ & _ & w & w' & F1 & F2 & F3).
    exists M, r', W'. unfold inverse_transform. rewrite F2, F3. rewrite A8 in F1. cbn in F1. injection F1 as <-.
    destruct WS as [(_ & c2 & _) S]. destruct HS as (s1 & _). rewrite c2, s1. cbn [Nat.eqb]. eauto.
Qed.

(** ** C24 (any arithmetic): with init='custom', transform always raises ValueError *)
Theorem C24_gpnh_custom_transform_fails : forall (T : Type) (N : Num T) fuel (o : gpnh T) data,
  gc_init (go_cfg o) = InitCustom -> transform fuel o data = Raise ValueError.
Proof.
  intros T N fuel o data Hi. unfold transform, gpnh_convex_coding.
  destruct (check_params _ _ _) as [[[k m] t]|e] eqn:E1; cbn [bind].
  - unfold choose_initial. rewrite Hi. reflexivity.
  - apply check_params_raise in E1. rewrite E1. reflexivity.
Qed.
Print Assumptions C24_gpnh_custom_transform_fails.
(** a model that was fitted successfully *)
Example C24_example : match exZ_fit with
  | Ok (r, _) => @transform Z Num_Z_demo 5 (gr_obj r) (mkmat 2 2 [[4; 0]; [0; 4]]%Z) = Raise ValueError
  | Raise _ => False end.
Proof. vm_compute. reflexivity. Qed.

(** ** C25 (any arithmetic): a fit reads nothing an earlier call has written, except the position of
    the random stream *)
Theorem C25_gpnh_history_independent : forall (T : Type) (N : Num T) fuel (o1 o2 : gpnh T) data dictionary weights ud uw kw,
  go_cfg o1 = go_cfg o2 -> go_n_components o1 = go_n_components o2 -> go_rng o1 = go_rng o2 ->
  fit_transform fuel o1 data dictionary weights ud uw kw = fit_transform fuel o2 data dictionary weights ud uw kw.
Proof.
  intros T N fuel o1 o2 data Din Win ud uw kw E1 E2 E3. unfold fit_transform, gpnh_convex_coding. rewrite E1, E2, E3.
  destruct (check_params _ _ _) as [[[k m] t]|e]; cbn [bind]; [|reflexivity].
  destruct (choose_initial _ _ _ _ _ _ _ _ _) as [[[D W] g']|e]; cbn [bind]; [|reflexivity].
  unfold initialize_workspace; cbn [w_X w_Gamma w_S].
  destruct (gpnh_iterate _ _ _ _ _ _ _ _) as [[[[w2 cost] n_iter] log]|e]; reflexivity.
Qed.
Print Assumptions C25_gpnh_history_independent.
(** an object after any sequence of successful fits and transforms *)
Inductive gpnh_history {T} {N : Num T} (o : gpnh T) : gpnh T -> Prop :=
| gh_start : gpnh_history o o
| gh_fit o1 fuel data dictionary weights ud uw kw r W : gpnh_history o o1 ->
    fit_transform fuel o1 data dictionary weights ud uw kw = Ok (r, W) -> gpnh_history o (gr_obj r)
| gh_transform o1 fuel data r W : gpnh_history o o1 ->
    transform fuel o1 data = Ok (r, W) -> gpnh_history o (gr_obj r).
Theorem C25_gpnh_history_configuration : forall (T : Type) (N : Num T) (o o' : gpnh T) z,
  gpnh_history o o' -> go_n_components o = PInt z ->
  go_cfg o' = go_cfg o /\ go_n_components o' = go_n_components o /\ r_uniform (go_rng o') = r_uniform (go_rng o)
  /\ r_normal (go_rng o') = r_normal (go_rng o) /\ r_int (go_rng o') = r_int (go_rng o).
Proof.
  intros T N o o' z H Ez. induction H as [|o1 fuel data Din Win ud uw kw r W H IH E|o1 fuel data r W H IH E]; [auto| |].
  - apply fit_transform_inv in E. destruct E as (k & m & t & D & W0 & g' & w2 & A1 & A2 & A3 & A4 & A5 & A6 & A7 & A8 & A9 & _).
    destruct IH as (I1 & I2 & I3 & I4 & I5). rewrite A8. cbn [go_cfg go_n_components go_rng].
    apply choose_initial_streams in A6. destruct A6 as (S1 & S2 & S3).
    rewrite I2, Ez in A1. cbn in A1. rewrite <- A1, Ez, S1, S2, S3. auto.
  - apply transform_inv in E. destruct E as (k & m & t & D & W0 & g' & w2 & A1 & A2 & A3 & A4 & A5 & A6 & A7 & A8 & A9 & _).
    destruct IH as (I1 & I2 & I3 & I4 & I5). rewrite A8. cbn [go_cfg go_n_components go_rng].
    apply choose_initial_streams in A6. destruct A6 as (S1 & S2 & S3).
    rewrite I2, Ez in A1. cbn in A1. rewrite <- A1, Ez, S1, S2, S3. auto.
Qed.
Print Assumptions C25_gpnh_history_configuration.
(** an object with a history differs from a fresh one, yet fits alike (init='custom' draws nothing) *)
Example C25_example : match exZ_fit with
  | Ok (r, _) => go_cost_ (gr_obj r) <> go_cost_ (gpnh_new exZ_cfg (PInt 2) exZ_rng)
      /\ go_cfg (gr_obj r) = exZ_cfg /\ go_n_components (gr_obj r) = PInt 2 /\ go_rng (gr_obj r) = exZ_rng
  | Raise _ => False end.
Proof. vm_compute. repeat split; discriminate. Qed.

(** ** C26 (any arithmetic) *)
Definition valid_components {T} (v : pyval T) (dflt : nat) : Prop := exists k, comp_count v dflt k /\ (0 < k)%nat.
Definition valid_max {T} (v : pyval T) : Prop := exists m, v = PInt (Z.of_nat m) /\ (0 < m)%nat.
Definition valid_tolerance {T} {N : Num T} (v : pyval T) : Prop :=
  (exists z, v = PInt z /\ (0 <= z)%Z) \/ (exists x, v = PFloat x /\ nltb x n0 = false).
Theorem C26_gpnh_validation : forall (T : Type) (N : Num T) fuel (o : gpnh T) data dictionary weights ud uw kw,
  ~ (valid_components (go_n_components o) (nc data) /\ valid_max (gc_max_iterations (go_cfg o)) /\ valid_tolerance (gc_tolerance (go_cfg o))) ->
  fit_transform fuel o data dictionary weights ud uw kw = Raise ValueError.
Proof.
  intros T N fuel o data Din Win ud uw kw H. unfold fit_transform, gpnh_convex_coding.
  destruct (check_params _ _ _) as [[[k m] t]|e] eqn:E1; cbn [bind].
  - exfalso. apply H. apply check_params_ok in E1. destruct E1 as (K1 & K2 & M1 & M2 & T1).
    split; [exists k; split; [apply comp_count_resolve, K1 | exact K2]|]. split; [exists m; auto|].
    destruct T1 as [(z & -> & _ & Hz)|[-> Hz]]; [left; eauto | right; eauto].
  - apply check_params_raise in E1. rewrite E1. reflexivity.
Qed.
Print Assumptions C26_gpnh_validation.
(** the resolved number of components is stored, and is used by every later call *)
Theorem C26_gpnh_resolution : forall (T : Type) (N : Num T) fuel (o : gpnh T) data dictionary weights ud uw kw r W,
  fit_transform fuel o data dictionary weights ud uw kw = Ok (r, W) ->
  valid_max (gc_max_iterations (go_cfg o)) /\ valid_tolerance (gc_tolerance (go_cfg o)) /\
  exists k, comp_count (go_n_components o) (nc data) k /\ (0 < k)%nat /\ go_n_components (gr_obj r) = PInt (Z.of_nat k)
    /\ forall d' k', comp_count (go_n_components (gr_obj r)) d' k' -> k' = k.
Proof.
  intros T N fuel o data Din Win ud uw kw r W H.
  apply fit_transform_inv in H. destruct H as (k & m & t & D & W0 & g' & w2 & A1 & A2 & A3 & A4 & A5 & A6 & A7 & A8 & A9 & ->).
  split; [exists m; auto|]. split; [destruct A5 as [(z & -> & _ & Hz)|[-> Hz]]; [left; eauto | right; eauto]|].
  exists k. split; [apply comp_count_resolve, A1|]. split; [exact A2|]. rewrite A8. cbn [go_n_components]. split; [reflexivity|].
  intros d' k' [E|[E _]]; [injection E; lia | discriminate].
Qed.
Print Assumptions C26_gpnh_resolution.
Example C26_example :
  ~ valid_components (T := Z) (PInt 0) 3 /\ ~ valid_components (T := Z) (PFloat 2%Z) 3 /\ ~ valid_max (T := Z) (PFloat 5%Z)
  /\ valid_components (T := Z) PNone 3.
Proof.
  repeat split.
  - intros (k & [E|[E _]] & Hk); [injection E; lia | discriminate].
  - intros (k & [E|[E _]] & Hk); discriminate.
  - intros (m & E & _); discriminate.
  - exists 3%nat. split; [right; auto | lia].
Qed.

(** ** C58: every fit and transform ends *)
Theorem C58_gpnh_terminates : forall (c : gpnh_cfg R),
  0 < ls_sigma_one (gc_ls c) -> ls_sigma_two (gc_ls c) < 1 -> 0 < ls_step_tol (gc_ls c) -> (0 < gc_memory c)%nat ->
  exists M, forall fuel, (M <= fuel)%nat -> forall (o : gpnh R) n d data dictionary weights ud uw kw,
    go_cfg o = c -> is_mat n d data ->
    (forall D, dictionary = Some D -> wf D) -> (forall W0, weights = Some W0 -> wf W0) ->
    (exists r, fit_transform fuel o data dictionary weights ud uw kw = Ok r)
    \/ (exists e, fit_transform fuel o data dictionary weights ud uw kw = Raise e
          /\ (e = ValueError \/ e = IndexError \/ e = TypeError \/ (e = RuntimeError /\ gc_monotone c = true))).
Proof.
  intros c H1 H2 H3 Hm. destruct (convex_coding_ends c) as [M HM]; [repeat split; assumption | exact Hm|].
  exists M. intros fuel Hf o n d data Din Win ud uw kw Eo HX WD WW.
  destruct (HM fuel Hf o data Din Win ud uw kw n d Eo HX WD WW) as [[r E]|(e & E & He)]; unfold fit_transform; rewrite E; cbn [bind].
  - apply gpnh_run_inv in E. destruct E as (k & m & t & D & W0 & g' & w2 & A1 & A2 & A3 & A4 & A5 & A6 & A7 & A8 & A9).
    rewrite A8. cbn. left. eauto.
  - right. exists e. auto.
Qed.
Print Assumptions C58_gpnh_terminates.
Example C58_example : 0 < ls_sigma_one default_ls /\ ls_sigma_two default_ls < 1 /\ 0 < ls_step_tol default_ls /\ (0 < gc_memory (ex_cfg true))%nat.
Proof. cbn. repeat split; try lra; lia. Qed.
