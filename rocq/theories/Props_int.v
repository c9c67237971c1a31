(** Property theorems C76 - C78: integer data in the FEM-BV classes and the piecewise VARX class. *)
From Coq Require Import List Arith ZArith Bool Reals Lra Lia.
From Verif Require Import Num Mat Py Lp M_random M_iter M_gpnh M_fembv M_varx M_pwvarx M_int Spec Spec_fembv Spec_int.
From Verif Require Import P_lin P_random P_iter P_mat P_gpnh_run P_fembv P_fembv_upd P_fembv_run P_int Props_gpnh Props_fembv.
Import ListNotations.
Local Open Scope R_scope.

(** ** C76 *)
(** the reported cost is that of the truncated distances: too small by less than the number of samples *)
Theorem C76_reported_cost : forall solver (o : fembv R (kmeans R)) n d k data th weights init up r W,
  is_mat n d data -> (0 < n)%nat -> comp_count (fo_n_components o) d k -> rng_ok k (fo_rng o) ->
  (forall Th, th = Some Th -> wf Th) -> (forall W0, weights = Some W0 -> wf W0 /\ row_stochastic W0) ->
  solver_feasible solver -> solver_honest solver ->
  fembv_fit_transform (int_kmeans_class toward_zero) solver o data th weights init up true = Ok (r, W) ->
  admissible (fc_max_tv_norm (fo_cfg o)) W /\
  exists s, option_map f_params (fo_ws (fr_obj r)) = Some s
    /\ fr_cost r = truncated_kmeans_cost data W (km_Theta s)
    /\ fr_cost r <= kmeans_cost data W (km_Theta s) < fr_cost r + INR n.
Proof.
  intros solver o n d k data th weights init up r W HX Hn Hc Hg WT WW Hf Hh H. pose proof HX as (x1 & x2 & _).
  apply fembv_fit_inv in H. destruct H as (k' & m & t & w & g' & w' & A1 & A2 & A3 & A4 & A5 & A6 & A7 & A8 & A9 & ->).
  apply comp_count_resolve in Hc. rewrite x2, Hc in A1. assert (k' = k) as -> by (injection A1; lia).
  apply (int_kmeans_start _ n d) in A6; try assumption; [|intros; apply WW; assumption]. destruct A6 as [I0 S0].
  specialize (S0 Hg (fun W0 E => proj2 (WW W0 E))). pose proof A7 as A7'.
  apply fembv_iterate_path in A7; [|exact A4]. destruct A7 as (N' & f & h & F0 & F1 & F2 & F3 & F4). pose proof (F2 (S (fr_n_iter r)) (le_n _)) as F5. rewrite F1 in F5.
  pose proof (after_inv ikm solver _ n k _ (int_kmeans_keeps n d k data) Hn A2 _ _ _ _ _ I0 F5) as I1.
  pose proof (after_admissible ikm solver _ n k _ (int_kmeans_keeps n d k data) Hn A2 _ _ _ _ Hf Hh I0 S0 F5) as B. split; [exact B|].
  rewrite A8. cbn [fo_ws option_map]. exists (f_params w'). split; [reflexivity|].
  unfold fembv_iterate in A7'. apply (iterate_ok (fembv_cost ikm) (fun _ => True)) in A7'; auto. destruct A7' as (_ & Ec & _).
  rewrite Ec, (int_cost_spec _ n d k data) by exact I1. split; [reflexivity|].
  apply (truncated_cost_bounds n k); [apply I1 | exact Hn | apply B].
Qed.
Print Assumptions C76_reported_cost.
(** when every squared distance is below one the cost does not depend on the weights, and every point of
    the linear programme is optimal *)
Theorem C76_blind : forall n d k (X Theta : mat R) (c : fembv_cfg R) Ae be Au bu,
  is_mat n d X -> is_mat k d Theta -> (0 < k)%nat ->
  (forall t j, (t < n)%nat -> (j < k)%nat -> centroid_dist2 X Theta t j < 1) ->
  let D := cl_distance (int_kmeans_class toward_zero) (mk_kmeans X Theta) in
  (forall G Eta cons calls, is_mat n k G -> fembv_cost (int_kmeans_class toward_zero) (mk_fws (mk_kmeans X Theta) G Eta cons calls) = 0)
  /\ (forall v, lp_value (mk_lp (lp_objective c k n D) Ae be Au bu) v = 0).
Proof.
  intros n d k X Theta c Ae be Au bu HX HT Hk Hd D. assert (K : kmok n d k X (mk_kmeans X Theta)) by (split; [reflexivity | split; assumption]).
  assert (Z : forall t j, (t < n)%nat -> (j < k)%nat -> ent D t j = 0).
  { intros t j Ht Hj. unfold D. cbn [int_kmeans_class cl_distance]. rewrite (int_distance_spec n d k X) by assumption. cbn [km_Theta].
    apply tz_small. rewrite Rabs_pos_eq by apply dist2_nonneg. apply Hd; assumption. }
  assert (MD : is_mat n k D) by (apply (int_distance_mat n d k X); exact K).
  assert (CZ : forall G, is_mat n k G -> clustering_cost G D = 0).
  { intros G (g1 & g2 & _). unfold clustering_cost. rewrite g1, g2. apply Sum_zero. intros t Ht. apply Sum_zero. intros j Hj. rewrite Z by assumption. ring. }
  split.
  - intros G Eta cs ca HG. rewrite <- (CZ G HG). unfold fembv_cost, minner, clustering_cost. cbn [f_Gamma f_params]. rewrite nsum_Sum. apply Sum_ext. intros t _. rewrite nsum_Sum. reflexivity.
  - intros v. rewrite lp_value_cost by assumption. apply CZ, is_mat_mbuild.
Qed.
Print Assumptions C76_blind.
(** a default fit to a single feature of zeros and ones: after the first iteration the cost is zero *)
Theorem C76_binary : forall solver (o : fembv R (kmeans R)) n k data th weights init uw r W,
  is_mat n 1 data -> (forall t, (t < n)%nat -> ent data t 0 = 0 \/ ent data t 0 = 1) ->
  (exists t, (t < n)%nat /\ ent data t 0 = 0) -> (exists t, (t < n)%nat /\ ent data t 0 = 1) ->
  comp_count (fo_n_components o) 1 k -> (forall i, 0 < r_uniform (fo_rng o) i) ->
  (forall Th, th = Some Th -> wf Th) -> (forall W0, weights = Some W0 -> wf W0) -> (init = InitCustom -> weights = None) ->
  fembv_fit_transform (int_kmeans_class toward_zero) solver o data th weights init true uw = Ok (r, W) ->
  nth 1 (fr_log r) 0 = 0
  /\ (fc_max_iterations (fo_cfg o) = PInt 1 -> fr_cost r = 0 /\
      exists s, option_map f_params (fo_ws (fr_obj r)) = Some s /\ forall G, is_mat n k G -> row_stochastic G -> 0 < kmeans_cost data G (km_Theta s)).
Proof.
  intros solver o n k data th weights init uw r W HX Hb (a & Ha & Ea) (b & Hb1 & Eb) Hc Hg WT WW Hi H. pose proof HX as (x1 & x2 & _).
  assert (Hn : (0 < n)%nat) by lia.
  apply fembv_fit_inv in H. destruct H as (k' & m & t & w & g' & w' & A1 & A2 & A3 & A4 & A5 & A6 & A7 & A8 & A9 & ->).
  apply comp_count_resolve in Hc. rewrite x2, Hc in A1. assert (k' = k) as -> by (injection A1; lia).
  pose proof A6 as A6'. apply (int_kmeans_start _ n 1) in A6; try assumption. destruct A6 as [I0 _]. pose proof (int_kmeans_keeps n 1 k data) as HK.
  assert (Pos : forall t j, (t < n)%nat -> (j < k)%nat -> 0 < ent (f_Gamma w) t j).
  { apply fembv_initialize_inv in A6'. destruct A6' as (p & g1 & E1 & E2 & E3 & _). cbn [int_kmeans_class cl_initialize cl_distance] in *.
    pose proof (kmeans_initialize_streams _ _ _ _ _ _ _ _ E1) as (Eu & _). apply (kmeans_initialize_ok n 1) in E1; try assumption. destruct E1 as [K _].
    pose proof (int_distance_mat n 1 k data _ K) as (d1 & _). rewrite d1 in E3. intros q j Hq Hj.
    apply (default_weights_positive n k _ _ _ _ _) with (t := q) (j := j) in E3; try assumption; [apply E3|]. rewrite Eu. exact Hg. }
  pose proof A7 as A7'. apply fembv_iterate_path in A7; [|exact A4]. destruct A7 as (N' & f & h & F0 & F1 & F2 & F3 & F4).
  destruct (F3 0%nat ltac:(lia)) as (S1 & S2 & _). rewrite F0 in S1. destruct (half_inv ikm _ n k _ HK _ _ _ I0 S1) as (I2 & G2 & _).
  destruct (other_inv ikm solver _ n k _ HK Hn A2 _ _ _ I2 S2) as (I3 & P3 & _).
  cbn [half_step] in S1. unfold fembv_update_parameters in S1. apply bind_ok in S1. destruct S1 as (s & E1 & S1). cbn [int_kmeans_class cl_update] in E1.
  pose proof I0 as (G0 & K0 & _). pose proof (kmeans_update_spec n 1 k data _ _ _ K0 G0 E1) as [K1 Th].
  assert (Es : f_params (h 0%nat) = s) by (injection S1 as <-; reflexivity).
  assert (In : forall j, (j < k)%nat -> 0 < ent (km_Theta s) j 0 < 1).
  { intros j Hj. rewrite (Th j 0%nat Hj ltac:(lia)). apply (binary_mean n (fun t => ent (f_Gamma w) t j) (fun t => ent data t 0) a b); try assumption. intros q Hq. apply Pos; assumption. }
  assert (Ds : forall q j, (q < n)%nat -> (j < k)%nat -> 0 < centroid_dist2 data (km_Theta s) q j < 1).
  { intros q j Hq Hj. unfold centroid_dist2. rewrite x2. cbn [Sum]. specialize (In j Hj). destruct (Hb q Hq) as [-> | ->]; nra. }
  assert (C1 : fembv_cost ikm (f 1%nat) = 0).
  { rewrite (int_cost_spec _ n 1 k data) by exact I3. rewrite P3, Es. unfold truncated_kmeans_cost. apply Sum_zero. intros q Hq. apply Sum_zero. intros j Hj.
    destruct I3 as ((g1 & g2 & _) & _). rewrite tz_small; [ring|]. rewrite g1 in Hq. rewrite g2 in Hj. specialize (Ds q j Hq Hj). rewrite Rabs_pos_eq; lra. }
  split; [change (nth 1 (fr_log r) n0 = 0); rewrite F4 by lia; exact C1|].
  intros EM. rewrite EM in A3. assert (m = 1%nat) as -> by (injection A3; lia). assert (fr_n_iter r = 0)%nat as E0 by lia. rewrite E0 in F1.
  unfold fembv_iterate in A7'. apply (iterate_ok (fembv_cost ikm) (fun _ => True)) in A7'; auto. destruct A7' as (_ & Ec & _).
  split; [rewrite Ec, <- F1; exact C1|]. rewrite A8. cbn [fo_ws option_map]. exists (f_params w'). split; [reflexivity|].
  intros G (g1 & g2 & _) SG. rewrite <- F1, P3, Es. unfold kmeans_cost. rewrite g1, g2. destruct (SG 0%nat ltac:(lia)) as [Nn Su]. rewrite g2 in Nn, Su.
  destruct (Sum_pos_term k (fun j => ent G 0 j)) as (j & Hj & Pj); [lra|].
  assert (NN : forall q i, (q < n)%nat -> (i < k)%nat -> 0 <= ent G q i * centroid_dist2 data (km_Theta s) q i).
  { intros q i Hq Hi'. apply Rmult_le_pos; [apply SG; lia | apply dist2_nonneg]. }
  apply (Sum_pos n _ 0%nat); [intros q Hq; apply Sum_nonneg; intros i Hi'; apply NN; assumption | exact Hn|].
  apply (Sum_pos k _ j); [intros i Hi'; apply NN; assumption | exact Hj|]. apply Rmult_lt_0_compat; [exact Pj | apply Ds; assumption].
Qed.
Print Assumptions C76_binary.
(** with fixed parameters the monotonicity guard never fires *)
Theorem C76_guard_fixed_parameters : forall solver (o : fembv R (kmeans R)) n d data th weights init uw,
  is_mat n d data -> (0 < n)%nat -> (forall Th, th = Some Th -> wf Th) -> (forall W0, weights = Some W0 -> wf W0) ->
  solver_optimal solver -> solver_honest solver -> (forall i p, solver i p <> LpRaises RuntimeError) ->
  fembv_fit_transform (int_kmeans_class toward_zero) solver o data th weights init false uw <> Raise RuntimeError.
Proof.
  intros solver o n d data th weights init uw HX Hn WT WW Hs Hh Hr H. unfold fembv_fit_transform in H.
  destruct (fembv_fit ikm solver o data th weights init false uw) as [r|e] eqn:E; cbn [bind] in H.
  { apply fembv_run_inv in E. destruct E as (k & m & t & w & g' & w' & _ & _ & _ & _ & _ & _ & _ & A8 & _). rewrite A8 in H. discriminate. }
  injection H as ->. unfold fembv_fit in E. destruct (check_params _ _ _) as [[[k m] t]|e] eqn:E1; cbn [bind] in E; [|injection E as ->; apply check_params_raise in E1; discriminate].
  apply check_params_ok in E1. destruct E1 as (K1 & K2 & M1 & M2 & T1).
  destruct (fembv_initialize _ _ _ _ _ _ _ _ _) as [[w g']|e] eqn:E2; cbn [bind] in E; [|injection E as ->; apply int_kmeans_start_raise in E2; discriminate].
  destruct (fembv_iterate _ _ _ _ _ _ _ _ _) as [[[[w' cost] ni] lg]|e] eqn:E3; cbn [bind] in E; [discriminate|]. injection E as ->.
  pose proof E2 as E2'. apply (int_kmeans_start _ n d) in E2'; try assumption. destruct E2' as [I0 _]. pose proof (int_kmeans_keeps n d k data) as HK.
  apply fembv_iterate_raise in E3. destruct E3 as (i & s & Hi & Es & E3).
  pose proof (after_inv ikm solver _ n k _ HK Hn K2 _ _ _ _ _ I0 Es) as I1.
  destruct E3 as [E3|(h & Eh & [E3|[(_ & E4 & _)|(s2 & E4 & _ & -> & E3)]])]; [discriminate | | discriminate |]; cbn [half_step] in Eh; injection Eh as <-.
  - apply (other_raise ikm solver _ n k _ _ _ _ K2 HK I1) in E3. destruct E3 as [E3|[[E3 _]|[p E3]]]; try discriminate. eapply Hr. exact E3.
  - unfold fembv_bad in E3. destruct (Nat.ltb_spec 0 i) as [Hi0|]; [|discriminate]. cbn [andb] in E3. destruct (fc_monotone (fo_cfg o)); [|discriminate]. cbn [andb] in E3. numR.
    destruct (Rltb (fembv_cost ikm s) (fembv_cost ikm s2)) eqn:E5; [|discriminate]. apply Rltb_true in E5.
    pose proof (int_step_cost solver (fo_cfg o) n d k data true i w s s2 Hn K2 Hi0 Hs Hh I0 Es E4). lra.
Qed.
Print Assumptions C76_guard_fixed_parameters.
(** *** a concrete data set: the integers 0, 0, 2, 2, -1, -2 *)
Definition ik_data : mat R := mkmat 6 1 [[0]; [0]; [2]; [2]; [-1]; [-2]].
Definition ik_Theta0 : mat R := mkmat 2 1 [[0]; [-1]].
Definition ik_G0 : mat R := mkmat 6 2 [[1;0]; [1;0]; [1;0]; [1;0]; [1;0]; [0;1]].
Definition ik_G1 : mat R := mkmat 6 2 [[1;0]; [1;0]; [1;0]; [1;0]; [0;1]; [0;1]].
Definition ik_Theta1 : mat R := mkmat 2 1 [[3/5]; [-2]].
Definition ik_Theta2 : mat R := mkmat 2 1 [[1]; [-3/2]].
Definition ik_D1 : mat R := mkmat 6 2 [[0;4]; [0;4]; [1;16]; [1;16]; [2;1]; [6;0]].
Definition ik_cfg (m : Z) : fembv_cfg R := mk_fembv_cfg None InitNone (PInt m) (PInt 0) true.
Definition ik_obj (m : Z) : fembv R (kmeans R) := fembv_new (ik_cfg m) (PInt 2) ex_rng.
Definition ik_lp : lp R :=
  match initialize_constraints (ik_cfg 1) 2 6 with
  | Ok (Some (Ae, be, Au, bu)) => mk_lp (lp_objective (ik_cfg 1) 2 6 ik_D1) Ae be Au bu
  | _ => mk_lp [] (mk_csr 0 0 []) [] (mk_csr 0 0 []) []
  end.
Definition ik_sol : list R := [1;0; 1;0; 1;0; 1;0; 0;1; 0;1].
Definition ik_solver (i : nat) (p : lp R) : lp_answer R := if lp_eq_dec p ik_lp then LpValue ik_sol else LpRaises ValueError.
Ltac rows := repeat split; let row := fresh in let H := fresh in intros row H; repeat (destruct H as [<-|H]; [reflexivity|]); destruct H.
Lemma ik_data_mat : is_mat 6 1 ik_data. Proof. rows. Qed.
Lemma ik_Theta0_mat : is_mat 2 1 ik_Theta0. Proof. rows. Qed.
Lemma ik_Theta1_mat : is_mat 2 1 ik_Theta1. Proof. rows. Qed.
Lemma ik_Theta2_mat : is_mat 2 1 ik_Theta2. Proof. rows. Qed.
Lemma ik_G0_mat : is_mat 6 2 ik_G0. Proof. rows. Qed.
Lemma ik_G1_mat : is_mat 6 2 ik_G1. Proof. rows. Qed.
Lemma ik_D1_mat : is_mat 6 2 ik_D1. Proof. rows. Qed.
Ltac six t := destruct t as [|[|[|[|[|[|t]]]]]]; [| | | | | |lia].
Lemma ik_G0_stochastic : row_stochastic ik_G0.
Proof. intros t Ht. cbn [ik_G0 nr] in Ht. split; [intros i Hi; cbn [ik_G0 nc] in Hi; six t; two i; unfold ent; cbn; lra | six t; unfold ent; cbn; lra]. Qed.
Lemma ik_G1_stochastic : row_stochastic ik_G1.
Proof. intros t Ht. cbn [ik_G1 nr] in Ht. split; [intros i Hi; cbn [ik_G1 nc] in Hi; six t; two i; unfold ent; cbn; lra | six t; unfold ent; cbn; lra]. Qed.
Lemma ik_nw m : n_weight_parameters (ik_cfg m) 2 6 = 12%nat. Proof. reflexivity. Qed.
Lemma ik_cons : exists Ae be Au bu, (forall m, initialize_constraints (ik_cfg m) 2 6 = Ok (Some (Ae, be, Au, bu)))
  /\ ik_lp = mk_lp (lp_objective (ik_cfg 1) 2 6 ik_D1) Ae be Au bu.
Proof.
  destruct (constraints_meaning (ik_cfg 1) 2 6 ltac:(lia) ltac:(lia)) as (Ae & be & Au & bu & E & _).
  exists Ae, be, Au, bu. split; [intros m; exact E|]. unfold ik_lp. rewrite E. reflexivity.
Qed.
Lemma ik_sol_pack : ik_sol = pack (ik_cfg 1) 2 6 ik_G1.
Proof. unfold pack. rewrite ik_nw. unfold tab, ik_sol, ent. reflexivity. Qed.
Lemma ik_solver_optimal : solver_optimal ik_solver.
Proof.
  intros i p sol. unfold ik_solver. destruct (lp_eq_dec p ik_lp) as [->|]; [|discriminate]. intros [= <-].
  destruct ik_cons as (Ae & be & Au & bu & E & ->). specialize (E 1%Z). rewrite ik_sol_pack. split.
  - apply (admissible_feasible (ik_cfg 1) 2 6); try assumption; try lia; [apply lp_objective_length | exact ik_G1_mat |]. split; [exact ik_G1_stochastic | discriminate].
  - intros u F. rewrite !lp_value_cost by (lia || exact ik_D1_mat). rewrite block_pack by (lia || exact ik_G1_mat).
    apply (feasible_admissible (ik_cfg 1) 2 6) in F; try assumption; try lia; [|apply lp_objective_length]. destruct F as [F _].
    replace (clustering_cost ik_G1 ik_D1) with 3 by (unfold clustering_cost, ent; cbn; lra).
    unfold clustering_cost. cbn [block nr nc mbuild Sum] in *. set (G := block 2 6 u) in *. fold G.
    assert (R : forall t, (t < 6)%nat -> 0 <= ent G t 0 /\ 0 <= ent G t 1 /\ ent G t 0 + ent G t 1 = 1).
    { intros t Ht. destruct (F t Ht) as [Nn Su]. change (nc G) with 2%nat in *. cbn [Sum] in Su. pose proof (Nn 0%nat ltac:(lia)). pose proof (Nn 1%nat ltac:(lia)). lra. }
    pose proof (R 0%nat ltac:(lia)). pose proof (R 1%nat ltac:(lia)). pose proof (R 2%nat ltac:(lia)). pose proof (R 3%nat ltac:(lia)). pose proof (R 4%nat ltac:(lia)). pose proof (R 5%nat ltac:(lia)).
    unfold ik_D1 at 1. change (ent ik_D1 0 0) with 0. change (ent ik_D1 0 1) with 4.
    repeat match goal with |- context [ent (mkmat ?r ?c ?l) ?i ?j] => let x := eval cbn in (nth j (nth i l []) 0) in change (ent (mkmat r c l) i j) with x end.
    repeat match goal with |- context [ent ik_D1 ?i ?j] => let x := eval cbn in (nth j (nth i (dat ik_D1) []) 0) in change (ent ik_D1 i j) with x end.
    lra.
Qed.
Lemma ik_solver_honest : solver_honest ik_solver.
Proof. intros i p. unfold ik_solver. destruct (lp_eq_dec p ik_lp); discriminate. Qed.
Lemma ik_solver_feasible : solver_feasible ik_solver.
Proof. intros i p sol H. apply ik_solver_optimal in H. apply H. Qed.
Lemma ik_kmok Th : is_mat 2 1 Th -> kmok 6 1 2 ik_data (mk_kmeans ik_data Th).
Proof. intros H. split; [reflexivity|]. split; [exact ik_data_mat | exact H]. Qed.
Lemma ik_update1 : kmeans_update ik_G0 (mk_kmeans ik_data ik_Theta0) = Ok (mk_kmeans ik_data ik_Theta1).
Proof.
  destruct (kmeans_update ik_G0 (mk_kmeans ik_data ik_Theta0)) as [s|e] eqn:E; [|discriminate].
  pose proof (kmeans_update_spec 6 1 2 ik_data _ _ _ (ik_kmok _ ik_Theta0_mat) ik_G0_mat E) as [(K1 & _ & K3) Th]. f_equal. destruct s as [X T]. cbn [km_X km_Theta] in *. subst X. f_equal.
  apply (mat_ext_R 2 1); [exact K3 | exact ik_Theta1_mat|]. intros j f Hj Hf. rewrite Th by assumption. destruct f; [|lia]. two j; unfold ent; cbn; field.
Qed.
Lemma ik_update2 Th : is_mat 2 1 Th -> kmeans_update ik_G1 (mk_kmeans ik_data Th) = Ok (mk_kmeans ik_data ik_Theta2).
Proof.
  intros HT. destruct (kmeans_update ik_G1 (mk_kmeans ik_data Th)) as [s|e] eqn:E; [|discriminate].
  pose proof (kmeans_update_spec 6 1 2 ik_data _ _ _ (ik_kmok _ HT) ik_G1_mat E) as [(K1 & _ & K3) Th']. f_equal. destruct s as [X T]. cbn [km_X km_Theta] in *. subst X. f_equal.
  apply (mat_ext_R 2 1); [exact K3 | exact ik_Theta2_mat|]. intros j f Hj Hf. rewrite Th' by assumption. destruct f; [|lia]. two j; unfold ent; cbn; field.
Qed.
Lemma ik_dist1 : cl_distance (int_kmeans_class toward_zero) (mk_kmeans ik_data ik_Theta1) = ik_D1.
Proof.
  cbn [int_kmeans_class cl_distance]. apply (mat_ext_R 6 2); [apply (int_distance_mat 6 1 2 ik_data), ik_kmok, ik_Theta1_mat | exact ik_D1_mat|]. intros t j Ht Hj.
  rewrite (int_distance_spec 6 1 2 ik_data) by (assumption || apply ik_kmok, ik_Theta1_mat). cbn [km_Theta]. unfold centroid_dist2. cbn [ik_data nc Sum].
  six t; two j; unfold ent; cbn; [apply (tz_unique _ 0) | apply (tz_unique _ 4) | apply (tz_unique _ 0) | apply (tz_unique _ 4) | apply (tz_unique _ 1) | apply (tz_unique _ 16)
    | apply (tz_unique _ 1) | apply (tz_unique _ 16) | apply (tz_unique _ 2) | apply (tz_unique _ 1) | apply (tz_unique _ 6) | apply (tz_unique _ 0)]; lra.
Qed.
Lemma ik_finv m Th G Eta cs ca : is_mat 2 1 Th -> is_mat 6 2 G -> initialize_constraints (ik_cfg m) 2 6 = Ok cs ->
  finv (ik_cfg m) 6 2 (kmok 6 1 2 ik_data) (mk_fws (mk_kmeans ik_data Th) G Eta cs ca).
Proof. intros HT HG Hc. split; [exact HG|]. split; [apply ik_kmok, HT | exact Hc]. Qed.
(** costs: 3 with the first centroids, 4 with the second *)
Lemma ik_cost1 Eta cs ca : initialize_constraints (ik_cfg 1) 2 6 = Ok cs -> fembv_cost ikm (mk_fws (mk_kmeans ik_data ik_Theta1) ik_G1 Eta cs ca) = 3.
Proof.
  intros Hc. rewrite (fembv_cost_spec ikm (ik_cfg 1) 2 6); [|apply (finv_fok ikm _ _ _ _ (int_kmeans_keeps 6 1 2 ik_data)), ik_finv; [exact ik_Theta1_mat | exact ik_G1_mat | exact Hc]].
  cbn [f_Gamma f_params]. rewrite ik_dist1. unfold clustering_cost, ent. cbn. lra.
Qed.
Lemma ik_cost2 Eta cs ca : initialize_constraints (ik_cfg 1) 2 6 = Ok cs -> fembv_cost ikm (mk_fws (mk_kmeans ik_data ik_Theta2) ik_G1 Eta cs ca) = 4.
Proof.
  intros Hc. rewrite (int_cost_spec (ik_cfg 1) 6 1 2 ik_data) by (apply ik_finv; [exact ik_Theta2_mat | exact ik_G1_mat | exact Hc]). cbn [f_Gamma f_params km_Theta].
  unfold truncated_kmeans_cost, centroid_dist2. cbn [ik_G1 ik_data nr nc Sum]. unfold ent. cbn.
  repeat match goal with |- context [toward_zero ?x] =>
    first [rewrite (tz_unique x 0) by lra | rewrite (tz_unique x 1) by lra | rewrite (tz_unique x 2) by lra | rewrite (tz_unique x 4) by lra | rewrite (tz_unique x 9) by lra | rewrite (tz_unique x 12) by lra] end. lra.
Qed.
(** one iteration *)
Lemma ik_first m cs ca : initialize_constraints (ik_cfg 1) 2 6 = Ok cs ->
  run_updates (fembv_cost ikm) (fembv_bad true (nofZ 0) 0 m) (enabled true (fembv_update_parameters ikm) ++ enabled true (fembv_update_weights ikm ik_solver (ik_cfg 1) 2))
    (mk_fws (mk_kmeans ik_data ik_Theta0) ik_G0 None cs ca) m
  = Ok (mk_fws (mk_kmeans ik_data ik_Theta1) ik_G1 None cs (S ca), 3).
Proof.
  intros Hc. assert (B : forall x, fembv_bad true (nofZ 0) 0 m x = false) by reflexivity.
  cbn [enabled app run_updates]. unfold fembv_update_parameters at 1. cbn [f_Gamma f_params f_Eta f_cons f_calls]. change (cl_update ikm) with (@kmeans_update R Num_R). rewrite ik_update1. cbn [bind]. rewrite B.
  unfold fembv_update_weights. cbn [f_Gamma f_params f_Eta f_cons f_calls]. change (Nat.eqb 2 1) with false. cbv iota. change (nr ik_G0) with 6%nat. rewrite ik_dist1.
  change (negb (Nat.eqb (nr ik_D1) 6 && Nat.eqb (nc ik_D1) 2)) with false. cbv iota.
  destruct ik_cons as (Ae & be & Au & bu & Ei & El). pose proof Hc as Hc'. rewrite Ei in Hc. injection Hc as <-. rewrite <- El. unfold ik_solver at 1. destruct (lp_eq_dec ik_lp ik_lp); [|contradiction].
  rewrite ik_nw. change (negb (Nat.eqb (length ik_sol) 12)) with false. cbv iota. change (has_max_tv_norm_constraint (ik_cfg 1)) with false. cbv iota.
  assert (EG : mbuild 6 2 (fun t i => clip01 (vget ik_sol (t * 2 + i))) = ik_G1).
  { rewrite ik_sol_pack, clip_block by (rewrite block_pack by (lia || exact ik_G1_mat); exact ik_G1_stochastic). apply block_pack; [lia | exact ik_G1_mat]. }
  rewrite EG. cbn [bind]. rewrite B. rewrite (ik_cost1 _ _ _ Hc'). reflexivity.
Qed.
Lemma ik_start m : exists cs, initialize_constraints (ik_cfg 1) 2 6 = Ok cs /\
  fembv_initialize ikm (ik_cfg m) 2 None ik_data (Some ik_Theta0) (Some ik_G0) InitCustom ex_rng = Ok (mk_fws (mk_kmeans ik_data ik_Theta0) ik_G0 None cs 0, ex_rng).
Proof.
  destruct ik_cons as (Ae & be & Au & bu & Ei & _). exists (Some (Ae, be, Au, bu)). split; [apply Ei|].
  unfold fembv_initialize. cbn [int_kmeans_class cl_initialize]. unfold kmeans_initialize at 1. change (check_array_shape ik_Theta0 2 (nc ik_data)) with (Ok tt : res unit). cbn [bind].
  change (nc (cl_distance ikm (mk_kmeans ik_data ik_Theta0))) with 2%nat. change (nr (cl_distance ikm (mk_kmeans ik_data ik_Theta0))) with 6%nat.
  change (negb (Nat.eqb 2 2)) with false. cbv iota. unfold fembv_initialize_weights. rewrite (check_init_weights_stochastic ik_G0 6 2 ik_G0_mat ik_G0_stochastic). cbn [bind].
  rewrite Ei. reflexivity.
Qed.
(** one iteration returns the cost 3; the exact cost is 5.64 *)
Lemma ik_fit1 : exists r, fembv_fit_transform ikm ik_solver (ik_obj 1) ik_data (Some ik_Theta0) (Some ik_G0) InitCustom true true = Ok (r, ik_G1)
  /\ fr_cost r = 3 /\ option_map f_params (fo_ws (fr_obj r)) = Some (mk_kmeans ik_data ik_Theta1).
Proof.
  unfold fembv_fit_transform, fembv_fit, ik_obj, fembv_new. cbn [fo_cfg fo_n_components fo_rng fo_ws ik_cfg fc_max_iterations fc_tolerance option_map resolve_components].
  change (@PInt R 1) with (@PInt R (Z.of_nat 1)). change (@PInt R 2) with (@PInt R (Z.of_nat 2)).
  rewrite (check_params_total 2 1 (PInt 0) (nofZ 0)); [|lia|lia|left; exists 0%Z; repeat split; lia]. cbn [bind].
  change (Z.of_nat 1) with 1%Z. fold (ik_cfg 1). destruct (ik_start 1) as (cs & Hc & ->). cbn [bind].
  unfold fembv_iterate, iterate. change (fc_monotone (ik_cfg 1)) with true. cbn [iterate_loop]. rewrite (ik_first _ cs 0 Hc). cbn [bind].
  destruct (nltb _ _); cbn [bind fo_ws fr_obj fr_cost f_Gamma fr_n_iter fr_log fr_warned]; eexists; (split; [reflexivity|]); cbn; auto.
Qed.
(** the second iteration raises, although the solver is optimal and no component lost its weight *)
Theorem C76_guard_fires : solver_optimal ik_solver /\ solver_honest ik_solver /\ (forall i p, ik_solver i p <> LpRaises RuntimeError)
  /\ integral ik_data /\ integral ik_Theta0 /\ (forall j, (j < 2)%nat -> 0 < Sum 6 (fun t => ent ik_G0 t j) /\ 0 < Sum 6 (fun t => ent ik_G1 t j))
  /\ fembv_fit_transform (int_kmeans_class toward_zero) ik_solver (ik_obj 2) ik_data (Some ik_Theta0) (Some ik_G0) InitCustom true true = Raise RuntimeError.
Proof.
  split; [exact ik_solver_optimal|]. split; [exact ik_solver_honest|]. split; [intros i p; unfold ik_solver; destruct (lp_eq_dec p ik_lp); discriminate|].
  split; [intros i j; do 7 (destruct i as [|i]; [do 2 (destruct j as [|j]; [unfold ent; cbn; eexists; reflexivity|]); destruct j; exists 0%Z; reflexivity|]); destruct i, j; exists 0%Z; reflexivity|].
  split; [intros i j; do 3 (destruct i as [|i]; [do 2 (destruct j as [|j]; [unfold ent; cbn; eexists; reflexivity|]); destruct j; exists 0%Z; reflexivity|]); destruct i, j; exists 0%Z; reflexivity|].
  split; [intros j Hj; two j; unfold ent; cbn; lra|].
  unfold fembv_fit_transform, fembv_fit, ik_obj, fembv_new. cbn [fo_cfg fo_n_components fo_rng fo_ws ik_cfg fc_max_iterations fc_tolerance option_map resolve_components].
  change (@PInt R 2) with (@PInt R (Z.of_nat 2)).
  rewrite (check_params_total 2 2 (PInt 0) (nofZ 0)); [|lia|lia|left; exists 0%Z; repeat split; lia]. cbn [bind].
  change (Z.of_nat 2) with 2%Z. fold (ik_cfg 2). destruct (ik_start 2) as (cs & Hc & ->). cbn [bind].
  unfold fembv_iterate, iterate. change (fc_monotone (ik_cfg 2)) with true. change (fembv_update_weights ikm ik_solver (ik_cfg 2) 2) with (fembv_update_weights ikm ik_solver (ik_cfg 1) 2).
  cbn [iterate_loop]. rewrite (ik_first _ cs 0 Hc). cbn [bind].
  set (c0 := fembv_cost _ _). replace (nltb (nabs (nsub 3 c0)) (nofZ 0)) with false by (symmetry; numR; apply Rltb_false, Rabs_pos).
  cbn [enabled app run_updates]. unfold fembv_update_parameters at 1. cbn [f_Gamma f_params f_Eta f_cons f_calls]. change (cl_update ikm) with (@kmeans_update R Num_R). rewrite ik_update2 by exact ik_Theta1_mat. cbn [bind].
  rewrite (ik_cost2 _ _ _ Hc). unfold fembv_bad. change (Nat.ltb 0 1) with true. cbn [andb]. numR.
  rewrite (proj2 (Rltb_true 3 4)) by lra. rewrite (proj2 (Rltb_true 0 (Rabs (4 - 3)))) by (rewrite Rabs_pos_eq; lra). reflexivity.
Qed.
Print Assumptions C76_guard_fires.
Example C76_example : is_mat 6 1 ik_data /\ comp_count (fo_n_components (ik_obj 1)) 1 2 /\ rng_ok 2 (fo_rng (ik_obj 1)) /\ wf ik_Theta0 /\ wf ik_G0 /\ row_stochastic ik_G0
  /\ solver_feasible ik_solver /\ solver_honest ik_solver
  /\ (exists r, fembv_fit_transform (int_kmeans_class toward_zero) ik_solver (ik_obj 1) ik_data (Some ik_Theta0) (Some ik_G0) InitCustom true true = Ok (r, ik_G1)
       /\ fr_cost r = 3 /\ option_map f_params (fo_ws (fr_obj r)) = Some (mk_kmeans ik_data ik_Theta1))
  /\ kmeans_cost ik_data ik_G1 ik_Theta1 = 564/100.
Proof.
  split; [exact ik_data_mat|]. split; [left; reflexivity|]. split; [exact ex_rng_ok|]. split; [split; [reflexivity | apply ik_Theta0_mat]|]. split; [split; [reflexivity | apply ik_G0_mat]|].
  split; [exact ik_G0_stochastic|]. split; [exact ik_solver_feasible|]. split; [exact ik_solver_honest|]. split; [exact ik_fit1|].
  unfold kmeans_cost, centroid_dist2, ent. cbn. lra.
Qed.
(** zeros and ones *)
Definition ib_obj : fembv R (kmeans R) := fembv_new (mk_fembv_cfg None InitNone (PInt 1) (PInt 0) false) (PInt 2) ex_rng.
Example C76_example_binary : is_mat 2 1 ef_data /\ (forall t, (t < 2)%nat -> ent ef_data t 0 = 0 \/ ent ef_data t 0 = 1)
  /\ ent ef_data 0 0 = 0 /\ ent ef_data 1 0 = 1 /\ comp_count (fo_n_components ib_obj) 1 2
  /\ (forall t j, (t < 2)%nat -> (j < 2)%nat -> centroid_dist2 ef_data ef_Theta t j < 1) /\ (forall i, 0 < r_uniform (fo_rng ib_obj) i)
  /\ exists r W, fembv_fit_transform (int_kmeans_class toward_zero) ik_solver ib_obj ef_data None None InitNone true false = Ok (r, W).
Proof.
  split; [exact ef_data_mat|]. split; [intros t Ht; two t; unfold ent; cbn; auto|]. split; [reflexivity|]. split; [reflexivity|]. split; [left; reflexivity|].
  split; [intros t j Ht Hj; two t; two j; unfold centroid_dist2, ent; cbn; lra|].
  split; [intros i; cbn; apply Rinv_0_lt_compat; pose proof (pos_INR i); lra|].
  unfold fembv_fit_transform, fembv_fit, ib_obj, fembv_new. cbn [fo_cfg fo_n_components fo_rng fo_ws fc_max_iterations fc_tolerance option_map resolve_components].
  change (@PInt R 1) with (@PInt R (Z.of_nat 1)). change (@PInt R 2) with (@PInt R (Z.of_nat 2)).
  rewrite (check_params_total 2 1 (PInt 0) (nofZ 0)); [|lia|lia|left; exists 0%Z; repeat split; lia]. cbn [bind].
  set (c := mk_fembv_cfg _ _ _ _ _). destruct (fembv_initialize ikm c 2 None ef_data None None InitNone ex_rng) as [[w g]|e] eqn:E.
  - cbn [bind]. unfold fembv_iterate, iterate. cbn [iterate_loop enabled app run_updates]. unfold fembv_update_parameters. change (cl_update ikm) with (@kmeans_update R Num_R).
    unfold kmeans_update. cbn [bind]. change (fembv_bad (fc_monotone c) (nofZ 0) 0) with (fun _ _ : R => false). cbv beta iota. cbn [bind].
    destruct (nltb _ _); cbn [bind fo_ws fr_obj]; eauto.
  - exfalso. unfold fembv_initialize in E. cbn [int_kmeans_class cl_initialize] in E. unfold kmeans_initialize in E.
    destruct (draw_choice (nr ef_data) 2 ex_rng) as [[l g]|e'] eqn:Ed; [|discriminate]. cbn [bind] in E.
    change (nc (cl_distance _ _)) with 2%nat in E. change (nr (cl_distance _ _)) with 2%nat in E. change (negb (Nat.eqb 2 2)) with false in E. cbv iota in E.
    unfold fembv_initialize_weights in E. destruct (right_stochastic_matrix 2 2 (snd (l, g))) as [W g2] eqn:Er. cbn [bind] in E.
    destruct (constraints_meaning c 2 2 ltac:(lia) ltac:(lia)) as (Ae & be & Au & bu & Ec & _). rewrite Ec in E. cbn [bind] in E. discriminate.
Qed.
