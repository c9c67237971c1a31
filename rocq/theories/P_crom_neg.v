(** Parameter fits of gpnh_convex_coding_crom.py with negative lags. *)
From Coq Require Import List Arith Lia ZArith Reals Lra Bool.
From Verif Require Import Num Mat Py Spec Spec_lags M_simplex M_spg M_iter M_random M_furthest M_gpnh M_mtd M_crom M_crom_lags.
From Verif Require Import P_lin P_simplex P_spg P_random P_mat P_iter P_gpnh P_gpnh_run P_mtd P_mtd_upd P_mtd_run P_mtd_pred P_crom P_crom_lags.
Import ListNotations.
Local Open Scope R_scope.

Lemma ent_mslice' lo hi M i j : (i < Nat.min hi (nr M) - lo)%nat -> (j < nc M)%nat -> ent (@mslice R Num_R lo hi M) i j = ent M (lo + i) j.
Proof. intros. unfold mslice. rewrite ent_mbuild by assumption. reflexivity. Qed.
Lemma negatives_in z a : In z (negatives a) <-> exists x, In x a /\ z = (- Z.of_nat x)%Z.
Proof. unfold negatives. rewrite in_map_iff. split; intros (x & A & B); exists x; auto. Qed.
Lemma negatives_max a b : smallest b a -> zmax_of (negatives a) = (- Z.of_nat b)%Z.
Proof.
  intros [H1 H2]. apply zmax_unique.
  - apply negatives_in. eauto.
  - intros z Hz. apply negatives_in in Hz. destruct Hz as (x & Hx & ->). specialize (H2 _ Hx). lia.
Qed.
Lemma negatives_rows a b n : smallest b a -> (1 <= b)%nat -> (forall x, In x a -> (x <= n)%nat) ->
  Forall (fun lag => lag_rows n (negatives a) lag = (n - py_bound n (zmax_of (negatives a)))%nat) (negatives a).
Proof.
  intros Hb B1 Hn. rewrite Forall_forall. intros z Hz. apply negatives_in in Hz. destruct Hz as (x & Hx & ->). pose proof (proj2 Hb _ Hx). specialize (Hn _ Hx).
  unfold lag_rows. rewrite (negatives_max a b Hb). rewrite (bound_nonneg n (- - _)), (bound_nonneg n (_ - _)), bound_neg by lia. lia.
Qed.
Lemma zlag_negatives a i : (i < length a)%nat -> zlag (negatives a) i = (- Z.of_nat (nth i a 0%nat))%Z.
Proof.
  intros H. unfold zlag, negatives. rewrite (nth_indep _ 0%Z ((fun x => (- Z.of_nat x)%Z) 0%nat)) by (rewrite map_length; exact H).
  apply (map_nth (fun x => (- Z.of_nat x)%Z)).
Qed.

Lemma negative_Z a b n k ow Ts (W : mat R) : smallest b a -> (1 <= b)%nat -> (forall x, In x a -> (x <= n)%nat) -> is_mat n k W -> is_stack (length a) k Ts ->
  exists Z, py_predicted_weights (negatives a) ow Ts W = Ok Z /\ is_mat n k Z
  /\ (forall t j, (t < n - b)%nat -> (j < k)%nat -> ent Z t j = ent W t j)
  /\ (forall s j, (s < b)%nat -> (j < k)%nat -> ent Z (n - b + s) j = backward_forecast a b ow Ts W s j).
Proof.
  intros Hb B1 Hn HW HT. pose proof HW as (w1 & w2 & _). assert (Ha : negatives a <> []) by (destruct a; [destruct Hb as [[] _]|discriminate]).
  assert (bn : (b <= n)%nat) by (apply Hn, Hb).
  eexists. split.
  { apply predicted_entries; [exact Ha|]. rewrite w1. apply (negatives_rows a b); assumption. }
  rewrite w1, w2. set (A := py_bound n _). assert (EA : A = (n - b)%nat) by (unfold A; rewrite (negatives_max a b Hb), bound_neg by lia; lia).
  split; [apply is_mat_mbuild|]. split.
  - intros t j Ht Hj. rewrite ent_mbuild by lia. destruct (Nat.ltb_spec t A); [reflexivity|lia].
  - intros s j Hs Hj. rewrite ent_mbuild by lia. destruct (Nat.ltb_spec (n - b + s) A); [lia|]. rewrite nsum_Sum. unfold negatives at 1. rewrite map_length. unfold backward_forecast.
    apply Sum_ext. intros i Hi. change (nmul ?x ?y) with (x * y). f_equal. rewrite mget_ent. replace (n - b + s - A)%nat with s by lia.
    rewrite (zlag_negatives a i Hi). set (x := nth i a 0%nat). assert (Hx : In x a) by (apply nth_In, Hi). pose proof (proj2 Hb _ Hx). pose proof (Hn _ Hx).
    set (L := py_lagged _ _ W). assert (EL : L = mslice (x - b) x W).
    { unfold L, py_lagged, py_slice. rewrite (negatives_max a b Hb), w1. rewrite !bound_nonneg by lia. f_equal; lia. }
    assert (nL : nr L = b /\ nc L = k) by (rewrite EL; cbn [nr nc mslice mbuild]; rewrite w1, w2; split; lia). destruct nL as [l1 l2].
    destruct (HT : _ /\ _) as [T1 T2]. specialize (T2 i Hi). pose proof T2 as (t1 & t2 & _).
    unfold tmat, mat0. rewrite ent_mmul by (cbn [nr nc mtr mbuild]; lia). rewrite l2, w2. apply Sum_ext. intros l Hl. rewrite ent_mtr by lia. f_equal.
    rewrite EL, ent_mslice' by lia. reflexivity.
Qed.
Lemma negative_py_Z a b n k ow Ts (W : mat R) : smallest b a -> (1 <= b)%nat -> (forall x, In x a -> (x <= n)%nat) -> is_mat n k W -> is_stack (length a) k Ts ->
  let Z := py_Z (negatives a) ow Ts W in is_mat n k Z
  /\ (forall t j, (t < n - b)%nat -> (j < k)%nat -> ent Z t j = ent W t j)
  /\ (forall s j, (s < b)%nat -> (j < k)%nat -> ent Z (n - b + s) j = backward_forecast a b ow Ts W s j).
Proof. intros Hb B1 Hn HW HT Z. destruct (negative_Z a b n k ow Ts W Hb B1 Hn HW HT) as (Z' & E & Q). unfold Z, py_Z. rewrite E. exact Q. Qed.

Lemma negative_cost a b n k (W : mat R) (w : cws R) : smallest b a -> (1 <= b)%nat -> (forall x, In x a -> (x <= n)%nat) -> is_mat n k W ->
  is_stack (length a) k (cw_transition_matrices w) -> cw_Z w = py_Z (negatives a) (cw_order_weights w) (cw_transition_matrices w) W ->
  py_fit_residual (negatives a) k n W w = if Nat.eqb k 1 then 0 else
    Sum b (fun s => Sum k (fun j => (ent W (n - b + s) j - backward_forecast a b (cw_order_weights w) (cw_transition_matrices w) W s j) ^ 2)) / (INR k * INR (n + b)).
Proof.
  intros Hb B1 Hn HW HT EZ. unfold py_fit_residual. destruct (Nat.eqb k 1); [reflexivity|]. rewrite nsq_mnorm.
  destruct (negative_py_Z a b n k (cw_order_weights w) _ W Hb B1 Hn HW HT) as ((z1 & z2 & _) & _ & Z3). rewrite <- EZ in z1, z2, Z3. pose proof HW as (w1 & w2 & _).
  assert (bn : (b <= n)%nat) by (apply Hn, Hb).
  unfold py_residual, py_from. rewrite z1, w1, (negatives_max a b Hb), bound_neg by lia. rewrite Z.opp_involutive, Nat2Z.id.
  set (A := mslice _ _ W). set (B := mslice _ _ (cw_Z w)).
  assert (a1 : nr A = b /\ nc A = k) by (unfold A; cbn [nr nc mslice mbuild]; rewrite w1, w2; lia). destruct a1 as [a1 a2].
  rewrite frob2_SS. change (nr (msub A B)) with (nr A). change (nc (msub A B)) with (nc A). rewrite a1, a2.
  unfold py_normalization. rewrite (negatives_max a b Hb).
  match goal with |- context [@SS ?p ?q ?f] => assert (E : SS p q f = Sum b (fun s => Sum k (fun j => (ent W (n - b + s) j - backward_forecast a b (cw_order_weights w) (cw_transition_matrices w) W s j) ^ 2))) end.
  { unfold SS. apply Sum_ext. intros s Hs. apply Sum_ext. intros j Hj. rewrite ent_msub by lia. unfold A, B. rewrite !ent_mslice' by lia. rewrite Z3 by assumption. ring. }
  rewrite E. clear E. numR. replace (Z.of_nat n - - Z.of_nat b)%Z with (Z.of_nat (n + b)) by lia. rewrite !INR_IZR_INZ. unfold Rdiv, nofnat. numR. ring.
Qed.

(** ** The run: the parameters stay probability vectors, and nothing raises but the guard.  Nothing here
    depends on the signs of the lags once the first call has succeeded. *)
Definition pok (lags : list Z) (n k : nat) (G : mat R) (w : cws R) : Prop :=
  is_mat n k G /\ length (cw_order_weights w) = length lags /\ is_stack (length lags) k (cw_transition_matrices w)
  /\ cw_Z w = py_Z lags (cw_order_weights w) (cw_transition_matrices w) G.
Definition pproj_o lags k n G (w : cws R) : list R :=
  simplex_project_vector (vsub (cw_order_weights w) (vscale (cw_alpha w) (py_order_gradient lags k n G w))).
Definition pdir_o lags k n G (w : cws R) : list R := vsub (pproj_o lags k n G w) (cw_order_weights w).
Definition pproj_t lags k n G (w : cws R) : list (mat R) :=
  map simplex_project_columns (tsub (cw_transition_matrices w) (tscale (cw_alpha w) (py_transition_gradient lags k n G w))).
Definition pdir_t lags k n G (w : cws R) : list (mat R) := tsub (pproj_t lags k n G w) (cw_transition_matrices w).
Lemma py_refresh lags n k G w : pok lags n k G w -> py_set_parameters lags G (cw_order_weights w) (cw_transition_matrices w) w = w.
Proof. intros (_ & _ & _ & EZ). unfold py_set_parameters. rewrite <- EZ. destruct w; reflexivity. Qed.
Lemma pproj_o_length lags n k G w : pok lags n k G w -> length (pproj_o lags k n G w) = length lags.
Proof. intros (_ & HO & _). unfold pproj_o. rewrite proj_length. unfold vsub, vmap2. rewrite length_tab. exact HO. Qed.
Lemma pproj_t_stack lags n k G w : pok lags n k G w -> is_stack (length lags) k (pproj_t lags k n G w).
Proof. intros (_ & _ & HT & _). apply stack_map; [apply stack_tsub, HT | intros M; apply is_mat_project_cols]. Qed.
Lemma py_update_ok c lags n k G fuel w0 w' : pok lags n k G w0 ->
  0 < ls_sigma_one (mc_ls c) -> ls_sigma_two (mc_ls c) < 1 ->
  py_update_parameters fuel c lags k n G w0 = Ok w' ->
  let tr := fun s => py_set_parameters lags G (vadd (cw_order_weights w0) (vscale s (pdir_o lags k n G w0)))
                       (tadd (cw_transition_matrices w0) (tscale s (pdir_t lags k n G w0))) w0 in
  exists s a, 0 < s <= 1 /\ cw_mem w0 <> []
    /\ w' = mk_cws (cw_order_weights (tr s)) (cw_transition_matrices (tr s)) (cw_Z (tr s)) a (tl (cw_mem w0) ++ [py_fit_residual lags k n G w0]).
Proof.
  intros Hw H1 H2 H tr. unfold py_update_parameters in H. cbv zeta in H.
  rewrite (py_refresh lags n k G w0 Hw) in H.
  fold (pproj_o lags k n G w0) in H. fold (pdir_o lags k n G w0) in H. fold (pproj_t lags k n G w0) in H. fold (pdir_t lags k n G w0) in H.
  apply bind_ok in H. destruct H as (((w1 & s) & mem) & EL & H). injection H as <-.
  unfold py_line_search in EL. cbv zeta in EL.
  pose proof (pproj_o_length lags n k G w0 Hw) as Lo. pose proof (pproj_t_stack lags n k G w0 Hw) as Lt.
  pose proof Hw as (HG & HO & HT & EZ).
  rewrite <- (vadd_vscale_1 (cw_order_weights w0) (pdir_o lags k n G w0)) in EL
    by (unfold pdir_o, vsub, vmap2; rewrite length_tab; congruence).
  rewrite <- (tadd_tscale_1 (length lags) k (cw_transition_matrices w0) (pdir_t lags k n G w0)) in EL
    by (exact HT || (apply stack_tsub, Lt)).
  fold tr in EL. change (py_set_parameters lags G (vadd (cw_order_weights w0) (vscale 1 (pdir_o lags k n G w0)))
                       (tadd (cw_transition_matrices w0) (tscale 1 (pdir_t lags k n G w0))) w0) with (tr 1) in EL.
  pose proof (line_search_range fuel (mc_ls c) (py_fit_residual lags k n G) tr _ _ _ _ _ _ H1 H2 EL) as (E1 & Hs & Em & Hne).
  exists s. eexists. split; [exact Hs|]. split; [exact Hne|]. rewrite Em, E1. reflexivity.
Qed.
Definition pinv (c : mtd_cfg R) (lags : list Z) (n k : nat) (G : mat R) (sp : Prop) (w : cws R) : Prop :=
  pok lags n k G w /\ length (cw_mem w) = mc_memory c
  /\ (sp -> prob_vec (cw_order_weights w) /\ stack_stochastic (cw_transition_matrices w)).
Lemma py_update_inv c lags n k G sp fuel w0 w' : pinv c lags n k G sp w0 -> (0 < k)%nat -> lags <> [] ->
  0 < ls_sigma_one (mc_ls c) -> ls_sigma_two (mc_ls c) < 1 ->
  py_update_parameters fuel c lags k n G w0 = Ok w' -> pinv c lags n k G sp w'.
Proof.
  intros (Hw & Hm & Hsp) Hk Hl H1 H2 H. destruct (py_update_ok c lags n k G fuel w0 w' Hw H1 H2 H) as (s & a & Hs & Hne & ->).
  pose proof Hw as (HG & HO & HT & EZ).
  assert (HO' : length (vadd (cw_order_weights w0) (vscale s (pdir_o lags k n G w0))) = length lags)
    by (unfold vadd, vmap2; rewrite length_tab; exact HO).
  assert (HT' : is_stack (length lags) k (tadd (cw_transition_matrices w0) (tscale s (pdir_t lags k n G w0)))) by (apply stack_tadd, HT).
  split; [|split].
  - split; [exact HG|]. split; [exact HO'|]. split; [exact HT' | reflexivity].
  - cbn [cw_mem]. rewrite mem_length; assumption.
  - intros Sp. destruct (Hsp Sp) as [SG ST]. cbn [cw_order_weights cw_transition_matrices py_set_parameters]. split.
    + apply prob_vec_step; [rewrite (pproj_o_length lags n k G w0 Hw); congruence | exact SG | | lra].
      apply proj_prob. intros E. apply (f_equal (@length R)) in E. unfold vsub, vmap2 in E. rewrite length_tab in E.
      destruct lags; [congruence|]. cbn in *. lia.
    + apply (stack_stochastic_step (length lags) k); [exact HT | apply (pproj_t_stack lags n k G w0 Hw) | exact ST | | lra].
      apply (project_stack_stochastic (length lags) k); [apply stack_tsub, HT | exact Hk].
Qed.
Lemma py_update_total c : ls_valid (mc_ls c) -> exists M, forall fuel lags k n G w0, (M <= fuel)%nat ->
  cw_mem w0 <> [] -> exists w', @py_update_parameters R Num_R fuel c lags k n G w0 = Ok w'.
Proof.
  intros (H1 & H2 & H3). destruct (line_search_terminates (mc_ls c) H1 H2 H3) as [M HM].
  exists M. intros fuel lags k n G w0 Hf Hne. unfold py_update_parameters, py_line_search. cbv zeta.
  match goal with |- context [@line_search ?T ?N ?St fuel ?p ?co ?tr ?fu ?me ?cc ?sl] =>
    destruct (HM St co tr fu me cc sl fuel Hne Hf) as (((w1 & s) & mem) & E) end.
  rewrite E; cbn [bind]. eauto.
Qed.
Lemma start_pinv c lags k n G ow Ts : is_mat n k G -> length ow = length lags -> is_stack (length lags) k Ts ->
  pinv c lags n k G (prob_vec ow /\ stack_stochastic Ts) (py_initialize_workspace c lags G ow Ts).
Proof.
  intros HG HO HT. split; [split; [exact HG|]; split; [exact HO|]; split; [exact HT | reflexivity]|].
  split; [apply repeat_length | auto].
Qed.
(** when the first call of _update_predicted_weights succeeds, the parameter fit returns or the guard raises *)
Lemma py_parameters_total c : ls_valid (mc_ls c) -> (0 < mc_memory c)%nat -> exists M, forall fuel, (M <= fuel)%nat ->
  forall lags n k G t m g, (0 < k)%nat -> is_mat n k G -> lags <> [] -> forallb (fits_rows n lags) lags = true ->
   (exists r, py_fit_parameters fuel c lags k n G t m g = Ok r)
   \/ (py_fit_parameters fuel c lags k n G t m g = Raise RuntimeError /\ mc_monotone c = true).
Proof.
  intros Hls Hmem. destruct (py_update_total c Hls) as [M HM]. exists M. intros fuel Hf lags n k G t m g Hk HG Hl HF.
  unfold py_fit_parameters. destruct (initialize_parameters_random k (length lags) g) as [[ow Ts] g'] eqn:E0.
  apply initialize_random_ok in E0. destruct E0 as (HO & HT & _ & _).
  pose proof (predicted_outcome lags ow Ts G) as PO. pose proof HG as (g1 & _). rewrite g1, HF in PO.
  replace (negb match lags with [] => true | _ => false end) with true in PO by (destruct lags; [congruence|reflexivity]). cbn [andb] in PO. destruct PO as (Z & ->). cbn [bind].
  destruct Hls as (H1 & H2 & H3).
  pose proof (start_pinv c lags k n G ow Ts HG HO HT) as I0. set (sp := prob_vec ow /\ stack_stochastic Ts) in *.
  assert (Hp : forall u s s', In u [py_update_parameters fuel c lags k n G] -> pinv c lags n k G sp s -> u s = Ok s' -> pinv c lags n k G sp s')
    by (intros u s s' [<-|[]] Is Es; eapply py_update_inv; eauto).
  destruct (iterate _ _ _ _ _ _) as [[[[w cost] ni] lg]|e] eqn:E; cbn [bind]; [left; eauto|]. right.
  unfold iterate in E. apply (iterate_loop_raise _ _ _ _ _ Hp) in E; [|reflexivity | exact I0].
  destruct E as [[-> (i & s0 & s & _ & _ & B)] | (u & s & Iu & Is & Eu)].
  - split; [reflexivity|]. unfold cost_increased in B. apply andb_prop in B. apply B.
  - destruct Iu as [<-|[]]. destruct Is as (_ & J & _). destruct (HM fuel lags k n G s Hf) as [s' E']; [intros E0; rewrite E0 in J; cbn in J; lia | congruence].
Qed.
Lemma py_fit_parameters_inv {T} {N : Num T} fuel c lags k n G t m (g g' : rng T) w n_iter log :
  py_fit_parameters fuel c lags k n G t m g = Ok (w, g', n_iter, log) ->
  exists ow Ts Z cost, initialize_parameters_random k (length lags) g = (ow, Ts, g') /\ py_predicted_weights lags ow Ts G = Ok Z
    /\ iterate (py_fit_residual lags k n G) (cost_increased (mc_monotone c)) [py_update_parameters fuel c lags k n G] t m
         (py_initialize_workspace c lags G ow Ts) = Ok (w, cost, n_iter, log).
Proof.
  unfold py_fit_parameters. destruct (initialize_parameters_random k (length lags) g) as [[ow Ts] g0] eqn:E0.
  intros H. apply bind_ok in H. destruct H as (Z & EL & H). apply bind_ok in H. destruct H as ((((w1 & cost) & ni) & lg) & E & H).
  injection H as <- <- <- <-. exists ow, Ts, Z, cost. auto.
Qed.
Lemma crom_py_inv {T} {N : Num T} fuel (o : crom T) data Din Win ud uw kw gr W : fit_transform fuel (co_gpnh o) data Din Win ud uw kw = Ok (gr, W) ->
  exists k m t, resolve_components (go_n_components (co_gpnh o)) (nc data) = PInt (Z.of_nat k) /\ (0 < k)%nat
    /\ gc_max_iterations (go_cfg (co_gpnh o)) = PInt (Z.of_nat m) /\ (0 < m)%nat /\ tol_value (gc_tolerance (go_cfg (co_gpnh o))) t
    /\ crom_fit_transform_py fuel o data Din Win ud uw kw
       = (let! p := py_fit_parameters fuel (crom_cfg (go_cfg (co_gpnh o)) []) (co_lags o) k (nr data) W t m (go_rng (gr_obj gr)) in
          let '(w, g', n_iter, log) := p in
          Ok (mk_crom_run (mk_crom (set_rng g' (gr_obj gr)) (co_lags o) (Some (cw_order_weights w, cw_transition_matrices w))) gr n_iter log, W)).
Proof.
  intros E. unfold crom_fit_transform_py. rewrite E. cbn [bind].
  pose proof E as E'. apply fit_transform_inv in E'. destruct E' as (k & m & t & D & W0 & g0 & w2 & A1 & A2 & A3 & A4 & A5 & A6 & A7 & A8 & _ & A9).
  exists k, m, t. rewrite A8. cbn [go_cfg go_n_components go_rng]. rewrite A3, (check_params_total k m _ t) by assumption. cbn [bind].
  do 5 (split; [assumption || reflexivity|]). reflexivity.
Qed.
