(** C86: lags of any sign in the reduced-order model. *)
From Coq Require Import List Arith Lia ZArith Reals Lra Bool.
From Verif Require Import Num Mat Py Spec Spec_lags M_simplex M_spg M_iter M_random M_furthest M_gpnh M_mtd M_crom M_crom_lags.
From Verif Require Import P_lin P_simplex P_spg P_random P_mat P_iter P_gpnh P_gpnh_run P_mtd P_mtd_upd P_mtd_run P_mtd_pred P_crom P_crom_lags P_crom_neg.
From Verif Require Import NumExt Props_base Props_gpnh Props_mtd Props_crom.
Import ListNotations.
Local Open Scope R_scope.

(** shape of the weights of a completed GPNH fit *)
Lemma fit_weights_shape fuel (o : crom R) n d data Din Win ud uw kw gr W k : is_mat n d data ->
  (forall D, Din = Some D -> wf D) -> (forall W0, Win = Some W0 -> wf W0) ->
  0 < ls_sigma_one (gc_ls (go_cfg (co_gpnh o))) -> ls_sigma_two (gc_ls (go_cfg (co_gpnh o))) < 1 ->
  resolve_components (go_n_components (co_gpnh o)) (nc data) = PInt (Z.of_nat k) ->
  fit_transform fuel (co_gpnh o) data Din Win ud uw kw = Ok (gr, W) -> is_mat n k W.
Proof.
  intros HX WD WW H1 H2 Hk A1. assert (nr data = n /\ nc data = d) as [x1 x2] by (split; apply HX).
  apply fit_transform_inv in A1. destruct A1 as (k1 & m1 & t1 & D1 & W3 & g1 & w2 & F1 & F2 & _ & F4 & _ & F6 & F7 & F8 & _ & ->).
  assert (k1 = k) as -> by (rewrite Hk in F1; injection F1; lia).
  apply choose_initial_ok in F6; try assumption. rewrite x1, x2 in F6. destruct F6 as (HD & HW & _).
  pose proof (start_ginv (go_cfg (co_gpnh o)) data W3 D1 n d k HX HW HD) as I0.
  destruct (gpnh_iterate_inv n d k data _ _ _ _ _ _ _ _ _ _ _ _ F2 F4 H1 H2 I0 F7) as ((_ & G & _) & _). exact G.
Qed.

(** whether _update_predicted_weights raises depends on the lags and the number of samples only, and the exception is ValueError:
    after the first call of a parameter fit no later one raises *)
Theorem C86_shape : forall (T : Type) (N : Num T) lags ow Ts (G : mat T) ow' Ts' (G' : mat T), nr G = nr G' ->
  (exists Z Z', py_predicted_weights lags ow Ts G = Ok Z /\ py_predicted_weights lags ow' Ts' G' = Ok Z')
  \/ (py_predicted_weights lags ow Ts G = Raise ValueError /\ py_predicted_weights lags ow' Ts' G' = Raise ValueError).
Proof.
  intros T N lags ow Ts G ow' Ts' G' H. pose proof (predicted_outcome lags ow Ts G) as P1. pose proof (predicted_outcome lags ow' Ts' G') as P2. rewrite H in P1.
  destruct (negb _ && _); [left|right; auto]. destruct P1 as (Z & E1). destruct P2 as (Z' & E2). eauto.
Qed.
Print Assumptions C86_shape.

(** for positive lags the fit with Python's slices is the fit of M_crom.v, about which the other theorems speak *)
Theorem C86_positive : forall (T : Type) (N : Num T) fuel (o : crom T) data dictionary weights ud uw kw,
  Forall (fun z => (1 <= z)%Z) (co_lags o) ->
  crom_fit_transform_py fuel o data dictionary weights ud uw kw = crom_fit_transform fuel o data dictionary weights ud uw kw.
Proof.
  intros T N fuel o data Din Win ud uw kw F. unfold crom_fit_transform_py, crom_fit_transform.
  destruct (fit_transform _ _ _ _ _ _ _ _) as [[r G]|e]; [|reflexivity]. cbn [bind].
  destruct (check_params _ _ _) as [[[k m] t]|e]; [|reflexivity]. cbn [bind].
  destruct (co_lags o) as [|l0 ls] eqn:El.
  - unfold py_fit_parameters, crom_fit_parameters, n_lags. cbn [crom_cfg mc_lags map length].
    destruct (initialize_parameters_random k 0 _) as [[ow Ts] g']. reflexivity.
  - rewrite <- El in *. rewrite (py_fit_positive (go_cfg (gr_obj r)) (co_lags o)); [reflexivity|exact F|rewrite El; discriminate].
Qed.
Print Assumptions C86_positive.

(** a lag that is zero or negative next to a lag that is not negative: the parameter fit raises ValueError,
    after the whole convex coding has been computed.  Likewise for negative lags reaching beyond the data. *)
Theorem C86_raises : forall fuel (o : crom R) n d data dictionary weights ud uw kw gr W,
  is_mat n d data -> (forall D, dictionary = Some D -> wf D) -> (forall W0, weights = Some W0 -> wf W0) ->
  0 < ls_sigma_one (gc_ls (go_cfg (co_gpnh o))) -> ls_sigma_two (gc_ls (go_cfg (co_gpnh o))) < 1 ->
  fit_transform fuel (co_gpnh o) data dictionary weights ud uw kw = Ok (gr, W) ->
  (exists z, In z (co_lags o) /\ (z <= 0)%Z) /\ (exists z, In z (co_lags o) /\ (0 <= z)%Z) /\ (forall z, In z (co_lags o) -> (z < Z.of_nat n)%Z)
  \/ (exists a b x, co_lags o = negatives a /\ smallest b a /\ (1 <= b <= n)%nat /\ In x a /\ (n < x)%nat /\ (x + 1 <> n + b)%nat) ->
  crom_fit_transform_py fuel o data dictionary weights ud uw kw = Raise ValueError.
Proof.
  intros fuel o n d data Din Win ud uw kw gr W HX WD WW H1 H2 E Hl.
  destruct (crom_py_inv _ _ _ _ _ _ _ _ _ _ E) as (k & m & t & Hk & Hk0 & _ & _ & _ & ->).
  pose proof (fit_weights_shape _ _ _ _ _ _ _ _ _ _ _ _ _ HX WD WW H1 H2 Hk E) as (w1 & _).
  unfold py_fit_parameters. destruct (initialize_parameters_random k (length (co_lags o)) (go_rng (gr_obj gr))) as [[ow Ts] g'].
  pose proof (predicted_outcome (co_lags o) ow Ts W) as PO. rewrite w1 in PO.
  assert (FB : exists z, In z (co_lags o) /\ fits_rows n (co_lags o) z = false).
  { destruct Hl as [((z & Hz & Nz) & (z1 & Hz1 & Pz1) & Hn)|(a & b & x & El & Hb & Bn & Hx & Hx1 & Hx2)].
    - exists z. split; [exact Hz|]. assert (Hne : co_lags o <> []) by (intros E0; rewrite E0 in Hz; destruct Hz).
      pose proof (zmax_in _ Hne) as M1. pose proof (zmax_ge _ _ Hz1) as M2. pose proof (Hn _ M1) as M3. pose proof (zmax_ge _ _ Hz) as M4.
      unfold fits_rows, lag_rows. rewrite (bound_nonneg n (zmax_of _)), (bound_nonneg n (_ - _)), (bound_nonneg n (- z)) by lia.
      apply orb_false_intro; apply Nat.eqb_neq; lia.
    - exists (- Z.of_nat x)%Z. rewrite El. split; [apply negatives_in; eauto|]. pose proof (proj2 Hb _ Hx).
      unfold fits_rows, lag_rows. rewrite (negatives_max a b Hb). rewrite (bound_nonneg n (- - _)), (bound_nonneg n (_ - _)), bound_neg by lia.
      apply orb_false_intro; apply Nat.eqb_neq; lia. }
  assert (FF : forallb (fits_rows n (co_lags o)) (co_lags o) = false).
  { destruct FB as (z & Hz & Fz). destruct (forallb _ _) eqn:EF; [|reflexivity]. rewrite forallb_forall in EF. rewrite (EF z Hz) in Fz. discriminate. }
  rewrite FF, andb_false_r in PO. rewrite PO. reflexivity.
Qed.
Print Assumptions C86_raises.

(** negative lags -a_i, -b the largest: nothing is copied or predicted as documented.  The last b samples are
    "predicted" from the samples a_i - b, ..., a_i - 1 at the beginning of the series, and the squared
    error of these b samples is divided by k (n + b) *)
Theorem C86_negative_model : forall a b n k ow Ts (W : mat R),
  smallest b a -> (1 <= b)%nat -> (forall x, In x a -> (x <= n)%nat) -> is_mat n k W -> length ow = length a -> is_stack (length a) k Ts ->
  (exists Z, py_predicted_weights (negatives a) ow Ts W = Ok Z /\ is_mat n k Z
   /\ (forall t j, (t < n - b)%nat -> (j < k)%nat -> ent Z t j = ent W t j)
   /\ (forall s j, (s < b)%nat -> (j < k)%nat -> ent Z (n - b + s) j = backward_forecast a b ow Ts W s j))
  /\ forall c, py_fit_residual (negatives a) k n W (py_initialize_workspace c (negatives a) W ow Ts) = if Nat.eqb k 1 then 0 else
       Sum b (fun s => Sum k (fun j => (ent W (n - b + s) j - backward_forecast a b ow Ts W s j) ^ 2)) / (INR k * INR (n + b)).
Proof.
  intros a b n k ow Ts W Hb B1 Hn HW HO HT. split; [apply negative_Z; assumption|].
  intros c. apply (negative_cost a b n k W (py_initialize_workspace c (negatives a) W ow Ts)); try assumption. reflexivity.
Qed.
Print Assumptions C86_negative_model.

(** the fit accepts such lags: if the convex coding returns, the fit returns (or the guard raises), with a
    stochastic transition model *)
Theorem C86_negative_fit : forall (c : gpnh_cfg R),
  0 < ls_sigma_one (gc_ls c) -> ls_sigma_two (gc_ls c) < 1 -> 0 < ls_step_tol (gc_ls c) -> (0 < gc_memory c)%nat ->
  exists M, forall fuel, (M <= fuel)%nat -> forall (o : crom R) a b n d k data dictionary weights ud uw kw gr W,
    go_cfg (co_gpnh o) = c -> co_lags o = negatives a -> smallest b a -> (1 <= b)%nat -> (forall x, In x a -> (x <= n)%nat) ->
    is_mat n d data -> comp_count (go_n_components (co_gpnh o)) d k ->
    (forall D, dictionary = Some D -> wf D) -> (forall W0, weights = Some W0 -> wf W0) ->
    fit_transform fuel (co_gpnh o) data dictionary weights ud uw kw = Ok (gr, W) ->
    (crom_fit_transform_py fuel o data dictionary weights ud uw kw = Raise RuntimeError /\ gc_monotone c = true)
    \/ exists r, crom_fit_transform_py fuel o data dictionary weights ud uw kw = Ok (r, W)
       /\ exists ow Ts, co_parameters (cr_obj r) = Some (ow, Ts) /\ length ow = length a /\ is_stack (length a) k Ts
       /\ ((let u := r_uniform (go_rng (co_gpnh o)) in let p := length a in
            (forall q, 0 <= u q) /\ (forall q, Sum k (fun j => u (q + j)%nat) <> 0) /\ (forall q, Sum p (fun j => u (q + j)%nat) <> 0)
            /\ (forall q j, (j < k)%nat -> Sum k (fun i => u (q + i * k + j)%nat) <> 0)) ->
           prob_vec ow /\ stack_stochastic Ts)
       /\ last (cr_log r) 0 = if Nat.eqb k 1 then 0 else
            Sum b (fun s => Sum k (fun j => (ent W (n - b + s) j - backward_forecast a b ow Ts W s j) ^ 2)) / (INR k * INR (n + b)).
Proof.
  intros c H1 H2 H3 Hm. destruct (py_parameters_total (crom_cfg c [])) as [M HM]; [repeat split; assumption | exact Hm|].
  exists M. intros fuel Hf o a b n d k data Din Win ud uw kw gr W Ec El Hb B1 Hn HX Hc WD WW E.
  assert (nr data = n /\ nc data = d) as [x1 x2] by (split; apply HX).
  pose proof Hc as Hc'. apply comp_count_resolve in Hc'. rewrite <- x2 in Hc'.
  destruct (crom_py_inv _ _ _ _ _ _ _ _ _ _ E) as (k' & m & t & Hk & Hk0 & Em & Hm0 & Ht & ->).
  assert (k' = k) as -> by (rewrite Hc' in Hk; injection Hk; lia).
  assert (W1 : is_mat n k W) by (subst c; exact (fit_weights_shape fuel o n d data Din Win ud uw kw gr W k HX WD WW H1 H2 Hk E)).
  assert (Hne : negatives a <> []) by (destruct a; [destruct Hb as [[] _]|discriminate]).
  assert (HF : forallb (fits_rows n (negatives a)) (negatives a) = true).
  { apply forallb_forall. intros z Hz. pose proof (negatives_rows a b n Hb B1 Hn) as F. rewrite Forall_forall in F. unfold fits_rows. rewrite (F z Hz), Nat.eqb_refl. reflexivity. }
  rewrite Ec, El, x1. set (g := go_rng (gr_obj gr)).
  destruct (HM fuel Hf (negatives a) n k W t m g Hk0 W1 Hne HF) as [[[[[w g'] ni] lg] E2]|[E2 Hmo]]; rewrite E2; cbn [bind]; [right|left; auto].
  eexists. split; [reflexivity|]. cbn [cr_obj co_parameters cr_log]. exists (cw_order_weights w), (cw_transition_matrices w). split; [reflexivity|].
  apply py_fit_parameters_inv in E2. destruct E2 as (ow & Ts & Z & cost & E0 & _ & E1).
  apply initialize_random_ok in E0. destruct E0 as (HO & HT & _ & HS). assert (La : length (negatives a) = length a) by apply map_length.
  pose proof (start_pinv (crom_cfg c []) (negatives a) k n W ow Ts W1 HO HT) as I0.
  apply (iterate_ok _ (pinv (crom_cfg c []) (negatives a) n k W (prob_vec ow /\ stack_stochastic Ts))) in E1; [|intros u s s' [<-|[]] Is Es; eapply py_update_inv; eauto | exact Hm0 | exact I0].
  destruct E1 as (((_ & B2 & B3 & B4) & _ & B5) & B6). rewrite La in B2, B3. split; [exact B2|]. split; [exact B3|]. split.
  - intros (U1 & U2 & U3 & U4). apply B5, HS. rewrite La. apply fit_transform_inv in E.
    destruct E as (k1 & m1 & t1 & D1 & W3 & g1 & w2 & _ & _ & _ & _ & _ & F6 & _ & F8 & _).
    apply choose_initial_streams in F6. destruct F6 as (F6 & _). unfold g. rewrite F8. cbn [go_rng].
    eapply mrng_ok_stream; [exact F6|]. split; [split; assumption|]. split; assumption.
  - destruct B6 as (C1 & _ & C3 & _ & C5 & _). rewrite last_nth, C3. cbn [pred]. numR. rewrite C5, C1.
    apply (negative_cost a b n k W w); assumption.
Qed.
Print Assumptions C86_negative_fit.

(** for every integer array of lags the fit ends *)
Theorem C86_terminates : forall (c : gpnh_cfg R),
  0 < ls_sigma_one (gc_ls c) -> ls_sigma_two (gc_ls c) < 1 -> 0 < ls_step_tol (gc_ls c) -> (0 < gc_memory c)%nat ->
  exists M, forall fuel, (M <= fuel)%nat -> forall (o : crom R) n d data dictionary weights ud uw kw,
    go_cfg (co_gpnh o) = c -> is_mat n d data ->
    (forall D, dictionary = Some D -> wf D) -> (forall W0, weights = Some W0 -> wf W0) ->
    (exists r, crom_fit_transform_py fuel o data dictionary weights ud uw kw = Ok r)
    \/ (exists e, crom_fit_transform_py fuel o data dictionary weights ud uw kw = Raise e
          /\ (e = ValueError \/ e = IndexError \/ e = TypeError \/ (e = RuntimeError /\ gc_monotone c = true))).
Proof.
  intros c H1 H2 H3 Hm. destruct (C58_gpnh_terminates c H1 H2 H3 Hm) as [M HM].
  destruct (py_parameters_total (crom_cfg c [])) as [M2 HM2]; [repeat split; assumption | exact Hm|].
  exists (max M M2). intros fuel Hf o n d data Din Win ud uw kw Ec HX WD WW.
  destruct (HM fuel ltac:(lia) (co_gpnh o) n d data Din Win ud uw kw Ec HX WD WW) as [[[gr W] E]|(e & E & He)];
    [|right; exists e; unfold crom_fit_transform_py; rewrite E; auto].
  destruct (crom_py_inv _ _ _ _ _ _ _ _ _ _ E) as (k & m & t & Hk & Hk0 & Em & Hm0 & Ht & ->).
  assert (W1 : is_mat n k W) by (subst c; exact (fit_weights_shape fuel o n d data Din Win ud uw kw gr W k HX WD WW H1 H2 Hk E)).
  assert (x1 : nr data = n) by apply HX. rewrite Ec, x1. set (g := go_rng (gr_obj gr)).
  destruct (negb (match co_lags o with [] => true | _ => false end) && forallb (fits_rows n (co_lags o)) (co_lags o)) eqn:EF.
  - apply andb_prop in EF. destruct EF as [EF1 EF2]. assert (Hne : co_lags o <> []) by (intros E0; rewrite E0 in EF1; discriminate).
    destruct (HM2 fuel ltac:(lia) (co_lags o) n k W t m g Hk0 W1 Hne EF2) as [[[[[w g'] ni] lg] E2]|[E2 Hmo]]; rewrite E2; cbn [bind]; [left; eauto|].
    right. exists RuntimeError. split; [reflexivity|]. right; right; right. auto.
  - right. exists ValueError. split; [|auto]. unfold py_fit_parameters. destruct (initialize_parameters_random k (length (co_lags o)) g) as [[ow Ts] g'].
    pose proof (predicted_outcome (co_lags o) ow Ts W) as PO. assert (w1 : nr W = n) by apply W1. rewrite w1, EF in PO. rewrite PO. reflexivity.
Qed.
Print Assumptions C86_terminates.

(** ** Examples: three samples of two components *)
Definition lags_fit (l : list Z) := @crom_fit_transform_py Z Num_Z_demo 5
  (mk_crom (gpnh_new (mk_gpnh_cfg 0%Z InitCustom (PInt 0) (PInt 2) (mk_ls 0 1 1 1 1 1)%Z 1 false) (PInt 2) exZ_rng) l None) ecZ_data
  (Some (mkmat 2 2 [[4; 0]; [0; 4]]%Z)) (Some (mkmat 3 2 [[1; 0]; [0; 1]; [1; 0]]%Z)) true true None.
Definition outcome {A} (r : res A) : option exn := match r with Ok _ => None | Raise e => Some e end.
Example C86_outcomes : map (fun l => outcome (lags_fit l)) [[1; 2]; [0]; [2; 0]; [2; -1]; [-1]; [-1; -3]; [-2; -5]]%Z
  = [None; Some ValueError; Some ValueError; Some ValueError; None; None; Some ValueError].
Proof. vm_compute. reflexivity. Qed.
Example C86_negatives : negatives [1; 3]%nat = [-1; -3]%Z /\ smallest 1 [1; 3]%nat /\ negatives [2; 5]%nat = [-2; -5]%Z /\ smallest 2 [2; 5]%nat /\ (5 + 1 <> 3 + 2)%nat.
Proof. unfold smallest. cbn. repeat split; auto; try lia; intros x Hx; lia. Qed.
(** the last of three samples is "predicted" from the first one: with the identity at lag -1 the
    second sample plays no part *)
Example C86_identity : exists Z, py_predicted_weights [-1]%Z [1] [mkmat 2 2 [[1; 0]; [0; 1]]] (mkmat 3 2 [[1; 0]; [0; 1]; [0; 1]]) = Ok Z
  /\ ent Z 2 0 = 1 /\ ent Z 2 1 = 0.
Proof.
  destruct (C86_negative_model [1%nat] 1 3 2 [1] [mkmat 2 2 [[1; 0]; [0; 1]]] (mkmat 3 2 [[1; 0]; [0; 1]; [0; 1]])) as ((Z & E & _ & _ & Q) & _).
  - unfold smallest. cbn. split; [auto|lia].
  - lia.
  - cbn. lia.
  - split; [reflexivity|]. split; [reflexivity|]. split; [reflexivity|]. intros row [<-|[<-|[<-|[]]]]; reflexivity.
  - reflexivity.
  - split; [reflexivity|]. intros i Hi. destruct i; [|cbn in Hi; lia]. split; [reflexivity|]. split; [reflexivity|]. split; [reflexivity|]. intros row [<-|[<-|[]]]; reflexivity.
  - exists Z. split; [exact E|]. pose proof (Q 0%nat 0%nat) as Q0. pose proof (Q 0%nat 1%nat) as Q1. cbn [Nat.sub Nat.add] in Q0, Q1. rewrite Q0, Q1 by lia. unfold backward_forecast, at_, ent. cbn. split; ring.
Qed.
