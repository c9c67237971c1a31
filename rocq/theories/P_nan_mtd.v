(** MTD convex coding of data containing NaN. *)
From Coq Require Import List Arith Lia ZArith Reals Bool.
From Verif Require Import Num NumExt Mat Py Spec_nan M_simplex M_spg M_iter M_random M_furthest M_gpnh M_mtd.
From Verif Require Import P_lin P_simplex P_spg P_random P_mat P_iter P_gpnh P_gpnh_run P_mtd_run P_nan P_nan_gpnh.
Import ListNotations.

Lemma mtd_penalty_shape c k (w : mws ext) d : nr (m_S w) = k -> nc (m_S w) = d ->
  nr (mtd_dictionary_penalty_gradient c k w) = k /\ nc (mtd_dictionary_penalty_gradient c k w) = d.
Proof. intros E1 E2. unfold mtd_dictionary_penalty_gradient. destruct (Nat.eqb k 1); cbn; auto. Qed.

Section M.
  Variables (X : mat ext) (n d k : nat) (c : mtd_cfg ext) (fuel : nat) (i0 j0 : nat).
  Hypothesis X1 : nr X = n.
  Hypothesis X2 : nc X = d.
  Hypothesis Hk : (0 < k)%nat.
  Hypothesis HX : nan_at X i0 j0.

  Record minv (Rw : nat -> Prop) (Q : nat -> nat -> Prop) (w : mws ext) : Prop := {
    mi_X : m_X w = X;
    mi_G1 : nr (m_Gamma w) = n; mi_G2 : nc (m_Gamma w) = k;
    mi_S1 : nr (m_S w) = k; mi_S2 : nc (m_S w) = d;
    mi_m1 : m_f_S_mem w <> []; mi_m2 : m_f_Gamma_mem w <> []; mi_m3 : m_f_parameters_mem w <> [];
    mi_rows : forall i a, (i < n)%nat -> (a < k)%nat -> Rw i -> exists x, cell (m_Gamma w) i a = Fin x;
    mi_S : forall a j, (a < k)%nat -> (j < d)%nat -> Q a j -> cell (m_S w) a j = NaN }.
  Definition mzero (Rw : nat -> Prop) (w : mws ext) : Prop := forall i a, (i < n)%nat -> (a < k)%nat -> Rw i -> cell (m_Gamma w) i a = Fin 0.

  Lemma mtd_cost_nan w : m_X w = X -> mtd_evaluate_cost c k w = NaN.
  Proof using HX.
    intros E. destruct HX as (Hi & Hj & EN). unfold mtd_evaluate_cost, mtd_loss_function. rewrite E.
    rewrite (mnorm_nan _ i0 j0); [|exact Hi|exact Hj|rewrite msub_entry, EN by assumption; reflexivity].
    change (@nsq ext Num_E NaN) with NaN. cbn [nadd nmul Num_E]. rewrite mul_nan_r. reflexivity.
  Qed.

  Lemma mtd_upd_dict Rw Q w : minv Rw Q w -> exists w', mtd_update_dictionary fuel c k w = Ok w' /\ minv Rw (fun a j => Q a j \/ nan_col X j) w'.
  Proof using X1 X2 HX Hk.
    intros H. destruct H as [aX aG1 aG2 aS1 aS2 am1 am2 am3 aR aS]. unfold mtd_update_dictionary, mtd_dictionary_line_search. cbv zeta.
    match goal with |- context [line_search ?f ?p ?co ?tr ?fu ?m ?cc ?i] => destruct (ls_nan f p co tr fu m cc i) as (mem' & E & Hm'); [exact am1|apply mtd_cost_nan; exact aX|rewrite E] end.
    cbn [bind]. eexists. split; [reflexivity|]. split; try assumption; cbn [m_X m_Gamma m_S m_f_S_mem m_f_Gamma_mem m_f_parameters_mem mtd_set_S_mem mtd_set_S]; try assumption.
    intros a j Ha Hj HQ. rewrite madd_entry by lia. destruct HQ as [HQ|(i & Hi & _ & EN)].
    - rewrite aS by assumption. reflexivity.
    - match goal with |- context [mtd_dictionary_gradient c k ?w0] => set (w1 := w0) end.
      assert (G : cell (mtd_dictionary_gradient c k w1) a j = NaN /\ nr (mtd_dictionary_gradient c k w1) = k /\ nc (mtd_dictionary_gradient c k w1) = d).
      { unfold mtd_dictionary_gradient. destruct (mtd_penalty_shape c k w1 d aS1 aS2) as [P1 P2].
        split; [|split; [exact P1|exact P2]].
        rewrite madd_entry, madd_entry by (unfold madd, mmap2; rewrite ?nr_mbuild, ?nc_mbuild, ?P1, ?P2; assumption). rewrite mscale_nan; [rewrite add_nan_r; reflexivity|..].
        - cbn. lia.
        - cbn. rewrite aX, X2. exact Hj.
        - cbn [w1 m_GtX]. apply mmul_nan_r with (l := i); [cbn; lia|rewrite aX, X2; exact Hj|cbn; lia|rewrite aX; exact EN]. }
      destruct G as (G & g1 & g2). rewrite msub_entry by (cbn; lia). rewrite msub_entry by (cbn; lia).
      rewrite mscale_nan; [|rewrite g1; exact Ha|rewrite g2; exact Hj|exact G]. change (eopp NaN) with NaN. rewrite add_nan_r, add_nan_l, add_nan_r. reflexivity.
  Qed.

  Lemma mtd_upd_weights Rw Q w : minv Rw Q w -> (forall i, (i < n)%nat -> Rw i -> nan_row X i \/ exists j, (j < d)%nat /\ forall a, (a < k)%nat -> Q a j) ->
    exists w', mtd_update_weights fuel c k w = Ok w' /\ minv Rw Q w' /\ mzero Rw w'.
  Proof using X1 X2 HX Hk.
    intros H HR. destruct H as [aX aG1 aG2 aS1 aS2 am1 am2 am3 aR aS]. unfold mtd_update_weights, mtd_weights_line_search. cbv zeta.
    match goal with |- context [line_search ?f ?p ?co ?tr ?fu ?m ?cc ?i] => destruct (ls_nan f p co tr fu m cc i) as (mem' & E & Hm'); [exact am2|apply mtd_cost_nan; exact aX|rewrite E] end.
    cbn [bind]. eexists. split; [reflexivity|].
    match goal with |- context [mtd_weights_gradient c k ?w0] => set (w1 := w0) end.
    match goal with |- _ /\ mzero Rw ?ww => assert (Z : mzero Rw ww) end.
    { intros i a Hi Ha HRi. cbn [m_Gamma mtd_set_Gamma_mem mtd_set_Gamma].
      destruct (aR i a Hi Ha HRi) as (x & Ex). eapply projected_step_zero; try eassumption; cbn [m_Gamma w1]; try lia.
      - unfold mtd_weights_gradient. cbn. rewrite aG1. reflexivity.
      - unfold mtd_weights_gradient. cbn. reflexivity.
      - exists a. split; [lia|]. unfold mtd_weights_gradient. rewrite madd_entry, madd_entry by (cbn; lia).
        destruct (HR i Hi HRi) as [(j & _ & Hj & EN)|(j & Hj & HQ)].
        + rewrite mscale_nan; [rewrite add_nan_r; reflexivity|cbn; rewrite aX; lia|cbn; lia|].
          cbn [w1 m_XSt]. apply mmul_nan_l with (l := j); rewrite ?aX; try lia; [cbn; lia|exact EN].
        + rewrite (mscale_nan (n2 * _)%num); [apply add_nan_r|cbn; lia|cbn; lia|].
          cbn [w1 m_Gamma m_SSt]. apply mmul_nan_r with (l := 0%nat); try (cbn; lia).
          apply mmul_nan_l with (l := j); try (cbn; lia). apply aS; auto. }
    split; [|exact Z]. split; try assumption; cbn [m_X m_Gamma m_S m_f_S_mem m_f_Gamma_mem m_f_parameters_mem mtd_set_Gamma_mem mtd_set_Gamma]; try assumption.
    intros i a Hi Ha HRi. exists 0%R. exact (Z i a Hi Ha HRi).
  Qed.

  Lemma mtd_upd_params Rw Q w : minv Rw Q w -> exists w', mtd_update_parameters fuel c k w = Ok w' /\ minv Rw Q w' /\ m_Gamma w' = m_Gamma w.
  Proof using HX.
    intros H. destruct H as [aX aG1 aG2 aS1 aS2 am1 am2 am3 aR aS]. unfold mtd_update_parameters, mtd_parameters_line_search. cbv zeta.
    match goal with |- context [line_search ?f ?p ?co ?tr ?fu ?m ?cc ?i] => destruct (ls_nan f p co tr fu m cc i) as (mem' & E & Hm'); [exact am3|apply mtd_cost_nan; exact aX|rewrite E] end.
    cbn [bind]. eexists. split; [reflexivity|]. split; [|reflexivity].
    split; try assumption; cbn [m_X m_Gamma m_S m_f_S_mem m_f_Gamma_mem m_f_parameters_mem mtd_set_parameters_mem mtd_set_parameters]; assumption.
  Qed.

  Lemma minv_weaken (Rw : nat -> Prop) (Q Q' : nat -> nat -> Prop) w : (forall a j, Q' a j -> Q a j) -> minv Rw Q w -> minv Rw Q' w.
  Proof using. intros HQ []. split; auto. Qed.

  Lemma mtd_iterate_nan ud uw up tol m Q w : let Rw := fun i => ud = true \/ nan_row X i in
    minv Rw Q w -> (0 < m)%nat -> exists w', mtd_iterate fuel c k ud uw up tol m w = Ok (w', NaN, (m - 1)%nat, repeat NaN (S m))
      /\ minv Rw (fun a j => Q a j \/ (ud = true /\ nan_col X j)) w' /\ (uw = true -> mzero Rw w').
  Proof using X1 X2 HX Hk.
    intros Rw HI Hm. unfold mtd_iterate. set (QF := fun a j => Q a j \/ (ud = true /\ nan_col X j)).
    apply (iterate_nan (mtd_evaluate_cost c k) (mc_monotone c) _ tol (minv Rw Q) (fun w' => minv Rw QF w' /\ (uw = true -> mzero Rw w')) m w).
    - intros s Hs. apply mtd_cost_nan. apply Hs.
    - intros s [Hs _]. revert Hs. apply minv_weaken. unfold QF. auto.
    - intros s Hs. assert (D : exists s1, (ud = true -> mtd_update_dictionary fuel c k s = Ok s1) /\ (ud = false -> s1 = s) /\ minv Rw QF s1).
      { unfold QF. destruct ud.
        - destruct (mtd_upd_dict Rw Q s Hs) as (s1 & E1 & I1). exists s1. repeat split; auto; [discriminate|..]; try apply I1. intros a j Ha Hj [HQ|[_ HQ]]; apply I1; auto.
        - exists s. repeat split; auto; [discriminate|..]; try apply Hs. intros a j Ha Hj [HQ|[[=] _]]. apply Hs; auto. }
      destruct D as (s1 & D1 & D2 & D3). rewrite (enabled_run _ ud _ _ s s1 D1 D2) by (apply mtd_cost_nan, D3).
      assert (V : exists s2, (uw = true -> mtd_update_weights fuel c k s1 = Ok s2) /\ (uw = false -> s2 = s1) /\ minv Rw QF s2 /\ (uw = true -> mzero Rw s2)).
      { destruct uw.
        - destruct (mtd_upd_weights Rw _ s1 D3) as (s2 & E2 & I2 & Z2).
          + intros i Hi [HR|HR]; [right|left; exact HR]. exists j0. split; [destruct HX as (_ & Hj & _); lia|]. intros a Ha. right. split; [exact HR|]. exists i0. exact HX.
          + exists s2. repeat split; auto; [discriminate|..]; apply I2.
        - exists s1. repeat split; auto; try discriminate; apply D3. }
      destruct V as (s2 & V1 & V2 & V3 & V4). rewrite (enabled_run _ uw _ _ s1 s2 V1 V2) by (apply mtd_cost_nan, V3).
      assert (Y : exists s3, (up = true -> mtd_update_parameters fuel c k s2 = Ok s3) /\ (up = false -> s3 = s2) /\ minv Rw QF s3 /\ m_Gamma s3 = m_Gamma s2).
      { destruct up.
        - destruct (mtd_upd_params Rw _ s2 V3) as (s3 & E3 & I3 & Z3). exists s3. repeat split; auto; [discriminate|..]; apply I3.
        - exists s2. repeat split; auto; try discriminate; apply V3. }
      destruct Y as (s3 & Y1 & Y2 & Y3 & Y4). rewrite <- (app_nil_r (enabled up _)), (enabled_run _ up _ _ s2 s3 Y1 Y2) by (apply mtd_cost_nan, Y3).
      exists s3. split; [reflexivity|]. split; [exact Y3|]. intros Hu. unfold mzero. rewrite Y4. exact (V4 Hu).
    - exact HI.
    - exact Hm.
  Qed.
End M.

Lemma mtd_choose_real c k data Din Win ow Ts ud uw up kw (g g' : rng ext) D W o M : mtd_choose_initial c k data Din Win ow Ts ud uw up kw g = Ok (D, W, o, M, g') -> good_draws g ->
  nr W = nr data /\ nc W = k /\ nr D = k /\ nc D = nc data /\ (forall i a, (i < nr data)%nat -> (a < k)%nat -> exists x, cell W i a = Fin x).
Proof.
  intros H HG. assert (GG : forall g1 : rng ext, r_uniform g1 = r_uniform g -> good_draws g1) by (intros g1 E i; rewrite E; apply HG).
  assert (IW : forall init g1 W g2, r_uniform g1 = r_uniform g -> initialize_weights data k init g1 = Ok (W, g2) ->
      nr W = nr data /\ nc W = k /\ (forall i a, (i < nr data)%nat -> (a < k)%nat -> exists x, cell W i a = Fin x)).
  { intros init g1 W1 g2 E H1. unfold initialize_weights in H1. assert (Q : right_stochastic_matrix (nr data) k g1 = (W1, g2)) by (destruct init; congruence).
    split; [|split].
    - change W1 with (fst (W1, g2)). rewrite <- Q. reflexivity.
    - change W1 with (fst (W1, g2)). rewrite <- Q. reflexivity.
    - intros i a Hi Ha. change W1 with (fst (W1, g2)). rewrite <- Q. apply drawn_real; auto. }
  assert (CW : forall W1, check_init_weights Win (nr data) k = Ok W1 -> nr W1 = nr data /\ nc W1 = k /\ (forall i a, (i < nr data)%nat -> (a < k)%nat -> exists x, cell W1 i a = Fin x)).
  { intros W1 E1. pose proof E1 as E3. apply check_init_weights_ok_inv in E3. destruct E3 as (_ & e1 & e2). repeat split; try assumption. intros i a Hi Ha. eapply check_weights_real; eassumption. }
  unfold mtd_choose_initial in H. cbv zeta in H.
  destruct (mc_init c) eqn:EI.
  all: try (apply bind_ok in H; destruct H as ((D0 & g0) & E1 & H); apply bind_ok in H; destruct H as ((W0 & g1) & E2 & H); apply bind_ok in H; destruct H as (((o0 & M0) & g2) & E3 & H);
    injection H as <- <- <- <- <-; cbn [fst snd] in *;
    assert (ED : nr D0 = k /\ nc D0 = nc data /\ r_uniform g0 = r_uniform g);
    [ destruct ud; [eapply init_dictionary_shape; exact E1|]; apply bind_ok in E1; destruct E1 as (D1 & E1 & E4); injection E4 as <- <-; apply check_init_dictionary_ok_inv in E1; tauto
    | destruct ED as (d1 & d2 & d3);
      assert (EW : nr W0 = nr data /\ nc W0 = k /\ (forall i a, (i < nr data)%nat -> (a < k)%nat -> exists x, cell W0 i a = Fin x));
      [ destruct uw; [destruct kw; [discriminate|]; eapply IW; [exact d3|exact E2] | apply bind_ok in E2; destruct E2 as (W1 & E2 & E4); injection E4 as <- <-; apply CW, E2]
      | tauto ] ]).
  apply bind_ok in H. destruct H as (W0 & E1 & H). apply bind_ok in H. destruct H as (D0 & E2 & H). apply bind_ok in H. destruct H as (o0 & E3 & H). apply bind_ok in H. destruct H as (M0 & E4 & H).
  injection H as <- <- <- <- <-. apply check_init_dictionary_ok_inv in E2. destruct E2 as (_ & d1 & d2). apply CW in E1. tauto.
Qed.

Lemma mtd_run_nan fuel (o : mtd ext) data Din Win ow Ts ud uw up kw r : has_nan data -> good_draws (mo_rng o) -> (0 < mc_memory (mo_cfg o))%nat ->
  mtd_convex_coding fuel o data Din Win ow Ts ud uw up kw = Ok r ->
  exists w k m t D W ow0 Ts0 g, resolve_components (mo_n_components o) (nc data) = PInt (Z.of_nat k) /\ (0 < k)%nat
      /\ mc_max_iterations (mo_cfg o) = PInt (Z.of_nat m) /\ (0 < m)%nat /\ tol_value (mc_tolerance (mo_cfg o)) t
      /\ mtd_choose_initial (mo_cfg o) k data Din Win ow Ts ud uw up kw (mo_rng o) = Ok (D, W, ow0, Ts0, g)
      /\ nan_outcome m (mr_cost r) (mr_n_iter r) (mr_log r) (mr_warned r)
      /\ mr_obj r = mk_mtd (mo_cfg o) (PInt (Z.of_nat k)) g (Some w) (mo_dictionary_ o) (mo_cost_ o) (mo_n_iter_ o) (mo_n_components_ o)
      /\ nr (m_Gamma w) = nr data /\ nc (m_Gamma w) = k /\ nr (m_S w) = k /\ nc (m_S w) = nc data
      /\ (forall i a, (i < nr data)%nat -> (a < k)%nat -> uw = true -> (ud = true \/ exists j, nan_at data i j) -> cell (m_Gamma w) i a = Fin 0)
      /\ (forall a j, (a < k)%nat -> (j < nc data)%nat -> cell D a j = NaN \/ (ud = true /\ exists i, nan_at data i j) -> cell (m_S w) a j = NaN).
Proof.
  intros (i0 & j0 & HN) HG HM H. apply mtd_run_inv in H. destruct H as (k & m & t & D & W & ow0 & Ts0 & g & w2 & A1 & A2 & A3 & A4 & A5 & A6 & AL & A7 & A8 & A9).
  destruct (mtd_choose_real _ _ _ _ _ _ _ _ _ _ _ _ _ _ _ _ _ A6 HG) as (W1 & W2 & D1 & D2 & WF).
  destruct (mtd_iterate_nan data (nr data) (nc data) k (mo_cfg o) fuel i0 j0 eq_refl eq_refl A2 HN ud uw up t m (fun a j => cell D a j = NaN) (mtd_initialize_workspace (mo_cfg o) data W D ow0 Ts0)) as (w & E & I & Z).
  { split; cbn [mtd_initialize_workspace m_X m_Gamma m_S m_f_S_mem m_f_Gamma_mem m_f_parameters_mem]; auto; destruct (mc_memory (mo_cfg o)); try lia; discriminate. }
  { exact A4. }
  rewrite E in A7. injection A7 as -> E1 E2 E3. exists w2, k, m, t, D, W, ow0, Ts0, g.
  do 6 (split; [assumption|]). split.
  { rewrite A9, <- E1, <- E2, <- E3. split; [reflexivity|]. split; [lia|]. split; [reflexivity|]. destruct (Nat.eqb_spec (m - 1) m); [lia|reflexivity]. }
  split; [assumption|]. destruct I as [aX aG1 aG2 aS1 aS2 am1 am2 am3 aR aS]. repeat (split; [assumption|]). split.
  - intros i a Hi Ha Hw HR. apply (Z Hw i a Hi Ha). exact HR.
  - intros a j Ha Hj HQ. apply aS; [exact Ha|exact Hj|]. exact HQ.
Qed.
(** with random starting values the run returns *)
Lemma mtd_random_nan fuel (o : mtd ext) data Din Win ow Ts k m t : has_nan data -> good_draws (mo_rng o) -> (0 < mc_memory (mo_cfg o))%nat -> mc_lags (mo_cfg o) <> [] ->
  resolve_components (mo_n_components o) (nc data) = PInt (Z.of_nat k) -> (0 < k)%nat -> mc_max_iterations (mo_cfg o) = PInt (Z.of_nat m) -> (0 < m)%nat -> tol_value (mc_tolerance (mo_cfg o)) t ->
  mc_init (mo_cfg o) = InitRandom \/ mc_init (mo_cfg o) = InitNone ->
  exists r, mtd_convex_coding fuel o data Din Win ow Ts true true true None = Ok r.
Proof.
  intros (i0 & j0 & HN) HG HM HL Hc Hk Hm1 Hm Ht Hi. unfold mtd_convex_coding. cbv zeta. rewrite Hc, Hm1, (check_params_total k m _ t) by assumption. cbn [bind].
  destruct (mtd_choose_initial _ _ _ _ _ _ _ _ _ _ _ _) as [[[[[D W] o0] M0] g]|e] eqn:EI.
  2:{ exfalso. unfold mtd_choose_initial in EI. destruct Hi as [Hi|Hi]; rewrite Hi in EI; cbn [initialize_dictionary initialize_weights initialize_parameters bind] in EI;
      destruct (initialize_parameters_random _ _ _) as [[? ?] ?]; discriminate EI. }
  cbn [bind]. destruct (mtd_choose_real _ _ _ _ _ _ _ _ _ _ _ _ _ _ _ _ _ EI HG) as (W1 & W2 & D1 & D2 & WF).
  assert (QL : check_max_lag (mo_cfg o) = Ok tt) by (unfold check_max_lag; destruct (mc_lags (mo_cfg o)); [contradiction|reflexivity]). rewrite QL. cbn [bind].
  destruct (mtd_iterate_nan data (nr data) (nc data) k (mo_cfg o) fuel i0 j0 eq_refl eq_refl Hk HN true true true t m (fun a j => cell D a j = NaN) (mtd_initialize_workspace (mo_cfg o) data W D o0 M0)) as (w & E & I & Z).
  { split; cbn [mtd_initialize_workspace m_X m_Gamma m_S m_f_S_mem m_f_Gamma_mem m_f_parameters_mem]; auto; destruct (mc_memory (mo_cfg o)); try lia; discriminate. }
  { exact Hm. }
  rewrite E. cbn [bind]. eauto.
Qed.
