(** MTD convex coding of a series exactly as long as the largest lag. *)
From Coq Require Import List Arith Lia ZArith Reals Bool Lra.
From Verif Require Import Num NumExt Mat Py Spec_nan Spec_edge M_simplex M_spg M_iter M_random M_furthest M_gpnh M_mtd.
From Verif Require Import P_lin P_simplex P_spg P_random P_mat P_iter P_gpnh P_gpnh_run P_mtd_run P_nan P_nan_gpnh P_nan_mtd P_edge.
Import ListNotations.

Lemma largest_max l L : largest_lag l L -> list_max l = L.
Proof.
  intros (H1 & H2). apply Nat.le_antisymm.
  - apply list_max_le. apply Forall_forall. exact H2.
  - assert (Q : Forall (fun x => x <= list_max l)%nat l) by (apply list_max_le; lia). rewrite Forall_forall in Q. apply Q, H1.
Qed.

Section E.
  Variables (X : mat ext) (n d k : nat) (c : mtd_cfg ext) (fuel : nat).
  Hypothesis X1 : nr X = n.
  Hypothesis X2 : nc X = d.
  Hypothesis Hk : (2 <= k)%nat.
  Hypothesis HL : max_lag c = n.
  Hypothesis Hp : (0 < n_lags c)%nat.

  Definition succ_row (t : nat) : Prop := exists i, (i < n_lags c)%nat /\ (t + lag c i < n)%nat.
  Record einv (w : mws ext) : Prop := {
    ei_X : m_X w = X;
    ei_G1 : nr (m_Gamma w) = n; ei_G2 : nc (m_Gamma w) = k;
    ei_S1 : nr (m_S w) = k; ei_S2 : nc (m_S w) = d;
    ei_m1 : m_f_S_mem w <> []; ei_m2 : m_f_Gamma_mem w <> []; ei_m3 : m_f_parameters_mem w <> [];
    ei_rows : forall t a, (t < n)%nat -> (a < k)%nat -> succ_row t -> exists x, cell (m_Gamma w) t a = Fin x;
    ei_Z : forall t a, (t < n)%nat -> (a < k)%nat -> cell (m_Z w) t a = cell (m_Gamma w) t a;
    ei_ow1 : length (m_order_weights w) = n_lags c;
    ei_ow2 : forall i, (i < n_lags c)%nat -> exists x, vget (m_order_weights w) i = Fin x;
    ei_T : real_stack (n_lags c) k (m_transition_matrices w) }.
  Definition ezero (w : mws ext) : Prop := forall t a, (t < n)%nat -> (a < k)%nat -> succ_row t -> cell (m_Gamma w) t a = Fin 0.
  Definition pzero (w : mws ext) : Prop := zero_vector (n_lags c) (m_order_weights w) /\ zero_stack (n_lags c) k (m_transition_matrices w).

  Lemma norm_inf w : m_X w = X -> mtd_normalization c k w = PInf.
  Proof using X1 X2 Hk HL Hp. intros E. unfold mtd_normalization. apply edge_normalization. rewrite E, HL, X1. lia. Qed.
  Lemma residual_empty w : nr (m_Gamma w) = n -> nr (mtd_residual c w) = 0%nat.
  Proof using X1 X2 Hk HL Hp. intros E. unfold mtd_residual. cbn. rewrite E, HL. lia. Qed.
  Lemma edge_cost w : m_X w = X -> nr (m_Gamma w) = n -> mtd_evaluate_cost c k w = NaN.
  Proof using X1 X2 Hk HL Hp.
    intros E1 E2. unfold mtd_evaluate_cost, mtd_weights_penalty. destruct (Nat.eqb_spec k 1); [lia|]. cbv zeta.
    rewrite norm_inf by exact E1. rewrite norm_empty by (apply residual_empty; exact E2).
    change (@nmul ext Num_E) with emul. change (@nadd ext Num_E) with eadd. rewrite (unbounded_nought (emul _ _)).
    - apply add_nan_r.
    - apply unbounded_mul_r. exact I.
    - left. cbn. f_equal. ring.
  Qed.
  Lemma predicted_copy ow Ts G t a : nr G = n -> nc G = k -> (t < n)%nat -> (a < k)%nat -> cell (predicted_weights c ow Ts G) t a = cell G t a.
  Proof using X1 X2 Hk HL Hp. intros E1 E2 Ht Ha. unfold predicted_weights. cbv zeta. rewrite cell_mbuild by lia. rewrite HL. destruct (Nat.ltb_spec t n); [|lia]. apply mget_entry. Qed.

  Lemma edge_dict w : einv w -> exists w', mtd_update_dictionary fuel c k w = Ok w' /\ einv w'.
  Proof using X1 X2 Hk HL Hp.
    intros H. destruct H. unfold mtd_update_dictionary, mtd_dictionary_line_search. cbv zeta.
    match goal with |- context [line_search ?f ?p ?co ?tr ?fu ?m ?cc ?i] => destruct (ls_nan f p co tr fu m cc i) as (mem' & E & Hm'); [assumption|apply edge_cost; assumption|rewrite E] end.
    cbn [bind]. eexists. split; [reflexivity|]. split; cbn [m_X m_Gamma m_S m_Z m_order_weights m_transition_matrices m_f_S_mem m_f_Gamma_mem m_f_parameters_mem mtd_set_S_mem mtd_set_S]; assumption.
  Qed.

  Lemma penalty_gradient_nan w t a : einv w -> (t < n)%nat -> (a < k)%nat -> succ_row t -> cell (mtd_weights_penalty_gradient c k w) t a = NaN.
  Proof using X1 X2 Hk HL Hp.
    intros H Ht Ha (i & Hi & Hs). destruct H. unfold mtd_weights_penalty_gradient. cbv zeta. rewrite cell_mbuild by lia. rewrite HL.
    destruct (Nat.ltb_spec t n); [|lia]. rewrite mget_entry.
    match goal with |- cell (fold_left ?F _ ?g0) t a = NaN => set (f := F); generalize g0 end.
    assert (K1 : forall g j, cell g t a = NaN -> cell (f g j) t a = NaN).
    { intros g j E. unfold f. rewrite cell_mbuild by lia. rewrite mget_entry, E. destruct (Nat.ltb _ _); reflexivity. }
    assert (K2 : forall l g, cell g t a = NaN -> cell (fold_left f l g) t a = NaN).
    { induction l as [|j l IH]; intros g E; [exact E|]. cbn [fold_left]. apply IH, K1, E. }
    assert (K3 : forall g, cell (f g i) t a = NaN).
    { intros g. unfold f. rewrite cell_mbuild by lia. destruct (Nat.ltb_spec t (nr (m_Gamma w) - lag c i)); [|lia]. change (@nadd ext Num_E) with eadd.
      change (@nmul ext Num_E) with emul. rewrite (unbounded_nought (emul _ _)); [apply add_nan_r|..].
      - apply unbounded_mul_l, unbounded_mul_r. rewrite norm_inf by assumption. exact I.
      - destruct ei_T0 as (_ & HT). destruct (HT i Hi) as (t1 & t2 & _). rewrite mget_entry. unfold mmul. rewrite cell_mbuild by (cbn; lia). apply nought_sum. intros l Hl. apply nought_mul.
        cbn [nc mslice mbuild msub mmap2] in Hl. rewrite mget_entry. unfold mslice. rewrite cell_mbuild by (cbn; lia). rewrite mget_entry, msub_entry by lia.
        rewrite ei_Z0 by lia. apply nought_sub. }
    intros g. assert (Q : In i (seq 0 (n_lags c))) by (apply in_seq; lia). apply in_split in Q. destruct Q as (l1 & l2 & ->).
    rewrite fold_left_app. cbn [fold_left]. apply K2, K3.
  Qed.

  Lemma edge_weights w : einv w -> exists w', mtd_update_weights fuel c k w = Ok w' /\ einv w' /\ ezero w'
    /\ m_order_weights w' = m_order_weights w /\ m_transition_matrices w' = m_transition_matrices w.
  Proof using X1 X2 Hk HL Hp.
    intros H. unfold mtd_update_weights, mtd_weights_line_search. cbv zeta.
    match goal with |- context [mtd_weights_gradient c k ?w0] => set (w1 := w0) end.
    assert (I1 : einv w1) by (destruct H; split; assumption). destruct H.
    match goal with |- context [line_search ?f ?p ?co ?tr ?fu ?m ?cc ?i] => destruct (ls_nan f p co tr fu m cc i) as (mem' & E & Hm'); [assumption|apply edge_cost; assumption|rewrite E] end.
    cbn [bind]. eexists. split; [reflexivity|].
    match goal with |- _ /\ ezero ?ww /\ _ => assert (Z : ezero ww) end.
    { intros t a Ht Ha HR. cbn [m_Gamma mtd_set_Gamma_mem mtd_set_Gamma].
      destruct (ei_rows0 t a Ht Ha HR) as (x & Ex). eapply projected_step_zero; try eassumption; cbn [m_Gamma w1]; try lia.
      - unfold mtd_weights_gradient. cbn. reflexivity.
      - unfold mtd_weights_gradient. cbn. reflexivity.
      - exists a. split; [lia|]. unfold mtd_weights_gradient. rewrite madd_entry, madd_entry by (cbn; lia). rewrite penalty_gradient_nan by assumption. reflexivity. }
    split; [|split; [exact Z|split; reflexivity]].
    split; cbn [m_X m_Gamma m_S m_Z m_order_weights m_transition_matrices m_f_S_mem m_f_Gamma_mem m_f_parameters_mem mtd_set_Gamma_mem mtd_set_Gamma w1]; try assumption.
    - intros t a Ht Ha HR. exists 0%R. exact (Z t a Ht Ha HR).
    - intros t a Ht Ha. apply predicted_copy; assumption.
  Qed.

  Lemma edge_params w : einv w -> exists w', mtd_update_parameters fuel c k w = Ok w' /\ einv w' /\ m_Gamma w' = m_Gamma w /\ pzero w'.
  Proof using X1 X2 Hk HL Hp.
    intros H. unfold mtd_update_parameters, mtd_parameters_line_search. cbv zeta. destruct H.
    match goal with |- context [line_search ?f ?p ?co ?tr ?fu ?m ?cc ?i] => destruct (ls_nan f p co tr fu m cc i) as (mem' & E & Hm'); [assumption|apply edge_cost; assumption|rewrite E] end.
    cbn [bind]. eexists. split; [reflexivity|].
    match goal with |- _ /\ _ /\ pzero ?ww => assert (Z : pzero ww) end.
    { match goal with |- context [mtd_order_gradient c k ?w0] => set (w1 := w0) end.
      assert (RX : m_X w1 = X) by assumption. assert (RG : m_Gamma w1 = m_Gamma w) by reflexivity.
      split; cbn [m_order_weights m_transition_matrices mtd_set_parameters_mem mtd_set_parameters].
      - apply step_order_weights; try assumption.
        + unfold mtd_order_gradient. apply length_tab.
        + intros i Hi. unfold mtd_order_gradient. rewrite vget_tab by exact Hi. rewrite norm_inf by exact RX. change (@nmul ext Num_E) with emul.
          apply unbounded_nought; [apply unbounded_mul_r; exact I|]. left. unfold mtrace. cbn [nr mmul mbuild]. rewrite residual_empty by (rewrite RG; assumption). reflexivity.
      - apply step_transition; try assumption; try lia.
        + unfold mtd_transition_gradient. apply length_tab.
        + intros i Hi. unfold mtd_transition_gradient. rewrite tmat_tab by exact Hi. split; [cbn; rewrite ei_G4; reflexivity|]. split; [cbn; rewrite ei_G4; reflexivity|].
          intros a b Ha Hb. rewrite mscale_entry by assumption. rewrite norm_inf by exact RX. change (@nmul ext Num_E) with emul.
          apply unbounded_nought; [apply unbounded_mul_l, unbounded_mul_r; exact I|]. left. unfold mmul at 1. rewrite cell_mbuild by assumption. cbn [nc mtr mbuild]. rewrite residual_empty by (rewrite RG; assumption). reflexivity. }
    split; [|split; [reflexivity|exact Z]]. destruct Z as (Z1 & Z2).
    split; cbn [m_X m_Gamma m_S m_Z m_order_weights m_transition_matrices m_f_S_mem m_f_Gamma_mem m_f_parameters_mem mtd_set_parameters_mem mtd_set_parameters] in *; try assumption.
    - intros t a Ht Ha. apply predicted_copy; assumption.
    - rewrite Z1. apply repeat_length.
    - intros i Hi. exists 0%R. rewrite Z1. unfold vget. apply nth_repeat.
    - apply zero_stack_real, Z2.
  Qed.

  Lemma edge_iterate ud uw up tol m w : einv w -> (0 < m)%nat ->
    exists w', mtd_iterate fuel c k ud uw up tol m w = Ok (w', NaN, (m - 1)%nat, repeat NaN (S m))
      /\ einv w' /\ (uw = true -> ezero w') /\ (up = true -> pzero w').
  Proof using X1 X2 Hk HL Hp.
    intros HI Hm. unfold mtd_iterate.
    apply (iterate_nan (mtd_evaluate_cost c k) (mc_monotone c) _ tol einv (fun w' => einv w' /\ (uw = true -> ezero w') /\ (up = true -> pzero w')) m w).
    - intros s Hs. apply edge_cost; apply Hs.
    - intros s [Hs _]. exact Hs.
    - intros s Hs. assert (D : exists s1, (ud = true -> mtd_update_dictionary fuel c k s = Ok s1) /\ (ud = false -> s1 = s) /\ einv s1).
      { destruct ud; [|exists s; split; [discriminate|split; auto]]. destruct (edge_dict s Hs) as (s1 & E1 & I1). exists s1. split; [auto|split; [discriminate|exact I1]]. }
      destruct D as (s1 & D1 & D2 & D3). rewrite (enabled_run _ ud _ _ s s1 D1 D2) by (apply edge_cost; apply D3).
      assert (V : exists s2, (uw = true -> mtd_update_weights fuel c k s1 = Ok s2) /\ (uw = false -> s2 = s1) /\ einv s2 /\ (uw = true -> ezero s2)).
      { destruct uw; [|exists s1; split; [discriminate|split; [auto|split; [exact D3|discriminate]]]]. destruct (edge_weights s1 D3) as (s2 & E2 & I2 & Z2 & _). exists s2. split; [auto|split; [discriminate|split; auto]]. }
      destruct V as (s2 & V1 & V2 & V3 & V4). rewrite (enabled_run _ uw _ _ s1 s2 V1 V2) by (apply edge_cost; apply V3).
      assert (Y : exists s3, (up = true -> mtd_update_parameters fuel c k s2 = Ok s3) /\ (up = false -> s3 = s2) /\ einv s3 /\ m_Gamma s3 = m_Gamma s2 /\ (up = true -> pzero s3)).
      { destruct up; [|exists s2; split; [discriminate|split; [auto|split; [exact V3|split; [reflexivity|discriminate]]]]].
        destruct (edge_params s2 V3) as (s3 & E3 & I3 & Z3 & P3). exists s3. split; [auto|split; [discriminate|split; auto]]. }
      destruct Y as (s3 & Y1 & Y2 & Y3 & Y4 & Y5). rewrite <- (app_nil_r (enabled up _)), (enabled_run _ up _ _ s2 s3 Y1 Y2) by (apply edge_cost; apply Y3).
      exists s3. split; [reflexivity|]. split; [exact Y3|]. split; [|exact Y5]. intros Hu. unfold ezero. rewrite Y4. exact (V4 Hu).
    - exact HI.
    - exact Hm.
  Qed.
  Lemma edge_start data W D ow Ts : data = X -> nr W = n -> nc W = k -> nr D = k -> nc D = d -> (0 < mc_memory c)%nat ->
    (forall i a, (i < n)%nat -> (a < k)%nat -> exists x, cell W i a = Fin x) -> length ow = n_lags c ->
    (forall i, (i < n_lags c)%nat -> exists x, vget ow i = Fin x) -> real_stack (n_lags c) k Ts -> einv (mtd_initialize_workspace c data W D ow Ts).
  Proof using X1 X2 Hk HL Hp.
    intros HD W1 W2 D1 D2 HM HW O1 O2 HT. split; cbn [mtd_initialize_workspace m_X m_Gamma m_S m_Z m_order_weights m_transition_matrices m_f_S_mem m_f_Gamma_mem m_f_parameters_mem]; try assumption; try (destruct (mc_memory c); [lia|discriminate]).
    - intros t a Ht Ha _. apply HW; assumption.
    - intros t a Ht Ha. apply predicted_copy; assumption.
  Qed.
End E.

(** ** starting values are real numbers *)
Lemma add_fin x y z : eadd x y = Fin z -> (exists a, x = Fin a) /\ exists b, y = Fin b.
Proof. destruct x, y; cbn; intros H; try discriminate; eauto. Qed.
Lemma sum_real n f z : @nsum ext Num_E n f = Fin z -> forall i, (i < n)%nat -> exists x, f i = Fin x.
Proof.
  revert z. induction n as [|n IH]; intros z H i Hi; [lia|]. cbn [nsum] in H. apply add_fin in H. destruct H as ((a & Ha) & Hb).
  destruct (Nat.eq_dec i n) as [->|]; [exact Hb|]. eapply IH; [exact Ha|lia].
Qed.
Lemma close_real x : @isclose_one ext Num_E x = true -> exists z, x = Fin z.
Proof. destruct x; intros H; [eauto|exfalso..]; unfold isclose_one in H; cbn in H; repeat (destruct (Req_EM_T _ _) in H; [lra|]); cbn in H; discriminate. Qed.
Lemma check_order_real v p o : @check_init_order_weights ext Num_E v p = Ok o -> length o = p /\ forall i, (i < p)%nat -> exists x, vget o i = Fin x.
Proof.
  unfold check_init_order_weights. destruct v as [v|]; [|discriminate]. destruct (Nat.eqb_spec (length v) p) as [E|]; [|discriminate].
  unfold check_unit_vec_sum. destruct (isclose_one (vsum v)) eqn:C; [|discriminate]. intros [= <-]. split; [exact E|]. apply close_real in C. destruct C as (z & C).
  intros i Hi. unfold vsum in C. eapply sum_real; [exact C|lia].
Qed.
Lemma check_transition_real v p k M : @check_init_transition_matrices ext Num_E v p k = Ok M -> real_stack p k M.
Proof.
  unfold check_init_transition_matrices. destruct v as [Ts|]; [|discriminate]. destruct (andb _ _) eqn:E; [|discriminate]. destruct (forallb _ Ts) eqn:C in |- *; [|discriminate]. intros [= <-].
  apply andb_true_iff in E. destruct E as (E1 & E2). apply Nat.eqb_eq in E1. rewrite forallb_forall in E2, C. split; [exact E1|].
  intros i Hi. assert (Q : In (tmat Ts i) Ts) by (unfold tmat; apply nth_In; lia). pose proof (E2 _ Q) as S. apply andb_true_iff in S. destruct S as (S1 & S2). apply Nat.eqb_eq in S1, S2.
  split; [exact S1|]. split; [exact S2|]. intros a b Ha Hb. specialize (C _ Q). unfold check_unit_col_sums in C. destruct (forallb isclose_one _) eqn:F; [|discriminate].
  rewrite forallb_forall in F. specialize (F (nsum (nr (tmat Ts i)) (fun l => mget (tmat Ts i) l b))). destruct close_real with (x := nsum (nr (tmat Ts i)) (fun l => mget (tmat Ts i) l b)) as (z & Z).
  - apply F. unfold tab. apply in_map_iff. exists b. split; [reflexivity|]. apply in_seq. lia.
  - rewrite <- mget_entry. exact (sum_real _ _ _ Z a ltac:(lia)).
Qed.
Lemma drawn_left_real r c g i j : good_draws g -> (i < r)%nat -> (j < c)%nat -> exists x, cell (fst (@left_stochastic_matrix ext Num_E r c g)) i j = Fin x.
Proof.
  intros HG Hi Hj. unfold left_stochastic_matrix. cbn [draw_uniform_mat fst]. rewrite <- mget_entry, mget_mbuild by assumption.
  rewrite mget_mbuild by assumption. destruct (HG (r_pos g + i * c + j)%nat) as (x & -> & _). rewrite vget_tab by exact Hj.
  destruct (fin_sum r (fun l => mget (mbuild r c (fun i j : nat => r_uniform g (r_pos g + i * c + j))) l j)) as (y & -> & Hy); [lia| |].
  - intros l Hl. rewrite mget_mbuild by assumption. destruct (HG (r_pos g + l * c + j)%nat) as (z & -> & Hz). exists z. split; [reflexivity|lra].
  - exists (x / y)%R. cbn. destruct (Req_EM_T y 0); [lra|reflexivity].
Qed.
Lemma good_stream (g g' : rng ext) : r_uniform g' = r_uniform g -> good_draws g -> good_draws g'.
Proof. intros E H i. rewrite E. apply H. Qed.
Lemma drawn_stack_real p k : forall g, good_draws g -> real_stack p k (fst (draw_transition_matrices p k g)).
Proof.
  induction p as [|p IH]; intros g HG; cbn [draw_transition_matrices].
  - split; [reflexivity|]. intros i Hi. lia.
  - destruct (left_stochastic_matrix k k g) as [M g1] eqn:E1. destruct (draw_transition_matrices p k g1) as [r g2] eqn:E2. cbn [fst].
    assert (G1 : good_draws g1) by (apply (good_stream g); [|exact HG]; unfold left_stochastic_matrix in E1; cbn in E1; injection E1 as _ <-; reflexivity).
    pose proof (IH g1 G1) as (L & H). rewrite E2 in L, H. cbn [fst] in L, H. split; [cbn; lia|]. intros [|i] Hi.
    + cbn [tmat nth]. change M with (fst (M, g1)). rewrite <- E1. split; [reflexivity|]. split; [reflexivity|]. intros a b Ha Hb. apply drawn_left_real; assumption.
    + apply (H i). lia.
Qed.
Lemma drawn_params_real k p (g g' : rng ext) ow Ts : good_draws g -> (0 < p)%nat -> initialize_parameters_random k p g = (ow, Ts, g') ->
  length ow = p /\ (forall i, (i < p)%nat -> exists x, vget ow i = Fin x) /\ real_stack p k Ts.
Proof.
  intros HG Hp H. unfold initialize_parameters_random in H. cbn [draw_uniform_vec] in H. destruct (draw_transition_matrices _ _ _) as [Ts' g2] eqn:E. injection H as <- <- <-.
  split; [rewrite map_length; apply length_tab|]. split.
  - intros i Hi. set (v := tab p (fun i : nat => r_uniform g (r_pos g + i))). assert (LV : length v = p) by apply length_tab.
    assert (EQ : forall f : ext -> ext, vget (map f v) i = f (vget v i)).
    { intros f. unfold vget. rewrite nth_indep with (d' := f n0) by (rewrite map_length; lia). apply map_nth. }
    rewrite EQ. unfold v at 1. rewrite vget_tab by exact Hi. destruct (HG (r_pos g + i)%nat) as (x & -> & _).
    destruct (fin_sum p (vget v)) as (y & Ey & Hy); [exact Hp| |].
    + intros l Hl. unfold v. rewrite vget_tab by exact Hl. destruct (HG (r_pos g + l)%nat) as (z & -> & Hz). exists z. split; [reflexivity|lra].
    + unfold vsum. rewrite LV, Ey. exists (x / y)%R. cbn. destruct (Req_EM_T y 0); [lra|reflexivity].
  - change Ts' with (fst (Ts', g2)). rewrite <- E. apply drawn_stack_real. apply (good_stream g); [reflexivity|exact HG].
Qed.
Lemma choose_params_real c k data Din Win ow Ts ud uw up kw (g g' : rng ext) D W o M : mtd_choose_initial c k data Din Win ow Ts ud uw up kw g = Ok (D, W, o, M, g') -> good_draws g -> (0 < n_lags c)%nat ->
  length o = n_lags c /\ (forall i, (i < n_lags c)%nat -> exists x, vget o i = Fin x) /\ real_stack (n_lags c) k M.
Proof.
  intros H HG Hp. assert (CP : forall o1 M1, check_init_order_weights ow (n_lags c) = Ok o1 -> check_init_transition_matrices Ts (n_lags c) k = Ok M1 ->
    length o1 = n_lags c /\ (forall i, (i < n_lags c)%nat -> exists x, vget o1 i = Fin x) /\ real_stack (n_lags c) k M1).
  { intros o1 M1 E1 E2. apply check_order_real in E1. apply check_transition_real in E2. tauto. }
  unfold mtd_choose_initial in H. cbv zeta in H.
  assert (IW : forall init g1 W1 g2, initialize_weights data k init g1 = Ok (W1, g2) -> r_uniform g2 = r_uniform g1).
  { intros init g1 W1 g2 E. unfold initialize_weights in E. assert (Q : right_stochastic_matrix (nr data) k g1 = (W1, g2)) by (destruct init; congruence).
    unfold right_stochastic_matrix in Q. cbn in Q. injection Q as _ <-. reflexivity. }
  assert (IP : forall init g1 o1 M1 g2, r_uniform g1 = r_uniform g -> initialize_parameters k (n_lags c) init g1 = Ok (o1, M1, g2) ->
    length o1 = n_lags c /\ (forall i, (i < n_lags c)%nat -> exists x, vget o1 i = Fin x) /\ real_stack (n_lags c) k M1).
  { intros init g1 o1 M1 g2 E E1. unfold initialize_parameters in E1. apply (drawn_params_real k (n_lags c) g1 g2); [apply (good_stream g); assumption|exact Hp|destruct init; congruence]. }
  destruct (mc_init c) eqn:EI.
  all: try (apply bind_ok in H; destruct H as ((D0 & g0) & E1 & H); apply bind_ok in H; destruct H as ((W0 & g1) & E2 & H); apply bind_ok in H; destruct H as (((o0 & M0) & g2) & E3 & H);
    injection H as <- <- <- <- <-; cbn [fst snd] in *;
    assert (S0 : r_uniform g0 = r_uniform g);
    [ destruct ud; [eapply init_dictionary_shape; exact E1|]; apply bind_ok in E1; destruct E1 as (D1 & E1 & E4); injection E4 as <- <-; reflexivity
    | assert (S1 : r_uniform g1 = r_uniform g);
      [ destruct uw; [destruct kw; [discriminate|]; rewrite <- S0; eapply IW; exact E2 | apply bind_ok in E2; destruct E2 as (W1 & E2 & E4); injection E4 as <- <-; exact S0]
      | destruct up; [destruct kw; [discriminate|]; eapply IP; [exact S1|exact E3] | apply bind_ok in E3; destruct E3 as (o1 & E3 & E4); apply bind_ok in E4; destruct E4 as (M1 & E4 & E5); injection E5 as <- <- <-; apply CP; assumption ] ] ]).
  apply bind_ok in H. destruct H as (W0 & E1 & H). apply bind_ok in H. destruct H as (D0 & E2 & H). apply bind_ok in H. destruct H as (o0 & E3 & H). apply bind_ok in H. destruct H as (M0 & E4 & H).
  injection H as <- <- <- <- <-. apply CP; assumption.
Qed.

Lemma mtd_run_edge fuel (o : mtd ext) data Din Win ow Ts ud uw up kw r k : largest_lag (mc_lags (mo_cfg o)) (nr data) -> good_draws (mo_rng o) -> (0 < mc_memory (mo_cfg o))%nat ->
  resolve_components (mo_n_components o) (nc data) = PInt (Z.of_nat k) -> (2 <= k)%nat ->
  mtd_convex_coding fuel o data Din Win ow Ts ud uw up kw = Ok r ->
  exists w m t D W ow0 Ts0 g, mc_max_iterations (mo_cfg o) = PInt (Z.of_nat m) /\ (0 < m)%nat /\ tol_value (mc_tolerance (mo_cfg o)) t
      /\ mtd_choose_initial (mo_cfg o) k data Din Win ow Ts ud uw up kw (mo_rng o) = Ok (D, W, ow0, Ts0, g)
      /\ nan_outcome m (mr_cost r) (mr_n_iter r) (mr_log r) (mr_warned r)
      /\ mr_obj r = mk_mtd (mo_cfg o) (PInt (Z.of_nat k)) g (Some w) (mo_dictionary_ o) (mo_cost_ o) (mo_n_iter_ o) (mo_n_components_ o)
      /\ einv data (nr data) (nc data) k (mo_cfg o) w /\ (uw = true -> ezero (nr data) k (mo_cfg o) w) /\ (up = true -> pzero k (mo_cfg o) w).
Proof.
  intros HL HG HM Hc Hk H. apply mtd_run_inv in H. destruct H as (k' & m & t & D & W & ow0 & Ts0 & g & w2 & A1 & A2 & A3 & A4 & A5 & A6 & AL & A7 & A8 & A9).
  rewrite Hc in A1. injection A1 as A1. apply Nat2Z.inj in A1. subst k'.
  assert (HP : (0 < n_lags (mo_cfg o))%nat) by (unfold n_lags; destruct HL as (HL & _); destruct (mc_lags (mo_cfg o)); [contradiction|cbn; lia]).
  pose proof (largest_max _ _ HL) as HL'. change (max_lag (mo_cfg o) = nr data) in HL'.
  destruct (mtd_choose_real _ _ _ _ _ _ _ _ _ _ _ _ _ _ _ _ _ A6 HG) as (W1 & W2 & D1 & D2 & WF).
  destruct (choose_params_real _ _ _ _ _ _ _ _ _ _ _ _ _ _ _ _ _ A6 HG HP) as (O1 & O2 & O3).
  destruct (edge_iterate data (nr data) (nc data) k (mo_cfg o) fuel eq_refl eq_refl Hk HL' HP ud uw up t m (mtd_initialize_workspace (mo_cfg o) data W D ow0 Ts0)) as (w & E & I & Z1 & Z2).
  { apply edge_start; auto. }
  { exact A4. }
  rewrite E in A7. injection A7 as -> E1 E2 E3. exists w2, m, t, D, W, ow0, Ts0, g.
  do 4 (split; [assumption|]). split.
  { rewrite A9, <- E1, <- E2, <- E3. split; [reflexivity|]. split; [lia|]. split; [reflexivity|]. destruct (Nat.eqb_spec (m - 1) m); [lia|reflexivity]. }
  split; [assumption|]. auto.
Qed.
(** with random starting values the run returns *)
Lemma mtd_random_edge fuel (o : mtd ext) data Din Win ow Ts k m t : largest_lag (mc_lags (mo_cfg o)) (nr data) -> good_draws (mo_rng o) -> (0 < mc_memory (mo_cfg o))%nat ->
  resolve_components (mo_n_components o) (nc data) = PInt (Z.of_nat k) -> (2 <= k)%nat -> mc_max_iterations (mo_cfg o) = PInt (Z.of_nat m) -> (0 < m)%nat -> tol_value (mc_tolerance (mo_cfg o)) t ->
  mc_init (mo_cfg o) = InitRandom \/ mc_init (mo_cfg o) = InitNone ->
  exists r, mtd_convex_coding fuel o data Din Win ow Ts true true true None = Ok r.
Proof.
  intros HL HG HM Hc Hk Hm1 Hm Ht Hi. unfold mtd_convex_coding. cbv zeta. rewrite Hc, Hm1, (check_params_total k m _ t) by (assumption || lia). cbn [bind].
  assert (HP : (0 < n_lags (mo_cfg o))%nat) by (unfold n_lags; destruct HL as (HL & _); destruct (mc_lags (mo_cfg o)); [contradiction|cbn; lia]).
  pose proof (largest_max _ _ HL) as HL'. change (max_lag (mo_cfg o) = nr data) in HL'.
  destruct (mtd_choose_initial _ _ _ _ _ _ _ _ _ _ _ _) as [[[[[D W] o0] M0] g]|e] eqn:EI.
  2:{ exfalso. unfold mtd_choose_initial in EI. destruct Hi as [Hi|Hi]; rewrite Hi in EI; cbn [initialize_dictionary initialize_weights initialize_parameters bind] in EI;
      destruct (initialize_parameters_random _ _ _) as [[? ?] ?]; discriminate EI. }
  cbn [bind]. destruct (mtd_choose_real _ _ _ _ _ _ _ _ _ _ _ _ _ _ _ _ _ EI HG) as (W1 & W2 & D1 & D2 & WF).
  destruct (choose_params_real _ _ _ _ _ _ _ _ _ _ _ _ _ _ _ _ _ EI HG HP) as (O1 & O2 & O3).
  assert (QL : check_max_lag (mo_cfg o) = Ok tt) by (unfold check_max_lag; unfold n_lags in HP; destruct (mc_lags (mo_cfg o)); [cbn in HP; lia|reflexivity]). rewrite QL. cbn [bind].
  destruct (edge_iterate data (nr data) (nc data) k (mo_cfg o) fuel eq_refl eq_refl Hk HL' HP true true true t m (mtd_initialize_workspace (mo_cfg o) data W D o0 M0)) as (w & E & I & _).
  { apply edge_start; auto. }
  { exact Hm. }
  rewrite E. cbn [bind]. eauto.
Qed.
