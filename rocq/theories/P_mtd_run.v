(** Proofs about whole runs of MTD convex coding *)
From Coq Require Import List Arith Lia ZArith Reals Lra Psatz Bool.
From Verif Require Import Num Mat Py Spec M_simplex M_spg M_iter M_random M_furthest M_gpnh M_mtd.
From Verif Require Import P_lin P_simplex P_spg P_furthest P_random P_mat P_iter P_gpnh P_gpnh_run P_mtd P_mtd_upd.
Import ListNotations.
Local Open Scope R_scope.

(** ** any arithmetic *)
Section Runs.
  Context {T : Type} {N : Num T}.

  Lemma mtd_run_inv fuel (o : mtd T) data Din Win ow Ts ud uw up kw r :
    mtd_convex_coding fuel o data Din Win ow Ts ud uw up kw = Ok r ->
    exists k m t D W ow0 Ts0 g' w2,
      resolve_components (mo_n_components o) (nc data) = PInt (Z.of_nat k) /\ (0 < k)%nat
      /\ mc_max_iterations (mo_cfg o) = PInt (Z.of_nat m) /\ (0 < m)%nat /\ tol_value (mc_tolerance (mo_cfg o)) t
      /\ mtd_choose_initial (mo_cfg o) k data Din Win ow Ts ud uw up kw (mo_rng o) = Ok (D, W, ow0, Ts0, g')
      /\ mc_lags (mo_cfg o) <> []
      /\ mtd_iterate fuel (mo_cfg o) k ud uw up t m (mtd_initialize_workspace (mo_cfg o) data W D ow0 Ts0)
         = Ok (w2, mr_cost r, mr_n_iter r, mr_log r)
      /\ mr_obj r = mk_mtd (mo_cfg o) (PInt (Z.of_nat k)) g' (Some w2) (mo_dictionary_ o) (mo_cost_ o) (mo_n_iter_ o) (mo_n_components_ o)
      /\ mr_warned r = andb (Nat.eqb (mr_n_iter r) m) (nltb n0 t).
  Proof.
    unfold mtd_convex_coding. intros H. apply bind_ok in H. destruct H as (((k & m) & t) & E1 & H).
    apply check_params_ok in E1. destruct E1 as (K1 & K2 & M1 & M2 & T1).
    apply bind_ok in H. destruct H as (((((D & W) & ow0) & Ts0) & g') & E2 & H).
    apply bind_ok in H. destruct H as (u & EL & H).
    apply bind_ok in H. destruct H as ((((w2 & cost) & n_iter) & log) & E3 & H). injection H as <-. cbn [mr_obj mr_cost mr_n_iter mr_log mr_warned].
    exists k, m, t, D, W, ow0, Ts0, g', w2. rewrite K1.
    repeat (split; [first [assumption | reflexivity]|]).
    split; [intros E; unfold check_max_lag in EL; rewrite E in EL; discriminate|].
    repeat (split; [first [assumption | reflexivity]|]). reflexivity.
  Qed.

  Lemma mtd_fit_transform_inv fuel (o : mtd T) data Din Win ow Ts ud uw up kw r Wout :
    mtd_fit_transform fuel o data Din Win ow Ts ud uw up kw = Ok (r, Wout) ->
    exists k m t D W ow0 Ts0 g' w2,
      resolve_components (mo_n_components o) (nc data) = PInt (Z.of_nat k) /\ (0 < k)%nat
      /\ mc_max_iterations (mo_cfg o) = PInt (Z.of_nat m) /\ (0 < m)%nat /\ tol_value (mc_tolerance (mo_cfg o)) t
      /\ mtd_choose_initial (mo_cfg o) k data Din Win ow Ts ud uw up kw (mo_rng o) = Ok (D, W, ow0, Ts0, g')
      /\ mc_lags (mo_cfg o) <> []
      /\ mtd_iterate fuel (mo_cfg o) k ud uw up t m (mtd_initialize_workspace (mo_cfg o) data W D ow0 Ts0)
         = Ok (w2, mr_cost r, mr_n_iter r, mr_log r)
      /\ mr_obj r = mk_mtd (mo_cfg o) (PInt (Z.of_nat k)) g' (Some w2) (Some (m_S w2)) (Some (mr_cost r)) (Some (mr_n_iter r)) (Some (nr (m_S w2)))
      /\ mr_warned r = andb (Nat.eqb (mr_n_iter r) m) (nltb n0 t)
      /\ Wout = m_Gamma w2.
  Proof.
    unfold mtd_fit_transform. intros H. apply bind_ok in H. destruct H as (r0 & E & H).
    apply mtd_run_inv in E. destruct E as (k & m & t & D & W & ow0 & Ts0 & g' & w2 & A1 & A2 & A3 & A4 & A5 & A6 & AL & A7 & A8 & A9).
    rewrite A8 in H. cbn in H. injection H as <- <-. cbn [mr_obj mr_cost mr_n_iter mr_log mr_warned].
    exists k, m, t, D, W, ow0, Ts0, g', w2. repeat (split; [first [assumption | reflexivity]|]). reflexivity.
  Qed.
  Lemma mtd_transform_inv fuel (o : mtd T) data r Wout :
    mtd_transform fuel o data = Ok (r, Wout) ->
    exists k m t D W ow0 Ts0 g' w2,
      resolve_components (mo_n_components o) (nc data) = PInt (Z.of_nat k) /\ (0 < k)%nat
      /\ mc_max_iterations (mo_cfg o) = PInt (Z.of_nat m) /\ (0 < m)%nat /\ tol_value (mc_tolerance (mo_cfg o)) t
      /\ mtd_choose_initial (mo_cfg o) k data (option_map m_S (mo_ws o)) None (option_map m_order_weights (mo_ws o))
           (option_map m_transition_matrices (mo_ws o)) false true false None (mo_rng o) = Ok (D, W, ow0, Ts0, g')
      /\ mc_lags (mo_cfg o) <> []
      /\ mtd_iterate fuel (mo_cfg o) k false true false t m (mtd_initialize_workspace (mo_cfg o) data W D ow0 Ts0)
         = Ok (w2, mr_cost r, mr_n_iter r, mr_log r)
      /\ mr_obj r = mk_mtd (mo_cfg o) (PInt (Z.of_nat k)) g' (Some w2) (mo_dictionary_ o) (mo_cost_ o) (mo_n_iter_ o) (mo_n_components_ o)
      /\ mr_warned r = andb (Nat.eqb (mr_n_iter r) m) (nltb n0 t)
      /\ Wout = m_Gamma w2.
  Proof.
    unfold mtd_transform. intros H. apply bind_ok in H. destruct H as (r0 & E & H).
    apply mtd_run_inv in E. destruct E as (k & m & t & D & W & ow0 & Ts0 & g' & w2 & A1 & A2 & A3 & A4 & A5 & A6 & AL & A7 & A8 & A9).
    rewrite A8 in H. cbn in H. injection H as <- <-.
    exists k, m, t, D, W, ow0, Ts0, g', w2. repeat (split; [first [assumption | reflexivity]|]). reflexivity.
  Qed.

  Lemma mtd_iterate_log fuel c k ud uw up t m (w w' : mws T) cost n_iter log : (0 < m)%nat ->
    mtd_iterate fuel c k ud uw up t m w = Ok (w', cost, n_iter, log) ->
    cost = mtd_evaluate_cost c k w' /\ (n_iter < m)%nat /\ length log = S (S n_iter)
    /\ nth 0 log n0 = mtd_evaluate_cost c k w /\ nth (S n_iter) log n0 = cost
    /\ (forall i, (i < n_iter)%nat -> settled t log i = false)
    /\ (S n_iter = m \/ settled t log n_iter = true)
    /\ (forall i, (i <= n_iter)%nat -> mc_monotone c = true ->
          nltb (nth i log n0) (nth (S i) log n0) = false \/ nth (S i) log n0 = nth i log n0).
  Proof.
    intros Hm H. unfold mtd_iterate in H.
    apply (iterate_ok (mtd_evaluate_cost c k) (fun _ => True)) in H; auto.
    destruct H as (_ & A1 & A2 & A3 & A4 & A5 & A6 & A7 & A8).
    repeat (split; [assumption|]). intros i Hi Hmono. destruct (A8 i Hi) as [B1 B2].
    destruct (_ ++ _) as [|u us] eqn:E in B1.
    - right. apply B2. exact E.
    - left. assert (B3 : cost_increased (mc_monotone c) i (nth i log n0) (nth (S i) log n0) = false).
      { apply B1. congruence. }
      unfold cost_increased in B3. rewrite Hmono, andb_true_r in B3. exact B3.
  Qed.

  (** only the weights and the prediction change when nothing else is updated *)
  Lemma mtd_transform_keeps fuel c k t m (w w' : mws T) cost n_iter log : (0 < m)%nat ->
    mtd_iterate fuel c k false true false t m w = Ok (w', cost, n_iter, log) ->
    m_S w' = m_S w /\ m_order_weights w' = m_order_weights w /\ m_transition_matrices w' = m_transition_matrices w.
  Proof.
    intros Hm H. unfold mtd_iterate in H.
    apply (iterate_ok (mtd_evaluate_cost c k) (fun s => m_S s = m_S w /\ m_order_weights s = m_order_weights w
       /\ m_transition_matrices s = m_transition_matrices w)) in H; auto; [apply H|].
    intros u s s' Hu Es E. cbn in Hu. destruct Hu as [<-|[]].
    unfold mtd_update_weights, mtd_weights_line_search in E. cbv zeta in E. apply bind_ok in E. destruct E as (((w1 & st) & mem) & E1 & E2).
    injection E2 as <-. cbn [m_S m_order_weights m_transition_matrices mtd_set_Gamma_mem]. apply line_search_ok in E1. destruct E1 as (m0 & rest & fm & _ & _ & _ & E1).
    cbn [fst snd] in E1. apply backtrack_exit in E1; [|reflexivity]. destruct E1 as [_ [[-> _]| ->]]; exact Es.
  Qed.

  (** lag validation *)
  Lemma check_lags_ok (l : list (pyval T)) r : check_lags l = Ok r <-> l = map (fun z => PInt (Z.of_nat z)) r /\ Forall (fun z => (0 < z)%nat) r.
  Proof.
    revert r. induction l as [|v l IH]; intros r; cbn [check_lags].
    - split; [intros [= <-]; auto|]. intros [E _]. destruct r; [reflexivity | discriminate].
    - destruct v as [|z|x|]; try (split; [discriminate|]; intros [E _]; destruct r; discriminate).
      destruct (Z.ltb_spec z 1) as [Hz|Hz].
      + split; [discriminate|]. intros [E F]. destruct r as [|y r]; [discriminate|]. injection E as E _. inversion F; subst. lia.
      + split.
        * intros H. apply bind_ok in H. destruct H as (r0 & E & H). injection H as <-.
          apply IH in E. destruct E as [-> F]. split; [cbn; f_equal; f_equal; lia | constructor; [lia | exact F]].
        * intros [E F]. destruct r as [|y r]; [discriminate|]. injection E as E1 E2. inversion F; subst.
          rewrite (proj2 (IH r) (conj eq_refl H2)). cbn [bind]. rewrite Nat2Z.id. reflexivity.
  Qed.
  Lemma check_lags_raise (l : list (pyval T)) e : check_lags l = Raise e -> e = ValueError.
  Proof.
    revert e. induction l as [|v l IH]; intros e; cbn [check_lags]; [discriminate|].
    destruct v as [|z|x|]; try congruence. destruct (Z.ltb z 1); [congruence|].
    destruct (check_lags l) as [r|e'] eqn:E; cbn [bind]; [discriminate|]. intros [= <-]. apply (IH e' eq_refl).
  Qed.

  (** exceptions before the iteration *)
  Lemma check_init_order_weights_raise v p e : @check_init_order_weights T N v p = Raise e -> e = ValueError \/ e = AttributeError.
  Proof.
    unfold check_init_order_weights. destruct v as [v|]; [|intros [= <-]; auto]. destruct (Nat.eqb _ _); [|intros [= <-]; auto].
    unfold check_unit_vec_sum. destruct (isclose_one _); cbn [bind]; [discriminate | intros [= <-]; auto].
  Qed.
  Lemma check_init_transition_matrices_raise v p k e : @check_init_transition_matrices T N v p k = Raise e -> e = ValueError \/ e = AttributeError.
  Proof.
    unfold check_init_transition_matrices. destruct v as [v|]; [|intros [= <-]; auto]. destruct (andb _ _); [|intros [= <-]; auto].
    destruct (forallb _ _); [discriminate | intros [= <-]; auto].
  Qed.
  Definition mtd_init_exn (e : exn) : Prop := e = ValueError \/ e = IndexError \/ e = TypeError \/ e = AttributeError.
  Lemma mtd_choose_initial_raise c k data Din Win ow Ts ud uw up kw (g : rng T) e :
    mtd_choose_initial c k data Din Win ow Ts ud uw up kw g = Raise e -> mtd_init_exn e.
  Proof.
    unfold mtd_choose_initial, mtd_init_exn. cbv zeta.
    assert (F : forall e, fs_exn e -> e = ValueError \/ e = IndexError \/ e = TypeError \/ e = AttributeError).
    { unfold fs_exn. tauto. }
    assert (P : forall g : rng T, match (let! o := check_init_order_weights ow (n_lags c) in
                        let! M := check_init_transition_matrices Ts (n_lags c) k in Ok (o, M, g)) with
                | Ok _ => True | Raise e => e = ValueError \/ e = IndexError \/ e = TypeError \/ e = AttributeError end).
    { intros g0. destruct (check_init_order_weights _ _) eqn:E; cbn [bind]; [|apply check_init_order_weights_raise in E; tauto].
      destruct (check_init_transition_matrices _ _ _) eqn:E2; cbn [bind]; [exact I|apply check_init_transition_matrices_raise in E2; tauto]. }
    destruct (mc_init c) eqn:EI.
    4:{ destruct (check_init_weights _ _ _) eqn:E; cbn [bind]; [|intros [= <-]; left; eapply check_init_weights_raise, E].
        destruct (check_init_dictionary _ _ _) eqn:E2; cbn [bind]; [|intros [= <-]; left; eapply check_init_dictionary_raise, E2].
        specialize (P g). destruct (check_init_order_weights _ _) eqn:E3; cbn [bind] in *; [|intros [= <-]; exact P].
        destruct (check_init_transition_matrices _ _ _) eqn:E4; cbn [bind] in *; [discriminate|intros [= <-]; exact P]. }
    all: (match goal with |- bind ?A _ = _ -> _ => destruct A as [[D g1]|e1] eqn:E1 end; cbn [bind fst snd];
      [| intros [= <-]; destruct ud; [apply F; eapply initialize_dictionary_raise, E1
          | destruct (check_init_dictionary _ _ _) eqn:E2; cbn [bind] in E1; [discriminate|]; injection E1 as <-;
            left; eapply check_init_dictionary_raise, E2]];
      match goal with |- bind ?A _ = _ -> _ => destruct A as [[W g2]|e2] eqn:E2 end; cbn [bind fst snd];
      [| intros [= <-]; destruct uw; [destruct kw; [injection E2 as <-; auto | left; eapply initialize_weights_raise, E2]
          | destruct (check_init_weights _ _ _) eqn:E3; cbn [bind] in E2; [discriminate|]; injection E2 as <-;
            left; eapply check_init_weights_raise, E3]];
      match goal with |- bind ?A _ = _ -> _ => destruct A as [[[o0 M0] g3]|e3] eqn:E3 end; cbn [bind fst snd]; [discriminate|];
      intros [= <-]; destruct up; [destruct kw; [injection E3 as <-; auto |]; unfold initialize_parameters in E3; first [discriminate E3 | injection E3 as <-; auto]
        | specialize (P g2); rewrite E3 in P; exact P]).
  Qed.
End Runs.

(** ** starting points over R *)
(** the uniform draws are non-negative and no sum used as a divisor vanishes *)
Definition mrng_ok (p k : nat) (g : rng R) : Prop :=
  rng_ok k g /\ (forall q, Sum p (fun j => r_uniform g (q + j)) <> 0)
  /\ (forall q j, (j < k)%nat -> Sum k (fun i => r_uniform g (q + i * k + j)) <> 0).
Lemma mrng_ok_stream p k g g' : r_uniform g' = r_uniform g -> mrng_ok p k g -> mrng_ok p k g'.
Proof. unfold mrng_ok, rng_ok. intros ->. auto. Qed.

Lemma draw_transition_shape p k (g : rng R) :
  is_stack p k (fst (draw_transition_matrices p k g)) /\ r_uniform (snd (draw_transition_matrices p k g)) = r_uniform g.
Proof.
  revert g. induction p as [|p IH]; intros g; [split; [split; [reflexivity | intros; lia] | reflexivity]|].
  cbn [draw_transition_matrices]. destruct (left_stochastic_matrix k k g) as [M g1] eqn:E1.
  destruct (IH g1) as [[L S] U]. destruct (draw_transition_matrices p k g1) as [r g2]. cbn [fst snd] in *.
  unfold left_stochastic_matrix, draw_uniform_mat in E1. injection E1 as <- <-. split.
  - split; [cbn; lia|]. intros [|i] Hi; [apply is_mat_mbuild | apply S; lia].
  - exact U.
Qed.
Lemma draw_transition_stochastic p k (g : rng R) : (forall q, 0 <= r_uniform g q) ->
  (forall q j, (j < k)%nat -> Sum k (fun i => r_uniform g (q + i * k + j)) <> 0) ->
  stack_stochastic (fst (draw_transition_matrices p k g)).
Proof.
  revert g. induction p as [|p IH]; intros g H0 H1; [intros i Hi; cbn in Hi; lia|].
  cbn [draw_transition_matrices].
  pose proof (left_stochastic_ok k k g) as [A _]; [intros; apply H0 | intros; apply H1; assumption |].
  assert (U : r_uniform (snd (left_stochastic_matrix k k g)) = r_uniform g) by reflexivity.
  destruct (left_stochastic_matrix k k g) as [M g1] eqn:E1. cbn [fst snd] in *.
  specialize (IH g1). rewrite U in IH. specialize (IH H0 H1).
  destruct (draw_transition_matrices p k g1) as [r g2]. cbn [fst snd] in *.
  intros [|i] Hi; [exact A | apply IH; cbn in Hi; lia].
Qed.
Lemma initialize_parameters_ok k p init (g g' : rng R) ow Ts :
  initialize_parameters k p init g = Ok (ow, Ts, g') ->
  length ow = p /\ is_stack p k Ts /\ r_uniform g' = r_uniform g /\ (mrng_ok p k g -> prob_vec ow /\ stack_stochastic Ts).
Proof.
  intros H. assert (E : initialize_parameters_random k p g = (ow, Ts, g')).
  { unfold initialize_parameters in H. destruct init; congruence. }
  clear H. unfold initialize_parameters_random, draw_uniform_vec in E.
  match type of E with context [draw_transition_matrices p k ?gg] =>
    pose proof (draw_transition_shape p k gg) as [S U]; pose proof (draw_transition_stochastic p k gg) as St;
    destruct (draw_transition_matrices p k gg) as [Ts0 g2] eqn:E2 end.
  cbn [fst snd] in *. injection E as E <- <-. cbn [r_uniform] in *.
  assert (L : length ow = p) by (rewrite <- E, map_length; apply length_tab).
  split; [exact L|]. split; [exact S|]. split; [exact U|].
  intros ((H0 & _) & H1 & H2). split; [|apply St; [exact H0 | exact H2]].
  set (s := vsum _) in E.
  assert (Es : s = Sum p (fun j => r_uniform g (r_pos g + j))).
  { unfold s, vsum. rewrite length_tab, nsum_Sum. apply Sum_ext. intros i Hi. unfold vget. rewrite nth_tab by exact Hi. reflexivity. }
  assert (Hs : 0 < s).
  { rewrite Es. destruct (Rle_lt_or_eq_dec 0 (Sum p (fun j => r_uniform g (r_pos g + j)))) as [|E0];
      [apply Sum_nonneg; intros; apply H0 | assumption | symmetry in E0; destruct (H1 _ E0)]. }
  assert (Ei : forall i, (i < p)%nat -> at_ ow i = r_uniform g (r_pos g + i) / s).
  { intros i Hi. rewrite <- E. change at_ with (@vget R Num_R). rewrite vget_map by (rewrite length_tab; exact Hi).
    unfold vget. rewrite nth_tab by exact Hi. reflexivity. }
  split.
  - intros i Hi. rewrite L in Hi. rewrite Ei by exact Hi. apply Rmult_le_pos; [apply H0 | left; apply Rinv_0_lt_compat, Hs].
  - rewrite L. erewrite Sum_ext; [|exact Ei]. unfold Rdiv. rewrite Sum_scal_r. rewrite <- Es. apply Rinv_r. lra.
Qed.

(** user-supplied parameters *)
Definition wf_stack_opt (Ts : option (list (mat R))) : Prop := forall A, Ts = Some A -> Forall wf A.
Definition prob_opt (v : option (list R)) : Prop := forall a, v = Some a -> prob_vec a.
Definition stochastic_stack_opt (Ts : option (list (mat R))) : Prop := forall A, Ts = Some A -> stack_stochastic A.

Lemma check_init_order_weights_inv {T} {N : Num T} v p o : @check_init_order_weights T N v p = Ok o -> v = Some o /\ length o = p.
Proof.
  unfold check_init_order_weights. destruct v as [v|]; [|discriminate]. destruct (Nat.eqb_spec (length v) p); [|discriminate].
  destruct (check_unit_vec_sum v); cbn [bind]; [|discriminate]. intros [= <-]. auto.
Qed.
Lemma check_init_transition_inv v p k M : @check_init_transition_matrices R Num_R v p k = Ok M -> v = Some M /\ (Forall wf M -> is_stack p k M).
Proof.
  unfold check_init_transition_matrices. destruct v as [v|]; [|discriminate].
  destruct (Nat.eqb_spec (length v) p); cbn [andb]; [|discriminate].
  destruct (forallb (fun M => andb (Nat.eqb (nr M) k) (Nat.eqb (nc M) k)) v) eqn:E; [|discriminate].
  intros H. match type of H with (if ?b then _ else _) = _ => destruct b; [|discriminate] end. injection H as H. subst M. split; [reflexivity|]. intros F. split; [assumption|].
  intros i Hi. rewrite forallb_forall in E. rewrite Forall_forall in F.
  assert (I : In (nth i v (mkmat 0 0 [])) v) by (apply nth_In; lia). specialize (E _ I). specialize (F _ I).
  apply andb_prop in E. destruct E as [E1 E2]. apply Nat.eqb_eq in E1, E2. apply is_mat_wf. auto.
Qed.

Lemma mtd_choose_initial_ok c k data Din Win ow Ts ud uw up kw (g g' : rng R) D W ow0 Ts0 :
  mtd_choose_initial c k data Din Win ow Ts ud uw up kw g = Ok (D, W, ow0, Ts0, g') ->
  wf_opt Din -> wf_opt Win -> wf_stack_opt Ts ->
  is_mat k (nc data) D /\ is_mat (nr data) k W /\ length ow0 = n_lags c /\ is_stack (n_lags c) k Ts0 /\ r_uniform g' = r_uniform g
  /\ (stochastic_opt Win -> rng_ok k g -> row_stochastic W)
  /\ (prob_opt ow -> stochastic_stack_opt Ts -> mrng_ok (n_lags c) k g -> prob_vec ow0 /\ stack_stochastic Ts0).
Proof.
  intros H WD WW WT. unfold mtd_choose_initial in H.
  assert (CD : forall D, check_init_dictionary Din k (nc data) = Ok D -> is_mat k (nc data) D).
  { intros D0 E. apply check_init_dictionary_ok_inv in E. destruct E as (E & e1 & e2). apply is_mat_wf. auto. }
  assert (CW : forall W, check_init_weights Win (nr data) k = Ok W -> is_mat (nr data) k W /\ (stochastic_opt Win -> row_stochastic W)).
  { intros W0 E. apply check_init_weights_ok_inv in E. destruct E as (E & e1 & e2). split; [apply is_mat_wf; auto | auto]. }
  assert (CO : forall o, check_init_order_weights ow (n_lags c) = Ok o -> length o = n_lags c /\ (prob_opt ow -> prob_vec o)).
  { intros o E. apply check_init_order_weights_inv in E. destruct E as [E L]. auto. }
  assert (CT : forall M, check_init_transition_matrices Ts (n_lags c) k = Ok M -> is_stack (n_lags c) k M /\ (stochastic_stack_opt Ts -> stack_stochastic M)).
  { intros M E. apply check_init_transition_inv in E. destruct E as [E L]. auto. }
  cbv zeta in H. destruct (mc_init c) eqn:EI.
  4:{ apply bind_ok in H. destruct H as (W0 & E1 & H). apply bind_ok in H. destruct H as (D0 & E2 & H).
      apply bind_ok in H. destruct H as (o & E3 & H). apply bind_ok in H. destruct H as (M & E4 & H).
      injection H as <- <- <- <- <-. destruct (CW _ E1), (CO _ E3), (CT _ E4).
      split; [auto|]. split; [auto|]. split; [auto|]. split; [auto|]. split; [auto|]. split; [auto|]. auto. }
  all: (apply bind_ok in H; destruct H as ((D0 & g1) & E1 & H); cbn [fst snd] in H;
    apply bind_ok in H; destruct H as ((W0 & g2) & E2 & H); cbn [fst snd] in H;
    apply bind_ok in H; destruct H as (((o & M) & g3) & E3 & H); injection H as <- <- <- <- <-;
    assert (A1 : is_mat k (nc data) D0 /\ r_uniform g1 = r_uniform g)
      by (destruct ud; [eapply initialize_dictionary_ok, E1 | apply bind_ok in E1; destruct E1 as (D1 & F1 & F2); injection F2 as <- <-; auto]);
    assert (A2 : is_mat (nr data) k W0 /\ r_uniform g2 = r_uniform g1 /\ (stochastic_opt Win -> rng_ok k g1 -> row_stochastic W0))
      by (destruct uw; [destruct kw; [discriminate E2|]; apply initialize_weights_ok in E2; destruct E2 as (F1 & F2 & F3); split; [exact F1|]; split; [exact F2|]; intros _; exact F3
        | apply bind_ok in E2; destruct E2 as (W1 & F1 & F2); injection F2 as <- <-; destruct (CW _ F1) as [F3 F4]; split; [exact F3|]; split; [reflexivity|]; intros F5 _; exact (F4 F5)]);
    assert (A3 : length o = n_lags c /\ is_stack (n_lags c) k M /\ r_uniform g3 = r_uniform g2
        /\ (prob_opt ow -> stochastic_stack_opt Ts -> mrng_ok (n_lags c) k g2 -> prob_vec o /\ stack_stochastic M))
      by (destruct up; [destruct kw; [discriminate E3|]; apply initialize_parameters_ok in E3; destruct E3 as (F1 & F2 & F3 & F4); split; [exact F1|]; split; [exact F2|]; split; [exact F3|]; intros _ _; exact F4
        | apply bind_ok in E3; destruct E3 as (o1 & F1 & F2); apply bind_ok in F2; destruct F2 as (M1 & F2 & F3); injection F3 as <- <- <-;
          destruct (CO _ F1) as [F4 F5], (CT _ F2) as [F6 F7]; split; [exact F4|]; split; [exact F6|]; split; [reflexivity|]; intros F8 F9 _; exact (conj (F5 F8) (F7 F9))]);
    destruct A1 as (B1 & B2), A2 as (B3 & B4 & B5), A3 as (B6 & B7 & B8 & B9);
    split; [exact B1|]; split; [exact B3|]; split; [exact B6|]; split; [exact B7|]; split; [congruence|]; split;
    [ intros Hs Hg; apply B5; [exact Hs | eapply rng_ok_stream; [exact B2 | exact Hg]]
    | intros Hs1 Hs2 Hg; apply B9; [exact Hs1 | exact Hs2 | eapply mrng_ok_stream; [|exact Hg]; congruence]]).
Qed.

(** ** invariant of a run *)
Definition minv (c : mtd_cfg R) (n d k : nat) (X : mat R) (sw sp : Prop) (w : mws R) : Prop :=
  mok c n d k X w /\ length (m_f_S_mem w) = mc_memory c /\ length (m_f_Gamma_mem w) = mc_memory c
  /\ length (m_f_parameters_mem w) = mc_memory c
  /\ (sw -> row_stochastic (m_Gamma w)) /\ (sp -> prob_vec (m_order_weights w) /\ stack_stochastic (m_transition_matrices w)).
Definition mtd_updates fuel (c : mtd_cfg R) k (ud uw up : bool) : list (mws R -> res (mws R)) :=
  enabled ud (mtd_update_dictionary fuel c k) ++ enabled uw (mtd_update_weights fuel c k) ++ enabled up (mtd_update_parameters fuel c k).
Lemma in_mtd_updates fuel c k ud uw up u : In u (mtd_updates fuel c k ud uw up) ->
  u = mtd_update_dictionary fuel c k \/ u = mtd_update_weights fuel c k \/ u = mtd_update_parameters fuel c k.
Proof.
  intros H. apply in_app_or in H. destruct H as [H|H]; [|apply in_app_or in H; destruct H as [H|H]];
    apply in_enabled in H; tauto.
Qed.
Lemma minv_updates c n d k X (sw sp : Prop) ud uw up fuel : (0 < k)%nat -> mc_lags c <> [] ->
  0 < ls_sigma_one (mc_ls c) -> ls_sigma_two (mc_ls c) < 1 ->
  forall u s s', In u (mtd_updates fuel c k ud uw up) -> minv c n d k X sw sp s -> u s = Ok s' -> minv c n d k X sw sp s'.
Proof.
  intros Hk Hl H1 H2 u s s' Hu (I1 & I2 & I3 & I4 & I5 & I6) E. apply in_mtd_updates in Hu. destruct Hu as [->|[->| ->]].
  - apply (mtd_update_dictionary_inv c n d k X) in E; try assumption. destruct E as (J1 & S & a & mem & -> & JS & Ja & Jm).
    split; [exact J1|]. cbn [m_f_S_mem m_f_Gamma_mem m_f_parameters_mem m_Gamma m_order_weights m_transition_matrices mtd_set_S_mem mtd_set_S mrefresh_d].
    repeat (split; [first [assumption | congruence]|]). assumption.
  - apply (mtd_update_weights_inv c n d k X) in E; try assumption. destruct E as (J1 & G & a & mem & -> & JS & Ja & Jm & Jst).
    split; [exact J1|]. cbn [m_f_S_mem m_f_Gamma_mem m_f_parameters_mem m_Gamma m_order_weights m_transition_matrices mtd_set_Gamma_mem mtd_set_Gamma mrefresh_w].
    split; [assumption|]. split; [congruence|]. split; [assumption|]. split; [|assumption]. intros Hs; apply Jst, I5, Hs.
  - apply (mtd_update_parameters_inv c n d k X) in E; try assumption.
    destruct E as (J1 & ow & Ts & a & mem & -> & JO & JT & Ja & Jm & Jst1 & Jst2).
    split; [exact J1|]. cbn [m_f_S_mem m_f_Gamma_mem m_f_parameters_mem m_Gamma m_order_weights m_transition_matrices mtd_set_parameters_mem mtd_set_parameters].
    split; [assumption|]. split; [assumption|]. split; [congruence|]. split; [assumption|]. intros Hs; destruct (I6 Hs); auto.
Qed.
Lemma mtd_iterate_inv c n d k X (sw sp : Prop) ud uw up fuel t m w w' cost n_iter log : (0 < k)%nat -> (0 < m)%nat -> mc_lags c <> [] ->
  0 < ls_sigma_one (mc_ls c) -> ls_sigma_two (mc_ls c) < 1 ->
  minv c n d k X sw sp w -> mtd_iterate fuel c k ud uw up t m w = Ok (w', cost, n_iter, log) -> minv c n d k X sw sp w'.
Proof.
  intros Hk Hm Hl H1 H2 I H. unfold mtd_iterate in H.
  apply (iterate_ok (mtd_evaluate_cost c k) (minv c n d k X sw sp)) in H; auto.
  - apply H.
  - intros u s s'. apply minv_updates; assumption.
Qed.
Lemma start_minv c data W D ow Ts n d k : is_mat n d data -> is_mat n k W -> is_mat k d D ->
  length ow = n_lags c -> is_stack (n_lags c) k Ts ->
  minv c n d k data (row_stochastic W) (prob_vec ow /\ stack_stochastic Ts) (mtd_initialize_workspace c data W D ow Ts).
Proof.
  intros HX HW HD HO HT. split; [exact (conj eq_refl (conj HW (conj HD (conj eq_refl (conj HO (conj HT eq_refl))))))|].
  cbn [mtd_initialize_workspace m_f_S_mem m_f_Gamma_mem m_f_parameters_mem m_Gamma m_order_weights m_transition_matrices].
  rewrite repeat_length. auto.
Qed.

(** ** totality *)
Lemma mtd_iterate_total c : ls_valid (mc_ls c) -> (0 < mc_memory c)%nat -> mc_lags c <> [] -> exists M, forall fuel, (M <= fuel)%nat ->
  forall n d k X sw sp ud uw up t m w, (0 < k)%nat -> minv c n d k X sw sp w ->
   (exists r, mtd_iterate fuel c k ud uw up t m w = Ok r)
   \/ (mtd_iterate fuel c k ud uw up t m w = Raise RuntimeError /\ mc_monotone c = true).
Proof.
  intros Hls Hmem Hl. destruct (mtd_update_dictionary_total c Hls) as [M1 HM1]. destruct (mtd_update_weights_total c Hls) as [M2 HM2].
  destruct (mtd_update_parameters_total c Hls) as [M3 HM3].
  exists (max (max M1 M2) M3). intros fuel Hf n d k X sw sp ud uw up t m w Hk I.
  destruct Hls as (H1 & H2 & H3).
  pose proof (minv_updates c n d k X sw sp ud uw up fuel Hk Hl H1 H2) as Hp.
  assert (Hu : forall u s, In u (mtd_updates fuel c k ud uw up) -> minv c n d k X sw sp s -> exists s', u s = Ok s' /\ minv c n d k X sw sp s').
  { intros u s Iu Is. assert (exists s', u s = Ok s').
    { pose proof Is as (J1 & J2 & J3 & J4 & _). apply in_mtd_updates in Iu. destruct Iu as [->|[->| ->]].
      - apply HM1; [lia|]. intros E. rewrite E in J2. cbn in J2. lia.
      - apply HM2; [lia|]. intros E. rewrite E in J3. cbn in J3. lia.
      - apply HM3; [lia|]. intros E. rewrite E in J4. cbn in J4. lia. }
    destruct H as [s' E]. exists s'. split; [exact E | eapply Hp; eauto]. }
  destruct (mtd_iterate fuel c k ud uw up t m w) as [r|e] eqn:E; [left; eauto|]. right.
  unfold mtd_iterate, iterate in E. apply (iterate_loop_raise _ _ _ _ _ Hp) in E; [|reflexivity | exact I].
  destruct E as [[-> (i & s0 & s & _ & _ & B)] | (u & s & Iu & Is & Eu)].
  - split; [reflexivity|]. unfold cost_increased in B. apply andb_prop in B. apply B.
  - destruct (Hu u s Iu Is) as (s' & E' & _). congruence.
Qed.
Lemma mtd_convex_coding_ends c : ls_valid (mc_ls c) -> (0 < mc_memory c)%nat ->
  exists M, forall fuel, (M <= fuel)%nat -> forall o data Din Win ow Ts ud uw up kw n d, mo_cfg o = c -> is_mat n d data ->
    wf_opt Din -> wf_opt Win -> wf_stack_opt Ts ->
    (exists r, mtd_convex_coding fuel o data Din Win ow Ts ud uw up kw = Ok r)
    \/ (exists e, mtd_convex_coding fuel o data Din Win ow Ts ud uw up kw = Raise e
         /\ (mtd_init_exn e \/ (e = RuntimeError /\ mc_monotone c = true))).
Proof.
  intros Hls Hmem. destruct (mc_lags c) as [|l0 ls] eqn:EL.
  - exists 0%nat. intros fuel _ o data Din Win ow Ts ud uw up kw n d Eo HX WD WW WT. right. unfold mtd_convex_coding. rewrite Eo.
    destruct (check_params _ _ _) as [[[k m] t]|e] eqn:E1; cbn [bind].
    2:{ exists e. apply check_params_raise in E1. unfold mtd_init_exn. auto. }
    destruct (mtd_choose_initial _ _ _ _ _ _ _ _ _ _ _ _) as [[[[[D W] o0] M0] g']|e] eqn:E2; cbn [bind].
    2:{ exists e. split; [reflexivity|]. left. eapply mtd_choose_initial_raise, E2. }
    unfold check_max_lag. rewrite EL. cbn [bind]. exists ValueError. unfold mtd_init_exn. auto.
  - assert (Hl : mc_lags c <> []) by (rewrite EL; discriminate).
    destruct (mtd_iterate_total c Hls Hmem Hl) as [M HM]. exists M.
    intros fuel Hf o data Din Win ow Ts ud uw up kw n d Eo HX WD WW WT. unfold mtd_convex_coding. rewrite Eo.
    destruct (check_params _ _ _) as [[[k m] t]|e] eqn:E1; cbn [bind].
    2:{ right. exists e. apply check_params_raise in E1. unfold mtd_init_exn. auto. }
    apply check_params_ok in E1. destruct E1 as (_ & Hk & _ & Hm & _).
    destruct (mtd_choose_initial _ _ _ _ _ _ _ _ _ _ _ _) as [[[[[D W] o0] M0] g']|e] eqn:E2; cbn [bind].
    2:{ right. exists e. split; [reflexivity|]. left. eapply mtd_choose_initial_raise, E2. }
    apply mtd_choose_initial_ok in E2; try assumption. destruct E2 as (HD & HW & HO & HT & _).
    assert (nr data = n /\ nc data = d) as [x1 x2] by (split; apply HX). rewrite x1 in HW. rewrite x2 in HD.
    unfold check_max_lag. rewrite EL. cbn [bind].
    destruct (HM fuel Hf n d k data (row_stochastic W) (prob_vec o0 /\ stack_stochastic M0) ud uw up t m
                (mtd_initialize_workspace c data W D o0 M0) Hk) as [[r E]|[E Hmono]].
    + apply start_minv; assumption.
    + rewrite E. destruct r as [[[w2 cost] n_iter] log]. cbn [bind]. left; eauto.
    + rewrite E. cbn [bind]. right. exists RuntimeError. auto.
Qed.

(** the streams themselves never change *)
Lemma mtd_choose_streams {T} {N : Num T} c k data Din Win ow Ts ud uw up kw (g g' : rng T) D W ow0 Ts0 :
  mtd_choose_initial c k data Din Win ow Ts ud uw up kw g = Ok (D, W, ow0, Ts0, g') ->
  r_uniform g' = r_uniform g /\ r_normal g' = r_normal g /\ r_int g' = r_int g.
Proof.
  assert (ID : forall init kw (g : rng T) D g', initialize_dictionary (T := T) data k init kw g = Ok (D, g') ->
      r_uniform g' = r_uniform g /\ r_normal g' = r_normal g /\ r_int g' = r_int g).
  { clear. intros init kw g D g'. unfold initialize_dictionary. destruct init; try discriminate; try (intros [= _ <-]; auto).
    unfold initialize_dictionary_furthest_sum. intros H. apply bind_ok in H. destruct H as ((s & g1) & E1 & H).
    apply bind_ok in H. destruct H as (sel & E2 & H). apply bind_ok in H. destruct H as (_ & _ & H). injection H as _ <-. cbn [snd].
    destruct (fk_start_index kw); [injection E1 as <- <-; auto|].
    apply bind_ok in E1. destruct E1 as ((z & g2) & E1 & E3). injection E3 as <- <-. cbn [snd].
    unfold draw_randint in E1. destruct (Nat.eqb _ 0); [discriminate|]. injection E1 as _ <-. auto. }
  assert (IW : forall init (g : rng T) W g', initialize_weights (T := T) data k init g = Ok (W, g') ->
      r_uniform g' = r_uniform g /\ r_normal g' = r_normal g /\ r_int g' = r_int g).
  { clear. intros init g W g'. unfold initialize_weights. destruct init; try discriminate; intros [= _ <-]; auto. }
  assert (IT : forall p (g : rng T), r_uniform (snd (draw_transition_matrices p k g)) = r_uniform g
      /\ r_normal (snd (draw_transition_matrices p k g)) = r_normal g /\ r_int (snd (draw_transition_matrices p k g)) = r_int g).
  { clear. induction p as [|p IH]; intros g; [auto|]. cbn [draw_transition_matrices].
    destruct (left_stochastic_matrix k k g) as [M g1] eqn:E1. specialize (IH g1).
    destruct (draw_transition_matrices p k g1) as [r g2]. cbn [fst snd] in *.
    unfold left_stochastic_matrix, draw_uniform_mat in E1. injection E1 as _ <-. exact IH. }
  assert (IP : forall p init (g : rng T) a b g', initialize_parameters (T := T) k p init g = Ok (a, b, g') ->
      r_uniform g' = r_uniform g /\ r_normal g' = r_normal g /\ r_int g' = r_int g).
  { clear - IT. intros p init g a b g' H. assert (E : initialize_parameters_random k p g = (a, b, g')).
    { unfold initialize_parameters in H. destruct init; congruence. }
    unfold initialize_parameters_random, draw_uniform_vec in E.
    match type of E with context [draw_transition_matrices p k ?gg] => pose proof (IT p gg) as F;
      destruct (draw_transition_matrices p k gg) as [Ts0 g2] end.
    cbn [fst snd] in F. injection E as _ _ <-. exact F. }
  unfold mtd_choose_initial. cbv zeta. intros H. destruct (mc_init c).
  4:{ apply bind_ok in H. destruct H as (W0 & E1 & H). apply bind_ok in H. destruct H as (D0 & E2 & H).
      apply bind_ok in H. destruct H as (o & E3 & H). apply bind_ok in H. destruct H as (M & E4 & H).
      injection H as <- <- <- <- <-. auto. }
  all: (apply bind_ok in H; destruct H as ((D0 & g1) & E1 & H); cbn [fst snd] in H;
    apply bind_ok in H; destruct H as ((W0 & g2) & E2 & H); cbn [fst snd] in H;
    apply bind_ok in H; destruct H as (((o & M) & g3) & E3 & H); injection H as <- <- <- <- <-;
    assert (A1 : r_uniform g1 = r_uniform g /\ r_normal g1 = r_normal g /\ r_int g1 = r_int g)
      by (destruct ud; [eapply ID, E1 | apply bind_ok in E1; destruct E1 as (D1 & F1 & F2); injection F2 as <- <-; auto]);
    assert (A2 : r_uniform g2 = r_uniform g1 /\ r_normal g2 = r_normal g1 /\ r_int g2 = r_int g1)
      by (destruct uw; [destruct kw; [discriminate E2|]; eapply IW, E2
        | apply bind_ok in E2; destruct E2 as (W1 & F1 & F2); injection F2 as <- <-; auto]);
    assert (A3 : r_uniform g3 = r_uniform g2 /\ r_normal g3 = r_normal g2 /\ r_int g3 = r_int g2)
      by (destruct up; [destruct kw; [discriminate E3|]; eapply IP, E3
        | apply bind_ok in E3; destruct E3 as (o1 & F1 & F2); apply bind_ok in F2; destruct F2 as (M1 & F2 & F3); injection F3 as <- <- <-; auto]);
    destruct A1 as (? & ? & ?), A2 as (? & ? & ?), A3 as (? & ? & ?); repeat split; congruence).
Qed.

(** the start of a transform *)
Lemma mtd_choose_transform_inv {T} {N : Num T} c k data S ow Ts (g g' : rng T) D W ow0 Ts0 :
  mtd_choose_initial c k data S None ow Ts false true false None g = Ok (D, W, ow0, Ts0, g') ->
  S = Some D /\ ow = Some ow0 /\ (exists l, Ts = Some l /\ Ts0 = l) /\ mc_init c <> InitCustom.
Proof.
  unfold mtd_choose_initial. cbv zeta. intros H. destruct (mc_init c) eqn:EI.
  4:{ discriminate. }
  all: (apply bind_ok in H; destruct H as ((D0 & g1) & E1 & H); cbn [fst snd] in H;
    apply bind_ok in H; destruct H as ((W0 & g2) & E2 & H); cbn [fst snd] in H;
    apply bind_ok in H; destruct H as (((o & M) & g3) & E3 & H); injection H as <- <- <- <- <-;
    apply bind_ok in E1; destruct E1 as (D1 & F1 & F2); injection F2 as <- <-;
    apply bind_ok in E3; destruct E3 as (o1 & F3 & F4); apply bind_ok in F4; destruct F4 as (M1 & F4 & F5); injection F5 as <- <- <-;
    split; [eapply check_init_dictionary_ok_inv, F1|]; split; [eapply check_init_order_weights_inv, F3|]; split; [|discriminate];
    unfold check_init_transition_matrices in F4; destruct Ts as [l|]; [|discriminate];
    exists l; split; [reflexivity|];
    repeat match type of F4 with (if ?b then _ else _) = _ => destruct b; [|discriminate] end; injection F4 as <-; reflexivity).
Qed.
