From Coq Require Import List Arith Lia ZArith Reals Lra Psatz Bool.
From Verif Require Import Num Mat Py Spec M_simplex M_spg M_iter M_random M_furthest M_gpnh M_aa.
From Verif Require Import P_lin P_simplex P_spg P_furthest P_random P_mat P_iter P_gpnh P_gpnh_run P_aa.
Import ListNotations.
Local Open Scope R_scope.

(** ** whole runs, any arithmetic *)
Section Runs.
  Context {T : Type} {N : Num T}.

  Lemma kernel_aa_inv fuel (o : aa T) K Din Win ud uw kw r :
    kernel_aa fuel o K Din Win ud uw kw = Ok r ->
    exists k m t D W g' w2,
      nc K = nr K
      /\ resolve_components (ao_n_components o) (nr K) = PInt (Z.of_nat k) /\ (0 < k)%nat
      /\ ac_max_iterations (ao_cfg o) = PInt (Z.of_nat m) /\ (0 < m)%nat /\ tol_value (ac_tolerance (ao_cfg o)) t
      /\ aa_choose_initial (ao_cfg o) k K Din Win ud uw kw (ao_rng o) = Ok (D, W, g')
      /\ aa_iterate fuel (ao_cfg o) ud uw t m (aa_initialize_workspace (ao_cfg o) k K W D)
         = Ok (w2, ar_cost r, ar_n_iter r, ar_log r)
      /\ ar_obj r = mk_aa (ao_cfg o) (PInt (Z.of_nat k)) (ao_seeded o) (if ao_seeded o then ao_rng o else g') (Some w2)
           (ao_dictionary_ o) (ao_cost_ o) (ao_n_iter_ o) (ao_n_components_ o)
      /\ ar_warned r = andb (Nat.eqb (ar_n_iter r) m) (nltb n0 t).
  Proof.
    unfold kernel_aa. destruct (Nat.eqb_spec (nc K) (nr K)) as [Esq|]; cbn [negb]; [|discriminate].
    intros H. apply bind_ok in H. destruct H as (((k & m) & t) & E1 & H).
    apply check_params_ok in E1. destruct E1 as (K1 & K2 & M1 & M2 & T1).
    apply bind_ok in H. destruct H as (((D & W) & g') & E2 & H).
    apply bind_ok in H. destruct H as ((((w2 & cost) & n_iter) & log) & E3 & H). injection H as <-. cbn [ar_obj ar_cost ar_n_iter ar_log ar_warned].
    exists k, m, t, D, W, g', w2. rewrite K1. repeat split; auto.
  Qed.
  Lemma aa_fit_transform_inv fuel (o : aa T) K Din Win ud uw kw r Wout :
    aa_fit_transform fuel o K Din Win ud uw kw = Ok (r, Wout) ->
    exists k m t D W g' w2,
      nc K = nr K
      /\ resolve_components (ao_n_components o) (nr K) = PInt (Z.of_nat k) /\ (0 < k)%nat
      /\ ac_max_iterations (ao_cfg o) = PInt (Z.of_nat m) /\ (0 < m)%nat /\ tol_value (ac_tolerance (ao_cfg o)) t
      /\ aa_choose_initial (ao_cfg o) k K Din Win ud uw kw (ao_rng o) = Ok (D, W, g')
      /\ aa_iterate fuel (ao_cfg o) ud uw t m (aa_initialize_workspace (ao_cfg o) k K W D)
         = Ok (w2, ar_cost r, ar_n_iter r, ar_log r)
      /\ ar_obj r = mk_aa (ao_cfg o) (PInt (Z.of_nat k)) (ao_seeded o) (if ao_seeded o then ao_rng o else g') (Some w2)
           (Some (a_C w2)) (Some (ar_cost r)) (Some (ar_n_iter r)) (Some (nr (a_C w2)))
      /\ ar_warned r = andb (Nat.eqb (ar_n_iter r) m) (nltb n0 t)
      /\ Wout = a_S w2.
  Proof.
    unfold aa_fit_transform. intros H. apply bind_ok in H. destruct H as (r0 & E & H).
    apply kernel_aa_inv in E. destruct E as (k & m & t & D & W & g' & w2 & A0 & A1 & A2 & A3 & A4 & A5 & A6 & A7 & A8 & A9).
    unfold aa_set_fitted in H. rewrite A8 in H. cbn in H. injection H as <- <-. cbn [ar_obj ar_cost ar_n_iter ar_log ar_warned].
    exists k, m, t, D, W, g', w2. repeat split; auto.
  Qed.
  Lemma aa_transform_inv fuel (o : aa T) K r Wout :
    aa_transform fuel o K = Ok (r, Wout) ->
    exists k m t D W g' w2,
      nc K = nr K
      /\ resolve_components (ao_n_components o) (nr K) = PInt (Z.of_nat k) /\ (0 < k)%nat
      /\ ac_max_iterations (ao_cfg o) = PInt (Z.of_nat m) /\ (0 < m)%nat /\ tol_value (ac_tolerance (ao_cfg o)) t
      /\ aa_choose_initial (ao_cfg o) k K (option_map a_C (ao_ws o)) None false true None (ao_rng o) = Ok (D, W, g')
      /\ aa_iterate fuel (ao_cfg o) false true t m (aa_initialize_workspace (ao_cfg o) k K W D)
         = Ok (w2, ar_cost r, ar_n_iter r, ar_log r)
      /\ ar_obj r = mk_aa (ao_cfg o) (PInt (Z.of_nat k)) (ao_seeded o) (if ao_seeded o then ao_rng o else g') (Some w2)
           (ao_dictionary_ o) (ao_cost_ o) (ao_n_iter_ o) (ao_n_components_ o)
      /\ ar_warned r = andb (Nat.eqb (ar_n_iter r) m) (nltb n0 t)
      /\ Wout = a_S w2.
  Proof.
    unfold aa_transform. intros H. apply bind_ok in H. destruct H as (r0 & E & H).
    apply kernel_aa_inv in E. destruct E as (k & m & t & D & W & g' & w2 & A0 & A1 & A2 & A3 & A4 & A5 & A6 & A7 & A8 & A9).
    rewrite A8 in H. cbn in H. injection H as <- <-.
    exists k, m, t, D, W, g', w2. repeat split; auto.
  Qed.

  Lemma aa_iterate_log fuel (c : aa_cfg T) ud uw t m w w' cost n_iter log : (0 < m)%nat ->
    aa_iterate fuel c ud uw t m w = Ok (w', cost, n_iter, log) ->
    cost = aa_evaluate_cost c w' /\ (n_iter < m)%nat /\ length log = S (S n_iter)
    /\ nth 0 log n0 = aa_evaluate_cost c (aa_refresh c w) /\ nth (S n_iter) log n0 = cost
    /\ (forall i, (i < n_iter)%nat -> settled t log i = false)
    /\ (S n_iter = m \/ settled t log n_iter = true)
    /\ (forall i, (i <= n_iter)%nat -> ac_monotone c = true ->
          nltb (nth i log n0) (nth (S i) log n0) = false \/ nth (S i) log n0 = nth i log n0).
  Proof.
    intros Hm H. unfold aa_iterate in H.
    apply (iterate_ok (aa_evaluate_cost c) (fun _ => True)) in H; auto.
    destruct H as (_ & A1 & A2 & A3 & A4 & A5 & A6 & A7 & A8).
    repeat (split; [assumption|]). intros i Hi Hmono. destruct (A8 i Hi) as [B1 B2].
    destruct (_ ++ _) as [|u us] eqn:E in B1.
    - right. apply B2. exact E.
    - left. assert (B3 : cost_increased (ac_monotone c) i (nth i log n0) (nth (S i) log n0) = false).
      { apply B1. congruence. }
      unfold cost_increased in B3. rewrite Hmono, andb_true_r in B3. exact B3.
  Qed.

  (** the dictionary is not touched when it is not updated *)
  Lemma aa_transform_keeps_C fuel (c : aa_cfg T) t m w w' cost n_iter log : (0 < m)%nat ->
    aa_iterate fuel c false true t m w = Ok (w', cost, n_iter, log) -> a_C w' = a_C w.
  Proof.
    intros Hm H. unfold aa_iterate in H.
    apply (iterate_ok (aa_evaluate_cost c) (fun s => a_C s = a_C w)) in H; auto; [apply H|].
    intros u s s' Hu Es E. cbn in Hu. destruct Hu as [<-|[]].
    unfold and_refresh in E. apply bind_ok in E. destruct E as (s1 & E & E0). injection E0 as <-. cbn [aa_refresh a_C].
    unfold aa_update_weights, aa_weights_line_search in E. cbv zeta in E. apply bind_ok in E. destruct E as (((w1 & st) & mem) & E1 & E2).
    injection E2 as <-. cbn [a_C]. apply line_search_ok in E1. destruct E1 as (m0 & rest & fm & _ & _ & _ & E1).
    cbn [fst snd] in E1. apply backtrack_exit in E1; [|reflexivity]. destruct E1 as [_ [[-> _]| ->]]; exact Es.
  Qed.

  Lemma aa_choose_initial_streams (c : aa_cfg T) k K Din Win ud uw kw (g g' : rng T) D W :
    aa_choose_initial c k K Din Win ud uw kw g = Ok (D, W, g') ->
    r_uniform g' = r_uniform g /\ r_normal g' = r_normal g /\ r_int g' = r_int g.
  Proof.
    assert (ID : forall init kw g D g', aa_initialize_dictionary K k init kw g = Ok (D, g') ->
        r_uniform g' = r_uniform g /\ r_normal g' = r_normal g /\ r_int g' = r_int g).
    { clear. intros init kw g D g'. unfold aa_initialize_dictionary.
      assert (F : aa_dictionary_furthest_sum K k kw g = Ok (D, g') ->
        r_uniform g' = r_uniform g /\ r_normal g' = r_normal g /\ r_int g' = r_int g).
      { unfold aa_dictionary_furthest_sum. intros H. apply bind_ok in H. destruct H as ((s & g1) & E1 & H).
        apply bind_ok in H. destruct H as (sel & E2 & H). apply bind_ok in H. destruct H as (_ & _ & H). injection H as _ <-. cbn [snd].
        destruct (fk_start_index kw); [injection E1 as <- <-; auto|].
        apply bind_ok in E1. destruct E1 as ((z & g2) & E1 & E3). injection E3 as <- <-. cbn [snd].
        unfold draw_randint in E1. destruct (Nat.eqb _ 0); [discriminate|]. injection E1 as _ <-. auto. }
      destruct init; try discriminate; try exact F. intros [= _ <-]; auto. }
    assert (IW : forall init g W g', aa_initialize_weights K k init g = Ok (W, g') ->
        r_uniform g' = r_uniform g /\ r_normal g' = r_normal g /\ r_int g' = r_int g).
    { clear. intros init g W g'. unfold aa_initialize_weights. destruct init; try discriminate; intros [= _ <-]; auto. }
    unfold aa_choose_initial. cbv zeta. intros H.
    destruct (ac_init c);
    try (destruct (andb (negb ud) uw);
      [ apply bind_ok in H; destruct H as (D0 & E1 & H); destruct kw; [discriminate|];
        apply bind_ok in H; destruct H as ((W0 & g0) & E2 & H); injection H as <- <- <-; eapply IW, E2
      | destruct (andb ud (negb uw));
        [ apply bind_ok in H; destruct H as (W0 & E1 & H); apply bind_ok in H; destruct H as ((D0 & g0) & E2 & H);
          injection H as <- <- <-; eapply ID, E2
        | apply bind_ok in H; destruct H as ((D0 & g0) & E1 & H); cbn [fst snd] in H; destruct kw; [discriminate|];
          apply bind_ok in H; destruct H as ((W0 & g1) & E2 & H); injection H as <- <- <-; cbn [snd];
          apply ID in E1; apply IW in E2; destruct E1 as (e1 & e2 & e3), E2 as (f1 & f2 & f3); repeat split; congruence ] ]).
    apply bind_ok in H. destruct H as (W0 & E1 & H). apply bind_ok in H. destruct H as (D0 & E2 & H).
    injection H as <- <- <-. auto.
  Qed.

  Lemma check_init_aa_dictionary_raise w r k e : check_init_aa_dictionary (T := T) w r k = Raise e -> e = ValueError.
  Proof.
    unfold check_init_aa_dictionary. destruct w as [A|]; cbn [check_array bind]; [|congruence]. destruct (all_finite A); cbn [bind]; [|congruence].
    unfold check_array_shape. destruct (andb _ _); cbn [bind]; [|congruence].
    unfold check_unit_row_sums. destruct (forallb _ _); cbn [bind]; congruence.
  Qed.
  Lemma check_init_aa_dictionary_inv w r k M : check_init_aa_dictionary (T := T) w r k = Ok M -> w = Some M /\ nr M = r /\ nc M = k.
  Proof.
    unfold check_init_aa_dictionary. destruct w as [A|]; cbn [check_array bind]; [|discriminate]. destruct (all_finite A); cbn [bind]; [|discriminate].
    unfold check_array_shape. destruct (andb _ _) eqn:E; cbn [bind]; [|discriminate].
    unfold check_unit_row_sums. destruct (forallb _ _); cbn [bind]; [|discriminate]. intros [= <-].
    apply andb_prop in E. destruct E as [E1 E2]. apply Nat.eqb_eq in E1, E2. auto.
  Qed.
  Lemma aa_initialize_weights_raise K k init g e : aa_initialize_weights (T := T) K k init g = Raise e -> e = ValueError.
  Proof. unfold aa_initialize_weights. destruct init; congruence. Qed.
  Lemma aa_initialize_dictionary_raise K k init kw g e : aa_initialize_dictionary (T := T) K k init kw g = Raise e -> fs_exn e.
  Proof.
    unfold fs_exn, aa_initialize_dictionary.
    assert (F : aa_dictionary_furthest_sum K k kw g = Raise e -> fs_exn e).
    { unfold fs_exn, aa_dictionary_furthest_sum. cbv zeta.
      match goal with |- bind ?A _ = _ -> _ => destruct A as [[s g1]|e1] eqn:E1 end; cbn [bind].
      - destruct (furthest_sum _ _ _ _ _) as [sel|e2] eqn:E2; cbn [bind].
        { unfold check_selected. destruct (forallb _ _); cbn [bind]; [discriminate|]. intros [= <-]; auto. }
        intros [= <-]. apply furthest_sum_raise in E2. exact E2.
      - intros [= <-]. destruct (fk_start_index kw); [discriminate|]. unfold draw_randint in E1.
        destruct (Nat.eqb _ 0); cbn [bind] in E1; [injection E1 as <-; auto | discriminate]. }
    destruct init; try exact F; try discriminate; intros [= <-]; auto.
  Qed.
  Lemma aa_choose_initial_raise c k K Din Win ud uw kw (g : rng T) e :
    aa_choose_initial c k K Din Win ud uw kw g = Raise e -> fs_exn e.
  Proof.
    unfold fs_exn, aa_choose_initial. cbv zeta.
    destruct (ac_init c);
    try (destruct (andb (negb ud) uw);
      [ destruct (check_init_aa_dictionary _ _ _) eqn:E; cbn [bind]; [|intros [= <-]; left; eapply check_init_aa_dictionary_raise, E];
        destruct kw; [intros [= <-]; auto|];
        destruct (aa_initialize_weights _ _ _ _) eqn:E2; cbn [bind]; [discriminate|]; intros [= <-]; left; eapply aa_initialize_weights_raise, E2
      | destruct (andb ud (negb uw));
        [ destruct (check_init_weights _ _ _) eqn:E; cbn [bind]; [|intros [= <-]; left; eapply check_init_weights_raise, E];
          destruct (aa_initialize_dictionary _ _ _ _ _) eqn:E2; cbn [bind]; [discriminate|]; intros [= <-]; eapply aa_initialize_dictionary_raise, E2
        | destruct (aa_initialize_dictionary _ _ _ _ _) eqn:E2; cbn [bind]; [|intros [= <-]; eapply aa_initialize_dictionary_raise, E2];
          destruct kw; [intros [= <-]; auto|];
          destruct (aa_initialize_weights _ _ _ _) eqn:E3; cbn [bind]; [discriminate|]; intros [= <-]; left; eapply aa_initialize_weights_raise, E3 ] ]).
    destruct (check_init_weights _ _ _) eqn:E; cbn [bind]; [|intros [= <-]; left; eapply check_init_weights_raise, E].
    destruct (check_init_aa_dictionary _ _ _) eqn:E2; cbn [bind]; [discriminate|]. intros [= <-]; left; eapply check_init_aa_dictionary_raise, E2.
  Qed.
End Runs.

(** ** starting points, over R *)
(** the rows of a FurthestSum dictionary are unit coordinate rows *)
Definition unit_row (M : mat R) (i p : nat) : Prop := (p < nc M)%nat /\ forall j, (j < nc M)%nat -> ent M i j = if Nat.eqb j p then 1 else 0.
Lemma Sum_indicator n p : (p < n)%nat -> Sum n (fun j => if Nat.eqb j p then 1 else 0) = 1.
Proof.
  induction n as [|n IH]; intros H; [lia|]. cbn [Sum]. destruct (Nat.eqb_spec n p) as [->|Hne].
  - assert (Z : forall m, (m <= p)%nat -> Sum m (fun j => if Nat.eqb j p then 1 else 0) = 0).
    { clear. induction m as [|m IH]; intros H; [reflexivity|]. cbn [Sum]. rewrite IH by lia.
      destruct (Nat.eqb_spec m p); [lia | lra]. }
    rewrite Z by lia. lra.
  - rewrite IH by lia. lra.
Qed.
Lemma unit_rows_stochastic M : (forall i, (i < nr M)%nat -> exists p, unit_row M i p) -> row_stochastic M.
Proof.
  intros H i Hi. destruct (H i Hi) as (p & Hp & E). split.
  - intros j Hj. rewrite E by exact Hj. destruct (Nat.eqb j p); lra.
  - erewrite Sum_ext; [|intros j Hj; apply E, Hj]. apply Sum_indicator, Hp.
Qed.

Lemma aa_furthest_inv {T} {N : Num T} (K : mat T) k kw (g g' : rng T) D : (0 < k)%nat ->
  aa_dictionary_furthest_sum K k kw g = Ok (D, g') ->
  r_uniform g' = r_uniform g /\
  exists start sel, (forall s, fk_start_index kw = Some s -> start = s)
    /\ (fk_start_index kw = None -> (0 <= start < Z.of_nat (nr K))%Z)
    /\ furthest_sum (kernel_dissimilarities K) (Z.of_nat k) start (fk_exclude kw) (fk_n_extra_steps kw) = Ok sel
    /\ length sel = k /\ (forall z, In z sel -> (pyindex (nr K) z < nr K)%nat)
    /\ D = mbuild k (nr K) (fun i j => if Nat.eqb j (pyindex (nr K) (nth i sel 0%Z)) then n1 else n0).
Proof.
  intros Hk. unfold aa_dictionary_furthest_sum. intros H. apply bind_ok in H. destruct H as ((s & g1) & E1 & H).
  apply bind_ok in H. destruct H as (sel & E2 & H). apply bind_ok in H. destruct H as (u & E3 & H). injection H as <- <-.
  cbn [fst snd] in *.
  assert (Hs : (forall s', fk_start_index kw = Some s' -> s = s') /\ (fk_start_index kw = None -> (0 <= s < Z.of_nat (nr K))%Z)
     /\ r_uniform g1 = r_uniform g).
  { destruct (fk_start_index kw); [injection E1 as <- <-; repeat split; try congruence|].
    apply bind_ok in E1. destruct E1 as ((z & g2) & E1 & E4). injection E4 as <- <-. cbn [fst snd].
    unfold draw_randint in E1. destruct (Nat.eqb_spec (nr K) 0); [discriminate|]. injection E1 as <- <-.
    split; [congruence|]. split; [|reflexivity]. intros _. pose proof (Nat.mod_upper_bound (r_int g (r_pos g)) (nr K) ltac:(lia)). lia. }
  destruct Hs as (S1 & S2 & S3). split; [exact S3|]. exists s, sel. do 3 (split; [assumption|]).
  assert (Hl : length sel = k /\ (forall z, In z sel -> (z < Z.of_nat (nr K))%Z) /\ (nr K > 0)%nat).
  { destruct (Z_lt_le_dec s 0) as [Hneg|Hpos].
    - assert (nr K <> 0)%nat.
      { intros E0. pose proof E2 as E. apply furthest_negative_start in E; [|lia|lia]. destruct E as (-> & Ek & _).
        unfold check_selected in E3. rewrite E0 in E3. cbn in E3. destruct s; [lia|lia|discriminate]. }
      apply furthest_negative_start in E2; [|lia|lia]. destruct E2 as (-> & Ek & _).
      split; [cbn; lia|]. split; [|lia]. intros z [<-|[]]; lia.
    - apply furthest_distinct in E2; [|lia]. destruct E2 as (L & _ & B). change (nr (kernel_dissimilarities K)) with (nr K) in B.
      split; [lia|]. split; [intros z Hz; apply B in Hz; lia|].
      destruct sel as [|z sel]; [cbn in L; lia|]. specialize (B z (or_introl eq_refl)). lia. }
  destruct Hl as (L1 & L2 & L3). split; [exact L1|]. split; [|reflexivity].
  intros z Hz. unfold check_selected in E3. destruct (forallb _ sel) eqn:Ef; [|discriminate].
  rewrite forallb_forall in Ef. specialize (Ef z Hz). apply Z.leb_le in Ef. specialize (L2 z Hz).
  unfold pyindex. destruct (Z.ltb_spec z 0); lia.
Qed.
Lemma gpnh_furthest_inv {T} {N : Num T} (X : mat T) k kw (g g' : rng T) D : (0 < k)%nat ->
  initialize_dictionary_furthest_sum X k kw g = Ok (D, g') ->
  r_uniform g' = r_uniform g /\
  exists start sel, (forall s, fk_start_index kw = Some s -> start = s)
    /\ (fk_start_index kw = None -> (0 <= start < Z.of_nat (nr X))%Z)
    /\ furthest_sum (kernel_dissimilarities (mmul X (mtr X))) (Z.of_nat k) start (fk_exclude kw) (fk_n_extra_steps kw) = Ok sel
    /\ length sel = k /\ (forall z, In z sel -> (pyindex (nr X) z < nr X)%nat)
    /\ D = mbuild k (nc X) (fun i j => mget X (pyindex (nr X) (nth i sel 0%Z)) j).
Proof.
  intros Hk. unfold initialize_dictionary_furthest_sum. cbv zeta. intros H. apply bind_ok in H. destruct H as ((s & g1) & E1 & H).
  apply bind_ok in H. destruct H as (sel & E2 & H). apply bind_ok in H. destruct H as (u & E3 & H). injection H as <- <-.
  cbn [fst snd] in *.
  assert (Hs : (forall s', fk_start_index kw = Some s' -> s = s') /\ (fk_start_index kw = None -> (0 <= s < Z.of_nat (nr X))%Z)
     /\ r_uniform g1 = r_uniform g).
  { destruct (fk_start_index kw); [injection E1 as <- <-; repeat split; try congruence|].
    apply bind_ok in E1. destruct E1 as ((z & g2) & E1 & E4). injection E4 as <- <-. cbn [fst snd].
    unfold draw_randint in E1. change (nr (mmul X (mtr X))) with (nr X) in E1. destruct (Nat.eqb_spec (nr X) 0); [discriminate|]. injection E1 as <- <-.
    split; [congruence|]. split; [|reflexivity]. intros _. pose proof (Nat.mod_upper_bound (r_int g (r_pos g)) (nr X) ltac:(lia)). lia. }
  destruct Hs as (S1 & S2 & S3). split; [exact S3|]. exists s, sel. do 3 (split; [assumption|]).
  assert (Hl : length sel = k /\ (forall z, In z sel -> (z < Z.of_nat (nr X))%Z) /\ (nr X > 0)%nat).
  { destruct (Z_lt_le_dec s 0) as [Hneg|Hpos].
    - assert (nr X <> 0)%nat.
      { intros E0. pose proof E2 as E. apply furthest_negative_start in E; [|lia|lia]. destruct E as (-> & Ek & _).
        unfold check_selected in E3. rewrite E0 in E3. cbn in E3. destruct s; [lia|lia|discriminate]. }
      apply furthest_negative_start in E2; [|lia|lia]. destruct E2 as (-> & Ek & _).
      split; [cbn; lia|]. split; [|lia]. intros z [<-|[]]; lia.
    - apply furthest_distinct in E2; [|lia]. destruct E2 as (L & _ & B). change (nr (kernel_dissimilarities (mmul X (mtr X)))) with (nr X) in B.
      split; [lia|]. split; [intros z Hz; apply B in Hz; lia|].
      destruct sel as [|z sel]; [cbn in L; lia|]. specialize (B z (or_introl eq_refl)). lia. }
  destruct Hl as (L1 & L2 & L3). split; [exact L1|]. split; [|reflexivity].
  intros z Hz. unfold check_selected in E3. destruct (forallb _ sel) eqn:Ef; [|discriminate].
  rewrite forallb_forall in Ef. specialize (Ef z Hz). apply Z.leb_le in Ef. specialize (L2 z Hz).
  unfold pyindex. destruct (Z.ltb_spec z 0); lia.
Qed.
Lemma aa_furthest_ok K k kw (g g' : rng R) D : (0 < k)%nat -> aa_dictionary_furthest_sum K k kw g = Ok (D, g') ->
  is_mat k (nr K) D /\ r_uniform g' = r_uniform g /\ row_stochastic D.
Proof.
  intros Hk H. apply aa_furthest_inv in H; [|exact Hk]. destruct H as (Hu & s & sel & _ & _ & _ & L & B & ->).
  split; [apply is_mat_mbuild|]. split; [exact Hu|]. apply unit_rows_stochastic. mdim. intros i Hi.
  exists (pyindex (nr K) (nth i sel 0%Z)). split; [mdim; apply B, nth_In; lia|]. mdim. intros j Hj. rewrite ent_mbuild by assumption.
  destruct (Nat.eqb j _); reflexivity.
Qed.
Lemma aa_initialize_dictionary_ok K k init kw (g g' : rng R) D : (0 < k)%nat ->
  aa_initialize_dictionary K k init kw g = Ok (D, g') ->
  is_mat k (nr K) D /\ r_uniform g' = r_uniform g /\ (rng_ok (nr K) g -> row_stochastic D).
Proof.
  intros Hk. unfold aa_initialize_dictionary.
  assert (F : aa_dictionary_furthest_sum K k kw g = Ok (D, g') ->
     is_mat k (nr K) D /\ r_uniform g' = r_uniform g /\ (rng_ok (nr K) g -> row_stochastic D)).
  { intros H. apply aa_furthest_ok in H; [|exact Hk]. destruct H as (A & B & C). auto. }
  destruct init; try exact F; try discriminate. clear F.
  intros [= E <-]; (assert (E' : D = fst (right_stochastic_matrix k (nr K) g)) by (rewrite <- E; reflexivity)); rewrite E';
    (split; [apply right_stochastic_shape | split; [reflexivity | intros Hg; apply right_stochastic_rng, Hg]]).
Qed.
Lemma aa_initialize_weights_ok K k init (g g' : rng R) W :
  aa_initialize_weights K k init g = Ok (W, g') ->
  is_mat (nr K) k W /\ r_uniform g' = r_uniform g /\ (rng_ok k g -> row_stochastic W).
Proof.
  unfold aa_initialize_weights. destruct init; try discriminate; intros [= E <-];
    (assert (E' : W = fst (right_stochastic_matrix (nr K) k g)) by (rewrite <- E; reflexivity)); rewrite E';
    (split; [apply right_stochastic_shape | split; [reflexivity | intros Hg; apply right_stochastic_rng, Hg]]).
Qed.

Lemma aa_choose_initial_ok c k K Din Win ud uw kw (g g' : rng R) D W : (0 < k)%nat ->
  aa_choose_initial c k K Din Win ud uw kw g = Ok (D, W, g') -> wf_opt Din -> wf_opt Win ->
  is_mat k (nr K) D /\ is_mat (nr K) k W /\ r_uniform g' = r_uniform g
  /\ (stochastic_opt Win -> rng_ok k g -> row_stochastic W)
  /\ (stochastic_opt Din -> rng_ok (nr K) g -> row_stochastic D).
Proof.
  intros Hk H WD WW. unfold aa_choose_initial in H. cbv zeta in H.
  assert (CD : forall D, check_init_aa_dictionary Din k (nr K) = Ok D -> is_mat k (nr K) D /\ (stochastic_opt Din -> row_stochastic D)).
  { intros D0 E. apply check_init_aa_dictionary_inv in E. destruct E as (E & e1 & e2). split; [apply is_mat_wf; auto | auto]. }
  assert (CW : forall W, check_init_weights Win (nr K) k = Ok W -> is_mat (nr K) k W /\ (stochastic_opt Win -> row_stochastic W)).
  { intros W0 E. apply check_init_weights_ok_inv in E. destruct E as (E & e1 & e2). split; [apply is_mat_wf; auto | auto]. }
  destruct (ac_init c);
    try (destruct (andb (negb ud) uw);
      [ apply bind_ok in H; destruct H as (D0 & E1 & H); destruct kw; [discriminate|];
        apply bind_ok in H; destruct H as ((W0 & g0) & E2 & H); injection H as <- <- <-; cbn [fst snd];
        apply aa_initialize_weights_ok in E2; destruct E2 as (A & B & C); destruct (CD _ E1) as [F1 F2];
        split; [exact F1|]; split; [exact A|]; split; [exact B|]; split; [auto | intros Hd _; apply F2, Hd]
      | destruct (andb ud (negb uw));
        [ apply bind_ok in H; destruct H as (W0 & E1 & H); apply bind_ok in H; destruct H as ((D0 & g0) & E2 & H);
          injection H as <- <- <-; cbn [fst snd]; apply aa_initialize_dictionary_ok in E2; [|exact Hk]; destruct E2 as (A & B & C);
          destruct (CW _ E1) as [F1 F2]; split; [exact A|]; split; [exact F1|]; split; [exact B|]; split; auto
        | apply bind_ok in H; destruct H as ((D0 & g0) & E1 & H); cbn [fst snd] in H; destruct kw; [discriminate|];
          apply bind_ok in H; destruct H as ((W0 & g1) & E2 & H); injection H as <- <- <-; cbn [fst snd];
          apply aa_initialize_dictionary_ok in E1; [|exact Hk]; destruct E1 as (A & B & C);
          apply aa_initialize_weights_ok in E2; destruct E2 as (A2 & B2 & C2);
          split; [exact A|]; split; [exact A2|]; split; [congruence|];
          split; [intros _ Hg; apply C2; eapply rng_ok_stream; [exact B | exact Hg] | auto] ] ]).
  apply bind_ok in H. destruct H as (W0 & E1 & H). apply bind_ok in H. destruct H as (D0 & E2 & H).
  injection H as <- <- <-. destruct (CW _ E1) as [F1 F2], (CD _ E2) as [F3 F4].
  split; [exact F3|]. split; [exact F1|]. split; [reflexivity|]. split; auto.
Qed.

(** ** invariant of a run *)
Definition sinv (n k : nat) (K : mat R) (c : aa_cfg R) (pS pC : Prop) (w : aws R) : Prop :=
  ainv n k K c w /\ (pS -> row_stochastic (a_S w)) /\ (pC -> row_stochastic (a_C w)).
Lemma start_caches c n k K W D : is_mat n n K -> is_mat k n D -> caches c (@aa_initialize_workspace R Num_R c k K W D).
Proof.
  intros HK HD. unfold caches, aa_initialize_workspace; cbn [a_trace_K a_K a_StS a_S a_CK a_CKCt a_alpha a_C].
  split; [reflexivity|]. split; [reflexivity|]. rewrite (scaled_CK_ones k n), (scaled_CKCt_ones k n) by assumption. split; reflexivity.
Qed.
Lemma start_ainv c n k K W D : is_mat n n K -> is_mat n k W -> is_mat k n D ->
  ainv n k K c (@aa_initialize_workspace R Num_R c k K W D).
Proof.
  intros HK HW HD. split; [reflexivity|]. split.
  { split; [exact HK|]. split; [exact HW|]. split; [exact HD|]. cbn. apply repeat_length. }
  split; [reflexivity|]. split; [apply (start_caches c n k); assumption|]. cbn [aa_initialize_workspace a_f_S_mem a_f_C_mem a_f_alpha_mem].
  rewrite repeat_length. auto.
Qed.
Lemma ainv_refresh n k K c w : ainv n k K c w -> @aa_refresh R Num_R c w = w.
Proof. intros (_ & _ & _ & H & _). apply refresh_id, H. Qed.

Lemma sinv_updates n k K c (pS pC : Prop) ud uw fuel : (0 < n)%nat -> (0 < k)%nat ->
  0 < ls_sigma_one (ac_ls c) -> ls_sigma_two (ac_ls c) < 1 ->
  forall u s s', In u (enabled ud (and_refresh c (aa_update_dictionary fuel c)) ++ enabled uw (and_refresh c (aa_update_weights fuel c))) ->
   sinv n k K c pS pC s -> u s = Ok s' -> sinv n k K c pS pC s'.
Proof.
  intros Hn Hk H1 H2 u s s' Hu (I1 & I2 & I3) E. apply in_app_or in Hu. rewrite !in_enabled in Hu.
  destruct Hu as [[_ ->]|[_ ->]]; unfold and_refresh in E; apply bind_ok in E; destruct E as (s1 & E & E0); injection E0 as <-.
  - apply (aa_update_dictionary_inv n k K) in E; try assumption. destruct E as (J1 & J2 & J3 & J4 & J5).
    rewrite (ainv_refresh n k K c s1 J1). split; [exact J1|]. rewrite J2. auto.
  - apply (aa_update_weights_inv n k K) in E; try assumption. destruct E as (J1 & J2 & J3 & J4 & J5).
    rewrite (ainv_refresh n k K c s1 J1). split; [exact J1|]. rewrite J2. auto.
Qed.
Lemma aa_iterate_inv n k K c pS pC ud uw fuel t m w w' cost n_iter log : (0 < n)%nat -> (0 < k)%nat -> (0 < m)%nat ->
  0 < ls_sigma_one (ac_ls c) -> ls_sigma_two (ac_ls c) < 1 ->
  sinv n k K c pS pC w -> aa_iterate fuel c ud uw t m w = Ok (w', cost, n_iter, log) -> sinv n k K c pS pC w'.
Proof.
  intros Hn Hk Hm H1 H2 I H. unfold aa_iterate in H. pose proof I as (I1 & _). rewrite (ainv_refresh n k K c w I1) in H.
  apply (iterate_ok (aa_evaluate_cost c) (sinv n k K c pS pC)) in H; auto.
  - apply H.
  - intros u s s'. apply sinv_updates; assumption.
Qed.

(** ** totality *)
Lemma aa_iterate_total c : ls_valid (ac_ls c) -> (0 < ac_memory c)%nat -> exists M, forall fuel, (M <= fuel)%nat ->
  forall n k K pS pC ud uw t m w, (0 < n)%nat -> (0 < k)%nat -> sinv n k K c pS pC w ->
   (exists r, aa_iterate fuel c ud uw t m w = Ok r)
   \/ (aa_iterate fuel c ud uw t m w = Raise RuntimeError /\ ac_monotone c = true).
Proof.
  intros Hls Hmem. destruct (aa_update_dictionary_total c Hls) as [M1 HM1]. destruct (aa_update_weights_total c Hls) as [M2 HM2].
  exists (max M1 M2). intros fuel Hf n k K pS pC ud uw t m w Hn Hk I.
  destruct Hls as (H1 & H2 & H3).
  pose proof (sinv_updates n k K c pS pC ud uw fuel Hn Hk H1 H2) as Hp.
  assert (Hu : forall u s, In u (enabled ud (and_refresh c (aa_update_dictionary fuel c)) ++ enabled uw (and_refresh c (aa_update_weights fuel c))) ->
     sinv n k K c pS pC s -> exists s', u s = Ok s' /\ sinv n k K c pS pC s').
  { intros u s Iu Is. assert (exists s', u s = Ok s').
    { pose proof Is as ((J1 & J2 & J3 & J4 & J5 & J6 & J7) & _). apply in_app_or in Iu. rewrite !in_enabled in Iu. destruct Iu as [[_ ->]|[_ ->]]; unfold and_refresh.
      - destruct (HM1 fuel s) as [s1 E]; [lia | | | rewrite E; cbn [bind]; eauto].
        + intros E. rewrite E in J6. cbn in J6. lia.
        + intros E. rewrite E in J7. cbn in J7. lia.
      - destruct (HM2 fuel s) as [s1 E]; [lia | | rewrite E; cbn [bind]; eauto].
        intros E. rewrite E in J5. cbn in J5. lia. }
    destruct H as [s' E]. exists s'. split; [exact E | eapply Hp; eauto]. }
  destruct (aa_iterate fuel c ud uw t m w) as [r|e] eqn:E; [left; eauto|]. right.
  unfold aa_iterate, iterate in E. pose proof I as (I1 & _). rewrite (ainv_refresh n k K c w I1) in E.
  apply (iterate_loop_raise _ _ _ _ _ Hp) in E; [|reflexivity | exact I].
  destruct E as [[-> (i & s0 & s & _ & _ & B)] | (u & s & Iu & Is & Eu)].
  - split; [reflexivity|]. unfold cost_increased in B. apply andb_prop in B. apply B.
  - destruct (Hu u s Iu Is) as (s' & E' & _). congruence.
Qed.

Lemma kernel_aa_ends c : ls_valid (ac_ls c) -> (0 < ac_memory c)%nat ->
  exists M, forall fuel, (M <= fuel)%nat -> forall o K Din Win ud uw kw, ao_cfg o = c -> wf K -> (0 < nr K)%nat -> wf_opt Din -> wf_opt Win ->
    (exists r, kernel_aa fuel o K Din Win ud uw kw = Ok r)
    \/ (exists e, kernel_aa fuel o K Din Win ud uw kw = Raise e
         /\ (e = ValueError \/ e = IndexError \/ e = TypeError \/ (e = RuntimeError /\ ac_monotone c = true))).
Proof.
  intros Hls Hmem. destruct (aa_iterate_total c Hls Hmem) as [M HM]. exists M.
  intros fuel Hf o K Din Win ud uw kw Eo HK Hn WD WW. unfold kernel_aa. rewrite Eo.
  destruct (Nat.eqb_spec (nc K) (nr K)) as [Esq|]; cbn [negb]; [|right; exists ValueError; auto].
  destruct (check_params _ _ _) as [[[k m] t]|e] eqn:E1; cbn [bind].
  2:{ right. exists e. apply check_params_raise in E1. auto. }
  apply check_params_ok in E1. destruct E1 as (_ & Hk & _ & Hm & _).
  destruct (aa_choose_initial _ _ _ _ _ _ _ _ _) as [[[D W] g']|e] eqn:E2; cbn [bind].
  2:{ right. exists e. split; [reflexivity|]. destruct (aa_choose_initial_raise _ _ _ _ _ _ _ _ _ _ E2) as [->|[->| ->]]; auto. }
  apply aa_choose_initial_ok in E2; try assumption. destruct E2 as (HD & HW & _).
  assert (HKm : is_mat (nr K) (nr K) K) by (apply is_mat_wf; auto).
  destruct (HM fuel Hf (nr K) k K False False ud uw t m (aa_initialize_workspace c k K W D) Hn Hk) as [[r E]|[E Hmono]].
  - split; [apply start_ainv; assumption | split; tauto].
  - rewrite E. destruct r as [[[w2 cost] n_iter] log]. cbn [bind]. left; eauto.
  - rewrite E. cbn [bind]. right. exists RuntimeError. auto 6.
Qed.

(** ** the guard never fires *)
Section NoGuard.
  Variables (n k : nat) (K : mat R) (c : aa_cfg R) (B : R).
  Hypotheses (Hn : (0 < n)%nat) (Hk : (0 < k)%nat) (Hsym : symmetric K) (HB : 0 <= B)
    (HKB : forall j l, (j < n)%nat -> (l < n)%nat -> Rabs (ent K j l) <= B)
    (H1 : 0 < ls_sigma_one (ac_ls c)) (H2 : ls_sigma_two (ac_ls c) < 1) (Hg : 0 <= ls_gamma (ac_ls c) <= 1)
    (Ha : 0 < ls_alpha_min (ac_ls c) <= ls_alpha_max (ac_ls c)) (Hmem : ac_memory c = 1%nat)
    (Ht1 : 0 < ls_step_tol (ac_ls c) <= ls_sigma_one (ac_ls c))
    (Ht2 : ls_step_tol (ac_ls c) * (2 * Rmax 1 (ls_alpha_max (ac_ls c)) * aa_curv B n k) <= 1 - ls_gamma (ac_ls c)).

  Definition pinv (w : aws R) : Prop := sinv n k K c True True w
    /\ 0 < a_alpha_S w <= Rmax 1 (ls_alpha_max (ac_ls c)) /\ 0 < a_alpha_C w <= Rmax 1 (ls_alpha_max (ac_ls c)).

  Lemma aa_iterate_no_guard : exists M, forall fuel, (M <= fuel)%nat -> forall ud uw tol m w, pinv w ->
    exists r, aa_iterate fuel c ud uw tol m w = Ok r.
  Proof using All.
    assert (Hv : ls_valid (ac_ls c)) by (split; [exact H1 | split; [exact H2 | apply Ht1]]).
    destruct (aa_update_dictionary_total c Hv) as [M1 HM1]. destruct (aa_update_weights_total c Hv) as [M2 HM2].
    exists (max M1 M2). intros fuel Hf ud uw tol m w HP. unfold aa_iterate, iterate.
    pose proof HP as ((I1 & _) & _). rewrite (ainv_refresh n k K c w I1).
    assert (Hone : forall (mem : list R), length mem = ac_memory c -> exists m0, mem = [m0]).
    { rewrite Hmem. intros [|m0 [|]]; cbn; try lia. eauto. }
    pose proof (Rmax_r 1 (ls_alpha_max (ac_ls c))) as Hmax.
    assert (HD : forall s, pinv s -> exists s', and_refresh c (aa_update_dictionary fuel c) s = Ok s' /\ pinv s'
        /\ aa_evaluate_cost c s' <= aa_evaluate_cost c s).
    { intros s ((J & S1 & S2) & A1 & A2). pose proof J as (_ & _ & _ & _ & L1 & L2 & L3).
      destruct (Hone _ L2) as [m0 Em]. destruct (Hone _ L3) as [m1 Em1].
      destruct (HM1 fuel s ltac:(lia)) as [s' E]; [rewrite Em; discriminate | rewrite Em1; discriminate |].
      pose proof (aa_update_dictionary_inv n k K fuel c s s' J Hn H1 H2 E) as (K1 & K2 & K3 & K4 & K5).
      exists s'. split; [unfold and_refresh; rewrite E; cbn [bind]; rewrite (ainv_refresh n k K c s' K1); reflexivity|].
      split.
      - split; [split; [exact K1|]; split; [rewrite K2; exact S1 | auto]|]. rewrite K3. split; [exact A1|].
        specialize (K4 (proj2 Ha)). lra.
      - eapply (aa_update_dictionary_descends n k K c B); try eassumption; auto. }
    assert (HW : forall s, pinv s -> exists s', and_refresh c (aa_update_weights fuel c) s = Ok s' /\ pinv s'
        /\ aa_evaluate_cost c s' <= aa_evaluate_cost c s).
    { intros s ((J & S1 & S2) & A1 & A2). pose proof J as (_ & _ & _ & _ & L1 & L2 & L3).
      destruct (Hone _ L1) as [m0 Em].
      destruct (HM2 fuel s ltac:(lia)) as [s' E]; [rewrite Em; discriminate|].
      pose proof (aa_update_weights_inv n k K fuel c s s' J Hk H1 H2 E) as (K1 & K2 & K3 & K4 & K5).
      exists s'. split; [unfold and_refresh; rewrite E; cbn [bind]; rewrite (ainv_refresh n k K c s' K1); reflexivity|].
      split.
      - split; [split; [exact K1|]; split; [auto | rewrite K2; exact S2]|]. rewrite K3. split; [|exact A2].
        specialize (K4 (proj2 Ha)). lra.
      - eapply (aa_update_weights_descends n k K c B); try eassumption; auto. }
    assert (Hnb : forall i a b, b <= a -> cost_increased (ac_monotone c) i a b = false).
    { intros i a b Hab. unfold cost_increased. numR. rewrite (proj2 (Rltb_false _ _)) by lra. reflexivity. }
    apply (iterate_loop_total_idx (aa_evaluate_cost c) (cost_increased (ac_monotone c)) _ tol (fun _ => pinv) m); [|lia | exact HP].
    intros i s Hi Hs. destruct ud; cbn [enabled app run_updates].
    - destruct (HD s Hs) as (s1 & E1 & P1 & L1). rewrite E1; cbn [bind]. rewrite Hnb by exact L1.
      destruct uw; cbn [enabled app run_updates]; [|eauto].
      destruct (HW s1 P1) as (s2 & E2 & P2 & L2). rewrite E2; cbn [bind]. rewrite Hnb by lra. eauto.
    - destruct uw; cbn [enabled app run_updates].
      + destruct (HW s Hs) as (s2 & E2 & P2 & L2). rewrite E2; cbn [bind]. rewrite Hnb by lra. eauto 6.
      + eauto 6.
  Qed.
End NoGuard.

Lemma start_aa_pinv c n k K W D : is_mat n n K -> is_mat n k W -> is_mat k n D -> row_stochastic W -> row_stochastic D ->
  pinv n k K c (@aa_initialize_workspace R Num_R c k K W D).
Proof.
  intros HK HW HD SW SD. split; [split; [apply start_ainv; assumption|]; auto|].
  cbn [aa_initialize_workspace a_alpha_S a_alpha_C]. pose proof (Rmax_l 1 (ls_alpha_max (ac_ls c))). numR. lra.
Qed.

(** ** success of whole fits *)
Definition aa_start_ready (init : init_method) (n k : nat) (kw : option fs_kwargs) (g : rng R) (Din Win : option (mat R)) : Prop :=
  ((init = InitNone \/ init = InitFurthestSum) /\ kw = None /\ (k <= n)%nat)
  \/ (init = InitRandom /\ kw = None /\ rng_ok n g)
  \/ (init = InitCustom /\ exists W D, Win = Some W /\ Din = Some D /\ is_mat n k W /\ row_stochastic W /\ is_mat k n D /\ row_stochastic D).
Lemma check_init_aa_dictionary_stochastic W n k : is_mat n k W -> row_stochastic W -> @check_init_aa_dictionary R Num_R (Some W) n k = Ok W.
Proof. intros HW SW. apply check_init_weights_stochastic; assumption. Qed.
Lemma aa_furthest_default_ok {T} {N : Num T} (K : mat T) k (g : rng T) : (0 < nr K)%nat -> (0 < k <= nr K)%nat ->
  exists D g', aa_dictionary_furthest_sum K k fs_default g = Ok (D, g').
Proof.
  intros Hn Hk. unfold aa_dictionary_furthest_sum. cbn [fs_default fk_start_index fk_n_extra_steps fk_exclude].
  unfold draw_randint. destruct (Nat.eqb_spec (nr K) 0); [lia|]. cbn [bind fst snd].
  pose proof (Nat.mod_upper_bound (r_int g (r_pos g)) (nr K) ltac:(lia)) as Hb.
  destruct (furthest_never_raises (kernel_dissimilarities K) (Z.of_nat k) (Z.of_nat (r_int g (r_pos g) mod nr K)) [] 10) as [l E].
  - reflexivity.
  - change (nr (kernel_dissimilarities K)) with (nr K). lia.
  - intros [].
  - constructor.
  - intros e [].
  - change (nr (kernel_dissimilarities K)) with (nr K). cbn [length]. lia.
  - rewrite E. cbn [bind]. unfold check_selected.
    assert (F : forallb (fun z : Z => (- Z.of_nat (nr K) <=? z)%Z) l = true).
    { apply forallb_forall. intros z Hz. apply furthest_distinct in E; [|lia]. destruct E as (_ & _ & B).
      specialize (B z Hz). apply Z.leb_le. lia. }
    rewrite F. cbn [bind]. eauto.
Qed.
Lemma aa_choose_initial_ready c k K n Din Win kw g : is_mat n n K -> (0 < n)%nat -> (0 < k)%nat ->
  aa_start_ready (ac_init c) n k kw g Din Win ->
  rng_ok k g -> exists D W g', aa_choose_initial c k K Din Win true true kw g = Ok (D, W, g')
    /\ is_mat k n D /\ is_mat n k W /\ row_stochastic W /\ row_stochastic D.
Proof.
  intros (x1 & x2 & x3) Hn Hk Hr Hg.
  destruct Hr as [(Hi & -> & Hkn)|[(Hi & -> & Hgn)|(Hi & W & D & -> & -> & HW & SW & HD & SD)]].
  - destruct (aa_furthest_default_ok K k g) as (D & g1 & E); [lia|lia|].
    exists D, (fst (right_stochastic_matrix (nr K) k g1)), (snd (right_stochastic_matrix (nr K) k g1)).
    pose proof (aa_furthest_ok K k fs_default g g1 D Hk E) as (HD & Hu & SD). rewrite x1 in *.
    split; [|split; [exact HD|]].
    + unfold aa_choose_initial. cbv zeta. destruct Hi as [-> | ->]; cbn [andb negb aa_initialize_dictionary];
        rewrite E; cbn [bind fst snd aa_initialize_weights]; rewrite x1; reflexivity.
    + destruct (right_stochastic_rng n k g1) as [A B]; [eapply rng_ok_stream; eassumption|]. auto.
  - unfold aa_choose_initial. cbv zeta. rewrite Hi. cbn [andb negb aa_initialize_dictionary bind fst snd aa_initialize_weights].
    rewrite x1. do 3 eexists. split; [reflexivity|].
    destruct (right_stochastic_rng k n g Hgn) as [A B].
    destruct (right_stochastic_rng n k (snd (right_stochastic_matrix k n g))) as [A2 B2]; [eapply rng_ok_stream; [|exact Hg]; reflexivity|].
    split; [exact A|]. split; [exact A2|]. split; [exact B2 | exact B].
  - unfold aa_choose_initial. cbv zeta. rewrite Hi. rewrite x1, check_init_weights_stochastic by assumption. cbn [bind].
    rewrite check_init_aa_dictionary_stochastic by assumption. cbn [bind]. exists D, W, g. auto 6.
Qed.

Lemma kernel_aa_start {T} {N : Num T} (o : aa T) K Din Win ud uw kw k m t D W g' r fuel :
  nc K = nr K -> comp_count (ao_n_components o) (nr K) k -> (0 < k)%nat ->
  ac_max_iterations (ao_cfg o) = PInt (Z.of_nat m) -> (0 < m)%nat -> tol_value (ac_tolerance (ao_cfg o)) t ->
  aa_choose_initial (ao_cfg o) k K Din Win ud uw kw (ao_rng o) = Ok (D, W, g') ->
  aa_iterate fuel (ao_cfg o) ud uw t m (aa_initialize_workspace (ao_cfg o) k K W D) = Ok r ->
  exists r' w, kernel_aa fuel o K Din Win ud uw kw = Ok r' /\ ao_ws (ar_obj r') = Some w.
Proof.
  intros Hsq Hc Hk Hm1 Hm2 Ht E1 E2. apply comp_count_resolve in Hc. unfold kernel_aa.
  rewrite Hsq, Nat.eqb_refl. cbn [negb].
  rewrite Hc, Hm1, (check_params_total k m _ t) by assumption. cbn [bind]. rewrite E1; cbn [bind].
  rewrite E2. cbn [bind]. destruct r as [[[w2 cost] n_iter] log]. do 2 eexists. split; reflexivity.
Qed.
Lemma aa_fit_start {T} {N : Num T} (o : aa T) K Din Win ud uw kw k m t D W g' r fuel :
  nc K = nr K -> comp_count (ao_n_components o) (nr K) k -> (0 < k)%nat ->
  ac_max_iterations (ao_cfg o) = PInt (Z.of_nat m) -> (0 < m)%nat -> tol_value (ac_tolerance (ao_cfg o)) t ->
  aa_choose_initial (ao_cfg o) k K Din Win ud uw kw (ao_rng o) = Ok (D, W, g') ->
  aa_iterate fuel (ao_cfg o) ud uw t m (aa_initialize_workspace (ao_cfg o) k K W D) = Ok r ->
  exists r', aa_fit_transform fuel o K Din Win ud uw kw = Ok r'.
Proof.
  intros Hsq Hc Hk Hm1 Hm2 Ht E1 E2.
  destruct (kernel_aa_start o K Din Win ud uw kw k m t D W g' r fuel Hsq Hc Hk Hm1 Hm2 Ht E1 E2) as (r' & w & E & Ew).
  unfold aa_fit_transform. rewrite E; cbn [bind]. unfold aa_set_fitted. rewrite Ew. eauto.
Qed.

Lemma aa_fit_total c n k m tl K Din Win kw g :
  is_mat n n K -> (0 < n)%nat -> (0 < k)%nat -> (0 < m)%nat ->
  ac_max_iterations c = PInt (Z.of_nat m) -> tol_value (ac_tolerance c) tl ->
  aa_start_ready (ac_init c) n k kw g Din Win -> rng_ok k g ->
  ls_valid (ac_ls c) -> (0 < ac_memory c)%nat -> ac_monotone c = false ->
  exists M, forall fuel, (M <= fuel)%nat ->
    forall o, ao_cfg o = c -> comp_count (ao_n_components o) n k -> ao_rng o = g ->
    exists r, aa_fit_transform fuel o K Din Win true true kw = Ok r.
Proof.
  intros HK Hn Hk Hm Em Et Hs Hr Hls Hmem Hmono.
  destruct (aa_choose_initial_ready c k K n Din Win kw g HK Hn Hk Hs Hr) as (D & W & g' & E1 & HD & HW & SW & SD).
  destruct (aa_iterate_total c Hls Hmem) as [M HM]. exists M. intros fuel Hf o Eo Ec Eg.
  destruct (HM fuel Hf n k K True True true true tl m (aa_initialize_workspace c k K W D) Hn Hk) as [[r E2]|[_ E2]];
    [split; [apply start_ainv; assumption | auto] | | congruence].
  assert (nr K = n /\ nc K = n) as [q1 q2] by (split; apply HK).
  eapply (aa_fit_start o K Din Win true true kw k m tl D W g' r fuel); rewrite ?Eo, ?q1, ?q2; try assumption; try reflexivity.
  rewrite Eg. exact E1.
Qed.

Lemma aa_fit_no_guard c n k m tl K B Din Win kw g :
  is_mat n n K -> (0 < n)%nat -> (0 < k)%nat -> (0 < m)%nat -> symmetric K -> 0 <= B -> entries_le K B ->
  ac_max_iterations c = PInt (Z.of_nat m) -> tol_value (ac_tolerance c) tl ->
  aa_start_ready (ac_init c) n k kw g Din Win -> rng_ok k g ->
  0 < ls_sigma_one (ac_ls c) -> ls_sigma_two (ac_ls c) < 1 -> 0 <= ls_gamma (ac_ls c) <= 1 ->
  0 < ls_alpha_min (ac_ls c) <= ls_alpha_max (ac_ls c) -> ac_memory c = 1%nat ->
  0 < ls_step_tol (ac_ls c) <= ls_sigma_one (ac_ls c) ->
  ls_step_tol (ac_ls c) * (2 * Rmax 1 (ls_alpha_max (ac_ls c)) * (B * INR n * (INR n + INR k))) <= 1 - ls_gamma (ac_ls c) ->
  exists M, forall fuel, (M <= fuel)%nat ->
    forall o, ao_cfg o = c -> comp_count (ao_n_components o) n k -> ao_rng o = g ->
    exists r, aa_fit_transform fuel o K Din Win true true kw = Ok r.
Proof.
  intros HK Hn Hk Hm Hsym HB HKB Em Et Hs Hr H1 H2 Hg Ha Hmem Ht1 Ht2.
  assert (nr K = n /\ nc K = n) as [q1 q2] by (split; apply HK).
  destruct (aa_choose_initial_ready c k K n Din Win kw g HK Hn Hk Hs Hr) as (D & W & g' & E1 & HD & HW & SW & SD).
  destruct (aa_iterate_no_guard n k K c B) as [M HM]; try assumption.
  { intros j l Hj Hl. apply HKB; lia. }
  exists M. intros fuel Hf o Eo Ec Eg.
  destruct (HM fuel Hf true true tl m (aa_initialize_workspace c k K W D)) as [r E2]; [apply start_aa_pinv; assumption|].
  eapply (aa_fit_start o K Din Win true true kw k m tl D W g' r fuel); rewrite ?Eo, ?q1, ?q2; try assumption; try reflexivity.
  rewrite Eg. exact E1.
Qed.

(** ** costs of arbitrary trial states *)
Lemma set_S_cost n k K c w S' : ainv n k K c w -> is_mat n k S' -> @aa_cached_cost R Num_R (set_S_StS S' w) = kernel_error K S' (a_C w).
Proof.
  intros (E & Hs & Ha & Hc & _) HS. assert (Hs' : shapes n k (set_S_StS S' w)) by (destruct Hs as (A & _ & B & D); split; [exact A | split; [exact HS | split; [exact B | exact D]]]).
  assert (Hc' : caches c (set_S_StS S' w)) by (destruct Hc as (E1 & E2 & E3 & E4); split; [exact E1|]; split; [reflexivity|]; split; [exact E3 | exact E4]).
  rewrite (cached_cost_error n k c) by assumption. cbn [set_S_StS a_K a_S a_alpha a_C]. rewrite Ha, (effD_ones k n), E by apply Hs. reflexivity.
Qed.
Lemma set_C_cost n k K c w C' : ainv n k K c w -> is_mat k n C' -> @aa_cached_cost R Num_R (set_C_CK c C' w) = kernel_error K (a_S w) C'.
Proof.
  intros (E & Hs & Ha & Hc & _) HC. assert (Hs' : shapes n k (set_C_CK c C' w)) by (destruct Hs as (A & B & _ & D); split; [exact A | split; [exact B | split; [exact HC | exact D]]]).
  assert (Hc' : caches c (set_C_CK c C' w)) by (destruct Hc as (E1 & E2 & E3 & E4); split; [exact E1|]; split; [exact E2|]; split; reflexivity).
  rewrite (cached_cost_error n k c) by assumption. cbn [set_C_CK a_K a_S a_alpha a_C]. rewrite Ha, (effD_ones k n), E by apply HC. reflexivity.
Qed.

(** ** transform *)
Lemma aa_choose_transform_ok c k K n C (g : rng R) : is_mat n n K -> is_mat k n C -> row_stochastic C -> transform_init (ac_init c) ->
  rng_ok k g -> exists W g', aa_choose_initial c k K (Some C) None false true None g = Ok (C, W, g')
    /\ is_mat n k W /\ row_stochastic W.
Proof.
  intros (x1 & x2 & x3) HC SC Hi Hg. unfold aa_choose_initial. cbv zeta.
  assert (E : check_init_aa_dictionary (Some C) k (nr K) = Ok C) by (rewrite x1; apply check_init_aa_dictionary_stochastic; assumption).
  exists (fst (right_stochastic_matrix (nr K) k g)), (snd (right_stochastic_matrix (nr K) k g)).
  rewrite <- x1. split; [|apply right_stochastic_rng, Hg].
  destruct Hi as [->|[->| ->]]; cbn [andb negb]; rewrite E; reflexivity.
Qed.
Lemma aa_transform_start {T} {N : Num T} (o : aa T) K w k m t D W g' r fuel :
  ao_ws o = Some w ->
  nc K = nr K -> comp_count (ao_n_components o) (nr K) k -> (0 < k)%nat ->
  ac_max_iterations (ao_cfg o) = PInt (Z.of_nat m) -> (0 < m)%nat -> tol_value (ac_tolerance (ao_cfg o)) t ->
  aa_choose_initial (ao_cfg o) k K (Some (a_C w)) None false true None (ao_rng o) = Ok (D, W, g') ->
  aa_iterate fuel (ao_cfg o) false true t m (aa_initialize_workspace (ao_cfg o) k K W D) = Ok r ->
  exists r', aa_transform fuel o K = Ok r'.
Proof.
  intros Ew Hsq Hc Hk Hm1 Hm2 Ht E1 E2.
  destruct (kernel_aa_start o K (Some (a_C w)) None false true None k m t D W g' r fuel Hsq Hc Hk Hm1 Hm2 Ht E1 E2) as (r' & w' & E & Ew').
  unfold aa_transform. rewrite Ew, E; cbn [bind]. rewrite Ew'. eauto.
Qed.
Lemma aa_transform_total c n k m tl K C g : is_mat n n K -> is_mat k n C -> row_stochastic C -> (0 < n)%nat -> (0 < k)%nat -> (0 < m)%nat ->
  ac_max_iterations c = PInt (Z.of_nat m) -> tol_value (ac_tolerance c) tl -> transform_init (ac_init c) -> rng_ok k g ->
  ls_valid (ac_ls c) -> (0 < ac_memory c)%nat -> ac_monotone c = false ->
  exists M, forall fuel, (M <= fuel)%nat -> forall o w, ao_cfg o = c -> comp_count (ao_n_components o) n k -> ao_rng o = g ->
    ao_ws o = Some w -> a_C w = C -> exists r, aa_transform fuel o K = Ok r.
Proof.
  intros HK HC SC Hn Hk Hm Em Et Hi Hg Hls Hmem Hmono.
  destruct (aa_choose_transform_ok c k K n C g HK HC SC Hi Hg) as (W & g' & E1 & HW & SW).
  destruct (aa_iterate_total c Hls Hmem) as [M HM]. exists M. intros fuel Hf o w Eo Ec Eg Ew ES.
  destruct (HM fuel Hf n k K True True false true tl m (aa_initialize_workspace c k K W C) Hn Hk) as [[r E2]|[_ E2]];
    [split; [apply start_ainv; assumption | auto] | | congruence].
  assert (nr K = n /\ nc K = n) as [q1 q2] by (split; apply HK).
  eapply (aa_transform_start o K w k m tl C W g' r fuel); rewrite ?Eo, ?q1, ?q2; try assumption; try reflexivity.
  rewrite Eg, ES. exact E1.
Qed.
Lemma aa_transform_no_guard c n k m tl K B C g : is_mat n n K -> is_mat k n C -> row_stochastic C -> (0 < n)%nat -> (0 < k)%nat -> (0 < m)%nat ->
  symmetric K -> 0 <= B -> entries_le K B ->
  ac_max_iterations c = PInt (Z.of_nat m) -> tol_value (ac_tolerance c) tl -> transform_init (ac_init c) -> rng_ok k g ->
  0 < ls_sigma_one (ac_ls c) -> ls_sigma_two (ac_ls c) < 1 -> 0 <= ls_gamma (ac_ls c) <= 1 ->
  0 < ls_alpha_min (ac_ls c) <= ls_alpha_max (ac_ls c) -> ac_memory c = 1%nat ->
  0 < ls_step_tol (ac_ls c) <= ls_sigma_one (ac_ls c) ->
  ls_step_tol (ac_ls c) * (2 * Rmax 1 (ls_alpha_max (ac_ls c)) * (B * INR n * (INR n + INR k))) <= 1 - ls_gamma (ac_ls c) ->
  exists M, forall fuel, (M <= fuel)%nat -> forall o w, ao_cfg o = c -> comp_count (ao_n_components o) n k -> ao_rng o = g ->
    ao_ws o = Some w -> a_C w = C -> exists r, aa_transform fuel o K = Ok r.
Proof.
  intros HK HC SC Hn Hk Hm Hsym HB HKB Em Et Hi Hr H1 H2 Hg Ha Hmem Ht1 Ht2.
  assert (nr K = n /\ nc K = n) as [q1 q2] by (split; apply HK).
  destruct (aa_choose_transform_ok c k K n C g HK HC SC Hi Hr) as (W & g' & E1 & HW & SW).
  destruct (aa_iterate_no_guard n k K c B) as [M HM]; try assumption.
  { intros j l Hj Hl. apply HKB; lia. }
  exists M. intros fuel Hf o w Eo Ec Eg Ew ES.
  destruct (HM fuel Hf false true tl m (aa_initialize_workspace c k K W C)) as [r E2]; [apply start_aa_pinv; assumption|].
  eapply (aa_transform_start o K w k m tl C W g' r fuel); rewrite ?Eo, ?q1, ?q2; try assumption; try reflexivity.
  rewrite Eg, ES. exact E1.
Qed.

(** exceptions of the updates (any arithmetic) *)
Section UpdateRaise.
  Context {T : Type} {N : Num T}.
  Lemma aa_update_weights_raise fuel c (w : aws T) e : aa_update_weights fuel c w = Raise e -> e = IndexError \/ e = OutOfFuel.
  Proof.
    unfold aa_update_weights, aa_weights_line_search. cbv zeta. destruct (line_search _ _ _ _ _ _ _ _) as [[[? ?] ?]|e'] eqn:E; cbn [bind]; [discriminate|].
    intros [= ->]. apply line_search_raise in E. tauto.
  Qed.
  Lemma aa_update_scale_raise fuel c (w : aws T) e : aa_update_scale fuel c w = Raise e -> e = IndexError \/ e = OutOfFuel.
  Proof.
    unfold aa_update_scale, aa_scale_line_search. cbv zeta. destruct (line_search _ _ _ _ _ _ _ _) as [[[? ?] ?]|e'] eqn:E; cbn [bind]; [discriminate|].
    intros [= ->]. apply line_search_raise in E. tauto.
  Qed.
  Lemma aa_update_dictionary_raise fuel c (w : aws T) e : aa_update_dictionary fuel c w = Raise e -> e = IndexError \/ e = OutOfFuel.
  Proof.
    unfold aa_update_dictionary, aa_dictionary_line_search. cbv zeta. destruct (line_search _ _ _ _ _ _ _ _) as [[[? ?] ?]|e'] eqn:E; cbn [bind].
    - destruct (nltb _ _); [apply aa_update_scale_raise | discriminate].
    - intros [= ->]. apply line_search_raise in E. tauto.
  Qed.
End UpdateRaise.
