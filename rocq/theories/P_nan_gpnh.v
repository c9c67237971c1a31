(** GPNH convex coding of data containing NaN. *)
From Coq Require Import List Arith Lia ZArith Reals Bool.
From Verif Require Import Num NumExt Mat Py Spec_nan M_simplex M_spg M_iter M_random M_furthest M_gpnh.
From Verif Require Import P_lin P_simplex P_spg P_random P_mat P_iter P_gpnh P_gpnh_run P_nan.
Import ListNotations.

Lemma has_shape_penalty c k (w : gws ext) d : nr (w_S w) = k -> nc (w_S w) = d ->
  nr (dictionary_penalty_gradient c k w) = k /\ nc (dictionary_penalty_gradient c k w) = d.
Proof. intros E1 E2. unfold dictionary_penalty_gradient. destruct (Nat.eqb k 1); cbn; auto. Qed.

Section G.
  Variables (X : mat ext) (n d k : nat) (c : gpnh_cfg ext) (fuel : nat) (i0 j0 : nat).
  Hypothesis X1 : nr X = n.
  Hypothesis X2 : nc X = d.
  Hypothesis Hk : (0 < k)%nat.
  Hypothesis HX : nan_at X i0 j0.

  Record ginv (Rw : nat -> Prop) (Q : nat -> nat -> Prop) (w : gws ext) : Prop := {
    gi_X : w_X w = X;
    gi_G1 : nr (w_Gamma w) = n; gi_G2 : nc (w_Gamma w) = k;
    gi_S1 : nr (w_S w) = k; gi_S2 : nc (w_S w) = d;
    gi_m1 : w_f_S_mem w <> []; gi_m2 : w_f_Gamma_mem w <> [];
    gi_rows : forall i a, (i < n)%nat -> (a < k)%nat -> Rw i -> exists x, cell (w_Gamma w) i a = Fin x;
    gi_S : forall a j, (a < k)%nat -> (j < d)%nat -> Q a j -> cell (w_S w) a j = NaN }.
  Definition gzero (Rw : nat -> Prop) (w : gws ext) : Prop := forall i a, (i < n)%nat -> (a < k)%nat -> Rw i -> cell (w_Gamma w) i a = Fin 0.
  Definition nan_col (j : nat) : Prop := exists i, nan_at X i j.
  Definition nan_row (i : nat) : Prop := exists j, nan_at X i j.

  Lemma cost_nan w : w_X w = X -> evaluate_cost c k w = NaN.
  Proof using HX.
    intros E. destruct HX as (Hi & Hj & EN). unfold evaluate_cost, evaluate_loss_function. rewrite E.
    rewrite (mnorm_nan _ i0 j0); [|exact Hi|exact Hj|rewrite msub_entry, EN by assumption; reflexivity].
    change (@nsq ext Num_E NaN) with NaN. cbn [nadd nmul Num_E]. rewrite mul_nan_r. reflexivity.
  Qed.

  Lemma upd_dict Rw Q w : ginv Rw Q w -> exists w', update_dictionary fuel c k w = Ok w' /\ ginv Rw (fun a j => Q a j \/ nan_col j) w' /\ w_Gamma w' = w_Gamma w.
  Proof using X1 X2 HX Hk.
    intros H. destruct H. unfold update_dictionary, dictionary_line_search. cbv zeta.
    match goal with |- context [line_search ?f ?p ?co ?tr ?fu ?m ?cc ?i] => destruct (ls_nan f p co tr fu m cc i) as (mem' & E & Hm'); [exact gi_m3|apply cost_nan; exact gi_X0|rewrite E] end.
    cbn [bind]. eexists. split; [reflexivity|]. split; [|reflexivity]. split; try assumption; cbn [w_X w_Gamma w_S w_f_S_mem w_f_Gamma_mem set_S_mem set_S_SSt]; try assumption.
    intros a j Ha Hj HQ. rewrite madd_entry by lia. destruct HQ as [HQ|(i & Hi & _ & EN)].
    - rewrite gi_S0 by assumption. reflexivity.
    - match goal with |- context [dictionary_gradient c k ?w0] => set (w1 := w0) end.
      assert (G : cell (dictionary_gradient c k w1) a j = NaN /\ nr (dictionary_gradient c k w1) = k /\ nc (dictionary_gradient c k w1) = d).
      { unfold dictionary_gradient. destruct (has_shape_penalty c k w1 d gi_S3 gi_S4) as [P1 P2].
        split; [|split; [exact P1|exact P2]].
        rewrite madd_entry, madd_entry by (unfold madd, mmap2; rewrite ?nr_mbuild, ?nc_mbuild, ?P1, ?P2; assumption). rewrite mscale_nan; [rewrite add_nan_r; reflexivity|..].
        - cbn. lia.
        - cbn. rewrite gi_X0, X2. exact Hj.
        - cbn [w1 w_GtX]. apply mmul_nan_r with (l := i); [cbn; lia|rewrite gi_X0, X2; exact Hj|cbn; lia|rewrite gi_X0; exact EN]. }
      destruct G as (G & g1 & g2). rewrite msub_entry by (cbn; lia). rewrite msub_entry by (cbn; lia).
      rewrite mscale_nan; [|rewrite g1; exact Ha|rewrite g2; exact Hj|exact G]. change (eopp NaN) with NaN. rewrite add_nan_r, add_nan_l, add_nan_r. reflexivity.
  Qed.

  Lemma upd_weights Rw Q w : ginv Rw Q w -> (forall i, (i < n)%nat -> Rw i -> nan_row i \/ exists j, (j < d)%nat /\ forall a, (a < k)%nat -> Q a j) ->
    exists w', update_weights fuel c k w = Ok w' /\ ginv Rw Q w' /\ gzero Rw w'.
  Proof using X1 X2 HX Hk.
    intros H HR. destruct H. unfold update_weights, weights_line_search. cbv zeta.
    match goal with |- context [line_search ?f ?p ?co ?tr ?fu ?m ?cc ?i] => destruct (ls_nan f p co tr fu m cc i) as (mem' & E & Hm'); [exact gi_m4|apply cost_nan; exact gi_X0|rewrite E] end.
    cbn [bind]. eexists. split; [reflexivity|].
    match goal with |- context [weights_gradient ?w0] => set (w1 := w0) end.
    match goal with |- _ /\ gzero Rw ?ww => assert (Z : gzero Rw ww) end.
    { intros i a Hi Ha HRi. cbn [w_Gamma set_Gamma_mem set_Gamma].
      destruct (gi_rows0 i a Hi Ha HRi) as (x & Ex). eapply projected_step_zero; try eassumption; cbn [w_Gamma w1]; try lia.
      - unfold weights_gradient. cbn. rewrite gi_G3. reflexivity.
      - unfold weights_gradient. cbn. reflexivity.
      - exists a. split; [lia|]. unfold weights_gradient. rewrite madd_entry, madd_entry by (cbn; lia).
        destruct (HR i Hi HRi) as [(j & _ & Hj & EN)|(j & Hj & HQ)].
        + rewrite mscale_nan; [rewrite add_nan_r; reflexivity|cbn; rewrite gi_X0; lia|cbn; lia|].
          cbn [w1 w_XSt]. apply mmul_nan_l with (l := j); rewrite ?gi_X0; try lia; [cbn; lia|exact EN].
        + rewrite (mscale_nan (n2 * _)%num); [apply add_nan_r|cbn; lia|cbn; lia|].
          cbn [w1 w_Gamma w_SSt]. apply mmul_nan_r with (l := 0%nat); try (cbn; lia).
          apply mmul_nan_l with (l := j); try (cbn; lia). apply gi_S0; auto. }
    split; [|exact Z]. split; try assumption; cbn [w_X w_Gamma w_S w_f_S_mem w_f_Gamma_mem set_Gamma_mem set_Gamma]; try assumption.
    intros i a Hi Ha HRi. exists 0%R. exact (Z i a Hi Ha HRi).
  Qed.

  Lemma ginv_weaken (Rw : nat -> Prop) (Q Q' : nat -> nat -> Prop) w : (forall a j, Q' a j -> Q a j) -> ginv Rw Q w -> ginv Rw Q' w.
  Proof using. intros HQ []. split; auto. Qed.

  (** a whole iteration phase *)
  Lemma gpnh_iterate_nan ud uw tol m Q w : let Rw := fun i => ud = true \/ nan_row i in
    ginv Rw Q w -> (0 < m)%nat -> exists w', gpnh_iterate fuel c k ud uw tol m w = Ok (w', NaN, (m - 1)%nat, repeat NaN (S m))
      /\ ginv Rw (fun a j => Q a j \/ (ud = true /\ nan_col j)) w' /\ (uw = true -> gzero Rw w').
  Proof using X1 X2 HX Hk.
    intros Rw HI Hm. unfold gpnh_iterate.
    apply (iterate_nan (evaluate_cost c k) (gc_monotone c) _ tol (ginv Rw Q) (fun w' => ginv Rw (fun a j => Q a j \/ (ud = true /\ nan_col j)) w' /\ (uw = true -> gzero Rw w')) m w).
    - intros s Hs. apply cost_nan. apply Hs.
    - intros s [Hs _]. revert Hs. apply ginv_weaken. auto.
    - intros s Hs. assert (D : exists s1, (ud = true -> update_dictionary fuel c k s = Ok s1) /\ (ud = false -> s1 = s) /\ ginv Rw (fun a j => Q a j \/ (ud = true /\ nan_col j)) s1).
      { destruct ud.
        - destruct (upd_dict Rw Q s Hs) as (s1 & E1 & I1 & _). exists s1. repeat split; auto; [discriminate|..]; try apply I1. intros a j Ha Hj [HQ|[_ HQ]]; apply I1; auto.
        - exists s. repeat split; auto; [discriminate|..]; try apply Hs. intros a j Ha Hj [HQ|[[=] _]]. apply Hs; auto. }
      destruct D as (s1 & D1 & D2 & D3). rewrite (enabled_run _ ud _ _ s s1 D1 D2) by (apply cost_nan, D3).
      assert (V : exists s2, (uw = true -> update_weights fuel c k s1 = Ok s2) /\ (uw = false -> s2 = s1) /\ ginv Rw (fun a j => Q a j \/ (ud = true /\ nan_col j)) s2 /\ (uw = true -> gzero Rw s2)).
      { destruct uw.
        - destruct (upd_weights Rw _ s1 D3) as (s2 & E2 & I2 & Z2).
          + intros i Hi [HR|HR]; [right|left; exact HR]. exists j0. split; [destruct HX as (_ & Hj & _); lia|]. intros a Ha. right. split; [exact HR|]. exists i0. exact HX.
          + exists s2. repeat split; auto; [discriminate|..]; apply I2.
        - exists s1. repeat split; auto; try discriminate; apply D3. }
      destruct V as (s2 & V1 & V2 & V3 & V4). rewrite <- (app_nil_r (enabled uw _)), (enabled_run _ uw _ _ s1 s2 V1 V2) by (apply cost_nan, V3).
      exists s2. split; [reflexivity|]. split; assumption.
    - exact HI.
    - exact Hm.
  Qed.
End G.

(** ** starting values *)
Lemma init_dictionary_shape {T} {N : Num T} data k init kw (g g' : rng T) D : initialize_dictionary data k init kw g = Ok (D, g') -> nr D = k /\ nc D = nc data /\ r_uniform g' = r_uniform g.
Proof.
  unfold initialize_dictionary. destruct init; try discriminate; try (intros [= <- <-]; auto).
  unfold initialize_dictionary_furthest_sum. intros H. apply bind_ok in H. destruct H as ((s & g1) & E1 & H).
  apply bind_ok in H. destruct H as (sel & E2 & H). apply bind_ok in H. destruct H as (_ & _ & H). injection H as <- <-. cbn [snd]. split; [reflexivity|]. split; [reflexivity|].
  destruct (fk_start_index kw); [injection E1 as _ <-; reflexivity|].
  apply bind_ok in E1. destruct E1 as ((z & g2) & E1 & E3). injection E3 as _ <-. unfold draw_randint in E1. destruct (Nat.eqb _ 0); [discriminate|]. injection E1 as _ <-. reflexivity.
Qed.
Lemma choose_initial_real c k data Din Win ud uw kw (g g' : rng ext) D W : choose_initial c k data Din Win ud uw kw g = Ok (D, W, g') -> good_draws g ->
  nr W = nr data /\ nc W = k /\ nr D = k /\ nc D = nc data /\ (forall i a, (i < nr data)%nat -> (a < k)%nat -> exists x, cell W i a = Fin x)
  /\ r_uniform g' = r_uniform g.
Proof.
  intros H HG. assert (GG : forall g1 : rng ext, r_uniform g1 = r_uniform g -> good_draws g1) by (intros g1 E i; rewrite E; apply HG).
  assert (IW : forall init g1 W g2, r_uniform g1 = r_uniform g -> initialize_weights data k init g1 = Ok (W, g2) ->
      nr W = nr data /\ nc W = k /\ (forall i a, (i < nr data)%nat -> (a < k)%nat -> exists x, cell W i a = Fin x) /\ r_uniform g2 = r_uniform g).
  { intros init g1 W1 g2 E H1. unfold initialize_weights in H1. assert (Q : right_stochastic_matrix (nr data) k g1 = (W1, g2)) by (destruct init; congruence).
    split; [|split; [|split]].
    - change W1 with (fst (W1, g2)). rewrite <- Q. reflexivity.
    - change W1 with (fst (W1, g2)). rewrite <- Q. reflexivity.
    - intros i a Hi Ha. change W1 with (fst (W1, g2)). rewrite <- Q. apply drawn_real; auto.
    - change g2 with (snd (W1, g2)). rewrite <- Q. cbn. exact E. }
  unfold choose_initial in H. cbv zeta in H.
  assert (Q : forall init, (if andb (negb ud) uw then
          let! D := check_init_dictionary Din k (nc data) in
          match kw with
          | Some _ => Raise TypeError
          | None => let! r := initialize_weights data k init g in Ok (D, fst r, snd r)
          end
        else if andb ud (negb uw) then
          let! W := check_init_weights Win (nr data) k in
          let! r := initialize_dictionary data k init (match kw with Some v => v | None => fs_default end) g in
          Ok (fst r, W, snd r)
        else
          let! r := initialize_dictionary data k init (match kw with Some v => v | None => fs_default end) g in
          let! r2 := initialize_weights data k init (snd r) in
          Ok (fst r, fst r2, snd r2)) = Ok (D, W, g') ->
     nr W = nr data /\ nc W = k /\ nr D = k /\ nc D = nc data /\ (forall i a, (i < nr data)%nat -> (a < k)%nat -> exists x, cell W i a = Fin x) /\ r_uniform g' = r_uniform g).
  { clear H. intros init H. destruct (andb (negb ud) uw); [|destruct (andb ud (negb uw))].
    - apply bind_ok in H. destruct H as (D0 & E1 & H). destruct kw; [discriminate|]. apply bind_ok in H. destruct H as ((W0 & g0) & E2 & H). injection H as <- <- <-.
      apply check_init_dictionary_ok_inv in E1. destruct E1 as (_ & d1 & d2). apply IW in E2; [|reflexivity]. tauto.
    - apply bind_ok in H. destruct H as (W0 & E1 & H). apply bind_ok in H. destruct H as ((D0 & g0) & E2 & H). injection H as <- <- <-. cbn [fst snd].
      apply init_dictionary_shape in E2. pose proof E1 as E3. apply check_init_weights_ok_inv in E3. destruct E3 as (_ & e1 & e2), E2 as (f1 & f2 & f3).
      repeat split; try assumption. intros i a Hi Ha. eapply check_weights_real; eassumption.
    - apply bind_ok in H. destruct H as ((D0 & g0) & E1 & H). apply bind_ok in H. destruct H as ((W0 & g1) & E2 & H). injection H as <- <- <-. cbn [fst snd] in *.
      apply init_dictionary_shape in E1. destruct E1 as (f1 & f2 & f3). apply IW in E2; [|exact f3]. tauto. }
  destruct (gc_init c); try (apply Q in H; exact H).
  apply bind_ok in H. destruct H as (W0 & E1 & H). apply bind_ok in H. destruct H as (D0 & E2 & H). injection H as <- <- <-.
  apply check_init_dictionary_ok_inv in E2. destruct E2 as (_ & d1 & d2). pose proof E1 as E3. apply check_init_weights_ok_inv in E3. destruct E3 as (_ & e1 & e2).
  repeat split; try assumption. intros i a Hi Ha. eapply check_weights_real; eassumption.
Qed.
Lemma start_ginv_nan c data D W n d k Rw : nr data = n -> nc data = d -> nr W = n -> nc W = k -> nr D = k -> nc D = d -> (0 < gc_memory c)%nat ->
  (forall i a, (i < n)%nat -> (a < k)%nat -> exists x, cell W i a = Fin x) ->
  ginv data n d k Rw (fun a j => cell D a j = NaN) (start_ws c data W D).
Proof.
  intros. split; cbn [start_ws w_X w_Gamma w_S w_f_S_mem w_f_Gamma_mem]; auto; destruct (gc_memory c); try lia; discriminate.
Qed.

(** the run, whatever the initial arrays *)
Lemma gpnh_run_nan fuel (o : gpnh ext) data Din Win ud uw kw : has_nan data -> good_draws (go_rng o) -> (0 < gc_memory (go_cfg o))%nat ->
  (exists e, gpnh_convex_coding fuel o data Din Win ud uw kw = Raise e
      /\ (check_params (resolve_components (go_n_components o) (nc data)) (gc_max_iterations (go_cfg o)) (gc_tolerance (go_cfg o)) = Raise e
          \/ exists k m t, check_params (resolve_components (go_n_components o) (nc data)) (gc_max_iterations (go_cfg o)) (gc_tolerance (go_cfg o)) = Ok (k, m, t)
             /\ choose_initial (go_cfg o) k data Din Win ud uw kw (go_rng o) = Raise e))
  \/ (exists r w k m t D W g, gpnh_convex_coding fuel o data Din Win ud uw kw = Ok r
      /\ resolve_components (go_n_components o) (nc data) = PInt (Z.of_nat k) /\ (0 < k)%nat
      /\ gc_max_iterations (go_cfg o) = PInt (Z.of_nat m) /\ (0 < m)%nat /\ tol_value (gc_tolerance (go_cfg o)) t
      /\ choose_initial (go_cfg o) k data Din Win ud uw kw (go_rng o) = Ok (D, W, g)
      /\ nan_outcome m (gr_cost r) (gr_n_iter r) (gr_log r) (gr_warned r)
      /\ gr_obj r = mk_gpnh (go_cfg o) (PInt (Z.of_nat k)) g (Some w) (go_dictionary_ o) (go_cost_ o) (go_n_iter_ o) (go_n_components_ o)
      /\ nr (w_Gamma w) = nr data /\ nc (w_Gamma w) = k /\ nr (w_S w) = k /\ nc (w_S w) = nc data
      /\ (forall i a, (i < nr data)%nat -> (a < k)%nat -> uw = true -> (ud = true \/ exists j, nan_at data i j) -> cell (w_Gamma w) i a = Fin 0)
      /\ (forall a j, (a < k)%nat -> (j < nc data)%nat -> cell D a j = NaN \/ (ud = true /\ exists i, nan_at data i j) -> cell (w_S w) a j = NaN)).
Proof.
  intros (i0 & j0 & HN) HG HM. unfold gpnh_convex_coding. cbv zeta.
  destruct (check_params _ _ _) as [[[k m] t]|e] eqn:EP; cbn [bind]; [|left; exists e; split; [reflexivity|left; reflexivity]].
  destruct (choose_initial _ _ _ _ _ _ _ _ _) as [[[D W] g]|e] eqn:EI; cbn [bind]; [|left; exists e; split; [reflexivity|right; exists k, m, t; auto]].
  right. pose proof EP as EP2. apply check_params_ok in EP2. destruct EP2 as (K1 & K2 & M1 & M2 & T1).
  destruct (choose_initial_real _ _ _ _ _ _ _ _ _ _ _ _ EI HG) as (W1 & W2 & D1 & D2 & WF & _).
  change (initialize_workspace _ _) with (start_ws (go_cfg o) data W D).
  destruct (gpnh_iterate_nan data (nr data) (nc data) k (go_cfg o) fuel i0 j0 eq_refl eq_refl K2 HN ud uw t m (fun a j => cell D a j = NaN) (start_ws (go_cfg o) data W D)) as (w & E & I & Z).
  { apply start_ginv_nan; auto. } { exact M2. }
  rewrite E. cbn [bind]. eexists _, w, k, m, t, D, W, g. split; [reflexivity|]. rewrite K1. cbn [gr_cost gr_n_iter gr_log gr_warned gr_obj]. split; [reflexivity|].
  split; [exact K2|]. split; [exact M1|]. split; [exact M2|]. split; [exact T1|]. split; [exact EI|]. split.
  { split; [reflexivity|]. split; [lia|]. split; [reflexivity|]. destruct (Nat.eqb_spec (m - 1) m); [lia|reflexivity]. }
  split; [reflexivity|]. destruct I. repeat (split; [assumption|]). split.
  - intros i a Hi Ha Hw HR. apply (Z Hw i a Hi Ha). exact HR.
  - intros a j Ha Hj HQ. apply gi_S0; [exact Ha|exact Hj|]. exact HQ.
Qed.
