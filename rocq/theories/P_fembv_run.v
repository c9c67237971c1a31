(** FEM-BV: runs *)
From Coq Require Import List Arith ZArith Bool Reals Lra Lia.
From Verif Require Import Num Mat Py Lp M_random M_iter M_gpnh M_fembv Spec Spec_fembv P_lin P_random P_iter P_mat P_gpnh_run P_fembv P_fembv_upd.
Import ListNotations.

(** the states at the start of the iterations *)
Lemma iterate_loop_states {T} {N : Num T} {St} (cost : St -> T) bad us tol left : forall n st log st' c' n' log', (0 < left)%nat ->
  iterate_loop cost bad us tol left n st (cost st) log = Ok (st', c', n', log') ->
  (n <= n' < n + left)%nat /\
  exists f : nat -> St, f 0%nat = st /\ f (S (n' - n)) = st'
    /\ (forall i, (i <= n' - n)%nat -> run_updates cost (bad (n + i)%nat (cost (f i))) us (f i) (cost (f i)) = Ok (f (S i), cost (f (S i))))
    /\ log' = log ++ tab (S (n' - n)) (fun i => cost (f (S i))).
Proof.
  induction left as [|left IH]; intros n st log st' c' n' log' Hl H; [lia|]. cbn [iterate_loop] in H. apply bind_ok in H.
  destruct H as ((s1 & c1) & E1 & H).
  destruct (run_updates_ok cost (fun _ => True) _ us (fun _ _ _ _ _ _ => I) _ _ _ _ E1 eq_refl I) as (_ & Ec & _). subst c1.
  assert (One : (n <= n < n + S left)%nat /\ exists f : nat -> St, f 0%nat = st /\ f (S (n - n)) = s1
    /\ (forall i, (i <= n - n)%nat -> run_updates cost (bad (n + i)%nat (cost (f i))) us (f i) (cost (f i)) = Ok (f (S i), cost (f (S i))))
    /\ log ++ [cost s1] = log ++ tab (S (n - n)) (fun i => cost (f (S i)))).
  { split; [lia|]. exists (fun i => match i with 0%nat => st | _ => s1 end). rewrite Nat.sub_diag. repeat (split; [reflexivity|]). split; [|reflexivity].
    intros [|i] Hi; [|lia]. rewrite Nat.add_0_r. exact E1. }
  destruct (nltb _ tol); [injection H as <- <- <- <-; exact One|].
  destruct left as [|left]; [cbn [iterate_loop] in H; injection H as <- <- <- <-; cbn [Nat.pred]; exact One|].
  apply IH in H; [|lia]. destruct H as (Hn & f & F0 & F1 & F2 & F3). split; [lia|].
  exists (fun i => match i with 0%nat => st | S i' => f i' end). split; [reflexivity|].
  replace (n' - n)%nat with (S (n' - S n)) by lia. split; [exact F1|]. split.
  - intros [|i] Hi; [rewrite Nat.add_0_r, F0; exact E1|]. replace (n + S i)%nat with (S n + i)%nat by lia. apply F2. lia.
  - rewrite F3, <- app_assoc. f_equal. unfold tab. cbn [seq map app]. rewrite F0. f_equal.
    rewrite <- (seq_shift (n' - S n) 1), map_map. cbn [seq map]. reflexivity.
Qed.
Lemma iterate_states {T} {N : Num T} {St} (cost : St -> T) bad us tol m st st' c' n' L : (0 < m)%nat ->
  iterate cost bad us tol m st = Ok (st', c', n', L) ->
  (n' < m)%nat /\ exists f : nat -> St, f 0%nat = st /\ f (S n') = st'
    /\ (forall i, (i <= n')%nat -> run_updates cost (bad i (cost (f i))) us (f i) (cost (f i)) = Ok (f (S i), cost (f (S i))))
    /\ (forall i, (i <= S n')%nat -> nth i L n0 = cost (f i)) /\ length L = S (S n').
Proof.
  intros Hm H. unfold iterate in H. apply iterate_loop_states in H; [|exact Hm]. rewrite Nat.sub_0_r in H.
  destruct H as (Hn & f & F0 & F1 & F2 & F3). split; [lia|]. exists f. split; [exact F0|]. split; [exact F1|]. split; [exact F2|]. subst L. cbn [app]. split.
  - intros [|i] Hi; cbn [nth]; [rewrite F0; reflexivity|]. rewrite nth_tab by lia. reflexivity.
  - cbn [length]. rewrite length_tab. reflexivity.
Qed.

Section Runs.
  Context {T : Type} {N : Num T} {P A : Type} (cl : fembv_class T P A) (solver : nat -> lp T -> lp_answer T).
  (** what a completed fit did *)
  Lemma fembv_run_inv (o : fembv T P) data args weights init up uw r : fembv_fit cl solver o data args weights init up uw = Ok r ->
    exists k m t w g' w', resolve_components (fo_n_components o) (nc data) = PInt (Z.of_nat k) /\ (0 < k)%nat
      /\ fc_max_iterations (fo_cfg o) = PInt (Z.of_nat m) /\ (0 < m)%nat /\ tol_value (fc_tolerance (fo_cfg o)) t
      /\ fembv_initialize cl (fo_cfg o) k (option_map f_params (fo_ws o)) data args weights init (fo_rng o) = Ok (w, g')
      /\ fembv_iterate cl solver (fo_cfg o) k up uw t m w = Ok (w', fr_cost r, fr_n_iter r, fr_log r)
      /\ fr_obj r = mk_fembv (fo_cfg o) (PInt (Z.of_nat k)) g' (Some w') (fo_cost_ o) (fo_n_iter_ o) (fo_n_components_ o)
      /\ fr_warned r = andb (Nat.eqb (fr_n_iter r) m) (nltb n0 t).
  Proof.
    unfold fembv_fit. intros H. apply bind_ok in H. destruct H as ([[k m] t] & E1 & H). apply check_params_ok in E1. destruct E1 as (K1 & K2 & M1 & M2 & T1).
    apply bind_ok in H. destruct H as ([w g'] & E2 & H). apply bind_ok in H. destruct H as ([[[w' cost] ni] lg] & E3 & H). injection H as <-.
    exists k, m, t, w, g', w'. cbn. rewrite <- K1. repeat (split; [assumption || reflexivity|]). reflexivity.
  Qed.
  Lemma fembv_fit_inv (o : fembv T P) data args weights init up uw r W : fembv_fit_transform cl solver o data args weights init up uw = Ok (r, W) ->
    exists k m t w g' w', resolve_components (fo_n_components o) (nc data) = PInt (Z.of_nat k) /\ (0 < k)%nat
      /\ fc_max_iterations (fo_cfg o) = PInt (Z.of_nat m) /\ (0 < m)%nat /\ tol_value (fc_tolerance (fo_cfg o)) t
      /\ fembv_initialize cl (fo_cfg o) k (option_map f_params (fo_ws o)) data args weights init (fo_rng o) = Ok (w, g')
      /\ fembv_iterate cl solver (fo_cfg o) k up uw t m w = Ok (w', fr_cost r, fr_n_iter r, fr_log r)
      /\ fr_obj r = mk_fembv (fo_cfg o) (PInt (Z.of_nat k)) g' (Some w') (Some (fr_cost r)) (Some (fr_n_iter r)) (Some (nc W))
      /\ fr_warned r = andb (Nat.eqb (fr_n_iter r) m) (nltb n0 t) /\ W = f_Gamma w'.
  Proof.
    unfold fembv_fit_transform. intros H. apply bind_ok in H. destruct H as (r0 & E & H). apply fembv_run_inv in E.
    destruct E as (k & m & t & w & g' & w' & A1 & A2 & A3 & A4 & A5 & A6 & A7 & A8 & A9). rewrite A8 in H. cbn in H. injection H as <- <-.
    exists k, m, t, w, g', w'. cbn. repeat (split; [assumption || reflexivity|]). reflexivity.
  Qed.
  Lemma fembv_transform_inv (o : fembv T P) data no_args r W : fembv_transform cl solver o data no_args = Ok (r, W) ->
    exists k m t w g' w', resolve_components (fo_n_components o) (nc data) = PInt (Z.of_nat k) /\ (0 < k)%nat
      /\ fc_max_iterations (fo_cfg o) = PInt (Z.of_nat m) /\ (0 < m)%nat /\ tol_value (fc_tolerance (fo_cfg o)) t
      /\ fembv_initialize cl (fo_cfg o) k (option_map f_params (fo_ws o)) data no_args None InitNone (fo_rng o) = Ok (w, g')
      /\ fembv_iterate cl solver (fo_cfg o) k false true t m w = Ok (w', fr_cost r, fr_n_iter r, fr_log r)
      /\ fr_obj r = mk_fembv (fo_cfg o) (PInt (Z.of_nat k)) g' (Some w') (fo_cost_ o) (fo_n_iter_ o) (fo_n_components_ o)
      /\ fr_warned r = andb (Nat.eqb (fr_n_iter r) m) (nltb n0 t) /\ W = f_Gamma w'.
  Proof.
    unfold fembv_transform. intros H. apply bind_ok in H. destruct H as (r0 & E & H). apply fembv_run_inv in E.
    destruct E as (k & m & t & w & g' & w' & A1 & A2 & A3 & A4 & A5 & A6 & A7 & A8 & A9). rewrite A8 in H. cbn in H. injection H as <- <-.
    exists k, m, t, w, g', w'. repeat (split; [assumption || reflexivity|]). reflexivity.
  Qed.
  Lemma fembv_initialize_inv c k old data args weights init g w g' : fembv_initialize cl c k old data args weights init g = Ok (w, g') ->
    exists p g1, cl_initialize cl k data args init old g = Ok (p, g1) /\ nc (cl_distance cl p) = k
      /\ fembv_initialize_weights k (nr (cl_distance cl p)) weights init g1 = Ok (f_Gamma w, g')
      /\ initialize_constraints c k (nr (cl_distance cl p)) = Ok (f_cons w) /\ f_params w = p /\ f_Eta w = None /\ f_calls w = 0%nat.
  Proof.
    unfold fembv_initialize. intros H. apply bind_ok in H. destruct H as ([p g1] & E1 & H).
    destruct (Nat.eqb_spec (nc (cl_distance cl p)) k); cbn [negb] in H; [|discriminate].
    apply bind_ok in H. destruct H as ([W g2] & E2 & H). apply bind_ok in H. destruct H as (cs & E3 & H). injection H as <- <-.
    exists p, g1. cbn. auto 10.
  Qed.
  Lemma fembv_weights_streams k n weights init (g g' : rng T) W : fembv_initialize_weights k n weights init g = Ok (W, g') ->
    r_uniform g' = r_uniform g /\ r_normal g' = r_normal g /\ r_int g' = r_int g.
  Proof.
    unfold fembv_initialize_weights. intros H.
    assert (D : Ok (right_stochastic_matrix n k g) = Ok (W, g') -> r_uniform g' = r_uniform g /\ r_normal g' = r_normal g /\ r_int g' = r_int g).
    { unfold right_stochastic_matrix, draw_uniform_mat. intros [= _ <-]. auto. }
    destruct init, weights; auto. apply bind_ok in H. destruct H as (W' & _ & H). injection H as _ <-. auto.
  Qed.
  Lemma choose_streams k : forall avail (g : rng T), r_uniform (snd (choose k avail g)) = r_uniform g
    /\ r_normal (snd (choose k avail g)) = r_normal g /\ r_int (snd (choose k avail g)) = r_int g.
  Proof.
    induction k as [|k IH]; intros avail g; [auto|]. cbn [choose]. specialize (IH (remove_nth (r_int g (r_pos g) mod length avail) avail) (advance 1 g)).
    destruct (choose k _ _) as [rest g']. exact IH.
  Qed.
  Lemma kmeans_initialize_streams k (data : mat T) th init old (g g' : rng T) s : kmeans_initialize k data th init old g = Ok (s, g') ->
    r_uniform g' = r_uniform g /\ r_normal g' = r_normal g /\ r_int g' = r_int g.
  Proof.
    unfold kmeans_initialize. intros H.
    assert (D : (let! rg := draw_choice (nr data) k g in Ok (mk_kmeans data (mbuild k (nc data) (fun j f => mget data (nth j (fst rg) 0%nat) f)), snd rg)) = Ok (s, g') ->
       r_uniform g' = r_uniform g /\ r_normal g' = r_normal g /\ r_int g' = r_int g).
    { intros D. apply bind_ok in D. destruct D as ([sel g1] & E & D). injection D as _ <-. cbn [snd]. unfold draw_choice in E. destruct (Nat.ltb _ _); [discriminate|].
      injection E as E. pose proof (choose_streams k (seq 0 (nr data)) g) as F. rewrite E in F. exact F. }
    destruct init, th; auto. apply bind_ok in H. destruct H as ([] & _ & H). injection H as _ <-. auto.
  Qed.
End Runs.

Local Open Scope R_scope.
(** ** starting point of the k-means variant *)
Lemma kmeans_initialize_ok n d k (data : mat R) th init old g g' s : is_mat n d data -> (forall Th, th = Some Th -> wf Th) ->
  kmeans_initialize k data th init old g = Ok (s, g') -> kmok n d k data s /\ r_uniform g' = r_uniform g.
Proof.
  intros HX WT H. split; [|apply kmeans_initialize_streams in H; apply H]. pose proof HX as (x1 & x2 & _). unfold kmeans_initialize in H.
  assert (D : (let! rg := draw_choice (nr data) k g in Ok (mk_kmeans data (mbuild k (nc data) (fun j f => mget data (nth j (fst rg) 0%nat) f)), snd rg)) = Ok (s, g') -> kmok n d k data s).
  { intros D. apply bind_ok in D. destruct D as ([sel g1] & E & D). injection D as <- _. split; [reflexivity|]. split; [exact HX|]. cbn [km_Theta]. rewrite x2. apply is_mat_mbuild. }
  destruct init, th as [Th|]; auto. apply bind_ok in H. destruct H as ([] & E & H). injection H as <- _.
  unfold check_array_shape in E. destruct (Nat.eqb_spec (nr Th) k), (Nat.eqb_spec (nc Th) (nc data)); cbn [andb] in E; try discriminate.
  split; [reflexivity|]. split; [exact HX|]. cbn [km_Theta]. destruct (WT Th eq_refl) as [W1 W2]. repeat split; try lia; try congruence. intros row Hr. rewrite (W2 row Hr). congruence.
Qed.
Lemma fembv_weights_ok n k weights init (g g' : rng R) W : (forall W0, weights = Some W0 -> wf W0) ->
  fembv_initialize_weights k n weights init g = Ok (W, g') ->
  is_mat n k W /\ (rng_ok k g -> (forall W0, weights = Some W0 -> row_stochastic W0) -> row_stochastic W).
Proof.
  intros WW H. unfold fembv_initialize_weights in H.
  assert (D : Ok (right_stochastic_matrix n k g) = Ok (W, g') -> is_mat n k W /\ (rng_ok k g -> (forall W0, weights = Some W0 -> row_stochastic W0) -> row_stochastic W)).
  { intros D. assert (E : right_stochastic_matrix n k g = (W, g')) by (revert D; generalize (right_stochastic_matrix n k g); intros p D; congruence).
    replace W with (fst (right_stochastic_matrix n k g)) by (rewrite E; reflexivity). split.
    - unfold right_stochastic_matrix, draw_uniform_mat. cbn [fst]. apply is_mat_mbuild.
    - intros Hg _. apply right_stochastic_rng; exact Hg. }
  destruct init, weights as [W0|]; auto; try (apply bind_ok in H; destruct H as (W' & E & H)); try discriminate.
  injection H as <- _. apply check_init_weights_ok_inv in E. destruct E as ([= ->] & E1 & E2). destruct (WW W' eq_refl) as [W1 W2].
  split; [|intros _ Hs; apply Hs; reflexivity]. repeat split; try lia; try congruence. intros row Hr. rewrite (W2 row Hr). congruence.
Qed.

(** ** the iteration, update by update *)
Section Path.
  Context {T : Type} {N : Num T} {P A : Type} (cl : fembv_class T P A) (solver : nat -> lp T -> lp_answer T).
  Definition half_step (up : bool) (w : fws T P) : res (fws T P) := if up then fembv_update_parameters cl w else Ok w.
  Definition other_half (c : fembv_cfg T) (k : nat) (uw : bool) (w : fws T P) : res (fws T P) := if uw then fembv_update_weights cl solver c k w else Ok w.
  (** the working state after i iterations *)
  Fixpoint fembv_after (c : fembv_cfg T) (k : nat) (up uw : bool) (i : nat) (w : fws T P) : res (fws T P) :=
    match i with
    | O => Ok w
    | S i' => let! w1 := fembv_after c k up uw i' w in let! w2 := half_step up w1 in other_half c k uw w2
    end.
  Lemma run_two {St} (cost : St -> T) bad up uw u1 u2 s c s' c' : run_updates cost bad (enabled up u1 ++ enabled uw u2) s c = Ok (s', c') ->
    exists s1, (if up then u1 s else Ok s) = Ok s1 /\ (if uw then u2 s1 else Ok s1) = Ok s'
      /\ (up = true -> bad (cost s1) = false) /\ (uw = true -> bad (cost s') = false).
  Proof.
    destruct up, uw; cbn [enabled app run_updates]; intros H.
    - apply bind_ok in H. destruct H as (s1 & E1 & H). destruct (bad (cost s1)) eqn:B1; [discriminate|].
      apply bind_ok in H. destruct H as (s2 & E2 & H). destruct (bad (cost s2)) eqn:B2; [discriminate|]. injection H as <- <-. exists s1. auto.
    - apply bind_ok in H. destruct H as (s1 & E1 & H). destruct (bad (cost s1)) eqn:B1; [discriminate|]. injection H as <- <-. exists s1. repeat split; auto; discriminate.
    - apply bind_ok in H. destruct H as (s2 & E2 & H). destruct (bad (cost s2)) eqn:B2; [discriminate|]. injection H as <- <-. exists s. repeat split; auto; discriminate.
    - injection H as <- <-. exists s. repeat split; auto; discriminate.
  Qed.
  Lemma fembv_iterate_path c k up uw t m w w' cost n' L : (0 < m)%nat -> fembv_iterate cl solver c k up uw t m w = Ok (w', cost, n', L) ->
    (n' < m)%nat /\ exists f h : nat -> fws T P, f 0%nat = w /\ f (S n') = w'
      /\ (forall i, (i <= S n')%nat -> fembv_after c k up uw i w = Ok (f i))
      /\ (forall i, (i <= n')%nat -> half_step up (f i) = Ok (h i) /\ other_half c k uw (h i) = Ok (f (S i))
           /\ (up = true -> fembv_bad (fc_monotone c) t i (fembv_cost cl (f i)) (fembv_cost cl (h i)) = false)
           /\ (uw = true -> fembv_bad (fc_monotone c) t i (fembv_cost cl (f i)) (fembv_cost cl (f (S i))) = false))
      /\ (forall i, (i <= S n')%nat -> nth i L n0 = fembv_cost cl (f i)).
  Proof.
    intros Hm H. unfold fembv_iterate in H. apply iterate_states in H; [|exact Hm]. destruct H as (Hn & f & F0 & F1 & F2 & F3 & _). split; [exact Hn|].
    assert (S : forall i, (i <= n')%nat -> half_step up (f i) = Ok (match half_step up (f i) with Ok x => x | Raise _ => f i end)
      /\ other_half c k uw (match half_step up (f i) with Ok x => x | Raise _ => f i end) = Ok (f (S i))
      /\ (up = true -> fembv_bad (fc_monotone c) t i (fembv_cost cl (f i)) (fembv_cost cl (match half_step up (f i) with Ok x => x | Raise _ => f i end)) = false)
      /\ (uw = true -> fembv_bad (fc_monotone c) t i (fembv_cost cl (f i)) (fembv_cost cl (f (S i))) = false)).
    { intros i Hi. destruct (run_two _ _ _ _ _ _ _ _ _ _ (F2 i Hi)) as (s1 & E1 & E2 & E3 & E4). unfold half_step, other_half. rewrite E1. auto. }
    exists f, (fun i => match half_step up (f i) with Ok x => x | Raise _ => f i end). split; [exact F0|]. split; [exact F1|]. split; [|split; [exact S | exact F3]].
    induction i as [|i IH]; intros Hi; cbn [fembv_after]; [rewrite F0; reflexivity|]. rewrite IH by lia. cbn [bind]. destruct (S i ltac:(lia)) as (E1 & E2 & _). rewrite E1. cbn [bind]. exact E2.
  Qed.
  (** an exception comes from an update of a reached state or from the guard *)
  Lemma fembv_iterate_raise c k up uw t m w e : fembv_iterate cl solver c k up uw t m w = Raise e ->
    exists i s, (i < m)%nat /\ fembv_after c k up uw i w = Ok s /\
      ((half_step up s = Raise e)
       \/ exists s1, half_step up s = Ok s1 /\
          (other_half c k uw s1 = Raise e
           \/ (e = RuntimeError /\ up = true /\ fembv_bad (fc_monotone c) t i (fembv_cost cl s) (fembv_cost cl s1) = true)
           \/ exists s2, other_half c k uw s1 = Ok s2 /\ e = RuntimeError /\ uw = true
                /\ fembv_bad (fc_monotone c) t i (fembv_cost cl s) (fembv_cost cl s2) = true)).
  Proof.
    unfold fembv_iterate, iterate. intros H.
    enough (G : forall left n st log, fembv_after c k up uw n w = Ok st ->
      iterate_loop (fembv_cost cl) (fembv_bad (fc_monotone c) t) (enabled up (fembv_update_parameters cl) ++ enabled uw (fembv_update_weights cl solver c k)) t left n st (fembv_cost cl st) log = Raise e ->
      exists i s, (i < n + left)%nat /\ fembv_after c k up uw i w = Ok s /\
      ((half_step up s = Raise e)
       \/ exists s1, half_step up s = Ok s1 /\
          (other_half c k uw s1 = Raise e
           \/ (e = RuntimeError /\ up = true /\ fembv_bad (fc_monotone c) t i (fembv_cost cl s) (fembv_cost cl s1) = true)
           \/ exists s2, other_half c k uw s1 = Ok s2 /\ e = RuntimeError /\ uw = true
                /\ fembv_bad (fc_monotone c) t i (fembv_cost cl s) (fembv_cost cl s2) = true))).
    { eapply (G m 0%nat); [reflexivity | exact H]. }
    clear H. induction left as [|left IH]; intros n st log Ha H; [discriminate|]. cbn [iterate_loop] in H.
    destruct (run_updates _ _ _ st _) as [(s1 & c1)|e1] eqn:E1; cbn [bind] in H.
    - destruct (run_updates_ok (fembv_cost cl) (fun _ => True) _ _ (fun _ _ _ _ _ _ => I) _ _ _ _ E1 eq_refl I) as (_ & Ec & _). subst c1.
      destruct (nltb _ t); [discriminate|]. apply IH in H.
      + destruct H as (i & s & Hi & H). exists i, s. split; [lia | exact H].
      + cbn [fembv_after]. rewrite Ha. cbn [bind]. destruct (run_two _ _ _ _ _ _ _ _ _ _ E1) as (s2 & A1 & A2 & _).
        unfold half_step, other_half. rewrite A1. cbn [bind]. exact A2.
    - injection H as ->. exists n, st. split; [lia|]. split; [exact Ha|]. unfold half_step, other_half. clear IH Ha.
      destruct up, uw; cbn [enabled app run_updates] in E1.
      + destruct (fembv_update_parameters cl st) as [s1|e1]; cbn [bind] in E1; [right; exists s1; split; [reflexivity|] | left; congruence].
        destruct (fembv_bad _ _ _ _ (fembv_cost cl s1)) eqn:B; [injection E1 as <-; right; left; auto|].
        destruct (fembv_update_weights cl solver c k s1) as [s2|e2]; cbn [bind] in E1; [|left; congruence].
        destruct (fembv_bad _ _ _ _ (fembv_cost cl s2)) eqn:B2; [injection E1 as <-; right; right; exists s2; auto | discriminate].
      + destruct (fembv_update_parameters cl st) as [s1|e1]; cbn [bind] in E1; [right; exists s1; split; [reflexivity|] | left; congruence].
        destruct (fembv_bad _ _ _ _ (fembv_cost cl s1)) eqn:B; [injection E1 as <-; right; left; auto | discriminate].
      + right. exists st. split; [reflexivity|]. destruct (fembv_update_weights cl solver c k st) as [s2|e2]; cbn [bind] in E1; [|left; congruence].
        destruct (fembv_bad _ _ _ _ (fembv_cost cl s2)) eqn:B2; [injection E1 as <-; right; right; exists s2; auto | discriminate].
      + discriminate.
  Qed.
End Path.

(** ** the linear programs of FEM-BV have feasible points and a lower bound *)
Lemma clustering_cost_bounded n k G D : is_mat n k G -> is_mat n k D -> row_stochastic G ->
  - Sum n (fun t => Sum k (fun i => Rabs (ent D t i))) <= clustering_cost G D.
Proof.
  intros (g1 & g2 & _) _ HG. unfold clustering_cost. rewrite g1, g2, <- Sum_opp. apply Sum_le. intros t Ht. rewrite <- Sum_opp. apply Sum_le. intros i Hi.
  destruct (row_stochastic_le1 G t i HG) as [H0 H1]; try lia. unfold Rabs. destruct (Rcase_abs (ent D t i)); nra.
Qed.
Lemma fembv_lp_bounded (c : fembv_cfg R) k n D Ae be Au bu : (1 < k)%nat -> (0 < n)%nat -> is_mat n k D ->
  initialize_constraints c k n = Ok (Some (Ae, be, Au, bu)) ->
  forall v, lp_feasible (mk_lp (lp_objective c k n D) Ae be Au bu) v ->
  - Sum n (fun t => Sum k (fun i => Rabs (ent D t i))) <= lp_value (mk_lp (lp_objective c k n D) Ae be Au bu) v.
Proof.
  intros Hk Hn HD E v F. rewrite lp_value_cost by (lia || exact HD).
  apply clustering_cost_bounded; [apply is_mat_mbuild | exact HD|].
  eapply feasible_admissible in F; [apply F | exact Hk | exact Hn | exact E | apply lp_objective_length].
Qed.
Definition uniform (n k : nat) : mat R := mbuild n k (fun _ _ => / INR k).
Lemma uniform_admissible mtv n k : (0 < k)%nat -> admissible mtv (uniform n k).
Proof.
  intros Hk. assert (K : 0 < INR k) by (apply lt_0_INR; lia). split.
  - intros t Ht. cbn [uniform nr nc mbuild] in *. split.
    + intros i Hi. unfold uniform. rewrite ent_mbuild by assumption. left. apply Rinv_0_lt_compat. exact K.
    + rewrite (Sum_ext k _ (fun _ => / INR k)); [rewrite Sum_const; field; lra|]. intros i Hi. unfold uniform. apply ent_mbuild; assumption.
  - intros C _ HC i Hi. cbn [uniform nc mbuild] in Hi. unfold total_variation. rewrite (Sum_ext _ _ (fun _ => 0)); [rewrite Sum_zero; [exact HC | auto]|].
    intros t Ht. cbn [uniform nr mbuild] in Ht. unfold uniform. rewrite !ent_mbuild by lia. rewrite Rminus_diag_eq by reflexivity. apply Rabs_R0.
Qed.
Lemma fembv_lp_never_fails (c : fembv_cfg R) k n D Ae be Au bu : (1 < k)%nat -> (0 < n)%nat -> is_mat n k D ->
  initialize_constraints c k n = Ok (Some (Ae, be, Au, bu)) ->
  ~ (lp_infeasible (mk_lp (lp_objective c k n D) Ae be Au bu) \/ lp_unbounded (mk_lp (lp_objective c k n D) Ae be Au bu)).
Proof.
  intros Hk Hn HD E [H|H].
  - apply (H (pack c k n (uniform n k))). eapply admissible_feasible; try eassumption; [apply lp_objective_length | apply is_mat_mbuild | apply uniform_admissible; lia].
  - destruct (H (- Sum n (fun t => Sum k (fun i => Rabs (ent D t i))))) as (v & F & V).
    apply (fembv_lp_bounded c k n D Ae be Au bu Hk Hn HD E) in F. lra.
Qed.

(** ** invariants of a run; [keeps]: the parameters update keeps the shape of the distance matrix *)
Definition keeps {P A} (cl : fembv_class R P A) (n k : nat) (I : P -> Prop) : Prop :=
  (forall p, I p -> is_mat n k (cl_distance cl p)) /\
  forall G p p', is_mat n k G -> I p -> cl_update cl G p = Ok p' -> I p'.
Section Inv.
  Context {P A : Type} (cl : fembv_class R P A) (solver : nat -> lp R -> lp_answer R) (c : fembv_cfg R) (n k : nat) (I : P -> Prop).
  Hypotheses (HK : keeps cl n k I) (Hn : (0 < n)%nat) (Hk : (0 < k)%nat).
  Definition finv (w : fws R P) : Prop := is_mat n k (f_Gamma w) /\ I (f_params w) /\ initialize_constraints c k n = Ok (f_cons w).
  Lemma finv_fok w : finv w -> fok cl c k n w.
  Proof using HK. intros (H1 & H2 & H3). split; [exact H1|]. split; [apply HK, H2 | exact H3]. Qed.
  Lemma half_inv up w h : finv w -> half_step cl up w = Ok h -> finv h /\ f_Gamma h = f_Gamma w /\ (up = false -> h = w).
  Proof using HK.
    intros HI E. pose proof HI as (H1 & H2 & H3). unfold half_step in E. destruct up; [|injection E as <-; auto].
    unfold fembv_update_parameters in E. apply bind_ok in E. destruct E as (p & E & E'). injection E' as <-. split; [|split; [reflexivity | discriminate]].
    split; [exact H1|]. cbn [f_params f_cons]. split; [|exact H3]. destruct HK as [_ K2]. eapply K2; eauto.
  Qed.
  Lemma other_inv uw h w : finv h -> other_half cl solver c k uw h = Ok w -> finv w /\ f_params w = f_params h /\ (uw = false \/ k = 1%nat -> w = h).
  Proof using HK Hn Hk.
    intros HI E. unfold other_half in E. destruct uw; [|injection E as <-; auto].
    destruct (Nat.eq_dec k 1) as [->|K1]; [unfold fembv_update_weights in E; rewrite Nat.eqb_refl in E; injection E as <-; auto|].
    pose proof (finv_fok h HI) as HF. pose proof HI as (H1 & H2 & H3).
    apply (update_weights_cases cl solver c k n) in E; try assumption; try lia.
    destruct E as (Ae & be & Au & bu & _ & Ec & E1 & E2 & E3 & _). split; [|split; [exact E1 | intros [?|?]; [discriminate | lia]]].
    split; [exact E3|]. rewrite E1, E2. auto.
  Qed.
  Lemma after_inv up uw i : forall w w', finv w -> fembv_after cl solver c k up uw i w = Ok w' -> finv w'.
  Proof using HK Hn Hk.
    induction i as [|i IH]; intros w w' HI E; cbn [fembv_after] in E; [injection E as <-; exact HI|].
    apply bind_ok in E. destruct E as (w1 & E1 & E). apply bind_ok in E. destruct E as (w2 & E2 & E).
    apply IH in E1; [|exact HI]. apply half_inv in E2; [|exact E1]. eapply other_inv; [apply E2 | exact E].
  Qed.
  Lemma other_admissible h w : (1 < k)%nat -> solver_feasible solver -> solver_honest solver ->
    finv h -> other_half cl solver c k true h = Ok w -> admissible (fc_max_tv_norm c) (f_Gamma w).
  Proof using HK Hn Hk.
    intros K1 Hf Hh HI E. pose proof (finv_fok h HI) as HF. unfold other_half in E. pose proof E as E0.
    apply (update_weights_cases cl solver c k n) in E; try assumption.
    destruct E as (Ae & be & Au & bu & Ei & Ec & E1 & E2 & E3 & _ & [[E4 _]|(sol & E4 & E5 & E6)]).
    - exfalso. apply Hh in E4. revert E4. eapply fembv_lp_never_fails; try eassumption. apply HF.
    - apply Hf in E4. apply (feasible_admissible c k n Ae be Au bu _ sol K1 Hn Ei (lp_objective_length c k n _)) in E4.
      rewrite E6, clip_block; [exact E4 | apply E4].
  Qed.
  Lemma one_component_admissible G : k = 1%nat -> is_mat n k G -> row_stochastic G -> admissible (fc_max_tv_norm c) G.
  Proof using HK Hn Hk.
    intros -> (g1 & g2 & _) HG. split; [exact HG|]. intros C _ HC i Hi. rewrite g2 in Hi. assert (i = 0%nat) as -> by lia. unfold total_variation.
    assert (O : forall t, (t < n)%nat -> ent G t 0 = 1).
    { intros t Ht. destruct (HG t ltac:(lia)) as [_ S]. rewrite g2 in S. cbn [Sum] in S. lra. }
    rewrite Sum_zero; [exact HC|]. intros t Ht. rewrite !O by lia. rewrite Rminus_diag_eq by reflexivity. apply Rabs_R0.
  Qed.
  Lemma after_admissible up i w w' : solver_feasible solver -> solver_honest solver -> finv w -> row_stochastic (f_Gamma w) ->
    fembv_after cl solver c k up true (S i) w = Ok w' -> admissible (fc_max_tv_norm c) (f_Gamma w').
  Proof using HK Hn Hk.
    intros Hf Hh HI HS E. destruct (Nat.eq_dec k 1) as [K1|K1].
    - assert (G : forall j v, fembv_after cl solver c k up true j w = Ok v -> f_Gamma v = f_Gamma w).
      { induction j as [|j IH]; intros v Ev; cbn [fembv_after] in Ev; [injection Ev as <-; reflexivity|].
        apply bind_ok in Ev. destruct Ev as (w1 & E1 & Ev). apply bind_ok in Ev. destruct Ev as (w2 & E2 & Ev).
        pose proof (after_inv _ _ _ _ _ HI E1) as I1. destruct (half_inv _ _ _ I1 E2) as (I2 & G2 & _). destruct (other_inv _ _ _ I2 Ev) as (_ & _ & G3).
        rewrite (G3 (or_intror K1)), G2. apply IH. exact E1. }
      apply G in E. rewrite E. apply one_component_admissible; [exact K1 | apply HI | exact HS].
    - cbn [fembv_after] in E. apply bind_ok in E. destruct E as (w1 & E1 & E). apply bind_ok in E. destruct E as (w2 & E2 & E).
      pose proof (after_inv _ _ _ _ _ HI E1) as I1. destruct (half_inv _ _ _ I1 E2) as (I2 & _ & _).
      eapply other_admissible; eauto. lia.
  Qed.
  Lemma other_cost h w uw : solver_optimal solver -> finv h -> (uw = true -> (1 < k)%nat -> admissible (fc_max_tv_norm c) (f_Gamma h)) ->
    other_half cl solver c k uw h = Ok w -> fembv_cost cl w <= fembv_cost cl h.
  Proof using HK Hn Hk.
    intros Hs HI Ha E. destruct (other_inv _ _ _ HI E) as (I2 & Ep & Eq). destruct uw; [|rewrite Eq by auto; lra].
    destruct (Nat.eq_dec k 1) as [K1|K1]; [rewrite Eq by auto; lra|].
    rewrite (fembv_cost_spec cl c k n w), (fembv_cost_spec cl c k n h) by (apply finv_fok; assumption). rewrite Ep.
    pose proof (finv_fok h HI) as HF. unfold other_half in E. apply (update_weights_optimal cl solver c k n) in E; try assumption; try lia.
    destruct E as [E|[_ E]]; [rewrite E; lra|]. apply E; [apply HI | apply Ha; auto; lia].
  Qed.
End Inv.

(** ** k-means *)
Lemma kmeans_keeps n d k X : keeps kmeans_class n k (kmok n d k X).
Proof.
  split.
  - intros s H. cbn [kmeans_class cl_distance]. eapply kmeans_distance_mat; exact H.
  - intros G s s' HG H E. cbn [kmeans_class cl_update] in E. eapply kmeans_update_spec; eauto.
Qed.
Lemma kmeans_start c n d k old data th weights init g w g' : is_mat n d data ->
  (forall Th, th = Some Th -> wf Th) -> (forall W0, weights = Some W0 -> wf W0) ->
  fembv_initialize kmeans_class c k old data th weights init g = Ok (w, g') ->
  finv c n k (kmok n d k data) w
  /\ (rng_ok k g -> (forall W0, weights = Some W0 -> row_stochastic W0) -> row_stochastic (f_Gamma w)).
Proof.
  intros HX WT WW H. apply fembv_initialize_inv in H. destruct H as (p & g1 & E1 & E2 & E3 & E4 & <- & _).
  cbn [kmeans_class cl_initialize cl_distance] in *. apply (kmeans_initialize_ok n d) in E1; try assumption. destruct E1 as [K Eg].
  pose proof (kmeans_distance_mat n d k data _ K) as (d1 & _). rewrite d1 in *.
  apply fembv_weights_ok in E3; [|exact WW]. destruct E3 as [G1 G2]. split; [split; [exact G1 | split; [exact K | exact E4]]|].
  intros Hg. apply G2. eapply rng_ok_stream; eassumption.
Qed.
(** masses of the components *)
Definition masses_positive (G : mat R) : Prop := forall j, (j < nc G)%nat -> 0 < Sum (nr G) (fun t => ent G t j).
Lemma half_cost c n d k X up w h : finv c n k (kmok n d k X) w -> (up = true -> masses_positive (f_Gamma w)) ->
  half_step kmeans_class up w = Ok h -> fembv_cost kmeans_class h <= fembv_cost kmeans_class w.
Proof.
  intros HI Hm E. destruct (half_inv kmeans_class c n k _ (kmeans_keeps n d k X) _ _ _ HI E) as (I2 & G2 & Eq). destruct up; [|rewrite Eq by reflexivity; lra].
  rewrite (fembv_cost_spec kmeans_class c k n w), (fembv_cost_spec kmeans_class c k n h) by (eapply finv_fok; [apply (kmeans_keeps n d k X) | assumption]).
  pose proof HI as (H1 & H2 & _). cbn [kmeans_class cl_distance]. rewrite G2, !(kmeans_cost_spec n d k X) by (apply I2 || assumption).
  cbn [half_step] in E. unfold fembv_update_parameters in E. apply bind_ok in E. destruct E as (s & E & E'). injection E' as <-. cbn [f_params]. cbn [kmeans_class cl_update] in E.
  eapply kmeans_update_minimises; try eassumption. destruct H1 as (g1 & g2 & _). rewrite <- g1, <- g2. apply Hm. reflexivity.
Qed.

(** ** exceptions of FEMBVKMeans *)
Lemma kmeans_initialize_raise {T} {N : Num T} k (data : mat T) th init old (g : rng T) e : kmeans_initialize k data th init old g = Raise e -> e = ValueError.
Proof.
  unfold kmeans_initialize, draw_choice, check_array_shape. destruct init, th as [Th|]; repeat match goal with |- context [if ?b then _ else _] => destruct b end; cbn [bind]; congruence.
Qed.
Lemma constraints_raise {T} {N : Num T} (c : fembv_cfg T) k n e : initialize_constraints c k n = Raise e -> e = ValueError.
Proof.
  assert (C : forall co ro cl r q, @csr_matrix T co ro cl r q = Raise e -> e = ValueError) by (intros co ro cl r q; unfold csr_matrix; destruct (andb _ _); congruence).
  assert (D : forall x (l : list T), (forall e, x = Raise e -> e = ValueError) -> (let! A := x in Ok (A, l)) = (Raise e : res (csr T * list T)) -> e = ValueError).
  { intros [A|e'] l H E; cbn [bind] in E; [discriminate|]. specialize (H e' eq_refl). congruence. }
  assert (C' : forall co ro cl r q e, @csr_matrix T co ro cl r q = Raise e -> e = ValueError) by (intros co ro cl r q e'; unfold csr_matrix; destruct (andb _ _); congruence).
  unfold initialize_constraints. destruct (Nat.leb k 1); [discriminate|]. destruct (andb _ _); [congruence|].
  destruct (equality_constraints c k n) as [x|e1] eqn:E1; cbn [bind].
  - destruct (inequality_constraints c k n) as [y|e2] eqn:E2; cbn [bind]; [discriminate|]. intros [= ->]. unfold inequality_constraints in E2.
    destruct (fc_max_tv_norm c); [destruct (has_max_tv_norm_constraint c)|]; (eapply D; [|exact E2]); apply C'.
  - intros [= ->]. unfold equality_constraints in E1. eapply D; [|exact E1]. apply C'.
Qed.
Lemma kmeans_start_raise {T} {N : Num T} (c : fembv_cfg T) k old data th weights init g e :
  fembv_initialize kmeans_class c k old data th weights init g = Raise e -> e = ValueError.
Proof.
  unfold fembv_initialize. cbn [kmeans_class cl_initialize cl_distance]. destruct (kmeans_initialize k data th init old g) as [[s g1]|e1] eqn:E1; cbn [bind].
  - assert (K : nr (km_Theta s) = k).
    { unfold kmeans_initialize in E1. assert (D : (let! rg := draw_choice (nr data) k g in Ok (mk_kmeans data (mbuild k (nc data) (fun j f => mget data (nth j (fst rg) 0%nat) f)), snd rg)) = Ok (s, g1) -> nr (km_Theta s) = k).
      { intros D. apply bind_ok in D. destruct D as (rg & _ & D). injection D as <- _. reflexivity. }
      destruct init, th as [Th|]; auto. apply bind_ok in E1. destruct E1 as ([] & E & E1). injection E1 as <- _. apply check_array_shape_ok in E. apply E. }
    cbn [kmeans_distance nc nr mbuild]. rewrite K, Nat.eqb_refl. cbn [negb].
    destruct (fembv_initialize_weights _ _ _ _ _) as [[W g2]|e2] eqn:E2; cbn [bind].
    + destruct (initialize_constraints _ _ _) as [cs|e3] eqn:E3; cbn [bind]; [discriminate|]. intros [= ->]. apply constraints_raise in E3. exact E3.
    + intros [= ->]. unfold fembv_initialize_weights in E2. destruct init, weights; try discriminate.
      destruct (check_init_weights _ _ _) eqn:E3; cbn [bind] in E2; [discriminate|]. injection E2 as ->. eapply check_init_weights_raise. exact E3.
  - intros [= ->]. eapply kmeans_initialize_raise. exact E1.
Qed.
Lemma kmeans_half_total {T} {N : Num T} up (w : fws T (kmeans T)) e : half_step kmeans_class up w <> Raise e.
Proof. destruct up; discriminate. Qed.
Lemma other_raise {P A} (cl : fembv_class R P A) solver c n k I uw w e : (0 < k)%nat -> keeps cl n k I -> finv c n k I w -> other_half cl solver c k uw w = Raise e ->
  e = ValueError \/ (e = TypeError /\ exists p, solver (f_calls w) p = LpNoValue) \/ exists p, solver (f_calls w) p = LpRaises e.
Proof.
  intros Hk HK HI E. destruct uw; [|discriminate]. cbn [other_half] in E. pose proof HI as (HG & HP & Hc). apply HK in HP. pose proof HG as (g1 & g2 & _). pose proof HP as (d1 & d2 & _).
  unfold fembv_update_weights in E. destruct (Nat.eqb_spec k 1) as [|K1]; [discriminate|]. rewrite g1, d1, d2, !Nat.eqb_refl in E. cbn [andb negb] in E.
  destruct (f_cons w) as [[[[Ae be] Au] bu]|] eqn:Ec.
  - destruct (solver _ _) as [|sol| |e'] eqn:Es; try discriminate.
    + destruct (negb _); [injection E as <-; auto | discriminate].
    + injection E as <-. right; left. eauto.
    + injection E as <-. right; right. eauto.
  - destruct k as [|[|k]]; [lia | lia |].
    unfold initialize_constraints in Hc. cbn [Nat.leb] in Hc. destruct (andb _ _); [discriminate|]. apply bind_ok in Hc. destruct Hc as (x & _ & Hc). apply bind_ok in Hc. destruct Hc as (y & _ & Hc). discriminate.
Qed.
(** the weights update leaves the parameters alone *)
Lemma other_params {T} {N : Num T} {P A} (cl : fembv_class T P A) solver c k uw w w' : other_half cl solver c k uw w = Ok w' -> f_params w' = f_params w.
Proof.
  destruct uw; cbn [other_half]; [|intros [= <-]; reflexivity]. unfold fembv_update_weights. destruct (Nat.eqb k 1); [intros [= <-]; reflexivity|].
  destruct (negb _); [discriminate|]. destruct (f_cons w) as [[[[Ae be] Au] bu]|]; [|discriminate]. destruct (solver _ _); try discriminate; [intros [= <-]; reflexivity|].
  destruct (negb _); [discriminate|]. intros [= <-]. reflexivity.
Qed.
Lemma after_params {T} {N : Num T} {P A} (cl : fembv_class T P A) solver c k uw i : forall w w', fembv_after cl solver c k false uw i w = Ok w' -> f_params w' = f_params w.
Proof.
  induction i as [|i IH]; intros w w' E; cbn [fembv_after] in E; [injection E as <-; reflexivity|]. apply bind_ok in E. destruct E as (w1 & E1 & E). cbn [half_step bind] in E.
  apply other_params in E. rewrite E. apply IH. exact E1.
Qed.
(** indices drawn without replacement *)
Lemma in_remove_nth {A} i : forall (l : list A) x, In x (remove_nth i l) -> In x l.
Proof. induction i as [|i IH]; intros [|y l] x H; cbn [remove_nth] in H; try contradiction; [right; exact H|]. destruct H as [<-|H]; [left; reflexivity | right; apply IH, H]. Qed.
Lemma remove_nth_spec i : forall (l : list nat), NoDup l -> (i < length l)%nat -> NoDup (remove_nth i l) /\ ~ In (nth i l 0%nat) (remove_nth i l) /\ length (remove_nth i l) = Nat.pred (length l).
Proof.
  induction i as [|i IH]; intros [|y l] H Hi; cbn [length] in Hi; try lia; inversion H as [|? ? Hy Hl]; subst; cbn [remove_nth nth length Nat.pred]; [auto|].
  destruct (IH l Hl ltac:(lia)) as (N1 & N2 & N3). split; [constructor; [intros C; apply Hy, (in_remove_nth i), C | exact N1]|]. split.
  - intros [C|C]; [apply Hy; rewrite C; apply nth_In; lia | contradiction].
  - rewrite N3. lia.
Qed.
Lemma choose_spec {T} k : forall avail (g : rng T), NoDup avail -> (k <= length avail)%nat ->
  let l := fst (choose k avail g) in length l = k /\ NoDup l /\ forall x, In x l -> In x avail.
Proof.
  induction k as [|k IH]; intros avail g H Hk; [cbn; repeat split; [constructor | contradiction]|]. cbn [choose].
  assert (Hi : (r_int g (r_pos g) mod length avail < length avail)%nat) by (apply Nat.mod_upper_bound; lia).
  set (i := (r_int g (r_pos g) mod length avail)%nat) in *. destruct (remove_nth_spec i avail H Hi) as (N1 & N2 & N3).
  specialize (IH (remove_nth i avail) (advance 1 g) N1 ltac:(lia)). destruct (choose k _ _) as [rest g']. cbn [fst] in *. destruct IH as (I1 & I2 & I3).
  cbn [length]. split; [congruence|]. split; [constructor; [intros C; apply N2, I3, C | exact I2]|].
  intros x [<-|Hx]; [apply nth_In; exact Hi | apply (in_remove_nth i), I3, Hx].
Qed.
