From Coq Require Import List Arith Lia ZArith Reals Lra Psatz Bool.
From Verif Require Import Num Mat Py Spec M_simplex M_spg M_iter M_random M_furthest M_gpnh.
From Verif Require Import P_lin P_simplex P_spg P_furthest P_random P_mat P_iter P_gpnh.
Import ListNotations.
Local Open Scope R_scope.

(** ** whole runs, any arithmetic *)
Definition tol_value {T} {N : Num T} (v : pyval T) (t : T) : Prop :=
  (exists z, v = PInt z /\ t = nofZ z /\ (0 <= z)%Z) \/ (v = PFloat t /\ nltb t n0 = false).

Lemma check_params_ok {T} {N : Num T} nc mi tol k m t : check_params nc mi tol = Ok (k, m, t) ->
  nc = PInt (Z.of_nat k) /\ (0 < k)%nat /\ mi = PInt (Z.of_nat m) /\ (0 < m)%nat /\ tol_value tol t.
Proof.
  unfold check_params. destruct nc as [|z| |]; cbn [bind]; try discriminate.
  destruct (Z.leb_spec z 0); cbn [bind]; [discriminate|].
  destruct mi as [|y| |]; cbn [bind]; try discriminate. destruct (Z.leb_spec y 0); cbn [bind]; [discriminate|].
  destruct tol as [|x|x|]; cbn [bind]; try discriminate.
  - destruct (Z.ltb_spec x 0); cbn [bind]; [discriminate|]. intros [= <- <- <-].
    repeat split; try lia; try (f_equal; lia). left. exists x. auto.
  - destruct (nltb x n0) eqn:E; cbn [bind]; [discriminate|]. intros [= <- <- <-].
    repeat split; try lia; try (f_equal; lia). right. auto.
Qed.
Lemma check_params_raise {T} {N : Num T} nc mi (tol : pyval T) e : check_params nc mi tol = Raise e -> e = ValueError.
Proof.
  unfold check_params. destruct nc as [|z| |]; cbn [bind]; try congruence.
  destruct (Z.leb z 0); cbn [bind]; [congruence|]. destruct mi as [|y| |]; cbn [bind]; try congruence.
  destruct (Z.leb y 0); cbn [bind]; [congruence|]. destruct tol as [|x|x|]; cbn [bind]; try congruence.
  - destruct (Z.ltb x 0); cbn [bind]; congruence.
  - destruct (nltb x n0); cbn [bind]; congruence.
Qed.
Lemma check_params_total {T} {N : Num T} k m (tol : pyval T) t : (0 < k)%nat -> (0 < m)%nat -> tol_value tol t ->
  check_params (PInt (Z.of_nat k)) (PInt (Z.of_nat m)) tol = Ok (k, m, t).
Proof.
  intros Hk Hm Ht. unfold check_params.
  destruct (Z.leb_spec (Z.of_nat k) 0); [lia|]. destruct (Z.leb_spec (Z.of_nat m) 0); [lia|]. cbn [bind].
  rewrite !Nat2Z.id. destruct Ht as [(z & -> & -> & Hz)|[-> E]].
  - destruct (Z.ltb_spec z 0); [lia|]. reflexivity.
  - rewrite E. reflexivity.
Qed.

Section Runs.
  Context {T : Type} {N : Num T}.

  (** the workspace a run starts from depends on the configuration, the data and the start only *)
  Definition start_ws (c : gpnh_cfg T) (data W D : mat T) : gws T :=
    mk_gws data W D (mmul (mtr W) W) (mmul (mtr W) data) (mmul data (mtr D)) (mmul D (mtr D))
      n1 n1 (repeat n0 (gc_memory c)) (repeat n0 (gc_memory c)).

  Lemma gpnh_run_inv fuel (o : gpnh T) data Din Win ud uw kw r :
    gpnh_convex_coding fuel o data Din Win ud uw kw = Ok r ->
    exists k m t D W g' w2,
      resolve_components (go_n_components o) (nc data) = PInt (Z.of_nat k) /\ (0 < k)%nat
      /\ gc_max_iterations (go_cfg o) = PInt (Z.of_nat m) /\ (0 < m)%nat /\ tol_value (gc_tolerance (go_cfg o)) t
      /\ choose_initial (go_cfg o) k data Din Win ud uw kw (go_rng o) = Ok (D, W, g')
      /\ gpnh_iterate fuel (go_cfg o) k ud uw t m (start_ws (go_cfg o) data W D)
         = Ok (w2, gr_cost r, gr_n_iter r, gr_log r)
      /\ gr_obj r = mk_gpnh (go_cfg o) (PInt (Z.of_nat k)) g' (Some w2) (go_dictionary_ o) (go_cost_ o) (go_n_iter_ o) (go_n_components_ o)
      /\ gr_warned r = andb (Nat.eqb (gr_n_iter r) m) (nltb n0 t).
  Proof.
    unfold gpnh_convex_coding. intros H. apply bind_ok in H. destruct H as (((k & m) & t) & E1 & H).
    apply check_params_ok in E1. destruct E1 as (K1 & K2 & M1 & M2 & T1).
    apply bind_ok in H. destruct H as (((D & W) & g') & E2 & H).
    apply bind_ok in H. destruct H as ((((w2 & cost) & n_iter) & log) & E3 & H). injection H as <-. cbn [gr_obj gr_cost gr_n_iter gr_log gr_warned].
    exists k, m, t, D, W, g', w2. rewrite K1. repeat split; auto.
  Qed.

  Lemma fit_transform_inv fuel (o : gpnh T) data Din Win ud uw kw r Wout :
    fit_transform fuel o data Din Win ud uw kw = Ok (r, Wout) ->
    exists k m t D W g' w2,
      resolve_components (go_n_components o) (nc data) = PInt (Z.of_nat k) /\ (0 < k)%nat
      /\ gc_max_iterations (go_cfg o) = PInt (Z.of_nat m) /\ (0 < m)%nat /\ tol_value (gc_tolerance (go_cfg o)) t
      /\ choose_initial (go_cfg o) k data Din Win ud uw kw (go_rng o) = Ok (D, W, g')
      /\ gpnh_iterate fuel (go_cfg o) k ud uw t m (start_ws (go_cfg o) data W D)
         = Ok (w2, gr_cost r, gr_n_iter r, gr_log r)
      /\ gr_obj r = mk_gpnh (go_cfg o) (PInt (Z.of_nat k)) g' (Some w2) (Some (w_S w2)) (Some (gr_cost r)) (Some (gr_n_iter r)) (Some (nr (w_S w2)))
      /\ gr_warned r = andb (Nat.eqb (gr_n_iter r) m) (nltb n0 t)
      /\ Wout = w_Gamma w2.
  Proof.
    unfold fit_transform. intros H. apply bind_ok in H. destruct H as (r0 & E & H).
    apply gpnh_run_inv in E. destruct E as (k & m & t & D & W & g' & w2 & A1 & A2 & A3 & A4 & A5 & A6 & A7 & A8 & A9).
    rewrite A8 in H. cbn in H. injection H as <- <-. cbn [gr_obj gr_cost gr_n_iter gr_log gr_warned].
    exists k, m, t, D, W, g', w2. repeat split; auto.
  Qed.
  Lemma transform_inv fuel (o : gpnh T) data r Wout :
    transform fuel o data = Ok (r, Wout) ->
    exists k m t D W g' w2,
      resolve_components (go_n_components o) (nc data) = PInt (Z.of_nat k) /\ (0 < k)%nat
      /\ gc_max_iterations (go_cfg o) = PInt (Z.of_nat m) /\ (0 < m)%nat /\ tol_value (gc_tolerance (go_cfg o)) t
      /\ choose_initial (go_cfg o) k data (option_map w_S (go_ws o)) None false true None (go_rng o) = Ok (D, W, g')
      /\ gpnh_iterate fuel (go_cfg o) k false true t m (start_ws (go_cfg o) data W D)
         = Ok (w2, gr_cost r, gr_n_iter r, gr_log r)
      /\ gr_obj r = mk_gpnh (go_cfg o) (PInt (Z.of_nat k)) g' (Some w2) (go_dictionary_ o) (go_cost_ o) (go_n_iter_ o) (go_n_components_ o)
      /\ gr_warned r = andb (Nat.eqb (gr_n_iter r) m) (nltb n0 t)
      /\ Wout = w_Gamma w2.
  Proof.
    unfold transform. intros H. apply bind_ok in H. destruct H as (r0 & E & H).
    apply gpnh_run_inv in E. destruct E as (k & m & t & D & W & g' & w2 & A1 & A2 & A3 & A4 & A5 & A6 & A7 & A8 & A9).
    rewrite A8 in H. cbn in H. injection H as <- <-.
    exists k, m, t, D, W, g', w2. repeat split; auto.
  Qed.

  (** facts about the reported costs and the iteration count *)
  Lemma gpnh_iterate_log fuel c k ud uw t m w w' cost n_iter log : (0 < m)%nat ->
    gpnh_iterate fuel c k ud uw t m w = Ok (w', cost, n_iter, log) ->
    cost = evaluate_cost c k w' /\ (n_iter < m)%nat /\ length log = S (S n_iter)
    /\ nth 0 log n0 = evaluate_cost c k w /\ nth (S n_iter) log n0 = cost
    /\ (forall i, (i < n_iter)%nat -> settled t log i = false)
    /\ (S n_iter = m \/ settled t log n_iter = true)
    /\ (forall i, (i <= n_iter)%nat -> gc_monotone c = true ->
          nltb (nth i log n0) (nth (S i) log n0) = false \/ nth (S i) log n0 = nth i log n0).
  Proof.
    intros Hm H. unfold gpnh_iterate in H.
    apply (iterate_ok (evaluate_cost c k) (fun _ => True)) in H; auto.
    destruct H as (_ & A1 & A2 & A3 & A4 & A5 & A6 & A7 & A8).
    repeat (split; [assumption|]). intros i Hi Hmono. destruct (A8 i Hi) as [B1 B2].
    destruct (_ ++ _) as [|u us] eqn:E in B1.
    - right. apply B2. exact E.
    - left. assert (B3 : cost_increased (gc_monotone c) i (nth i log n0) (nth (S i) log n0) = false).
      { apply B1. congruence. }
      unfold cost_increased in B3. rewrite Hmono, andb_true_r in B3. exact B3.
  Qed.
  Lemma update_dictionary_raise fuel c k (w : gws T) e : update_dictionary fuel c k w = Raise e ->
    (e = IndexError /\ w_f_S_mem w = []) \/ e = OutOfFuel.
  Proof.
    unfold update_dictionary, dictionary_line_search. cbv zeta. destruct (line_search _ _ _ _ _ _ _ _) as [[[? ?] ?]|e'] eqn:E; cbn [bind]; [discriminate|].
    intros [= ->]. apply line_search_raise in E. exact E.
  Qed.
  Lemma update_weights_raise fuel c k (w : gws T) e : update_weights fuel c k w = Raise e ->
    (e = IndexError /\ w_f_Gamma_mem w = []) \/ e = OutOfFuel.
  Proof.
    unfold update_weights, weights_line_search. cbv zeta. destruct (line_search _ _ _ _ _ _ _ _) as [[[? ?] ?]|e'] eqn:E; cbn [bind]; [discriminate|].
    intros [= ->]. apply line_search_raise in E. exact E.
  Qed.
End Runs.

(** ** starting points, over R *)
Definition rng_ok (k : nat) (g : rng R) : Prop :=
  (forall p, 0 <= r_uniform g p) /\ (forall p, Sum k (fun j => r_uniform g (p + j)) <> 0).
Lemma rng_ok_stream k g g' : r_uniform g' = r_uniform g -> rng_ok k g -> rng_ok k g'.
Proof. unfold rng_ok. intros ->. auto. Qed.
Lemma right_stochastic_rng n k g : rng_ok k g ->
  is_mat n k (fst (right_stochastic_matrix n k g)) /\ row_stochastic (fst (right_stochastic_matrix n k g)).
Proof.
  intros [H1 H2]. destruct (right_stochastic_ok n k g) as [A B]; [intros; apply H1 | intros; apply H2 | auto].
Qed.
Lemma right_stochastic_shape n k (g : rng R) : is_mat n k (fst (right_stochastic_matrix n k g)).
Proof. unfold right_stochastic_matrix; cbn. apply is_mat_mbuild. Qed.
Lemma stream_right {T} {N : Num T} n k (g : rng T) : r_uniform (snd (right_stochastic_matrix n k g)) = r_uniform g.
Proof. reflexivity. Qed.

Lemma initialize_dictionary_ok data k init kw (g g' : rng R) D :
  initialize_dictionary data k init kw g = Ok (D, g') ->
  is_mat k (nc data) D /\ r_uniform g' = r_uniform g.
Proof.
  unfold initialize_dictionary. destruct init; try discriminate.
  1,2: intros [= <- <-]; split; [unfold mscale, mmap, draw_normal_mat; mdim; apply is_mat_mbuild | reflexivity].
  unfold initialize_dictionary_furthest_sum. intros H. apply bind_ok in H. destruct H as ((s & g1) & E1 & H).
  apply bind_ok in H. destruct H as (sel & E2 & H). apply bind_ok in H. destruct H as (_ & _ & H). injection H as <- <-. split; [apply is_mat_mbuild|].
  cbn [snd]. destruct (fk_start_index kw); [injection E1 as <- <-; reflexivity|].
  apply bind_ok in E1. destruct E1 as ((z & g2) & E1 & E3). injection E3 as <- <-. cbn [snd].
  unfold draw_randint in E1. destruct (Nat.eqb _ 0); [discriminate|]. injection E1 as _ <-. reflexivity.
Qed.
Lemma initialize_weights_ok data k init (g g' : rng R) W :
  initialize_weights data k init g = Ok (W, g') ->
  is_mat (nr data) k W /\ r_uniform g' = r_uniform g /\ (rng_ok k g -> row_stochastic W).
Proof.
  unfold initialize_weights. destruct init; try discriminate; intros [= E <-];
    (assert (E' : W = fst (right_stochastic_matrix (nr data) k g)) by (rewrite <- E; reflexivity)); rewrite E';
    (split; [apply right_stochastic_shape | split; [reflexivity | intros Hg; apply right_stochastic_rng, Hg]]).
Qed.

(** user-supplied matrices are genuine arrays *)
Definition wf_opt (M : option (mat R)) : Prop := forall A, M = Some A -> wf A.
Definition stochastic_opt (M : option (mat R)) : Prop := forall A, M = Some A -> row_stochastic A.

Lemma choose_initial_ok c k data Din Win ud uw kw (g g' : rng R) D W :
  choose_initial c k data Din Win ud uw kw g = Ok (D, W, g') -> wf_opt Din -> wf_opt Win ->
  is_mat k (nc data) D /\ is_mat (nr data) k W /\ r_uniform g' = r_uniform g
  /\ (stochastic_opt Win -> rng_ok k g -> row_stochastic W).
Proof.
  intros H WD WW. unfold choose_initial in H.
  assert (CD : forall D, check_init_dictionary Din k (nc data) = Ok D -> is_mat k (nc data) D).
  { intros D0 E. apply check_init_dictionary_ok_inv in E. destruct E as (E & e1 & e2). apply is_mat_wf. auto. }
  assert (CW : forall W, check_init_weights Win (nr data) k = Ok W -> is_mat (nr data) k W /\ (stochastic_opt Win -> row_stochastic W)).
  { intros W0 E. apply check_init_weights_ok_inv in E. destruct E as (E & e1 & e2). split; [apply is_mat_wf; auto | auto]. }
  assert (G : forall init, (if andb (negb ud) uw then
          let! D := check_init_dictionary Din k (nc data) in
          match kw with
          | Some _ => Raise TypeError
          | None => let! r := initialize_weights data k init g in Ok (D, fst r, snd r)
          end
        else if andb ud (negb uw) then
          let! W := check_init_weights Win (nr data) k in
          let! r := initialize_dictionary data k init (match kw with Some v => v | None => fs_default end) g in
          Ok (fst r, W, snd r)
        else
          let! r := initialize_dictionary data k init (match kw with Some v => v | None => fs_default end) g in
          let! r2 := initialize_weights data k init (snd r) in
          Ok (fst r, fst r2, snd r2)) = Ok (D, W, g') ->
      is_mat k (nc data) D /\ is_mat (nr data) k W /\ r_uniform g' = r_uniform g
      /\ (stochastic_opt Win -> rng_ok k g -> row_stochastic W)).
  { clear H. intros init H. destruct (andb (negb ud) uw).
    - apply bind_ok in H. destruct H as (D0 & E1 & H). destruct kw; [discriminate|].
      apply bind_ok in H. destruct H as ((W0 & g0) & E2 & H). injection H as <- <- <-. cbn [fst snd].
      apply initialize_weights_ok in E2. destruct E2 as (A & B & C). auto.
    - destruct (andb ud (negb uw)).
      + apply bind_ok in H. destruct H as (W0 & E1 & H). apply bind_ok in H. destruct H as ((D0 & g0) & E2 & H).
        injection H as <- <- <-. cbn [fst snd]. apply initialize_dictionary_ok in E2. destruct E2 as (A & B).
        destruct (CW _ E1). auto.
      + apply bind_ok in H. destruct H as ((D0 & g0) & E1 & H). cbn [fst snd] in H.
        apply bind_ok in H. destruct H as ((W0 & g1) & E2 & H). injection H as <- <- <-. cbn [fst snd].
        apply initialize_dictionary_ok in E1. destruct E1 as (A & B).
        apply initialize_weights_ok in E2. destruct E2 as (A2 & B2 & C2).
        split; [exact A|]. split; [exact A2|]. split; [congruence|]. intros _ Hg. apply C2.
        eapply rng_ok_stream; [exact B | exact Hg]. }
  destruct (gc_init c); try (apply (G _ H)).
  apply bind_ok in H. destruct H as (W0 & E1 & H). apply bind_ok in H. destruct H as (D0 & E2 & H).
  injection H as <- <- <-. destruct (CW _ E1). auto.
Qed.

Lemma start_ws_ok c data W D n d k : is_mat n d data -> is_mat n k W -> is_mat k d D ->
  gok n d k data (start_ws c data W D).
Proof. intros HX HW HD. repeat split; try apply HW; try apply HD. Qed.

(** invariant of a run *)
Definition ginv (n d k : nat) (X : mat R) (c : gpnh_cfg R) (st : Prop) (w : gws R) : Prop :=
  gok n d k X w /\ length (w_f_S_mem w) = gc_memory c /\ length (w_f_Gamma_mem w) = gc_memory c
  /\ (st -> row_stochastic (w_Gamma w)).
Lemma ginv_updates n d k X c (st : Prop) ud uw fuel : (0 < k)%nat ->
  0 < ls_sigma_one (gc_ls c) -> ls_sigma_two (gc_ls c) < 1 ->
  forall u s s', In u (enabled ud (update_dictionary fuel c k) ++ enabled uw (update_weights fuel c k)) ->
   ginv n d k X c st s -> u s = Ok s' -> ginv n d k X c st s'.
Proof.
  intros Hk H1 H2 u s s' Hu (I1 & I2 & I3 & I4) E. apply in_app_or in Hu. rewrite !in_enabled in Hu.
  destruct Hu as [[_ ->]|[_ ->]].
  - apply (update_dictionary_inv n d k X) in E; try assumption. destruct E as (J1 & J2 & J3 & J4 & J5 & J6).
    split; [exact J1|]. split; [congruence|]. split; [congruence|]. rewrite J2. exact I4.
  - apply (update_weights_inv n d k X) in E; try assumption. destruct E as (J1 & J2 & J3 & J4 & J5 & J6 & J7).
    split; [exact J1|]. split; [congruence|]. split; [congruence|]. intros Hs. apply J7, I4, Hs.
Qed.
Lemma gpnh_iterate_inv n d k X c (st : Prop) ud uw fuel t m w w' cost n_iter log : (0 < k)%nat -> (0 < m)%nat ->
  0 < ls_sigma_one (gc_ls c) -> ls_sigma_two (gc_ls c) < 1 ->
  ginv n d k X c st w -> gpnh_iterate fuel c k ud uw t m w = Ok (w', cost, n_iter, log) -> ginv n d k X c st w'.
Proof.
  intros Hk Hm H1 H2 I H. unfold gpnh_iterate in H.
  apply (iterate_ok (evaluate_cost c k) (ginv n d k X c st)) in H; auto.
  - apply H.
  - intros u s s'. apply ginv_updates; assumption.
Qed.
Lemma start_ginv c data W D n d k : is_mat n d data -> is_mat n k W -> is_mat k d D ->
  ginv n d k data c (row_stochastic W) (start_ws c data W D).
Proof.
  intros HX HW HD. split; [apply start_ws_ok; assumption|]. cbn [start_ws w_f_S_mem w_f_Gamma_mem w_Gamma].
  rewrite repeat_length. auto.
Qed.

(** Only the weights change when the dictionary is not updated. *)
Lemma transform_keeps_S {T} {N : Num T} fuel c k t m (w w' : gws T) cost n_iter log : (0 < m)%nat ->
  gpnh_iterate fuel c k false true t m w = Ok (w', cost, n_iter, log) -> w_S w' = w_S w.
Proof.
  intros Hm H. unfold gpnh_iterate in H.
  apply (iterate_ok (evaluate_cost c k) (fun s => w_S s = w_S w)) in H; auto; [apply H|].
  intros u s s' Hu Es E. cbn in Hu. destruct Hu as [<-|[]].
  unfold update_weights, weights_line_search in E. cbv zeta in E. apply bind_ok in E. destruct E as (((w1 & st) & mem) & E1 & E2).
  injection E2 as <-. cbn [w_S set_Gamma_mem]. apply line_search_ok in E1. destruct E1 as (m0 & rest & fm & _ & _ & _ & E1).
  cbn [fst snd] in E1. apply backtrack_exit in E1; [|reflexivity]. destruct E1 as [_ [[-> _]| ->]]; exact Es.
Qed.

(** ** totality *)
Lemma gpnh_iterate_total c : ls_valid (gc_ls c) -> (0 < gc_memory c)%nat -> exists M, forall fuel, (M <= fuel)%nat ->
  forall n d k X st ud uw t m w, (0 < k)%nat -> ginv n d k X c st w ->
   (exists r, gpnh_iterate fuel c k ud uw t m w = Ok r)
   \/ (gpnh_iterate fuel c k ud uw t m w = Raise RuntimeError /\ gc_monotone c = true).
Proof.
  intros Hls Hmem. destruct (update_dictionary_total c Hls) as [M1 HM1]. destruct (update_weights_total c Hls) as [M2 HM2].
  exists (max M1 M2). intros fuel Hf n d k X st ud uw t m w Hk I.
  destruct Hls as (H1 & H2 & H3).
  pose proof (ginv_updates n d k X c st ud uw fuel Hk H1 H2) as Hp.
  assert (Hu : forall u s, In u (enabled ud (update_dictionary fuel c k) ++ enabled uw (update_weights fuel c k)) ->
     ginv n d k X c st s -> exists s', u s = Ok s' /\ ginv n d k X c st s').
  { intros u s Iu Is. assert (exists s', u s = Ok s').
    { pose proof Is as (J1 & J2 & J3 & J4). apply in_app_or in Iu. rewrite !in_enabled in Iu. destruct Iu as [[_ ->]|[_ ->]].
      - apply HM1; [lia|]. intros E. rewrite E in J2. cbn in J2. lia.
      - apply HM2; [lia|]. intros E. rewrite E in J3. cbn in J3. lia. }
    destruct H as [s' E]. exists s'. split; [exact E | eapply Hp; eauto]. }
  destruct (gpnh_iterate fuel c k ud uw t m w) as [r|e] eqn:E; [left; eauto|]. right.
  unfold gpnh_iterate, iterate in E. apply (iterate_loop_raise _ _ _ _ _ Hp) in E; [|reflexivity | exact I].
  destruct E as [[-> (i & s0 & s & _ & _ & B)] | (u & s & Iu & Is & Eu)].
  - split; [reflexivity|]. unfold cost_increased in B. apply andb_prop in B. apply B.
  - destruct (Hu u s Iu Is) as (s' & E' & _). congruence.
Qed.

(** ** a fit whose guard never fires *)
Definition entries_le (M : mat R) (B : R) : Prop := forall i j, (i < nr M)%nat -> (j < nc M)%nat -> Rabs (ent M i j) <= B.
Definition with_step_tol (c : gpnh_cfg R) (t : R) : gpnh_cfg R :=
  mk_gpnh_cfg (gc_epsilon c) (gc_init c) (gc_tolerance c) (gc_max_iterations c)
    (mk_ls (ls_gamma (gc_ls c)) (ls_alpha_min (gc_ls c)) (ls_alpha_max (gc_ls c)) (ls_sigma_one (gc_ls c)) (ls_sigma_two (gc_ls c)) t)
    (gc_memory c) (gc_monotone c).

Lemma entries_bound_ex M : exists B, 0 <= B /\ entries_le M B.
Proof.
  exists (SS (nr M) (nc M) (fun i j => Rabs (ent M i j))). split.
  - apply SS_nonneg; intros; apply Rabs_pos.
  - intros i j Hi Hj. apply (SS_term (nr M) (nc M) (fun i j => Rabs (ent M i j))); auto. intros; apply Rabs_pos.
Qed.
Lemma Sum_abs_le n f B : (forall i, (i < n)%nat -> Rabs (f i) <= B) -> Rabs (Sum n f) <= INR n * B.
Proof.
  induction n as [|n IH]; intros H.
  - cbn [Sum INR]. rewrite Rabs_R0. lra.
  - cbn [Sum]. rewrite S_INR. eapply Rle_trans; [apply Rabs_triang|].
    pose proof (IH ltac:(intros; apply H; lia)). pose proof (H n ltac:(lia)). lra.
Qed.
Lemma frob2_entries k d M B : nr M = k -> nc M = d -> entries_le M B -> 0 <= B -> frob2 M <= INR k * (INR d * B ^ 2).
Proof.
  intros <- <- H HB. unfold frob2.
  assert (Hs : forall n f C, (forall i, (i < n)%nat -> f i <= C) -> Sum n f <= INR n * C).
  { clear. induction n as [|n IH]; intros f C H; [cbn; lra|]. cbn [Sum]. rewrite S_INR.
    pose proof (IH f C ltac:(intros; apply H; lia)). pose proof (H n ltac:(lia)). lra. }
  apply Hs; intros i Hi. apply Hs; intros j Hj. pose proof (H i j Hi Hj).
  rewrite <- (pow2_abs (ent M i j)). apply pow_incr. split; [apply Rabs_pos | assumption].
Qed.
Lemma stochastic_entries G : row_stochastic G -> entries_le G 1.
Proof.
  intros H i j Hi Hj. destruct (H i Hi) as [P S]. rewrite Rabs_pos_eq by auto. rewrite <- S.
  apply (Sum_ge_term _ (fun j => ent G i j)); auto.
Qed.

Section NoGuard.
  Variables (n d k m : nat) (X : mat R) (c : gpnh_cfg R) (x B0 : R).
  Hypotheses (HX : is_mat n d X) (Hn : (0 < n)%nat) (Hd : (0 < d)%nat) (Hk : (0 < k)%nat)
    (Heps : 0 <= gc_epsilon c) (Hx : entries_le X x) (Hx0 : 0 <= x) (HB0 : 0 <= B0)
    (H1 : 0 < ls_sigma_one (gc_ls c)) (H2 : ls_sigma_two (gc_ls c) < 1) (Hg : 0 <= ls_gamma (gc_ls c) < 1)
    (Ha : 0 < ls_alpha_min (gc_ls c) <= ls_alpha_max (gc_ls c)) (Hmem : gc_memory c = 1%nat).

  Definition amax : R := Rmax 1 (ls_alpha_max (gc_ls c)).
  Definition K1 : R := if Nat.eqb k 1 then 0 else gc_epsilon c * (4 / (INR d * INR k * (INR k - 1)) * (2 * INR k)).
  Definition gbound (B : R) : R := K1 * B + 1 / (INR d * INR n) * (2 * (INR n * (x + INR k * B))).
  Fixpoint Bseq (i : nat) : R := match i with O => B0 | S j => Bseq j + amax * gbound (Bseq j) end.

  Lemma K1_nonneg : 0 <= K1.
  Proof.
    unfold K1. destruct (Nat.eqb_spec k 1); [lra|]. pose proof (INR_pred_pos k ltac:(lia)).
    assert (0 < INR d) by (apply lt_0_INR; exact Hd).
    apply Rmult_le_pos; [exact Heps|]. apply Rmult_le_pos; [|lra].
    apply Rmult_le_pos; [lra|]. left. apply Rinv_0_lt_compat. apply Rmult_lt_0_compat; [apply Rmult_lt_0_compat|]; lra.
  Qed.
  Lemma gbound_nonneg B : 0 <= B -> 0 <= gbound B.
  Proof.
    intros HB. unfold gbound. pose proof K1_nonneg. assert (0 < INR d) by (apply lt_0_INR; exact Hd).
    assert (0 < INR n) by (apply lt_0_INR; exact Hn). pose proof (pos_INR k).
    apply Rplus_le_le_0_compat; [apply Rmult_le_pos; lra|].
    apply Rmult_le_pos; [|apply Rmult_le_pos; [lra|apply Rmult_le_pos; [lra|]]].
    - unfold Rdiv. rewrite Rmult_1_l. left. apply Rinv_0_lt_compat. apply Rmult_lt_0_compat; lra.
    - assert (0 <= INR k * B) by (apply Rmult_le_pos; lra). lra.
  Qed.
  Lemma amax_pos : 1 <= amax. Proof. apply Rmax_l. Qed.
  Lemma Bseq_mono i : 0 <= Bseq i <= Bseq (S i).
  Proof.
    assert (A : 0 <= Bseq i).
    { induction i as [|i IH]; [exact HB0|]. cbn [Bseq]. pose proof amax_pos. pose proof (gbound_nonneg _ IH).
      apply Rplus_le_le_0_compat; [exact IH | apply Rmult_le_pos; lra]. }
    split; [exact A|]. cbn [Bseq]. pose proof amax_pos. pose proof (gbound_nonneg _ A).
    assert (0 <= amax * gbound (Bseq i)) by (apply Rmult_le_pos; lra). lra.
  Qed.
  Lemma Bseq_le i j : (i <= j)%nat -> Bseq i <= Bseq j.
  Proof.
    induction 1 as [|j _ IH]; [lra|]. pose proof (Bseq_mono j). lra.
  Qed.

  Lemma gradient_bound w B : gok n d k X w -> gcache_d w -> row_stochastic (w_Gamma w) -> entries_le (w_S w) B -> 0 <= B ->
    entries_le (dictionary_gradient c k w) (gbound B).
  Proof.
    intros Hw HC Hst HS HB a j Hi Hj.
    pose proof (dictionary_gradient_shape n d k X c w Hw) as (q1 & q2 & _). rewrite q1 in Hi. rewrite q2 in Hj.
    rewrite (dictionary_gradient_entry n d k X c w a j) by assumption.
    assert (0 < INR d) by (apply lt_0_INR; exact Hd). assert (0 < INR n) by (apply lt_0_INR; exact Hn).
    destruct Hw as (EX & (g1 & g2 & _) & (s1 & s2 & _) & ES).
    assert (HSk : forall b, (b < k)%nat -> Rabs (ent (w_S w) b j) <= B) by (intros; apply HS; lia).
    eapply Rle_trans; [apply Rabs_triang|]. unfold gbound. apply Rplus_le_compat.
    - unfold K1. destruct (Nat.eqb_spec k 1); [rewrite Rabs_R0; lra|].
      pose proof (INR_pred_pos k ltac:(lia)).
      assert (P : 0 <= 4 / (INR d * INR k * (INR k - 1))).
      { apply Rmult_le_pos; [lra|]. left. apply Rinv_0_lt_compat. apply Rmult_lt_0_compat; [apply Rmult_lt_0_compat|]; lra. }
      set (Q := 4 / (INR d * INR k * (INR k - 1))) in *.
      rewrite !Rabs_mult, (Rabs_pos_eq _ Heps), (Rabs_pos_eq _ P).
      replace (gc_epsilon c * (Q * (2 * INR k)) * B) with (gc_epsilon c * (Q * (2 * INR k * B))) by ring.
      apply Rmult_le_compat_l; [exact Heps|].
      apply Rmult_le_compat_l; [exact P|]. unfold Rminus. eapply Rle_trans; [apply Rabs_triang|]. rewrite Rabs_Ropp, Rabs_mult.
      rewrite (Rabs_pos_eq (INR k)) by lra.
      pose proof (Sum_abs_le k (fun b => ent (w_S w) b j) B HSk).
      assert (INR k * Rabs (ent (w_S w) a j) <= INR k * B) by (apply Rmult_le_compat_l; [lra | apply HSk; lia]). lra.
    - rewrite !Rabs_mult. assert (P : 0 <= 1 / (INR d * INR n)).
      { unfold Rdiv. rewrite Rmult_1_l. left. apply Rinv_0_lt_compat. apply Rmult_lt_0_compat; lra. }
      rewrite (Rabs_pos_eq _ P). apply Rmult_le_compat_l; [exact P|].
      replace (Rabs (-2)) with 2 by (rewrite Rabs_left; lra). apply Rmult_le_compat_l; [lra|].
      apply Sum_abs_le. intros i Hin. rewrite Rabs_mult.
      pose proof (stochastic_entries _ Hst i a ltac:(lia) ltac:(lia)) as W1.
      assert (E1 : Rabs (ent X i j - Sum k (fun e => ent (w_Gamma w) i e * ent (w_S w) e j)) <= x + INR k * B).
      { unfold Rminus. eapply Rle_trans; [apply Rabs_triang|]. rewrite Rabs_Ropp. apply Rplus_le_compat.
        - destruct HX as (x1 & x2 & _). apply Hx; lia.
        - apply Sum_abs_le. intros e He. rewrite Rabs_mult.
          pose proof (stochastic_entries _ Hst i e ltac:(lia) ltac:(lia)). pose proof (HSk e He).
          pose proof (Rabs_pos (ent (w_Gamma w) i e)). pose proof (Rabs_pos (ent (w_S w) e j)).
          replace B with (1 * B) by ring. apply Rmult_le_compat; lra. }
      replace (x + INR k * B) with (1 * (x + INR k * B)) by ring.
      apply Rmult_le_compat; try apply Rabs_pos; assumption.
  Qed.

  Definition C0 : R := 1 + (1 / INR d + gc_epsilon c * (if Nat.eqb k 1 then 0 else 2 / (INR d * (INR k - 1))))
                    + INR k * (INR d * Bseq m ^ 2) / (INR d * INR n).
  Definition tau : R := Rmin (ls_sigma_one (gc_ls c)) ((1 - ls_gamma (gc_ls c)) / (2 * amax * C0)).
  Lemma C0_parts : 0 <= 1 / INR d + gc_epsilon c * (if Nat.eqb k 1 then 0 else 2 / (INR d * (INR k - 1)))
     /\ 0 <= INR k * (INR d * Bseq m ^ 2) / (INR d * INR n).
  Proof.
    assert (0 < INR d) by (apply lt_0_INR; exact Hd). assert (0 < INR n) by (apply lt_0_INR; exact Hn). pose proof (pos_INR k).
    split.
    - apply Rplus_le_le_0_compat; [unfold Rdiv; rewrite Rmult_1_l; left; apply Rinv_0_lt_compat; lra|].
      apply Rmult_le_pos; [exact Heps|]. destruct (Nat.eqb_spec k 1); [lra|]. pose proof (INR_pred_pos k ltac:(lia)).
      apply Rmult_le_pos; [lra|]. left. apply Rinv_0_lt_compat. apply Rmult_lt_0_compat; lra.
    - apply Rmult_le_pos; [apply Rmult_le_pos; [lra|apply Rmult_le_pos; [lra|apply pow2_ge_0]]|].
      left. apply Rinv_0_lt_compat. apply Rmult_lt_0_compat; lra.
  Qed.
  Lemma tau_pos : 0 < tau.
  Proof.
    pose proof C0_parts. pose proof amax_pos. unfold tau. apply Rmin_glb_lt; [exact H1|].
    apply Rdiv_lt_0_compat; [lra|]. apply Rmult_lt_0_compat; [lra|]. unfold C0; lra.
  Qed.
  Lemma tau_bound t C : 0 < t <= tau -> 0 <= C <= C0 -> t * (2 * amax * C) <= 1 - ls_gamma (gc_ls c).
  Proof.
    intros Ht HC. pose proof C0_parts. pose proof amax_pos.
    assert (0 < 2 * amax * C0) by (apply Rmult_lt_0_compat; [lra | unfold C0; lra]).
    assert (T2 : t <= (1 - ls_gamma (gc_ls c)) / (2 * amax * C0)) by (eapply Rle_trans; [apply Ht | apply Rmin_r]).
    apply Rle_trans with (t * (2 * amax * C0)).
    - apply Rmult_le_compat_l; [lra|]. apply Rmult_le_compat_l; lra.
    - apply Rmult_le_compat_r with (r := 2 * amax * C0) in T2; [|lra].
      replace ((1 - ls_gamma (gc_ls c)) / (2 * amax * C0) * (2 * amax * C0)) with (1 - ls_gamma (gc_ls c)) in T2 by (field; unfold C0 in *; lra).
      exact T2.
  Qed.

  Definition pinv (i : nat) (w : gws R) : Prop :=
    ginv n d k X c True w /\ 0 < w_alpha_S w <= amax /\ 0 < w_alpha_Gamma w <= amax /\ entries_le (w_S w) (Bseq i).

  Lemma dictionary_step_bound t fuel w w' i : pinv i w -> update_dictionary fuel (with_step_tol c t) k w = Ok w' -> pinv (S i) w'.
  Proof.
    intros (I & A1 & A2 & HB) E. pose proof I as (J1 & J2 & J3 & J4).
    pose proof (update_dictionary_inv n d k X fuel (with_step_tol c t) w w' J1 H1 H2 E) as (K2 & K3 & K4 & K5 & K6 & K7).
    destruct (update_dictionary_ok n d k X fuel (with_step_tol c t) w w' J1 H1 H2 E) as (s & b & Hs & _ & _ & Ew & _).
    split; [split; [exact K2|]; split; [congruence|]; split; [congruence|]; rewrite K3; exact J4|].
    specialize (K7 ltac:(cbn; lra)). cbn in K7.
    split; [pose proof (Rmax_r 1 (ls_alpha_max (gc_ls c))); unfold amax; lra|].
    split; [rewrite K4; exact A2|].
    assert (ES : w_S w' = madd (w_S w) (mscale s (dir_d c k (refresh_d w)))) by (rewrite Ew; reflexivity).
    rewrite ES. destruct (refresh_d_ok n d k X w J1) as [Hr HC].
    pose proof (dictionary_gradient_shape n d k X c _ Hr) as (q1 & q2 & _).
    pose proof (dir_d_shape n d k X c _ Hr) as (r1 & r2 & _). destruct J1 as (_ & _ & (s1 & s2 & _) & _).
    intros a j Hi Hj. change (a < nr (w_S w))%nat in Hi. change (j < nc (w_S w))%nat in Hj. rewrite ent_madd by assumption. rewrite ent_mscale by lia.
    unfold dir_d at 1. rewrite ent_msub by (mdim; cbn; lia). rewrite ent_msub by (cbn; lia). rewrite ent_mscale by lia.
    pose proof (gradient_bound (refresh_d w) (Bseq i) Hr HC (J4 Logic.I) HB (proj1 (Bseq_mono i)) a j ltac:(lia) ltac:(lia)) as G.
    cbn [Bseq]. cbn [refresh_d w_S w_alpha_S] in *. fold (refresh_d w) in *.
    replace (ent (w_S w) a j + s * (ent (w_S w) a j - w_alpha_S w * ent (dictionary_gradient c k (refresh_d w)) a j - ent (w_S w) a j))
      with (ent (w_S w) a j + - (s * w_alpha_S w * ent (dictionary_gradient c k (refresh_d w)) a j)) by ring.
    eapply Rle_trans; [apply Rabs_triang|]. apply Rplus_le_compat; [apply HB; assumption|].
    rewrite Rabs_Ropp, !Rabs_mult, (Rabs_pos_eq s), (Rabs_pos_eq (w_alpha_S w)) by lra.
    apply Rmult_le_compat; try apply Rabs_pos; try assumption.
    - apply Rmult_le_pos; lra.
    - replace amax with (1 * amax) by ring. apply Rmult_le_compat; lra.
  Qed.
  Lemma weights_step_bound t fuel w w' i : pinv i w -> update_weights fuel (with_step_tol c t) k w = Ok w' -> pinv i w'.
  Proof.
    intros (I & A1 & A2 & HB) E. pose proof I as (J1 & J2 & J3 & J4).
    pose proof (update_weights_inv n d k X fuel (with_step_tol c t) w w' J1 Hk H1 H2 E) as (K2 & K3 & K4 & K5 & K6 & K7 & K8).
    split; [split; [exact K2|]; split; [congruence|]; split; [congruence|]; intros _; apply K8, J4, Logic.I|].
    specialize (K7 ltac:(cbn; lra)). cbn in K7.
    split; [rewrite K4; exact A1|]. rewrite K3.
    split; [pose proof (Rmax_r 1 (ls_alpha_max (gc_ls c))); unfold amax; lra | exact HB].
  Qed.

  Lemma iterate_no_guard t : 0 < t <= tau -> exists M, forall fuel, (M <= fuel)%nat -> forall ud uw tol w, pinv 0 w ->
    exists r, gpnh_iterate fuel (with_step_tol c t) k ud uw tol m w = Ok r.
  Proof.
    intros Ht. set (ct := with_step_tol c t).
    assert (Hv : ls_valid (gc_ls ct)) by (repeat split; cbn; [exact H1 | exact H2 | apply Ht]).
    destruct (update_dictionary_total ct Hv) as [M1 HM1]. destruct (update_weights_total ct Hv) as [M2 HM2].
    exists (max M1 M2). intros fuel Hf ud uw tol w HP. unfold gpnh_iterate, iterate.
    assert (Hts : 0 < ls_step_tol (gc_ls ct) <= ls_sigma_one (gc_ls ct)).
    { cbn. pose proof (Rmin_l (ls_sigma_one (gc_ls c)) ((1 - ls_gamma (gc_ls c)) / (2 * amax * C0))). fold tau in H. lra. }
    pose proof C0_parts as [CP1 CP2].
    assert (Hone : forall (mem : list R), length mem = gc_memory c -> exists m0, mem = [m0]).
    { rewrite Hmem. intros [|m0 [|]]; cbn; try lia. eauto. }
    assert (HD : forall i s, (i <= m)%nat -> pinv i s -> exists s', update_dictionary fuel ct k s = Ok s' /\ pinv (S i) s'
        /\ evaluate_cost ct k s' <= evaluate_cost ct k s).
    { intros i s Hi Hs. pose proof Hs as ((J1 & J2 & J3 & J4) & A1 & A2 & HB). destruct (Hone _ J2) as [m0 Em].
      destruct (HM1 fuel k s ltac:(lia)) as [s' E]; [rewrite Em; discriminate|].
      exists s'. split; [exact E|]. split; [eapply dictionary_step_bound; eassumption|].
      eapply (update_dictionary_descends n d k X fuel ct s s' m0 amax); try eassumption.
      - cbn. lra.
      - apply tau_bound; [exact Ht|]. cbn [gc_epsilon with_step_tol ct]. unfold curv_d.
        assert (F : frob2 (w_Gamma s) <= INR n) by (destruct J1 as (_ & (g1 & g2 & _) & _); eapply stochastic_frob2; eauto; apply J4, Logic.I).
        pose proof (frob2_nonneg (w_Gamma s)). assert (0 < INR d) by (apply lt_0_INR; exact Hd). assert (0 < INR n) by (apply lt_0_INR; exact Hn).
        assert (I1 : 0 < / (INR d * INR n)) by (apply Rinv_0_lt_compat, Rmult_lt_0_compat; lra).
        assert (Q1 : 0 <= frob2 (w_Gamma s) / (INR d * INR n)) by (apply Rmult_le_pos; lra).
        assert (Q2 : frob2 (w_Gamma s) / (INR d * INR n) <= 1 / INR d).
        { replace (1 / INR d) with (INR n / (INR d * INR n)) by (field; lra). apply Rmult_le_compat_r; lra. }
        assert (Q3 : 0 <= gc_epsilon c * (if Nat.eqb k 1 then 0 else 2 / (INR d * (INR k - 1)))).
        { apply Rmult_le_pos; [exact Heps|]. destruct (Nat.eqb_spec k 1); [lra|]. pose proof (INR_pred_pos k ltac:(lia)).
          apply Rmult_le_pos; [lra|]. left. apply Rinv_0_lt_compat. apply Rmult_lt_0_compat; lra. }
        unfold C0. lra. }
    assert (HW : forall i s, (i <= m)%nat -> pinv i s -> exists s', update_weights fuel ct k s = Ok s' /\ pinv i s'
        /\ evaluate_cost ct k s' <= evaluate_cost ct k s).
    { intros i s Hi Hs. pose proof Hs as ((J1 & J2 & J3 & J4) & A1 & A2 & HB). destruct (Hone _ J3) as [m0 Em].
      destruct (HM2 fuel k s ltac:(lia)) as [s' E]; [rewrite Em; discriminate|].
      exists s'. split; [exact E|]. split; [eapply weights_step_bound; eassumption|].
      eapply (update_weights_descends n d k X fuel ct s s' m0 amax); try eassumption.
      - apply J4, Logic.I.
      - cbn. lra.
      - apply tau_bound; [exact Ht|]. unfold curv_w.
        assert (F : frob2 (w_S s) <= INR k * (INR d * Bseq m ^ 2)).
        { destruct J1 as (_ & _ & (s1 & s2 & _) & _). apply frob2_entries; try assumption; [|apply Bseq_mono].
          intros a b Ia Ib. eapply Rle_trans; [apply HB; assumption | apply Bseq_le; exact Hi]. }
        pose proof (frob2_nonneg (w_S s)). assert (0 < INR d) by (apply lt_0_INR; exact Hd). assert (0 < INR n) by (apply lt_0_INR; exact Hn).
        assert (I1 : 0 < / (INR d * INR n)) by (apply Rinv_0_lt_compat, Rmult_lt_0_compat; lra).
        assert (0 <= frob2 (w_S s) / (INR d * INR n)) by (apply Rmult_le_pos; lra).
        assert (frob2 (w_S s) / (INR d * INR n) <= INR k * (INR d * Bseq m ^ 2) / (INR d * INR n)) by (apply Rmult_le_compat_r; lra).
        unfold C0. lra. }
    assert (Hnb : forall i a b, b <= a -> cost_increased (gc_monotone ct) i a b = false).
    { intros i a b Hab. unfold cost_increased. numR. rewrite (proj2 (Rltb_false _ _)) by lra. reflexivity. }
    assert (Hlift : forall i s, pinv i s -> pinv (S i) s).
    { intros i s (P1 & P2 & P3 & P4). split; [exact P1|]. split; [exact P2|]. split; [exact P3|].
      intros a b Ia Ib. eapply Rle_trans; [apply P4; assumption | apply Bseq_mono]. }
    apply (iterate_loop_total_idx (evaluate_cost ct k) (cost_increased (gc_monotone ct)) _ tol pinv m); [|lia | exact HP].
    intros i s Hi Hs. destruct ud; cbn [enabled app run_updates].
    - destruct (HD i s ltac:(lia) Hs) as (s1 & E1 & P1 & L1). rewrite E1; cbn [bind]. rewrite Hnb by exact L1.
      destruct uw; cbn [enabled app run_updates]; [|eauto].
      destruct (HW (S i) s1 ltac:(lia) P1) as (s2 & E2 & P2 & L2). rewrite E2; cbn [bind]. rewrite Hnb by lra. eauto.
    - destruct uw; cbn [enabled app run_updates].
      + destruct (HW i s ltac:(lia) Hs) as (s2 & E2 & P2 & L2). rewrite E2; cbn [bind]. rewrite Hnb by lra. eauto 6.
      + eauto 6.
  Qed.
End NoGuard.

(** ** success of whole fits *)
(** a usable start: random initialisation, or valid user-supplied factors *)
Definition start_ready (init : init_method) (n d k : nat) (Din Win : option (mat R)) : Prop :=
  init = InitNone \/ init = InitRandom \/
  (init = InitCustom /\ exists W D, Win = Some W /\ Din = Some D /\ is_mat n k W /\ row_stochastic W /\ is_mat k d D).

Lemma check_init_weights_stochastic W n k : is_mat n k W -> row_stochastic W -> @check_init_weights R Num_R (Some W) n k = Ok W.
Proof.
  intros (w1 & w2 & w3) H. apply check_init_weights_iff. split; [exact w1|]. split; [exact w2|].
  intros i Hi. unfold close1. destruct (H i ltac:(lia)) as [_ S]. rewrite w2 in S. rewrite S.
  rewrite Rminus_diag_eq by reflexivity. rewrite Rabs_R0. lra.
Qed.
Lemma choose_initial_ready c k data n d Din Win kw g : is_mat n d data -> start_ready (gc_init c) n d k Din Win ->
  rng_ok k g -> exists D W g', choose_initial c k data Din Win true true kw g = Ok (D, W, g')
    /\ is_mat k d D /\ is_mat n k W /\ row_stochastic W.
Proof.
  intros (x1 & x2 & x3) Hr Hg. unfold choose_initial.
  destruct Hr as [->|[->|(-> & W & D & -> & -> & HW & SW & HD)]].
  { cbn [andb negb];
       match goal with |- context [initialize_dictionary data k ?i ?kwv g] =>
         destruct (initialize_dictionary data k i kwv g) as [[D g1]|] eqn:E1; [|discriminate];
         destruct (initialize_dictionary_ok _ _ _ _ _ _ _ E1) as [HD Hs];
         cbn [bind fst snd];
         destruct (initialize_weights data k i g1) as [[W g2]|] eqn:E2; [|discriminate];
         destruct (initialize_weights_ok _ _ _ _ _ _ E2) as (HW & _ & HSt) end;
       cbn [bind fst snd]; exists D, W, g2; rewrite x1 in HW; rewrite x2 in HD;
       (split; [reflexivity|]); (split; [exact HD|]); (split; [exact HW|]);
       apply HSt; eapply rng_ok_stream; eassumption. }
  { cbn [andb negb];
       match goal with |- context [initialize_dictionary data k ?i ?kwv g] =>
         destruct (initialize_dictionary data k i kwv g) as [[D g1]|] eqn:E1; [|discriminate];
         destruct (initialize_dictionary_ok _ _ _ _ _ _ _ E1) as [HD Hs];
         cbn [bind fst snd];
         destruct (initialize_weights data k i g1) as [[W g2]|] eqn:E2; [|discriminate];
         destruct (initialize_weights_ok _ _ _ _ _ _ E2) as (HW & _ & HSt) end;
       cbn [bind fst snd]; exists D, W, g2; rewrite x1 in HW; rewrite x2 in HD;
       (split; [reflexivity|]); (split; [exact HD|]); (split; [exact HW|]);
       apply HSt; eapply rng_ok_stream; eassumption. }
  rewrite x1, x2, check_init_weights_stochastic by assumption. cbn [bind].
  rewrite (proj2 (check_init_dictionary_iff Num_R D k d (all_finite_R D))) by (split; apply HD). cbn [bind].
  exists D, W, g. auto.
Qed.

Lemma start_pinv c data W D n d k x B : is_mat n d data -> is_mat n k W -> is_mat k d D -> row_stochastic W -> entries_le D B ->
  pinv n d k data c x B 0 (start_ws c data W D).
Proof.
  intros HX HW HD SW HB. pose proof (start_ginv c data W D n d k HX HW HD) as (A1 & A2 & A3 & A4).
  split; [split; [exact A1|]; split; [exact A2|]; split; [exact A3|]; auto|].
  cbn [start_ws w_alpha_S w_alpha_Gamma w_S]. pose proof (amax_pos c). numR. split; [lra|]. split; [lra|]. exact HB.
Qed.

(** the number of components requested, with the default for None *)
Definition comp_count {T} (v : pyval T) (dflt k : nat) : Prop := v = PInt (Z.of_nat k) \/ (v = PNone /\ k = dflt).
Lemma comp_count_resolve {T} (v : pyval T) dflt k : comp_count v dflt k <-> resolve_components v dflt = PInt (Z.of_nat k).
Proof.
  unfold comp_count, resolve_components. split.
  - intros [->|[-> ->]]; reflexivity.
  - destruct v; intros H; try discriminate; [right|left; exact H]. split; [reflexivity|]. injection H as H. lia.
Qed.
Lemma max_iterations_total {T} {N : Num T} (o : gpnh T) data Din Win ud uw kw k m t D W g' r fuel :
  comp_count (go_n_components o) (nc data) k -> (0 < k)%nat ->
  gc_max_iterations (go_cfg o) = PInt (Z.of_nat m) -> (0 < m)%nat -> tol_value (gc_tolerance (go_cfg o)) t ->
  choose_initial (go_cfg o) k data Din Win ud uw kw (go_rng o) = Ok (D, W, g') ->
  gpnh_iterate fuel (go_cfg o) k ud uw t m (start_ws (go_cfg o) data W D) = Ok r ->
  exists r', fit_transform fuel o data Din Win ud uw kw = Ok r'.
Proof.
  intros Hc Hk Hm1 Hm2 Ht E1 E2. apply comp_count_resolve in Hc. unfold fit_transform, gpnh_convex_coding.
  rewrite Hc, Hm1, (check_params_total k m _ t) by assumption. cbn [bind]. rewrite E1; cbn [bind].
  unfold start_ws in E2. unfold initialize_workspace. cbn [w_X w_Gamma w_S].
  rewrite E2. cbn [bind]. destruct r as [[[w2 cost] n_iter] log]. cbn. eauto.
Qed.

Lemma fit_no_guard c n d k m tl data Din Win kw g :
  is_mat n d data -> (0 < n)%nat -> (0 < d)%nat -> (0 < k)%nat -> (0 < m)%nat ->
  gc_max_iterations c = PInt (Z.of_nat m) -> tol_value (gc_tolerance c) tl ->
  start_ready (gc_init c) n d k Din Win -> rng_ok k g ->
  0 <= gc_epsilon c -> 0 < ls_sigma_one (gc_ls c) -> ls_sigma_two (gc_ls c) < 1 -> 0 <= ls_gamma (gc_ls c) < 1 ->
  0 < ls_alpha_min (gc_ls c) <= ls_alpha_max (gc_ls c) -> gc_memory c = 1%nat ->
  exists tau, 0 < tau /\ forall t, 0 < t <= tau -> exists M, forall fuel, (M <= fuel)%nat ->
    forall o, go_cfg o = with_step_tol c t -> comp_count (go_n_components o) d k -> go_rng o = g ->
    exists r, fit_transform fuel o data Din Win true true kw = Ok r.
Proof.
  intros HX Hn Hd Hk Hm Em Et Hs Hr He H1 H2 Hg Ha Hmem.
  destruct (choose_initial_ready c k data n d Din Win kw g HX Hs Hr) as (D & W & g' & E1 & HD & HW & SW).
  destruct (entries_bound_ex data) as (x & Hx0 & Hx). destruct (entries_bound_ex D) as (B & HB0 & HB).
  exists (tau n d k m c x B). split; [apply tau_pos; assumption|].
  intros t Ht. destruct (iterate_no_guard n d k m data c x B HX Hn Hd Hk He Hx Hx0 HB0 H1 H2 Hg Ha Hmem t Ht) as [M HM].
  exists M. intros fuel Hf o Eo Ec Eg.
  destruct (HM fuel Hf true true tl (start_ws c data W D)) as [r E2]; [apply start_pinv; assumption|].
  assert (nc data = d) by apply HX.
  eapply (max_iterations_total o data Din Win true true kw k m tl D W g' r fuel); rewrite ?Eo; try assumption.
  - rewrite H; exact Ec.
  - rewrite Eg. exact E1.
Qed.

(** with the guard off, every fit from a usable start returns *)
Lemma fit_total c n d k m tl data Din Win kw g :
  is_mat n d data -> (0 < k)%nat -> (0 < m)%nat ->
  gc_max_iterations c = PInt (Z.of_nat m) -> tol_value (gc_tolerance c) tl ->
  start_ready (gc_init c) n d k Din Win -> rng_ok k g ->
  ls_valid (gc_ls c) -> (0 < gc_memory c)%nat -> gc_monotone c = false ->
  exists M, forall fuel, (M <= fuel)%nat ->
    forall o, go_cfg o = c -> comp_count (go_n_components o) d k -> go_rng o = g ->
    exists r, fit_transform fuel o data Din Win true true kw = Ok r.
Proof.
  intros HX Hk Hm Em Et Hs Hr Hls Hmem Hmono.
  destruct (choose_initial_ready c k data n d Din Win kw g HX Hs Hr) as (D & W & g' & E1 & HD & HW & SW).
  destruct (gpnh_iterate_total c Hls Hmem) as [M HM]. exists M. intros fuel Hf o Eo Ec Eg.
  destruct (HM fuel Hf n d k data (row_stochastic W) true true tl m (start_ws c data W D) Hk) as [[r E2]|[_ E2]];
    [apply start_ginv; assumption | | congruence].
  assert (nc data = d) by apply HX.
  eapply (max_iterations_total o data Din Win true true kw k m tl D W g' r fuel); rewrite ?Eo; try assumption.
  - rewrite H; exact Ec.
  - rewrite Eg. exact E1.
Qed.

(** every run ends: no input makes it exhaust the fuel *)
Section Raises.
  Context {T : Type} {N : Num T}.
  Lemma check_init_weights_raise w r k e : check_init_weights (T := T) w r k = Raise e -> e = ValueError.
  Proof.
    unfold check_init_weights. destruct w as [A|]; cbn [check_array bind]; [|congruence]. destruct (all_finite A); cbn [bind]; [|congruence].
    unfold check_array_shape. destruct (andb _ _); cbn [bind]; [|congruence].
    unfold check_unit_row_sums. destruct (forallb _ _); cbn [bind]; congruence.
  Qed.
  Lemma check_init_dictionary_raise w r k e : check_init_dictionary (T := T) w r k = Raise e -> e = ValueError.
  Proof.
    unfold check_init_dictionary. destruct w as [A|]; cbn [check_array bind]; [|congruence]. destruct (all_finite A); cbn [bind]; [|congruence].
    unfold check_array_shape. destruct (andb _ _); cbn [bind]; congruence.
  Qed.
  Lemma initialize_weights_raise data k init g e : initialize_weights (T := T) data k init g = Raise e -> e = ValueError.
  Proof. unfold initialize_weights. destruct init; congruence. Qed.
  Lemma initialize_dictionary_raise data k init kw g e : initialize_dictionary (T := T) data k init kw g = Raise e -> fs_exn e.
  Proof.
    unfold fs_exn, initialize_dictionary. destruct init; try (intros [= <-]; auto); try discriminate.
    unfold initialize_dictionary_furthest_sum. cbv zeta.
    match goal with |- bind ?A _ = _ -> _ => destruct A as [[s g1]|e1] eqn:E1 end; cbn [bind].
    - destruct (furthest_sum _ _ _ _ _) as [sel|e2] eqn:E2; cbn [bind].
      { unfold check_selected. destruct (forallb _ _); cbn [bind]; [discriminate|]. intros [= <-]; auto. }
      intros [= <-].
      apply furthest_sum_raise in E2. exact E2.
    - intros [= <-]. destruct (fk_start_index kw); [discriminate|]. unfold draw_randint in E1.
      destruct (Nat.eqb _ 0); cbn [bind] in E1; [injection E1 as <-; auto | discriminate].
  Qed.
  Lemma choose_initial_raise c k data Din Win ud uw kw (g : rng T) e :
    choose_initial c k data Din Win ud uw kw g = Raise e -> fs_exn e.
  Proof.
    unfold fs_exn, choose_initial. cbv zeta.
    assert (G : forall init, (if andb (negb ud) uw then
          let! D := check_init_dictionary Din k (nc data) in
          match kw with
          | Some _ => Raise TypeError
          | None => let! r := initialize_weights data k init g in Ok (D, fst r, snd r)
          end
        else if andb ud (negb uw) then
          let! W := check_init_weights Win (nr data) k in
          let! r := initialize_dictionary data k init (match kw with Some v => v | None => fs_default end) g in
          Ok (fst r, W, snd r)
        else
          let! r := initialize_dictionary data k init (match kw with Some v => v | None => fs_default end) g in
          let! r2 := initialize_weights data k init (snd r) in
          Ok (fst r, fst r2, snd r2)) = Raise e -> fs_exn e).
    { unfold fs_exn. intros init. destruct (andb (negb ud) uw).
      - destruct (check_init_dictionary _ _ _) eqn:E; cbn [bind]; [|intros [= <-]; left; eapply check_init_dictionary_raise, E].
        destruct kw; [intros [= <-]; auto|].
        destruct (initialize_weights _ _ _ _) eqn:E2; cbn [bind]; [discriminate|]. intros [= <-]; left; eapply initialize_weights_raise, E2.
      - destruct (andb ud (negb uw)).
        + destruct (check_init_weights _ _ _) eqn:E; cbn [bind]; [|intros [= <-]; left; eapply check_init_weights_raise, E].
          destruct (initialize_dictionary _ _ _ _ _) eqn:E2; cbn [bind]; [discriminate|]. intros [= <-]; eapply initialize_dictionary_raise, E2.
        + destruct (initialize_dictionary _ _ _ _ _) eqn:E2; cbn [bind]; [|intros [= <-]; eapply initialize_dictionary_raise, E2].
          destruct (initialize_weights _ _ _ _) eqn:E3; cbn [bind]; [discriminate|]. intros [= <-]; left; eapply initialize_weights_raise, E3. }
    destruct (gc_init c); try (apply G).
    destruct (check_init_weights _ _ _) eqn:E; cbn [bind]; [|intros [= <-]; left; eapply check_init_weights_raise, E].
    destruct (check_init_dictionary _ _ _) eqn:E2; cbn [bind]; [discriminate|]. intros [= <-]; left; eapply check_init_dictionary_raise, E2.
  Qed.
End Raises.

Lemma convex_coding_ends c : ls_valid (gc_ls c) -> (0 < gc_memory c)%nat ->
  exists M, forall fuel, (M <= fuel)%nat -> forall o data Din Win ud uw kw n d, go_cfg o = c -> is_mat n d data -> wf_opt Din -> wf_opt Win ->
    (exists r, gpnh_convex_coding fuel o data Din Win ud uw kw = Ok r)
    \/ (exists e, gpnh_convex_coding fuel o data Din Win ud uw kw = Raise e
         /\ (e = ValueError \/ e = IndexError \/ e = TypeError \/ (e = RuntimeError /\ gc_monotone c = true))).
Proof.
  intros Hls Hmem. destruct (gpnh_iterate_total c Hls Hmem) as [M HM]. exists M.
  intros fuel Hf o data Din Win ud uw kw n d Eo HX WD WW. unfold gpnh_convex_coding. rewrite Eo.
  destruct (check_params _ _ _) as [[[k m] t]|e] eqn:E1; cbn [bind].
  2:{ right. exists e. apply check_params_raise in E1. auto. }
  apply check_params_ok in E1. destruct E1 as (_ & Hk & _ & Hm & _).
  destruct (choose_initial _ _ _ _ _ _ _ _ _) as [[[D W] g']|e] eqn:E2; cbn [bind].
  2:{ right. exists e. split; [reflexivity|]. destruct (choose_initial_raise _ _ _ _ _ _ _ _ _ _ E2) as [->|[->| ->]]; auto. }
  apply choose_initial_ok in E2; try assumption. destruct E2 as (HD & HW & _ & _).
  assert (nr data = n /\ nc data = d) as [x1 x2] by (split; apply HX). rewrite x1 in HW. rewrite x2 in HD.
  unfold initialize_workspace; cbn [w_X w_Gamma w_S]. fold (start_ws c data W D).
  destruct (HM fuel Hf n d k data (row_stochastic W) ud uw t m (start_ws c data W D) Hk) as [[r E]|[E Hmono]].
  - apply start_ginv; assumption.
  - unfold start_ws in *. rewrite E. destruct r as [[[w2 cost] n_iter] log]. cbn [bind]. left; eauto.
  - unfold start_ws in *. rewrite E. cbn [bind]. right. exists RuntimeError. auto 6.
Qed.

(** ** transform *)
Definition transform_init (i : init_method) : Prop := i = InitNone \/ i = InitRandom \/ i = InitFurthestSum.
Lemma choose_transform_ok c k data n d S (g : rng R) : is_mat n d data -> is_mat k d S -> transform_init (gc_init c) ->
  rng_ok k g -> exists W g', choose_initial c k data (Some S) None false true None g = Ok (S, W, g')
    /\ is_mat n k W /\ row_stochastic W.
Proof.
  intros (x1 & x2 & x3) HS Hi Hg. unfold choose_initial.
  assert (E : check_init_dictionary (Some S) k (nc data) = Ok S).
  { apply (check_init_dictionary_iff Num_R); [apply all_finite_R|]. rewrite x2. split; apply HS. }
  exists (fst (right_stochastic_matrix (nr data) k g)), (snd (right_stochastic_matrix (nr data) k g)).
  rewrite <- x1. split; [|apply right_stochastic_rng, Hg].
  destruct Hi as [->|[->| ->]]; cbn [andb negb]; rewrite E; reflexivity.
Qed.
Lemma transform_start {T} {N : Num T} (o : gpnh T) data w k m t D W g' r fuel :
  go_ws o = Some w ->
  comp_count (go_n_components o) (nc data) k -> (0 < k)%nat ->
  gc_max_iterations (go_cfg o) = PInt (Z.of_nat m) -> (0 < m)%nat -> tol_value (gc_tolerance (go_cfg o)) t ->
  choose_initial (go_cfg o) k data (Some (w_S w)) None false true None (go_rng o) = Ok (D, W, g') ->
  gpnh_iterate fuel (go_cfg o) k false true t m (start_ws (go_cfg o) data W D) = Ok r ->
  exists r', transform fuel o data = Ok r'.
Proof.
  intros Ew Hc Hk Hm1 Hm2 Ht E1 E2. apply comp_count_resolve in Hc. unfold transform, gpnh_convex_coding.
  rewrite Ew, Hc, Hm1, (check_params_total k m _ t) by assumption. cbn [bind]. rewrite E1; cbn [bind].
  unfold start_ws in E2. unfold initialize_workspace. cbn [w_X w_Gamma w_S].
  rewrite E2. cbn [bind]. destruct r as [[[w2 cost] n_iter] log]. cbn. eauto.
Qed.
Lemma transform_total c n d k m tl data S g : is_mat n d data -> is_mat k d S -> (0 < k)%nat -> (0 < m)%nat ->
  gc_max_iterations c = PInt (Z.of_nat m) -> tol_value (gc_tolerance c) tl -> transform_init (gc_init c) -> rng_ok k g ->
  ls_valid (gc_ls c) -> (0 < gc_memory c)%nat -> gc_monotone c = false ->
  exists M, forall fuel, (M <= fuel)%nat -> forall o w, go_cfg o = c -> comp_count (go_n_components o) d k -> go_rng o = g ->
    go_ws o = Some w -> w_S w = S -> exists r, transform fuel o data = Ok r.
Proof.
  intros HX HS Hk Hm Em Et Hi Hg Hls Hmem Hmono.
  destruct (choose_transform_ok c k data n d S g HX HS Hi Hg) as (W & g' & E1 & HW & SW).
  destruct (gpnh_iterate_total c Hls Hmem) as [M HM]. exists M. intros fuel Hf o w Eo Ec Eg Ew ES.
  destruct (HM fuel Hf n d k data (row_stochastic W) false true tl m (start_ws c data W S) Hk) as [[r E2]|[_ E2]];
    [apply start_ginv; assumption | | congruence].
  assert (nc data = d) by apply HX.
  eapply (transform_start o data w k m tl S W g' r fuel); rewrite ?Eo; try assumption.
  - rewrite H; exact Ec.
  - rewrite Eg, ES. exact E1.
Qed.

(** explicit bound under which the guard of a transform never fires *)
Lemma transform_no_guard c n d k m tl data S g : is_mat n d data -> is_mat k d S -> (0 < n)%nat -> (0 < d)%nat -> (0 < k)%nat -> (0 < m)%nat ->
  gc_max_iterations c = PInt (Z.of_nat m) -> tol_value (gc_tolerance c) tl -> transform_init (gc_init c) -> rng_ok k g ->
  0 < ls_sigma_one (gc_ls c) -> ls_sigma_two (gc_ls c) < 1 -> 0 <= ls_gamma (gc_ls c) <= 1 ->
  0 < ls_alpha_min (gc_ls c) <= ls_alpha_max (gc_ls c) -> gc_memory c = 1%nat ->
  0 < ls_step_tol (gc_ls c) <= ls_sigma_one (gc_ls c) ->
  ls_step_tol (gc_ls c) * (2 * Rmax 1 (ls_alpha_max (gc_ls c)) * (frob2 S / (INR d * INR n))) <= 1 - ls_gamma (gc_ls c) ->
  exists M, forall fuel, (M <= fuel)%nat -> forall o w, go_cfg o = c -> comp_count (go_n_components o) d k -> go_rng o = g ->
    go_ws o = Some w -> w_S w = S -> exists r, transform fuel o data = Ok r.
Proof.
  intros HX HS Hn Hd Hk Hm Em Et Hi Hg H1 H2 Hga Ha Hmem Hts Hb.
  destruct (choose_transform_ok c k data n d S g HX HS Hi Hg) as (W & g' & E1 & HW & SW).
  destruct (update_weights_total c) as [M HM]; [repeat split; [exact H1 | exact H2 | apply Hts]|].
  exists M. intros fuel Hf o w Eo Ec Eg Ew ES.
  set (P := fun (_ : nat) (s : gws R) => ginv n d k data c True s /\ w_S s = S /\ 0 < w_alpha_Gamma s <= Rmax 1 (ls_alpha_max (gc_ls c))).
  assert (H0 : P 0%nat (start_ws c data W S)).
  { pose proof (start_ginv c data W S n d k HX HW HS) as (A1 & A2 & A3 & A4).
    split; [split; [exact A1|]; split; [exact A2|]; split; [exact A3|]; auto|]. split; [reflexivity|].
    cbn [start_ws w_alpha_Gamma]. pose proof (Rmax_l 1 (ls_alpha_max (gc_ls c))). numR. lra. }
  destruct (iterate_loop_total_idx (evaluate_cost c k) (cost_increased (gc_monotone c)) [update_weights fuel c k] tl P m) with
    (left := m) (n := 0%nat) (st := start_ws c data W S) (log := [evaluate_cost c k (start_ws c data W S)]) as [r E2];
    [|lia | exact H0 |].
  - intros i s Hi2 ((J1 & J2 & J3 & J4) & ESs & Ha2). cbn [run_updates].
    assert (exists m0, w_f_Gamma_mem s = [m0]) as [m0 Emm].
    { rewrite Hmem in J3. destruct (w_f_Gamma_mem s) as [|m0 [|]]; cbn in J3; try lia. eauto. }
    destruct (HM fuel k s Hf) as [s' E]; [rewrite Emm; discriminate|]. rewrite E; cbn [bind].
    pose proof (update_weights_inv n d k data fuel c s s' J1 Hk H1 H2 E) as (K2 & K3 & K4 & K5 & K6 & K7 & K8).
    assert (L : evaluate_cost c k s' <= evaluate_cost c k s).
    { eapply (update_weights_descends n d k data fuel c s s' m0); try eassumption; [apply J4, I|].
      rewrite ESs. exact Hb. }
    unfold cost_increased at 1. replace (nltb (evaluate_cost c k s) (evaluate_cost c k s')) with false
      by (symmetry; numR; apply Rltb_false; lra). cbn [andb].
    eexists s', _. split; [reflexivity|]. split; [reflexivity|].
    split; [split; [exact K2|]; split; [congruence|]; split; [congruence|]; auto|].
    split; [congruence|]. specialize (K7 ltac:(lra)). pose proof (Rmax_r 1 (ls_alpha_max (gc_ls c))). lra.
  - assert (nc data = d) by apply HX.
    eapply (transform_start o data w k m tl S W g' r fuel); rewrite ?Eo; try assumption.
    + rewrite H; exact Ec.
    + rewrite Eg, ES. exact E1.
Qed.
Lemma last_nth {A} (l : list A) d : last l d = nth (pred (length l)) l d.
Proof.
  induction l as [|a [|b l] IH]; [reflexivity | reflexivity|].
  change (last (a :: b :: l) d) with (last (b :: l) d). rewrite IH. reflexivity.
Qed.
(** the streams themselves never change, only the position *)
Lemma choose_initial_streams {T} {N : Num T} c k data Din Win ud uw kw (g g' : rng T) D W :
  choose_initial c k data Din Win ud uw kw g = Ok (D, W, g') ->
  r_uniform g' = r_uniform g /\ r_normal g' = r_normal g /\ r_int g' = r_int g.
Proof.
  assert (ID : forall init kw g D g', initialize_dictionary (T := T) data k init kw g = Ok (D, g') ->
      r_uniform g' = r_uniform g /\ r_normal g' = r_normal g /\ r_int g' = r_int g).
  { clear. intros init kw g D g'. unfold initialize_dictionary. destruct init; try discriminate; try (intros [= _ <-]; auto).
    unfold initialize_dictionary_furthest_sum. intros H. apply bind_ok in H. destruct H as ((s & g1) & E1 & H).
    apply bind_ok in H. destruct H as (sel & E2 & H). apply bind_ok in H. destruct H as (_ & _ & H). injection H as _ <-. cbn [snd].
    destruct (fk_start_index kw); [injection E1 as <- <-; auto|].
    apply bind_ok in E1. destruct E1 as ((z & g2) & E1 & E3). injection E3 as <- <-. cbn [snd].
    unfold draw_randint in E1. destruct (Nat.eqb _ 0); [discriminate|]. injection E1 as _ <-. auto. }
  assert (IW : forall init g W g', initialize_weights (T := T) data k init g = Ok (W, g') ->
      r_uniform g' = r_uniform g /\ r_normal g' = r_normal g /\ r_int g' = r_int g).
  { clear. intros init g W g'. unfold initialize_weights. destruct init; try discriminate; intros [= _ <-]; auto. }
  unfold choose_initial. cbv zeta. intros H.
  assert (G : forall init, (if andb (negb ud) uw then
          let! D := check_init_dictionary Din k (nc data) in
          match kw with
          | Some _ => Raise TypeError
          | None => let! r := initialize_weights data k init g in Ok (D, fst r, snd r)
          end
        else if andb ud (negb uw) then
          let! W := check_init_weights Win (nr data) k in
          let! r := initialize_dictionary data k init (match kw with Some v => v | None => fs_default end) g in
          Ok (fst r, W, snd r)
        else
          let! r := initialize_dictionary data k init (match kw with Some v => v | None => fs_default end) g in
          let! r2 := initialize_weights data k init (snd r) in
          Ok (fst r, fst r2, snd r2)) = Ok (D, W, g') ->
        r_uniform g' = r_uniform g /\ r_normal g' = r_normal g /\ r_int g' = r_int g).
  { clear H. intros init H. destruct (andb (negb ud) uw).
    - apply bind_ok in H. destruct H as (D0 & E1 & H). destruct kw; [discriminate|].
      apply bind_ok in H. destruct H as ((W0 & g0) & E2 & H). injection H as <- <- <-. eapply IW, E2.
    - destruct (andb ud (negb uw)).
      + apply bind_ok in H. destruct H as (W0 & E1 & H). apply bind_ok in H. destruct H as ((D0 & g0) & E2 & H).
        injection H as <- <- <-. eapply ID, E2.
      + apply bind_ok in H. destruct H as ((D0 & g0) & E1 & H). cbn [fst snd] in H.
        apply bind_ok in H. destruct H as ((W0 & g1) & E2 & H). injection H as <- <- <-. cbn [snd].
        apply ID in E1. apply IW in E2. destruct E1 as (e1 & e2 & e3), E2 as (f1 & f2 & f3). repeat split; congruence. }
  destruct (gc_init c); try (apply (G _ H)).
  apply bind_ok in H. destruct H as (W0 & E1 & H). apply bind_ok in H. destruct H as (D0 & E2 & H).
  injection H as <- <- <-. auto.
Qed.
