(** Property theorems C01 - C13: simplex projection, SPG steps, line search, FurthestSum,
    random stochastic matrices, validation. *)
From Coq Require Import List Arith Lia ZArith Reals Lra Permutation.
From Verif Require Import Num Mat Py Spec M_simplex M_spg M_furthest M_random.
From Verif Require Import P_lin P_simplex P_spg P_furthest P_random.
Import ListNotations.
Local Open Scope R_scope.

(** ** C01 *)
Theorem C01_projection_is_probability_vector : forall x : list R, x <> [] ->
  length (simplex_project_vector x) = length x
  /\ (forall i, (i < length x)%nat -> 0 <= at_ (simplex_project_vector x) i)
  /\ Sum (length x) (at_ (simplex_project_vector x)) = 1.
Proof.
  intros x Hx. destruct (proj_prob x Hx) as [[H1 H2] L]. rewrite L in *. auto.
Qed.
Print Assumptions C01_projection_is_probability_vector.
(** a case with a clipped entry: [1/4; 2; -1] projects to [0; 1; 0] *)
Example C01_example : [1/4; 2; -1] <> [] /\ simplex_project_vector [1/4; 2; -1] = [0; 1; 0].
Proof.
  split; [discriminate|]. symmetry. apply proj_unique with (t := 1); try discriminate; try reflexivity.
  - unfold at_; cbn; lra.
  - intros i Hi. cbn in Hi. destruct i as [|[|[|i]]]; try lia; unfold at_; cbn [nth];
      [rewrite Rmax_right | rewrite Rmax_left | rewrite Rmax_right]; lra.
Qed.

(** ** C02 *)
Theorem C02_projection_is_nearest : forall x y : list R,
  x <> [] -> length y = length x -> prob_vec y ->
  dist2 x (simplex_project_vector x) <= dist2 x y
  /\ (dist2 x y = dist2 x (simplex_project_vector x) -> y = simplex_project_vector x).
Proof.
  intros x y Hx Hl Hy. destruct (proj_nearest x y Hx Hl Hy) as [H1 H2]. split; [exact H1|].
  intros E; apply H2; lra.
Qed.
Print Assumptions C02_projection_is_nearest.
Example C02_example : [1/4; 2; -1] <> [] /\ length [1/2; 1/2; 0] = length [1/4; 2; -1] /\ prob_vec [1/2; 1/2; 0].
Proof.
  split; [discriminate|]. split; [reflexivity|]. split.
  - intros i Hi; cbn in Hi. destruct i as [|[|[|i]]]; try lia; unfold at_; cbn [nth]; lra.
  - unfold at_; cbn; lra.
Qed.

(** ** C03 *)
Theorem C03_projection_laws :
  (forall x : list R, prob_vec x -> simplex_project_vector x = x)
  /\ (forall x : list R, x <> [] ->
        simplex_project_vector (simplex_project_vector x) = simplex_project_vector x)
  /\ (forall c (x : list R), simplex_project_vector (map (fun a => a + c) x) = simplex_project_vector x)
  /\ (forall (x : list R) sigma, Permutation sigma (seq 0 (length x)) ->
        simplex_project_vector (map (at_ x) sigma) = map (at_ (simplex_project_vector x)) sigma)
  /\ (forall x y : list R, length x = length y ->
        dist2 (simplex_project_vector x) (simplex_project_vector y) <= dist2 x y).
Proof.
  exact (conj proj_fixed (conj proj_idem (conj proj_shift (conj proj_perm proj_nonexp)))).
Qed.
Print Assumptions C03_projection_laws.
Example C03_example : Permutation [2; 0; 1]%nat (seq 0 (length [1/4; 2; -1]))
  /\ map (at_ [1/4; 2; -1]) [2; 0; 1]%nat = [-1; 1/4; 2].
Proof.
  split; [|reflexivity]. cbn. apply Permutation_trans with [0; 2; 1]%nat; [apply perm_swap | apply perm_skip, perm_swap].
Qed.

(** ** C04 (for any arithmetic, hence also for floats) *)
Theorem C04_rows_columns : forall (T : Type) (N : Num T) (A : mat T), wf A ->
  shape (simplex_project_rows A) = shape A
  /\ (forall i, (i < nr A)%nat -> mrow (simplex_project_rows A) i = simplex_project_vector (mrow A i))
  /\ shape (simplex_project_columns A) = shape A
  /\ (forall j, (j < nc A)%nat -> mcol (simplex_project_columns A) j = simplex_project_vector (mcol A j))
  /\ mtr (simplex_project_columns A) = simplex_project_rows (mtr A).
Proof.
  intros T N A W. destruct (project_rows_shape A W) as (_ & R1 & R2). destruct (project_cols_shape A W) as (_ & C1 & C2).
  unfold shape. rewrite R1, R2, C1, C2. repeat split.
  - intros i Hi. apply project_rows_row; assumption.
  - intros j Hj. apply project_cols_col; assumption.
  - apply project_cols_tr; assumption.
Qed.
Print Assumptions C04_rows_columns.
Theorem C04_rows_columns_stochastic : forall A : mat R, wf A ->
  ((0 < nc A)%nat -> row_stochastic (simplex_project_rows A))
  /\ ((0 < nr A)%nat -> col_stochastic (simplex_project_columns A)).
Proof. intros A W. split; [apply project_rows_stochastic | apply project_cols_stochastic]; exact W. Qed.
Print Assumptions C04_rows_columns_stochastic.
Example C04_example : wf (mkmat 2 2 [[3; 1]; [0; 5]]) /\ (0 < nc (mkmat 2 2 [[3; 1]; [0; 5]]))%nat.
Proof. split; [|cbn; lia]. split; [reflexivity|]. intros row [<-|[<-|[]]]; reflexivity. Qed.

(** ** C05 *)
Theorem C05_alpha_safeguards : forall beta sksk alpha_min alpha_max : R, alpha_min <= alpha_max ->
  let a := get_next_spg_alpha beta sksk alpha_min alpha_max in
  alpha_min <= a <= alpha_max
  /\ (beta <= 0 -> a = alpha_max)
  /\ (0 < beta -> alpha_min <= sksk / beta <= alpha_max -> a = sksk / beta)
  /\ (0 < beta -> sksk / beta <= alpha_min -> a = alpha_min)
  /\ (0 < beta -> alpha_max <= sksk / beta -> a = alpha_max).
Proof.
  intros beta sksk amin amax H a. split; [apply alpha_bounds, H|].
  split; [apply alpha_nonpos|]. split; [apply alpha_ratio|].
  split; intros; [apply alpha_clip_lo | apply alpha_clip_hi]; assumption.
Qed.
Print Assumptions C05_alpha_safeguards.
Example C05_example : 1/1000 <= 1000 /\ get_next_spg_alpha 2 6 (1/1000) 1000 = 3.
Proof. split; [lra|]. rewrite alpha_ratio; lra. Qed.

(** ** C06 *)
Theorem C06_step_shrinks : forall step delta f_old f_new sigma_one sigma_two : R,
  0 < step -> 0 < sigma_one -> sigma_two < 1 ->
  let s := get_next_spg_step_length step delta f_old f_new sigma_one sigma_two in
  0 < s /\ s <= Rmax (1/2) sigma_two * step /\ s < step /\ Rmin sigma_one (step / 2) <= s.
Proof.
  intros step delta f0 f1 s1 s2 Hs H1 H2 s.
  destruct (step_shrinks step delta f0 f1 s1 s2 Hs H1) as [A B]. fold s in A, B.
  repeat split; try assumption.
  - assert (Rmax (1/2) s2 < 1) by (apply Rmax_lub_lt; lra).
    assert (Rmax (1/2) s2 * step < 1 * step) by (apply Rmult_lt_compat_r; lra). lra.
  - apply step_lower; exact Hs.
Qed.
Print Assumptions C06_step_shrinks.
Example C06_example : 0 < 1 /\ 0 < 1/10 /\ 9/10 < 1
  /\ get_next_spg_step_length 1 (-2) 0 1 (1/10) (9/10) = 1/3.
Proof.
  repeat split; try lra. unfold get_next_spg_step_length, nsq; numR.
  replace (- (1/2) * (1 * 1) * -2 / (1 - 0 - 1 * -2)) with (1/3) by field.
  rewrite (proj2 (Rleb_true _ _)) by lra. rewrite (proj2 (Rleb_true _ _)) by lra. reflexivity.
Qed.

(** ** C62: among the quadratics a + b t + c t^2 with c > 0, the one through the old cost, the old
    slope and the new cost decides the step: its minimiser when that lies in the accepted range,
    half the step otherwise *)
Theorem C62_step_minimises_interpolant :
  forall step delta f_old f_new sigma_one sigma_two c m : R,
  0 < step -> 0 < c ->
  (let q := fun t => f_old + delta * t + c * (t * t) in
   q step = f_new /\ forall t, q m <= q t) ->
  let s := get_next_spg_step_length step delta f_old f_new sigma_one sigma_two in
  (sigma_one <= m <= sigma_two * step -> s = m)
  /\ (m < sigma_one \/ sigma_two * step < m -> s = step / 2).
Proof.
  intros step delta f0 f1 s1 s2 c m Hs Hc [Hq Hm] s.
  assert (E : m = - delta / (2 * c)).
  { pose proof (Hm (- delta / (2 * c))) as H.
    assert (H1 : c * ((m - - delta / (2 * c)) * (m - - delta / (2 * c))) <= 0).
    { replace (c * ((m - - delta / (2 * c)) * (m - - delta / (2 * c))))
        with ((f0 + delta * m + c * (m * m))
              - (f0 + delta * (- delta / (2 * c)) + c * ((- delta / (2 * c)) * (- delta / (2 * c)))))
        by (field; lra). lra. }
    assert (H2 : (m - - delta / (2 * c)) * (m - - delta / (2 * c)) <= 0).
    { apply Rmult_le_reg_l with c; lra. }
    assert (H3 : (m - - delta / (2 * c)) = 0).
    { destruct (Req_dec (m - - delta / (2 * c)) 0) as [Z|Z]; [exact Z|].
      pose proof (Rsqr_pos_lt _ Z) as P. unfold Rsqr in P. lra. }
    lra. }
  assert (D : - (1/2) * (step * step) * delta / (f1 - f0 - step * delta) = m).
  { rewrite E, <- Hq. field. split; [lra|].
    replace (f0 + delta * step + c * (step * step) - f0 - step * delta) with (c * (step * step)) by ring.
    apply Rgt_not_eq, Rmult_lt_0_compat; [exact Hc | apply Rmult_lt_0_compat; exact Hs]. }
  subst s. unfold get_next_spg_step_length, nsq; numR. rewrite D.
  split.
  - intros [A B]. rewrite (proj2 (Rleb_true _ _) A), (proj2 (Rleb_true _ _) B). reflexivity.
  - intros [A|A].
    + rewrite (proj2 (Rleb_false _ _) A). cbn [andb]. numR; lra.
    + rewrite (proj2 (Rleb_false _ _) A), Bool.andb_false_r. numR; lra.
Qed.
Print Assumptions C62_step_minimises_interpolant.
Example C62_example : exists c m : R, 0 < 1 /\ 0 < c
  /\ (let q := fun t => 0 + (-2) * t + c * (t * t) in q 1 = 1 /\ forall t, q m <= q t)
  /\ 1/10 <= m <= 9/10 * 1.
Proof.
  exists 3, (1/3). cbn zeta. split; [lra|]. split; [lra|]. split; [|lra]. split; [lra|].
  intros t. pose proof (Rle_0_sqr (t - 1/3)) as P. unfold Rsqr in P. lra.
Qed.

(** ** C07: the bound M depends only on sigma_two and the step tolerance *)
Theorem C07_line_search_terminates : forall sigma_two tol : R, sigma_two < 1 -> 0 < tol ->
  exists M : nat, forall p : ls_params R,
    ls_sigma_two p = sigma_two -> ls_step_tol p = tol -> 0 < ls_sigma_one p ->
    forall (St : Type) (cost : St -> R) (trial : R -> St) (full : St)
           (mem : list R) (current_cost slope : R) (fuel : nat),
      mem <> [] -> (M <= fuel)%nat ->
      exists st step mem',
        line_search fuel p cost trial full mem current_cost slope = Ok (st, step, mem')
        /\ 0 < step <= 1.
Proof.
  intros s2 tol H2 Ht.
  assert (Hr : 0 < Rmax (1/2) s2 < 1).
  { split; [pose proof (Rmax_l (1/2) s2); lra | apply Rmax_lub_lt; lra]. }
  destruct (pow_below (Rmax (1/2) s2) tol) as (M & HM0 & HM); [lra | exact Ht|].
  exists M. intros p E2 Et H1 St cost trial full mem cc sl fuel Hmem Hf.
  destruct mem as [|m0 rest]; [congruence|]. unfold line_search.
  destruct (mem_max (rest ++ [cc])) as [fm|] eqn:Em.
  2:{ destruct (rest ++ [cc]) as [|a l] eqn:E; [destruct rest; discriminate|].
      destruct (mem_max_cons a l) as [m Hm]. congruence. }
  destruct (backtrack_terminates p cost trial sl cc fm (ls_gamma p * sl) H1 ltac:(rewrite E2; exact H2)
    ltac:(rewrite Et; exact Ht) fuel full 1 (cost full) 0 M) as ((st & step) & E); try (cbn; lra); try lia.
  { rewrite E2, Et. exact HM. }
  exists st, step, (rest ++ [cc]). numR. rewrite E. cbn [bind fst snd]. split; [reflexivity|].
  eapply backtrack_step_range; [exact H1 | rewrite E2; exact H2 | | exact E]. lra.
Qed.
Print Assumptions C07_line_search_terminates.
(** the library defaults (gpnh_convex_coding.py:226-232) satisfy the hypotheses *)
Definition default_ls : ls_params R :=
  mk_ls (1/10000) (1/1000) 1000 (1/10) (9/10) (1/1000000000000).
Example C07_example : ls_sigma_two default_ls < 1 /\ 0 < ls_step_tol default_ls /\ 0 < ls_sigma_one default_ls
  /\ [0] <> [].
Proof. cbn; repeat split; try lra; discriminate. Qed.

(** ** C08 *)
Theorem C08_line_search_exit : forall (p : ls_params R) (St : Type) (cost : St -> R)
    (trial : R -> St) (full : St) (mem : list R) (current_cost slope : R) (fuel : nat) st step mem',
  full = trial 1 ->
  line_search fuel p cost trial full mem current_cost slope = Ok (st, step, mem') ->
  st = trial step
  /\ mem' = tl mem ++ [current_cost]
  /\ exists f_max, In f_max mem' /\ (forall f, In f mem' -> f <= f_max)
     /\ (cost st <= f_max + ls_gamma p * slope * step \/ Rabs step < ls_step_tol p).
Proof.
  intros p St cost trial full mem cc sl fuel st step mem' Hfull H.
  apply line_search_ok in H. destruct H as (m0 & rest & fm & -> & Em & E1 & E2). cbn [fst snd] in *.
  apply backtrack_exit in E2; [|reflexivity]. destruct E2 as [Hx Hs].
  split; [destruct Hs as [[-> ->]|Hs]; [exact Hfull | exact Hs]|].
  split; [exact E1|]. exists fm. subst mem'. apply mem_max_spec in Em. destruct Em as [I1 I2].
  split; [exact I1|]. split; [exact I2|].
  destruct Hx as [Hx|Hx]; [left | right]; numR; [apply Rltb_false in Hx | apply Rltb_true in Hx]; exact Hx.
Qed.
Print Assumptions C08_line_search_exit.
(** a search in which the full step is rejected: cost s = (s - 1/4)^2, slope -1/2 at 0 *)
Example C08_example : exists st step mem',
  line_search 1 default_ls (fun s : R => (s - 1/4) * (s - 1/4)) (fun s => s) 1 [0] (1/16) (-1/2)
    = Ok (st, step, mem') /\ step = 1/4.
Proof.
  unfold line_search, mem_max; cbn [app fold_left backtrack default_ls ls_gamma ls_sigma_one ls_sigma_two ls_step_tol]. numR.
  rewrite (proj2 (Rltb_true _ _)) by lra.
  unfold get_next_spg_step_length, nsq; numR.
  replace (- (1/2) * (1 * 1) * (-1/2) / ((1 - 1/4) * (1 - 1/4) - 1/16 - 1 * (-1/2))) with (1/4) by field.
  rewrite (proj2 (Rleb_true _ _)) by lra. rewrite (proj2 (Rleb_true _ _)) by lra. cbn [andb].
  rewrite (proj2 (Rltb_false _ _)) by (rewrite Rabs_pos_eq; lra).
  rewrite (proj2 (Rltb_false _ _)) by lra. cbn [bind fst snd]. eauto.
Qed.

(** ** C09 (any arithmetic: the dissimilarities may even be NaN) *)
Theorem C09_furthest_sum_distinct : forall (T : Type) (N : Num T) (D : mat T)
    (n_components start_index : Z) (exclude : list Z) (extra_steps : Z) l,
  (0 <= start_index)%Z ->
  furthest_sum D n_components start_index exclude extra_steps = Ok l ->
  Z.of_nat (length l) = n_components /\ NoDup l
  /\ (forall i, In i l -> (0 <= i < Z.of_nat (nr D))%Z /\ ~ In i exclude).
Proof. intros T N. exact furthest_distinct. Qed.
Print Assumptions C09_furthest_sum_distinct.
(** a negative start index is not rejected, but it can only be returned when every sample is excluded *)
Theorem C09_negative_start : forall (T : Type) (N : Num T) (D : mat T)
    (n_components start_index : Z) (exclude : list Z) (extra_steps : Z) l,
  (start_index < 0)%Z -> n_components <> 0%Z ->
  furthest_sum D n_components start_index exclude extra_steps = Ok l ->
  l = [start_index] /\ n_components = 1%Z
  /\ (forall i, (0 <= i < Z.of_nat (nr D))%Z -> In i exclude).
Proof. intros T N. exact furthest_negative_start. Qed.
Print Assumptions C09_negative_start.
(** the model runs on any arithmetic; here on integers *)
Definition Num_Z_demo : Num Z :=
  {| n0 := 0%Z; n1 := 1%Z; nadd := Z.add; nsub := Z.sub; nmul := Z.mul; ndiv := Z.div; nopp := Z.opp;
     nabs := Z.abs; nsqrt := Z.sqrt; nleb := Z.leb; nltb := Z.ltb; neqb := Z.eqb; nnan := 0%Z; nofZ := fun z => z |}.
Example C09_example :
  @furthest_sum Z Num_Z_demo (mkmat 4 4 [[0;1;4;9]; [1;0;1;4]; [4;1;0;1]; [9;4;1;0]]%Z) 2 1 [2]%Z 3 = Ok [0; 3]%Z.
Proof. reflexivity. Qed.
Example C09_negative_start_example :
  @furthest_sum Z Num_Z_demo (mkmat 2 2 [[0;1]; [1;0]]%Z) 1 (-1) [0; 1]%Z 1 = Ok [-1]%Z.
Proof. reflexivity. Qed.

(** ** C10 *)
Theorem C10_furthest_sum_errors : forall (T : Type) (N : Num T) (D : mat T)
    (n_components start_index : Z) (exclude : list Z) (extra_steps : Z),
  let run := furthest_sum D n_components start_index exclude extra_steps in
  (nr D <> nc D -> run = Raise ValueError)
  /\ (n_components <> 0%Z -> (Z.of_nat (nr D) <= start_index)%Z -> run = Raise ValueError)
  /\ (n_components <> 0%Z -> In start_index exclude -> run = Raise ValueError)
  /\ ((n_components < 0)%Z -> run = Raise ValueError)
  /\ ((0 <= start_index)%Z ->
      (Z.of_nat (length (filter (fun i => negb (existsb (Z.eqb i) exclude))
                                (map Z.of_nat (seq 0 (nr D))))) < n_components)%Z ->
      exists e, run = Raise e).
Proof.
  intros T N D nk st ex es run.
  exact (conj (furthest_nonsquare D nk st ex es) (conj (furthest_start_range D nk st ex es)
    (conj (furthest_start_excluded D nk st ex es) (conj (furthest_negative_count D nk st ex es)
      (furthest_too_few D nk st ex es))))).
Qed.
Print Assumptions C10_furthest_sum_errors.
Theorem C10_furthest_sum_total : forall (T : Type) (N : Num T) (D : mat T)
    (n_components start_index : Z) (exclude : list Z) (extra_steps : Z),
  nr D = nc D -> (0 <= start_index < Z.of_nat (nr D))%Z -> ~ In start_index exclude ->
  NoDup exclude -> (forall e, In e exclude -> (0 <= e < Z.of_nat (nr D))%Z) ->
  (0 <= n_components <= Z.of_nat (nr D) - Z.of_nat (length exclude))%Z ->
  exists l, furthest_sum D n_components start_index exclude extra_steps = Ok l.
Proof. intros T N. exact furthest_never_raises. Qed.
Print Assumptions C10_furthest_sum_total.
Example C10_example : NoDup [2]%Z /\ ~ In 1%Z [2]%Z /\ (forall e, In e [2]%Z -> (0 <= e < Z.of_nat 4)%Z).
Proof.
  split; [constructor; [intros [] | constructor]|]. split; [intros [H|[]]; lia | intros e [<-|[]]; lia].
Qed.
(** duplicate exclusions are not rejected up front but make the run fail *)
Example C10_duplicate_exclusion :
  @furthest_sum Z Num_Z_demo (mkmat 4 4 [[0;1;4;9]; [1;0;1;4]; [4;1;0;1]; [9;4;1;0]]%Z) 2 1 [2; 2]%Z 1 = Raise IndexError.
Proof. reflexivity. Qed.

(** ** C11 *)
Theorem C11_furthest_sum_greedy : forall (D : mat R) (n_components start_index : Z)
    (exclude : list Z) (extra_steps : Z) l,
  (forall i j, (i < nr D)%nat -> (j < nr D)%nat -> ent D i j = ent D j i) ->
  (0 <= start_index)%Z -> n_components <> 0%Z ->
  furthest_sum D n_components start_index exclude extra_steps = Ok l ->
  let allowed z := (0 <= z < Z.of_nat (nr D))%Z /\ ~ In z exclude in
  exists l0, grown D allowed start_index l0 /\ Z.of_nat (length l0) = n_components
    /\ refined D allowed (Z.to_nat n_components) (Z.to_nat extra_steps) l0 l.
Proof. exact furthest_greedy. Qed.
Print Assumptions C11_furthest_sum_greedy.
Example C11_example : let D := mkmat 3 3 [[0; 1; 4]; [1; 0; 1]; [4; 1; 0]] in
  (forall i j, (i < nr D)%nat -> (j < nr D)%nat -> ent D i j = ent D j i)
  /\ exists l, furthest_sum D 2 0 [] 1 = Ok l.
Proof.
  split.
  - intros i j Hi Hj; cbn in Hi, Hj. destruct i as [|[|[|i]]], j as [|[|[|j]]]; try lia; reflexivity.
  - apply C10_furthest_sum_total; try reflexivity; cbn; try lia; try tauto. constructor.
Qed.

(** ** C12 *)
Theorem C12_random_stochastic : forall (r c : nat) (g : rng R),
  (forall n, 0 <= r_uniform g n) ->
  ((forall i, (i < r)%nat -> Sum c (fun j => r_uniform g (r_pos g + i * c + j)) <> 0) ->
     is_mat r c (fst (right_stochastic_matrix r c g)) /\ row_stochastic (fst (right_stochastic_matrix r c g)))
  /\ ((forall j, (j < c)%nat -> Sum r (fun i => r_uniform g (r_pos g + i * c + j)) <> 0) ->
     is_mat r c (fst (left_stochastic_matrix r c g)) /\ col_stochastic (fst (left_stochastic_matrix r c g))).
Proof.
  intros r c g H0. split; intros Hs.
  - destruct (right_stochastic_ok r c g) as [A B]; auto.
  - destruct (left_stochastic_ok r c g) as [A B]; auto.
Qed.
Print Assumptions C12_random_stochastic.
Example C12_example : let g := mkrng (fun n => / (1 + INR n)) (fun _ => 0) (fun n => n) 0 in
  (forall n, 0 <= r_uniform g n)
  /\ (forall i, (i < 2)%nat -> Sum 3 (fun j => r_uniform g (r_pos g + i * 3 + j)) <> 0).
Proof.
  assert (P : forall n, 0 < / (1 + INR n)) by (intros n; apply Rinv_0_lt_compat; pose proof (pos_INR n); lra).
  cbn [r_uniform r_pos]. split; [intros n; left; apply P|].
  intros i _. apply Rgt_not_eq. apply (Sum_pos 3 _ 0); try lia; [intros; left; apply P | apply P].
Qed.

(** ** C13 *)
Theorem C13_validation : forall (M : mat R) (r c : nat),
  let accepted := nr M = r /\ nc M = c
       /\ forall i, (i < r)%nat -> Rabs (Sum c (fun j => ent M i j) - 1) <= 1/100000000 + 1/100000 in
  (accepted -> check_init_weights (Some M) r c = Ok M)
  /\ (~ accepted -> check_init_weights (Some M) r c = Raise ValueError)
  /\ check_init_weights (T := R) None r c = Raise ValueError.
Proof.
  intros M r c accepted. pose proof (check_init_weights_iff M r c) as H.
  split; [intros A; apply H; exact A|]. split; [|reflexivity].
  intros A. destruct (check_init_weights_cases (Some M) r c) as [E|(M' & E & E')]; [exact E|].
  injection E as <-. exfalso. apply A, H. exact E'.
Qed.
Print Assumptions C13_validation.
(** a matrix with a negative entry is accepted *)
Example C13_example : check_init_weights (Some (mkmat 1 2 [[2; -1]])) 1 2 = Ok (mkmat 1 2 [[2; -1]]).
Proof.
  apply check_init_weights_iff. repeat split; try reflexivity. intros i Hi.
  assert (i = 0%nat) as -> by lia. unfold close1, ent; cbn. replace (0 + 2 + -1 - 1) with 0 by lra.
  rewrite Rabs_R0; lra.
Qed.
