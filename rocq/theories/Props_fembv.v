(** Property theorems C40 - C46 and the FEM-BV parts of C21, C22, C25, C26 and C58. *)
From Coq Require Import List Arith Lia ZArith Reals Lra.
From Verif Require Import Num NumExt Mat Py Lp M_random M_iter M_gpnh M_fembv Spec Spec_fembv.
From Verif Require Import P_lin P_random P_mat P_iter P_gpnh_run P_mtd_pred P_fembv P_fembv_upd P_fembv_run Props_base Props_gpnh.
Import ListNotations.
Local Open Scope R_scope.

(** ** A concrete instance: the points 0 and 1 of the line, two components, total variation at most 1 *)
Definition ef_data : mat R := mkmat 2 1 [[0]; [1]].
Definition ef_G : mat R := mkmat 2 2 [[1; 0]; [0; 1]].
Definition ef_Theta : mat R := mkmat 2 1 [[1/4]; [3/4]].          (* initial centroids *)
Definition ef_D : mat R := mkmat 2 2 [[0; 1]; [1; 0]].             (* distances to the optimal centroids *)
Definition ef_cfg : fembv_cfg R := mk_fembv_cfg (Some 1) InitNone (PInt 3) (PInt 0) true.
Definition ef_lp : lp R :=
  match initialize_constraints ef_cfg 2 2 with
  | Ok (Some (Ae, be, Au, bu)) => mk_lp (lp_objective ef_cfg 2 2 ef_D) Ae be Au bu
  | _ => mk_lp [] (mk_csr 0 0 []) [] (mk_csr 0 0 []) []
  end.
(** a solver that knows one program *)
Definition csr_eq_dec (a b : csr R) : {a = b} + {a <> b}.
Proof. decide equality; [apply list_eq_dec; decide equality; [apply Req_EM_T | decide equality; apply Nat.eq_dec] | apply Nat.eq_dec | apply Nat.eq_dec]. Defined.
Definition lp_eq_dec (p q : lp R) : {p = q} + {p <> q}.
Proof. decide equality; try apply csr_eq_dec; apply list_eq_dec, Req_EM_T. Defined.
Definition ef_sol : list R := [1; 0; 0; 1; 1; 1].
Definition ef_solver (i : nat) (p : lp R) : lp_answer R := if lp_eq_dec p ef_lp then LpValue ef_sol else LpRaises ValueError.

Lemma ef_data_mat : is_mat 2 1 ef_data.
Proof. repeat split. intros row [<-|[<-|[]]]; reflexivity. Qed.
Lemma ef_G_mat : is_mat 2 2 ef_G.
Proof. repeat split. intros row [<-|[<-|[]]]; reflexivity. Qed.
Lemma ef_D_mat : is_mat 2 2 ef_D.
Proof. repeat split. intros row [<-|[<-|[]]]; reflexivity. Qed.
Ltac two i := destruct i as [|[|i]]; [| |lia].
Lemma ef_G_stochastic : row_stochastic ef_G.
Proof.
  intros t Ht. cbn [ef_G nr] in Ht. split; [intros i Hi; cbn [ef_G nc] in Hi; two t; two i; unfold ent; cbn; lra|].
  two t; unfold ent; cbn; lra.
Qed.
Lemma ef_G_admissible : admissible (Some 1) ef_G.
Proof.
  split; [exact ef_G_stochastic|]. intros C [= <-] _ i Hi. cbn [ef_G nc] in Hi. two i; unfold total_variation, ent; cbn;
  unfold Rabs; repeat destruct Rcase_abs; lra.
Qed.
Lemma ef_cons : exists Ae be Au bu, initialize_constraints ef_cfg 2 2 = Ok (Some (Ae, be, Au, bu))
  /\ ef_lp = mk_lp (lp_objective ef_cfg 2 2 ef_D) Ae be Au bu.
Proof.
  destruct (constraints_meaning ef_cfg 2 2 ltac:(lia) ltac:(lia)) as (Ae & be & Au & bu & E & _).
  exists Ae, be, Au, bu. split; [exact E|]. unfold ef_lp. rewrite E. reflexivity.
Qed.
Lemma ef_has_tv : has_max_tv_norm_constraint ef_cfg = true.
Proof. apply has_tv_true. exists 1. split; [reflexivity | lra]. Qed.
Lemma ef_nw : n_weight_parameters ef_cfg 2 2 = 6%nat.
Proof. unfold n_weight_parameters. rewrite ef_has_tv. reflexivity. Qed.
Lemma ef_sol_pack : ef_sol = pack ef_cfg 2 2 ef_G.
Proof.
  unfold pack. rewrite ef_nw. unfold tab, ef_sol, ent. cbn. repeat f_equal; unfold Rabs; destruct Rcase_abs; lra.
Qed.
Lemma ef_solver_optimal : solver_optimal ef_solver.
Proof.
  intros i p sol. unfold ef_solver. destruct (lp_eq_dec p ef_lp) as [->|]; [|discriminate]. intros [= <-].
  destruct ef_cons as (Ae & be & Au & bu & E & ->). rewrite ef_sol_pack. split.
  - apply (admissible_feasible ef_cfg 2 2); try assumption; try lia; [apply lp_objective_length | exact ef_G_mat | exact ef_G_admissible].
  - intros u F. rewrite !lp_value_cost by (lia || exact ef_D_mat). rewrite block_pack by (lia || exact ef_G_mat).
    apply (feasible_admissible ef_cfg 2 2) in F; try assumption; try lia; [|apply lp_objective_length]. destruct F as [F _].
    replace (clustering_cost ef_G ef_D) with 0 by (unfold clustering_cost, ent; cbn; lra).
    unfold clustering_cost. apply Sum_nonneg. intros t Ht. apply Sum_nonneg. intros j Hj. apply Rmult_le_pos; [apply F; assumption|].
    cbn [block nr nc mbuild] in Ht, Hj. two t; two j; unfold ent; cbn; lra.
Qed.
Lemma ef_solver_feasible : solver_feasible ef_solver.
Proof. intros i p sol H. apply ef_solver_optimal in H. apply H. Qed.
Lemma ef_solver_honest : solver_honest ef_solver.
Proof. intros i p. unfold ef_solver. destruct (lp_eq_dec p ef_lp); discriminate. Qed.
Lemma n_variables_ok (c : fembv_cfg R) k n : n_weight_parameters c k n = n_variables (fc_max_tv_norm c) k n.
Proof.
  unfold n_weight_parameters, n_variables, has_max_tv_norm_constraint. destruct (fc_max_tv_norm c) as [x|]; [|lia].
  numR. destruct (Rle_dec 0 x) as [H|H]; [rewrite (proj2 (Rleb_true 0 x) H); reflexivity|].
  destruct (Rleb 0 x) eqn:E; [apply Rleb_true in E; contradiction | lia].
Qed.

(** ** C40 *)
Theorem C40_constraints_meaning : forall (c : fembv_cfg R) k n, (1 < k)%nat -> (0 < n)%nat ->
  exists Ae be Au bu, initialize_constraints c k n = Ok (Some (Ae, be, Au, bu)) /\
  forall obj v, length obj = n_variables (fc_max_tv_norm c) k n -> length v = n_variables (fc_max_tv_norm c) k n ->
    (lp_feasible (mk_lp obj Ae be Au bu) v <->
     row_stochastic (block k n v) /\
     forall C, fc_max_tv_norm c = Some C -> 0 <= C ->
       (forall t i, (t < n - 1)%nat -> (i < k)%nat -> Rabs (ent (block k n v) (S t) i - ent (block k n v) t i) <= slack k n v t i)
       /\ (forall i, (i < k)%nat -> Sum (n - 1) (fun t => slack k n v t i) <= C)).
Proof.
  intros c k n Hk Hn. destruct (constraints_meaning c k n Hk Hn) as (Ae & be & Au & bu & E & M). exists Ae, be, Au, bu. split; [exact E|].
  intros obj v Lo Lv. apply M; [rewrite n_variables_ok; exact Lo | congruence].
Qed.
Print Assumptions C40_constraints_meaning.
(** the weights that occur in feasible vectors are exactly the admissible ones *)
Theorem C40_projection : forall (c : fembv_cfg R) k n, (1 < k)%nat -> (0 < n)%nat ->
  exists Ae be Au bu, initialize_constraints c k n = Ok (Some (Ae, be, Au, bu)) /\
  forall obj G, length obj = n_variables (fc_max_tv_norm c) k n -> is_mat n k G ->
    ((exists v, lp_feasible (mk_lp obj Ae be Au bu) v /\ block k n v = G) <->
     row_stochastic G /\
     (forall C, fc_max_tv_norm c = Some C -> 0 <= C ->
        forall i, (i < k)%nat -> Sum (n - 1) (fun t => Rabs (ent G (S t) i - ent G t i)) <= C)).
Proof.
  intros c k n Hk Hn. destruct (constraints_meaning c k n Hk Hn) as (Ae & be & Au & bu & E & _). exists Ae, be, Au, bu. split; [exact E|].
  intros obj G Lo HG. rewrite <- n_variables_ok in Lo. pose proof HG as (g1 & g2 & _). split.
  - intros (v & F & <-). apply (feasible_admissible c k n) in F; try assumption.
  - intros [A1 A2]. exists (pack c k n G). split; [|apply block_pack; [lia | exact HG]].
    apply (admissible_feasible c k n); try assumption. split; [exact A1|]. intros C EC HC i Hi. unfold total_variation. rewrite g1. apply A2; try assumption; rewrite <- g2; exact Hi.
Qed.
Print Assumptions C40_projection.
(** the sizes, right-hand sides and, at one size, the matrices *)
Theorem C40_sizes : forall (T : Type) (N : Num T) (c : fembv_cfg T) k n Ae be Au bu,
  initialize_constraints c k n = Ok (Some (Ae, be, Au, bu)) ->
  length be = s_rows Ae /\ length bu = s_rows Au /\ s_rows Ae = n /\ s_cols Ae = s_cols Au
  /\ s_cols Ae = n_weight_parameters c k n.
Proof.
  intros T N c k n Ae be Au bu H. unfold initialize_constraints in H. destruct (Nat.leb k 1); [discriminate|]. destruct (andb _ _); [discriminate|].
  apply bind_ok in H. destruct H as ([A1 b1] & E1 & H). apply bind_ok in H. destruct H as ([A2 b2] & E2 & H). cbn [fst snd] in H. injection H as <- <- <- <-.
  assert (C : forall co ro cl r q (A : csr T), csr_matrix co ro cl r q = Ok A -> s_rows A = r /\ s_cols A = q).
  { intros co ro cl r q A HA. unfold csr_matrix in HA. destruct (andb _ _); [injection HA as <-; auto | discriminate]. }
  unfold equality_constraints in E1. apply bind_ok in E1. destruct E1 as (A1' & F1 & E1). injection E1 as <- <-. apply C in F1. destruct F1 as [-> ->].
  rewrite repeat_length. unfold inequality_constraints in E2.
  assert (D : forall x l r, (let! A_ub := x in Ok (A_ub, l)) = Ok (A2, b2) -> (forall A, x = Ok A -> s_rows A = r /\ s_cols A = n_weight_parameters c k n) -> length l = r ->
     length b2 = s_rows A2 /\ n_weight_parameters c k n = s_cols A2).
  { intros x l r HB HC HD. apply bind_ok in HB. destruct HB as (A & HA & HB). injection HB as <- <-. apply HC in HA. destruct HA as [-> ->]. auto. }
  assert (F : length b2 = s_rows A2 /\ n_weight_parameters c k n = s_cols A2).
  { destruct (fc_max_tv_norm c) as [x|]; [destruct (has_max_tv_norm_constraint c) eqn:Etv|]; eapply D; try exact E2; try (intros A HA; apply C in HA; exact HA);
    rewrite ?app_length, ?repeat_length; lia. }
  destruct F as [F1 F2]. auto.
Qed.
Print Assumptions C40_sizes.
(** four samples, three components, bound 1: the constant weights are feasible; the sizes as documented *)
Example C40_example : (1 < 3)%nat /\ (0 < 4)%nat /\ n_variables (Some 1) 3 4 = 21%nat /\ n_variables None 3 4 = 12%nat /\ n_variables (Some (-1)) 3 4 = 12%nat
  /\ admissible (Some 0) (uniform 4 3).
Proof.
  split; [lia|]. split; [lia|]. unfold n_variables. destruct (Rle_dec 0 1); [|lra]. destruct (Rle_dec 0 (-1)); [lra|].
  repeat (split; [reflexivity|]). apply uniform_admissible. lia.
Qed.

(** ** C41 *)
(** one weights update, any subclass *)
Theorem C41_update : forall (P A : Type) (cl : fembv_class R P A) solver (c : fembv_cfg R) k n (w w' : fws R P),
  (1 < k)%nat -> (0 < n)%nat -> is_mat n k (f_Gamma w) -> is_mat n k (cl_distance cl (f_params w)) ->
  initialize_constraints c k n = Ok (f_cons w) -> solver_feasible solver -> solver_honest solver ->
  fembv_update_weights cl solver c k w = Ok w' ->
  row_stochastic (f_Gamma w') /\
  forall C, fc_max_tv_norm c = Some C -> 0 <= C -> forall i, (i < k)%nat -> total_variation (f_Gamma w') i <= C.
Proof.
  intros P A cl solver c k n w w' Hk Hn HG HD Hc Hs Hh E.
  apply (update_weights_cases cl solver c k n) in E; try assumption; [|split; [exact HG | split; [exact HD | exact Hc]]].
  destruct E as (Ae & be & Au & bu & Hc' & Ec & E1 & E2 & E3 & E4 & [[E5 _]|(sol & E5 & E6 & ->)]).
  - exfalso. apply Hh in E5. revert E5. apply fembv_lp_never_fails with (n := n); assumption.
  - apply Hs in E5. apply (feasible_admissible c k n) in E5; try assumption; [|apply lp_objective_length]. rewrite clip_block by apply E5. exact E5.
Qed.
Print Assumptions C41_update.
(** clipping: an exact solution is stored as it is, and no solution gains total variation *)
Theorem C41_clip : forall (P A : Type) (cl : fembv_class R P A) solver (c : fembv_cfg R) k n (w w' : fws R P) Ae be Au bu sol,
  (1 < k)%nat -> nr (f_Gamma w) = n -> f_cons w = Some (Ae, be, Au, bu) ->
  solver (f_calls w) (mk_lp (lp_objective c k n (cl_distance cl (f_params w))) Ae be Au bu) = LpValue sol ->
  fembv_update_weights cl solver c k w = Ok w' ->
  (forall t i, (t < n)%nat -> (i < k)%nat -> 0 <= ent (f_Gamma w') t i <= 1)
  /\ ((forall t i, (t < n)%nat -> (i < k)%nat -> 0 <= ent (block k n sol) t i <= 1) -> f_Gamma w' = block k n sol)
  /\ (forall i, (i < k)%nat -> total_variation (f_Gamma w') i <= total_variation (block k n sol) i).
Proof.
  intros P A cl solver c k n w w' Ae be Au bu sol Hk En Ec Es E. unfold fembv_update_weights in E. destruct (Nat.eqb_spec k 1); [lia|]. rewrite En in E.
  destruct (negb _); [discriminate|]. rewrite Ec, Es in E. destruct (negb _); [discriminate|]. injection E as <-. cbn [f_Gamma]. split; [|split].
  - intros t i Ht Hi. rewrite ent_mbuild by assumption. apply clip01_range.
  - intros H. apply (mat_ext_R n k); try apply is_mat_mbuild. intros t i Ht Hi. rewrite ent_block, ent_mbuild by assumption.
    apply clip01_id. rewrite <- (ent_block k n) by assumption. apply H; assumption.
  - intros i Hi. unfold total_variation. cbn [block nr mbuild]. apply Sum_le. intros t Ht. rewrite !ent_block, !ent_mbuild by lia. apply clip01_lipschitz.
Qed.
Print Assumptions C41_clip.
(** the weights returned by a FEMBVKMeans fit *)
Theorem C41_fit : forall solver (o : fembv R (kmeans R)) n d k data th weights init up r W,
  is_mat n d data -> (0 < n)%nat -> comp_count (fo_n_components o) d k -> rng_ok k (fo_rng o) ->
  (forall Th, th = Some Th -> wf Th) -> (forall W0, weights = Some W0 -> wf W0 /\ row_stochastic W0) ->
  solver_feasible solver -> solver_honest solver ->
  fembv_fit_transform kmeans_class solver o data th weights init up true = Ok (r, W) ->
  is_mat n k W /\ row_stochastic W /\
  forall C, fc_max_tv_norm (fo_cfg o) = Some C -> 0 <= C -> forall i, (i < k)%nat -> total_variation W i <= C.
Proof.
  intros solver o n d k data th weights init up r W HX Hn Hc Hg WT WW Hf Hh H. pose proof HX as (x1 & x2 & _).
  apply fembv_fit_inv in H. destruct H as (k' & m & t & w & g' & w' & A1 & A2 & A3 & A4 & A5 & A6 & A7 & A8 & A9 & ->).
  apply comp_count_resolve in Hc. rewrite x2, Hc in A1. assert (k' = k) as -> by (injection A1; lia).
  apply (kmeans_start _ n d) in A6; try assumption; [|intros; apply WW; assumption]. destruct A6 as [I0 S0].
  specialize (S0 Hg (fun W0 E => proj2 (WW W0 E))).
  apply fembv_iterate_path in A7; [|exact A4]. destruct A7 as (N' & f & h & F0 & F1 & F2 & _). specialize (F2 (S (fr_n_iter r)) (le_n _)). rewrite F1 in F2.
  pose proof (after_inv kmeans_class solver _ n k _ (kmeans_keeps n d k data) Hn A2 _ _ _ _ _ I0 F2) as (G1 & _). split; [exact G1|].
  pose proof (after_admissible kmeans_class solver _ n k _ (kmeans_keeps n d k data) Hn A2 _ _ _ _ Hf Hh I0 S0 F2) as [B1 B2]. split; [exact B1|].
  destruct G1 as (_ & g2 & _). intros C EC HC i Hi. apply B2; try assumption. rewrite g2. exact Hi.
Qed.
Print Assumptions C41_fit.

(** ** C42 *)
Theorem C42_cost_not_increased : forall (P A : Type) (cl : fembv_class R P A) solver (c : fembv_cfg R) k n (w w' : fws R P),
  (0 < k)%nat -> (0 < n)%nat -> is_mat n k (f_Gamma w) -> is_mat n k (cl_distance cl (f_params w)) ->
  initialize_constraints c k n = Ok (f_cons w) -> solver_optimal solver ->
  admissible (fc_max_tv_norm c) (f_Gamma w) ->
  fembv_update_weights cl solver c k w = Ok w' ->
  fembv_cost cl w' <= fembv_cost cl w
  /\ clustering_cost (f_Gamma w') (cl_distance cl (f_params w)) <= clustering_cost (f_Gamma w) (cl_distance cl (f_params w)).
Proof.
  intros P A cl solver c k n w w' Hk Hn HG HD Hc Hs Ha E.
  assert (F : fok cl c k n w) by (split; [exact HG | split; [exact HD | exact Hc]]).
  destruct (Nat.eq_dec k 1) as [->|K1]; [unfold fembv_update_weights in E; rewrite Nat.eqb_refl in E; injection E as <-; lra|].
  assert (K : (1 < k)%nat) by lia.
  pose proof (update_weights_ok cl solver c k n w w' K Hn F E) as F'. rewrite (fembv_cost_spec cl c k n w F), (fembv_cost_spec cl c k n w' F').
  assert (Ep : f_params w' = f_params w). { pose proof E as E'. apply (update_weights_cases cl solver c k n) in E'; try assumption. destruct E' as (? & ? & ? & ? & _ & _ & E' & _). exact E'. }
  rewrite Ep. apply (update_weights_optimal cl solver c k n) in E; try assumption. destruct E as [->|[_ E]]; [lra|]. specialize (E _ HG Ha). lra.
Qed.
Print Assumptions C42_cost_not_increased.
(** the program has feasible points and is bounded below, so an honest solver never fails *)
Theorem C42_feasible_bounded : forall (c : fembv_cfg R) k n D Ae be Au bu, (1 < k)%nat -> (0 < n)%nat -> is_mat n k D ->
  initialize_constraints c k n = Ok (Some (Ae, be, Au, bu)) ->
  let p := mk_lp (lp_objective c k n D) Ae be Au bu in
  (exists v, lp_feasible p v) /\ (exists m, forall v, lp_feasible p v -> m <= lp_value p v)
  /\ forall v, lp_feasible p v -> lp_value p v = clustering_cost (block k n v) D.
Proof.
  intros c k n D Ae be Au bu Hk Hn HD E p. split; [|split].
  - exists (pack c k n (uniform n k)). apply (admissible_feasible c k n); try assumption; [apply lp_objective_length | apply is_mat_mbuild | apply uniform_admissible; lia].
  - eexists. intros v F. apply (fembv_lp_bounded c k n D Ae be Au bu Hk Hn HD E v F).
  - intros v _. apply lp_value_cost; [lia | exact HD].
Qed.
Print Assumptions C42_feasible_bounded.
(** without a total variation constraint only the nearest components get weight *)
Theorem C42_nearest : forall (P A : Type) (cl : fembv_class R P A) solver (c : fembv_cfg R) k n (w w' : fws R P) t i j,
  (1 < k)%nat -> (0 < n)%nat -> is_mat n k (f_Gamma w) -> is_mat n k (cl_distance cl (f_params w)) ->
  initialize_constraints c k n = Ok (f_cons w) -> solver_optimal solver -> solver_honest solver ->
  (forall C, fc_max_tv_norm c = Some C -> C < 0) ->
  fembv_update_weights cl solver c k w = Ok w' ->
  (t < n)%nat -> (i < k)%nat -> (j < k)%nat -> ent (f_Gamma w') t i <> 0 ->
  ent (cl_distance cl (f_params w)) t i <= ent (cl_distance cl (f_params w)) t j.
Proof.
  intros P A cl solver c k n w w' t i j Hk Hn HG HD Hc Hs Hh Htv E Ht Hi Hj Hne. set (D := cl_distance cl (f_params w)) in *.
  assert (F : fok cl c k n w) by (split; [exact HG | split; [exact HD | exact Hc]]).
  assert (Hf : solver_feasible solver) by (intros a p sol Ea; apply Hs in Ea; apply Ea).
  pose proof E as E0. apply (update_weights_cases cl solver c k n) in E0; try assumption.
  destruct E0 as (Ae & be & Au & bu & Ei & Ec & E1 & E2 & E3 & _ & [[E4 _]|(sol & E4 & E5 & E6)]).
  { exfalso. apply Hh in E4. revert E4. apply fembv_lp_never_fails with (n := n); assumption. }
  pose proof (Hs _ _ _ E4) as [S1 S2]. apply (feasible_admissible c k n) in S1; try assumption; [|apply lp_objective_length].
  rewrite clip_block in E6 by apply S1. rewrite <- E6 in S1. destruct S1 as [B1 _]. pose proof E3 as (g1 & g2 & _).
  assert (Opt : forall G, is_mat n k G -> row_stochastic G -> clustering_cost (f_Gamma w') D <= clustering_cost G D).
  { intros G MG SG. specialize (S2 (pack c k n G)). rewrite !lp_value_cost, block_pack, <- E6 in S2 by (lia || assumption). apply S2.
    apply (admissible_feasible c k n); try assumption; [apply lp_objective_length|]. split; [exact SG|]. intros C EC HC. apply Htv in EC. lra. }
  set (g := fun a b => ent (f_Gamma w') a b) in *.
  (* the whole of row t on component q is a competitor *)
  assert (Row : forall q, (q < k)%nat -> Sum k (fun a => g t a * ent D t a) <= ent D t q).
  { intros q Hq. set (G := mbuild n k (fun a b => if Nat.eq_dec a t then (if Nat.eq_dec b q then 1 else 0) else g a b)).
    assert (MG : is_mat n k G) by apply is_mat_mbuild.
    assert (EG : forall a b, (a < n)%nat -> (b < k)%nat -> ent G a b = if Nat.eq_dec a t then (if Nat.eq_dec b q then 1 else 0) else g a b) by (intros; apply ent_mbuild; assumption).
    assert (SD : forall h, Sum k (fun b => (if Nat.eq_dec b q then 1 else 0) * h b) = h q).
    { intros h. rewrite (Sum_ext k _ (fun b => if Nat.eqb b q then h b else 0)); [apply Sum_delta; exact Hq|]. intros b _. destruct (Nat.eq_dec b q), (Nat.eqb_spec b q); try contradiction; ring. }
    specialize (Opt G MG). assert (SG : row_stochastic G).
    { intros a Ha. cbn [G nr nc mbuild] in Ha |- *. split.
      - intros b Hb. rewrite EG by assumption. destruct (Nat.eq_dec a t); [destruct (Nat.eq_dec b q); lra | apply B1; lia].
      - destruct (Nat.eq_dec a t) as [->|Na].
        + rewrite (Sum_ext k _ (fun b => (if Nat.eq_dec b q then 1 else 0) * 1)); [apply SD|]. intros b Hb. rewrite EG by assumption. destruct (Nat.eq_dec t t); [ring | contradiction].
        + destruct (B1 a ltac:(lia)) as [_ Sa]. rewrite g2 in Sa. rewrite <- Sa. apply Sum_ext. intros b Hb. rewrite EG by assumption. destruct (Nat.eq_dec a t); [contradiction | reflexivity]. }
    specialize (Opt SG). unfold clustering_cost in Opt. rewrite g1, g2 in Opt. cbn [G nr nc mbuild] in Opt.
    assert (Diff : Sum n (fun a => Sum k (fun b => ent G a b * ent D a b)) - Sum n (fun a => Sum k (fun b => g a b * ent D a b)) = ent D t q - Sum k (fun b => g t b * ent D t b)).
    { rewrite <- Sum_minus, (Sum_ext n _ (fun a => if Nat.eqb a t then ent D a q - Sum k (fun b => g a b * ent D a b) else 0)); [apply (Sum_delta n t (fun a => ent D a q - Sum k (fun b => g a b * ent D a b))); exact Ht|].
      intros a Ha. destruct (Nat.eqb_spec a t) as [->|Na].
      - f_equal. rewrite <- (SD (fun b => ent D t b)). apply Sum_ext. intros b Hb. rewrite EG by assumption. destruct (Nat.eq_dec t t); [reflexivity | contradiction].
      - rewrite (Sum_ext k (fun b => ent G a b * ent D a b) (fun b => g a b * ent D a b)); [ring|]. intros b Hb. rewrite EG by assumption. destruct (Nat.eq_dec a t); [contradiction | reflexivity]. }
    fold D in Opt. change (Sum n (fun a => Sum k (fun b => g a b * ent D a b)) <= Sum n (fun a => Sum k (fun b => ent G a b * ent D a b))) in Opt. lra. }
  set (m := Sum k (fun a => g t a * ent D t a)) in *.
  destruct (B1 t ltac:(lia)) as [Nn Su]. rewrite g2 in Nn, Su.
  assert (Z : Sum k (fun a => g t a * (ent D t a - m)) = 0).
  { rewrite (Sum_ext k _ (fun a => g t a * ent D t a - m * g t a)) by (intros; ring). rewrite Sum_minus, Sum_scal_l. fold m. unfold g. rewrite Su. ring. }
  assert (Zi : g t i * (ent D t i - m) <= 0).
  { rewrite <- Z. apply (Sum_ge_term k (fun a => g t a * (ent D t a - m))); [|exact Hi]. intros a Ha. apply Rmult_le_pos; [apply Nn; exact Ha | specialize (Row a Ha); lra]. }
  assert (0 < g t i) by (specialize (Nn i Hi); unfold g in *; lra).
  pose proof (Row i Hi). pose proof (Row j Hj). assert (ent D t i - m <= 0); [|lra]. apply Rnot_lt_le. intros Hlt. pose proof (Rmult_lt_0_compat _ _ H Hlt). lra.
Qed.
Print Assumptions C42_nearest.

(** *** the concrete fit: three iterations with the guard on *)
Definition ef_best : kmeans R := mk_kmeans ef_data ef_data.            (* the centroids are the data points *)
Lemma ef_update Theta : kmeans_update ef_G (mk_kmeans ef_data Theta) = Ok ef_best.
Proof. unfold kmeans_update, ef_best. cbn. f_equal. f_equal. unfold mbuild, ef_data, tab. cbn. repeat f_equal; unfold vget, mget; cbn; unfold mget, mtr, mbuild, tab; cbn; field. Qed.
Lemma ef_best_kmok : kmok 2 1 2 ef_data ef_best.
Proof. split; [reflexivity|]. split; exact ef_data_mat. Qed.
Lemma ef_best_distance : kmeans_distance ef_best = ef_D.
Proof.
  apply (mat_ext_R 2 2); [apply (kmeans_distance_mat 2 1 2 ef_data), ef_best_kmok | exact ef_D_mat|]. intros t j Ht Hj.
  rewrite (kmeans_distance_spec 2 1 2 ef_data) by (exact ef_best_kmok || assumption). two t; two j; unfold centroid_dist2, ent; cbn; lra.
Qed.
Definition ef_obj : fembv R (kmeans R) := fembv_new ef_cfg (PInt 2) ex_rng.
Definition ef_P (w : fws R (kmeans R)) : Prop :=
  f_Gamma w = ef_G /\ km_X (f_params w) = ef_data /\ initialize_constraints ef_cfg 2 2 = Ok (f_cons w) /\ 0 <= fembv_cost kmeans_class w.
Lemma ef_step n w : ef_P w -> exists w' c', run_updates (fembv_cost kmeans_class) (fembv_bad true (nofZ 0) n (fembv_cost kmeans_class w))
    (enabled true (fembv_update_parameters kmeans_class) ++ enabled true (fembv_update_weights kmeans_class ef_solver ef_cfg 2)) w (fembv_cost kmeans_class w) = Ok (w', c')
  /\ c' = fembv_cost kmeans_class w' /\ ef_P w'.
Proof.
  intros (P1 & P2 & P3 & P4).
  assert (Z : forall Eta cs ca, fembv_cost kmeans_class (mk_fws ef_best ef_G Eta cs ca) = 0).
  { intros. unfold fembv_cost. cbn [f_Gamma f_params kmeans_class cl_distance]. rewrite ef_best_distance. unfold minner. rewrite nsum_Sum. cbn. numR. lra. }
  assert (B : fembv_bad true (nofZ 0) n (fembv_cost kmeans_class w) 0 = false).
  { unfold fembv_bad. destruct (Nat.ltb 0 n); [|reflexivity]. cbn [andb]. numR. rewrite (proj2 (Rltb_false (fembv_cost kmeans_class w) 0)) by lra. reflexivity. }
  destruct ef_cons as (Ae & be & Au & bu & Ei & El). rewrite Ei in P3. injection P3 as P3.
  cbn [enabled app run_updates]. unfold fembv_update_parameters at 1. destruct w as [s G Eta cs ca]. cbn [f_Gamma f_params f_Eta f_cons f_calls] in *. subst G cs. destruct s as [X Th]. cbn [km_X] in P2. subst X.
  cbn [kmeans_class cl_update]. rewrite ef_update. cbn [bind]. fold (@kmeans_class R Num_R). rewrite Z, B.
  unfold fembv_update_weights. cbn [f_Gamma f_params f_Eta f_cons f_calls]. change (Nat.eqb 2 1) with false. cbv iota. change (nr ef_G) with 2%nat.
  change (cl_distance kmeans_class ef_best) with (kmeans_distance ef_best). rewrite ef_best_distance. change (negb (Nat.eqb (nr ef_D) 2 && Nat.eqb (nc ef_D) 2)) with false. cbv iota.
  rewrite <- El. unfold ef_solver at 1. destruct (lp_eq_dec ef_lp ef_lp); [|contradiction]. rewrite ef_nw. change (negb (Nat.eqb (length ef_sol) 6)) with false. cbv iota. rewrite ef_has_tv.
  assert (EG : mbuild 2 2 (fun t i => clip01 (vget ef_sol (t * 2 + i))) = ef_G).
  { rewrite ef_sol_pack, clip_block by (rewrite block_pack by (lia || exact ef_G_mat); exact ef_G_stochastic). apply block_pack; [lia | exact ef_G_mat]. }
  rewrite EG. cbn [bind]. rewrite Z, B. eexists _, _. split; [reflexivity|]. rewrite Z. split; [reflexivity|]. unfold ef_P. rewrite Z. cbn [f_Gamma f_params f_cons km_X ef_best]. rewrite Ei. repeat split. lra.
Qed.
Lemma ef_fit : exists r W, fembv_fit_transform kmeans_class ef_solver ef_obj ef_data (Some ef_Theta) (Some ef_G) InitCustom true true = Ok (r, W).
Proof.
  unfold fembv_fit_transform, fembv_fit, ef_obj, fembv_new. cbn [fo_cfg fo_n_components fo_rng fo_ws ef_cfg fc_max_iterations fc_tolerance option_map resolve_components].
  rewrite (check_params_total 2 3 (PInt 0) (nofZ 0)); [|lia|lia|left; exists 0%Z; repeat split; lia]. cbn [bind].
  unfold fembv_initialize. cbn [kmeans_class cl_initialize]. unfold kmeans_initialize at 1. change (check_array_shape ef_Theta 2 (nc ef_data)) with (Ok tt : res unit). cbn [bind].
  fold (@kmeans_class R Num_R). change (nc (cl_distance kmeans_class (mk_kmeans ef_data ef_Theta))) with 2%nat. change (nr (cl_distance kmeans_class (mk_kmeans ef_data ef_Theta))) with 2%nat.
  change (negb (Nat.eqb 2 2)) with false. cbv iota. unfold fembv_initialize_weights. rewrite (check_init_weights_stochastic ef_G 2 2 ef_G_mat ef_G_stochastic). cbn [bind].
  fold ef_cfg. destruct ef_cons as (Ae & be & Au & bu & Ei & El). rewrite Ei. cbn [bind].
  set (w := mk_fws _ _ _ _ _).
  assert (Hw : ef_P w).
  { repeat split; try assumption. rewrite (fembv_cost_spec kmeans_class ef_cfg 2 2 w).
    - cbn [w f_Gamma f_params kmeans_class cl_distance]. rewrite (kmeans_cost_spec 2 1 2 ef_data); [|split; [reflexivity | split; [exact ef_data_mat|]]|exact ef_G_mat].
      + unfold kmeans_cost, centroid_dist2, ent. cbn. lra.
      + repeat split. intros row [<-|[<-|[]]]; reflexivity.
    - split; [exact ef_G_mat|]. split; [|exact Ei]. cbn [w f_params kmeans_class cl_distance]. apply (kmeans_distance_mat 2 1 2 ef_data). split; [reflexivity|]. split; [exact ef_data_mat|].
      repeat split. intros row [<-|[<-|[]]]; reflexivity. }
  destruct (iterate_loop_total_idx (fembv_cost kmeans_class) (fembv_bad true (nofZ 0))
     (enabled true (fembv_update_parameters kmeans_class) ++ enabled true (fembv_update_weights kmeans_class ef_solver ef_cfg 2)) (nofZ 0) (fun _ => ef_P) 3
     (fun n s _ Hs => ef_step n s Hs) 3 0%nat w [fembv_cost kmeans_class w] (le_n _) Hw) as [[[[w' c'] n'] L] E].
  unfold fembv_iterate, iterate. change (fc_monotone ef_cfg) with true. rewrite E. cbn [bind fo_ws fr_obj]. eauto.
Qed.
Example C41_example : exists r W, fembv_fit_transform kmeans_class ef_solver ef_obj ef_data (Some ef_Theta) (Some ef_G) InitCustom true true = Ok (r, W)
  /\ is_mat 2 1 ef_data /\ comp_count (fo_n_components ef_obj) 1 2 /\ rng_ok 2 (fo_rng ef_obj) /\ wf ef_Theta /\ wf ef_G /\ row_stochastic ef_G
  /\ solver_optimal ef_solver /\ solver_feasible ef_solver /\ solver_honest ef_solver /\ fc_max_tv_norm (fo_cfg ef_obj) = Some 1.
Proof.
  destruct ef_fit as (r & W & E). exists r, W. split; [exact E|]. split; [exact ef_data_mat|]. split; [left; reflexivity|]. split; [exact ex_rng_ok|].
  split; [split; [reflexivity | intros row [<-|[<-|[]]]; reflexivity]|]. split; [split; [reflexivity | intros row [<-|[<-|[]]]; reflexivity]|].
  split; [exact ef_G_stochastic|]. split; [exact ef_solver_optimal|]. split; [exact ef_solver_feasible|]. split; [exact ef_solver_honest | reflexivity].
Qed.
(** a weights update from admissible weights, and its program *)
Example C42_example : admissible (fc_max_tv_norm ef_cfg) ef_G /\ is_mat 2 2 ef_D /\ ent ef_D 0 0 <= ent ef_D 0 1
  /\ exists Ae be Au bu, initialize_constraints ef_cfg 2 2 = Ok (Some (Ae, be, Au, bu)) /\ ef_solver 0 (mk_lp (lp_objective ef_cfg 2 2 ef_D) Ae be Au bu) = LpValue ef_sol.
Proof.
  split; [exact ef_G_admissible|]. split; [exact ef_D_mat|]. split; [unfold ent; cbn; lra|]. destruct ef_cons as (Ae & be & Au & bu & Ei & El). exists Ae, be, Au, bu. split; [exact Ei|].
  unfold ef_solver. rewrite <- El. destruct (lp_eq_dec ef_lp ef_lp); [reflexivity | contradiction].
Qed.

(** ** C43 *)
Theorem C43_centroids_optimal : forall n d k (X Theta G Theta' : mat R) s',
  is_mat n d X -> is_mat k d Theta -> is_mat n k G -> (forall j, (j < k)%nat -> 0 < Sum n (fun t => ent G t j)) ->
  kmeans_update G (mk_kmeans X Theta) = Ok s' ->
  km_X s' = X /\ is_mat k d (km_Theta s') /\ kmeans_cost X G (km_Theta s') <= kmeans_cost X G Theta'.
Proof.
  intros n d k X Theta G Theta' s' HX HT HG Hm E. assert (K : kmok n d k X (mk_kmeans X Theta)) by (split; [reflexivity | split; assumption]).
  pose proof (kmeans_update_spec n d k X _ _ _ K HG E) as [(K1 & _ & K2) _]. split; [exact K1|]. split; [exact K2|].
  eapply kmeans_update_minimises; eassumption.
Qed.
Print Assumptions C43_centroids_optimal.
(** the cost evaluated by the code never increases *)
Theorem C43_cost_not_increased : forall n d k (w w' : fws R (kmeans R)),
  is_mat n d (km_X (f_params w)) -> is_mat k d (km_Theta (f_params w)) -> is_mat n k (f_Gamma w) ->
  (forall j, (j < k)%nat -> 0 < Sum n (fun t => ent (f_Gamma w) t j)) ->
  fembv_update_parameters kmeans_class w = Ok w' -> fembv_cost kmeans_class w' <= fembv_cost kmeans_class w.
Proof.
  intros n d k w w' HX HT HG Hm E. unfold fembv_update_parameters in E. apply bind_ok in E. destruct E as (s & E & E'). injection E' as <-.
  cbn [kmeans_class cl_update] in E. assert (K : kmok n d k (km_X (f_params w)) (f_params w)) by (split; [reflexivity | split; assumption]).
  pose proof (kmeans_update_spec n d k _ _ _ _ K HG E) as [K' _].
  assert (S : forall p, kmok n d k (km_X (f_params w)) p -> minner (f_Gamma w) (kmeans_distance p) = kmeans_cost (km_X (f_params w)) (f_Gamma w) (km_Theta p)).
  { intros p Kp. rewrite <- (kmeans_cost_spec n d k) by assumption. reflexivity. }
  unfold fembv_cost. cbn [f_Gamma f_params kmeans_class cl_distance]. rewrite !S by assumption. apply (kmeans_update_minimises n d k _ (f_params w)); assumption.
Qed.
Print Assumptions C43_cost_not_increased.
Example C43_example : is_mat 2 1 ef_data /\ is_mat 2 1 ef_Theta /\ is_mat 2 2 ef_G /\ (forall j, (j < 2)%nat -> 0 < Sum 2 (fun t => ent ef_G t j))
  /\ kmeans_update ef_G (mk_kmeans ef_data ef_Theta) = Ok (mk_kmeans ef_data ef_data)
  /\ kmeans_cost ef_data ef_G ef_Theta = 1/8 /\ kmeans_cost ef_data ef_G ef_data = 0.
Proof.
  split; [exact ef_data_mat|]. split; [repeat split; intros row [<-|[<-|[]]]; reflexivity|]. split; [exact ef_G_mat|].
  split; [intros j Hj; two j; unfold ent; cbn; lra|]. split; [apply ef_update|]. unfold kmeans_cost, centroid_dist2, ent. cbn. split; lra.
Qed.
(** a component without weight: NaN centroids and a NaN cost, whatever the data are *)
Lemma ext_sum_zero n (f : nat -> ext) : (forall t, (t < n)%nat -> f t = Fin 0 \/ f t = NaN) -> nsum n f = Fin 0 \/ nsum n f = NaN.
Proof.
  induction n as [|n IH]; intros H; [left; reflexivity|]. cbn [nsum].
  destruct (IH (fun t Ht => H t (Nat.lt_lt_succ_r _ _ Ht))) as [->| ->]; [|right; reflexivity].
  destruct (H n (Nat.lt_succ_diag_r n)) as [->| ->]; [left | right; reflexivity]. cbn. f_equal. lra.
Qed.
Lemma inf_of_0 : inf_of 0 = NaN.
Proof. unfold inf_of. destruct (Rlt_dec 0 0); [lra|]. destruct (Rlt_dec 0 0); [lra | reflexivity]. Qed.
Theorem C43_empty_component_nan : forall (X G : mat ext) Theta s' j f,
  (forall t, (t < nr G)%nat -> mget G t j = Fin 0) -> (j < nc G)%nat -> (f < nc X)%nat ->
  kmeans_update G (mk_kmeans X Theta) = Ok s' -> mget (km_Theta s') j f = NaN.
Proof.
  intros X G Theta s' j f HG Hj Hf E. unfold kmeans_update in E. injection E as <-. cbn [km_Theta km_X nr nc mmul mtr mbuild].
  rewrite mget_mbuild by assumption. unfold vget at 1. rewrite nth_tab by assumption.
  assert (S0 : nsum (nr G) (fun t => mget G t j) = Fin 0).
  { clear Hf. induction (nr G) as [|n IH]; [reflexivity|]. cbn [nsum]. rewrite IH, HG by (intros; try apply HG; lia). cbn. f_equal. lra. }
  rewrite S0. unfold mmul, mtr. cbn [nr nc mbuild]. rewrite mget_mbuild by assumption.
  match goal with |- ediv (nsum ?n ?h) _ = _ => destruct (ext_sum_zero n h) as [->| ->] end; [| |reflexivity].
  - intros t Ht. rewrite mget_mbuild by assumption. rewrite HG by assumption. destruct (mget X t f) as [x| | |]; cbn; rewrite ?Ropp_0, ?inf_of_0; auto. left. f_equal. ring.
  - cbn. destruct (Req_EM_T 0 0); [apply inf_of_0 | lra].
Qed.
Print Assumptions C43_empty_component_nan.
Theorem C43_empty_component_cost : forall (w w' : fws ext (kmeans ext)) j,
  (forall t, (t < nr (f_Gamma w))%nat -> mget (f_Gamma w) t j = Fin 0) -> (j < nc (f_Gamma w))%nat ->
  nr (f_Gamma w) = nr (km_X (f_params w)) -> (0 < nr (f_Gamma w))%nat -> (0 < nc (km_X (f_params w)))%nat ->
  fembv_update_parameters kmeans_class w = Ok w' -> fembv_cost kmeans_class w' = NaN.
Proof.
  intros w w' j HG Hj En Hn Hd E. unfold fembv_update_parameters in E. apply bind_ok in E. destruct E as (s & E & E'). injection E' as <-.
  cbn [kmeans_class cl_update] in E. destruct (f_params w) as [X Th] eqn:Ep. cbn [km_X] in *.
  pose proof (C43_empty_component_nan X (f_Gamma w) Th s j 0 HG Hj Hd E) as Hnan. unfold kmeans_update in E.
  assert (Es : km_X s = X /\ nr (km_Theta s) = nc (f_Gamma w)) by (injection E as <-; auto). destruct Es as [Es1 Es2].
  unfold fembv_cost, minner. cbn [f_Gamma f_params kmeans_class cl_distance]. change NaN with (@nnan ext Num_E). apply nsum_nan; [exact nan_sticks_E | exact Hn|]. exists 0%nat. split; [exact Hn|].
  apply nsum_nan; [exact nan_sticks_E | lia|]. exists j. split; [exact Hj|]. unfold kmeans_distance. rewrite mget_mbuild by (rewrite ?Es1, ?Es2; lia).
  rewrite (nsum_nan (nc (km_X s))); [destruct (mget (f_Gamma w) 0 j); reflexivity | exact nan_sticks_E | rewrite Es1; exact Hd|].
  exists 0%nat. split; [rewrite Es1; exact Hd|]. rewrite Hnan. destruct (mget (km_X s) 0 0); reflexivity.
Qed.
Print Assumptions C43_empty_component_cost.
Example C43_example_empty : let G := mkmat 2 2 [[Fin 1; Fin 0]; [Fin 1; Fin 0]] in
  (forall t, (t < nr G)%nat -> mget G t 1 = Fin 0) /\ (1 < nc G)%nat.
Proof. split; [intros t Ht; cbn in Ht; two t; reflexivity | cbn; lia]. Qed.

(** ** C44 *)
(** every update of every iteration but the first: the cost grows by at most the tolerance *)
Theorem C44_guard : forall (P A : Type) (cl : fembv_class R P A) solver (o : fembv R P) data args weights init up uw r W,
  fc_monotone (fo_cfg o) = true ->
  fembv_fit_transform cl solver o data args weights init up uw = Ok (r, W) ->
  exists t, tol_value (fc_tolerance (fo_cfg o)) t /\
    (forall i, (0 < i <= fr_n_iter r)%nat -> nth (S i) (fr_log r) 0 <= nth i (fr_log r) 0 + t) /\
    exists k w g', fembv_initialize cl (fo_cfg o) k (option_map f_params (fo_ws o)) data args weights init (fo_rng o) = Ok (w, g') /\
      forall i s h, (0 < i <= fr_n_iter r)%nat -> fembv_after cl solver (fo_cfg o) k up uw i w = Ok s ->
        fembv_cost cl s = nth i (fr_log r) 0 /\ (half_step cl up s = Ok h -> fembv_cost cl h <= fembv_cost cl s + t).
Proof.
  intros P A cl solver o data args weights init up uw r W Hm H.
  apply fembv_fit_inv in H. destruct H as (k & m & t & w & g' & w' & A1 & A2 & A3 & A4 & A5 & A6 & A7 & A8 & A9 & ->).
  assert (T0 : 0 <= t). { destruct A5 as [(z & _ & -> & Hz)|[_ Ht]]; [cbn; apply IZR_le; exact Hz | numR; apply Rltb_false in Ht; exact Ht]. }
  assert (B : forall i x y, (0 < i)%nat -> fembv_bad true t i x y = false -> y <= x + t).
  { intros i x y Hi Hb. unfold fembv_bad in Hb. destruct (Nat.ltb_spec 0 i); [|lia]. cbn [andb] in Hb. numR.
    destruct (Rltb x y) eqn:E1; cbn [andb] in Hb; [|apply Rltb_false in E1; lra]. apply Rltb_true in E1. apply Rltb_false in Hb. rewrite Rabs_pos_eq in Hb by lra. lra. }
  apply fembv_iterate_path in A7; [|exact A4]. rewrite Hm in A7. destruct A7 as (N' & f & h & F0 & F1 & F2 & F3 & F4).
  assert (Up : forall i, (0 < i <= fr_n_iter r)%nat -> fembv_cost cl (h i) <= fembv_cost cl (f i) + t /\ fembv_cost cl (f (S i)) <= fembv_cost cl (f i) + t).
  { intros i Hi. destruct (F3 i ltac:(lia)) as (S1 & S2 & S3 & S4).
    assert (H1 : fembv_cost cl (h i) <= fembv_cost cl (f i) + t) by (destruct up; [eapply B; [|apply S3; reflexivity]; lia | injection S1 as <-; lra]).
    split; [exact H1|]. destruct uw; [eapply B; [|apply S4; reflexivity]; lia | injection S2 as <-; exact H1]. }
  exists t. split; [exact A5|]. split.
  - intros i Hi. change (nth (S i) (fr_log r) n0 <= nth i (fr_log r) n0 + t). rewrite !F4 by lia. apply Up. exact Hi.
  - exists k, w, g'. split; [exact A6|]. intros i s h' Hi Es. rewrite F2 in Es by lia. injection Es as <-. split; [symmetry; apply F4; lia|].
    intros Eh. destruct (F3 i ltac:(lia)) as (S1 & _). rewrite S1 in Eh. injection Eh as <-. apply Up. exact Hi.
Qed.
Print Assumptions C44_guard.
(** n_iter_ < max_iterations; the run stops at the first iteration that changes the cost by less than
    the tolerance, and at no other before max_iterations is reached (any arithmetic) *)
Theorem C44_stopping : forall (T : Type) (N : Num T) (P A : Type) (cl : fembv_class T P A) solver (o : fembv T P) data args weights init up uw r W,
  fembv_fit_transform cl solver o data args weights init up uw = Ok (r, W) ->
  exists m t, fc_max_iterations (fo_cfg o) = PInt (Z.of_nat m) /\ tol_value (fc_tolerance (fo_cfg o)) t
    /\ (fr_n_iter r < m)%nat
    /\ let small i := nltb (nabs (nsub (nth (S i) (fr_log r) n0) (nth i (fr_log r) n0))) t in
       (forall i, (i < fr_n_iter r)%nat -> small i = false)
       /\ (fr_n_iter r < m - 1 -> small (fr_n_iter r) = true)%nat.
Proof.
  intros T N P A cl solver o data args weights init up uw r W H.
  apply fembv_fit_inv in H. destruct H as (k & m & t & w & g' & w' & A1 & A2 & A3 & A4 & A5 & A6 & A7 & A8 & A9 & ->).
  unfold fembv_iterate in A7. apply (iterate_ok (fembv_cost cl) (fun _ => True)) in A7; auto.
  destruct A7 as (_ & _ & C1 & C2 & C3 & C4 & C5 & C6 & _). exists m, t. split; [exact A3|]. split; [exact A5|]. split; [exact C1|]. intros small. split; [exact C5|].
  intros Hlt. destruct C6 as [C6|C6]; [lia | exact C6].
Qed.
Print Assumptions C44_stopping.
Example C44_example : exists r W, fembv_fit_transform kmeans_class ef_solver ef_obj ef_data (Some ef_Theta) (Some ef_G) InitCustom true true = Ok (r, W)
  /\ fc_monotone (fo_cfg ef_obj) = true.
Proof. destruct ef_fit as (r & W & E). eauto. Qed.

(** ** C21 and C22 (any arithmetic, any subclass) *)
Theorem C21_fembv_iterations : forall (T : Type) (N : Num T) (P A : Type) (cl : fembv_class T P A) solver (o : fembv T P) data args weights init up uw r W,
  fembv_fit_transform cl solver o data args weights init up uw = Ok (r, W) ->
  exists m, fc_max_iterations (fo_cfg o) = PInt (Z.of_nat m)
    /\ fo_n_iter_ (fr_obj r) = Some (fr_n_iter r) /\ (fr_n_iter r <= m - 1)%nat /\ (0 < m)%nat
    /\ length (fr_log r) = (fr_n_iter r + 2)%nat
    /\ fr_warned r = false.
Proof.
  intros T N P A cl solver o data args weights init up uw r W H.
  apply fembv_fit_inv in H. destruct H as (k & m & t & w & g' & w' & A1 & A2 & A3 & A4 & A5 & A6 & A7 & A8 & A9 & ->).
  unfold fembv_iterate in A7. apply (iterate_ok (fembv_cost cl) (fun _ => True)) in A7; auto.
  destruct A7 as (_ & _ & C1 & C2 & _). exists m. rewrite A8, A9. cbn [fo_n_iter_]. repeat split; try assumption; try lia.
  destruct (Nat.eqb_spec (fr_n_iter r) m); [lia | reflexivity].
Qed.
Print Assumptions C21_fembv_iterations.
Theorem C21_fembv_transform_iterations : forall (T : Type) (N : Num T) (P A : Type) (cl : fembv_class T P A) solver (o : fembv T P) data no_args r W,
  fembv_transform cl solver o data no_args = Ok (r, W) ->
  exists m, fc_max_iterations (fo_cfg o) = PInt (Z.of_nat m) /\ (fr_n_iter r <= m - 1)%nat
    /\ length (fr_log r) = (fr_n_iter r + 2)%nat /\ fr_warned r = false.
Proof.
  intros T N P A cl solver o data na r W H.
  apply fembv_transform_inv in H. destruct H as (k & m & t & w & g' & w' & A1 & A2 & A3 & A4 & A5 & A6 & A7 & A8 & A9 & ->).
  unfold fembv_iterate in A7. apply (iterate_ok (fembv_cost cl) (fun _ => True)) in A7; auto.
  destruct A7 as (_ & _ & C1 & C2 & _). exists m. rewrite A9. repeat split; try assumption; try lia.
  destruct (Nat.eqb_spec (fr_n_iter r) m); [lia | reflexivity].
Qed.
Print Assumptions C21_fembv_transform_iterations.
Theorem C22_fembv_stopping : forall (T : Type) (N : Num T) (P A : Type) (cl : fembv_class T P A) solver (o : fembv T P) data args weights init up uw r W,
  fembv_fit_transform cl solver o data args weights init up uw = Ok (r, W) ->
  exists m t, fc_max_iterations (fo_cfg o) = PInt (Z.of_nat m) /\ tol_value (fc_tolerance (fo_cfg o)) t
    /\ let small i := nltb (nabs (nsub (nth (S i) (fr_log r) n0) (nth i (fr_log r) n0))) t in
       (forall i, (i < fr_n_iter r)%nat -> small i = false)
       /\ (fr_n_iter r < m - 1 -> small (fr_n_iter r) = true)%nat.
Proof.
  intros T N P A cl solver o data args weights init up uw r W H. apply C44_stopping in H. destruct H as (m & t & H1 & H2 & _ & H3). exists m, t. auto.
Qed.
Print Assumptions C22_fembv_stopping.
(** executed on integers: one component, tolerance 0, two iterations: n_iter_ is 1 and there is no warning *)
Definition efZ_cfg (tol : Z) : fembv_cfg Z := mk_fembv_cfg None InitRandom (PInt 2) (PInt tol) true.
Definition efZ_obj tol : fembv Z (kmeans Z) := fembv_new (efZ_cfg tol) (PInt 1) (mkrng (fun _ => 1%Z) (fun _ => 1%Z) (fun n => n) 0).
Definition efZ_data : mat Z := mkmat 3 1 [[0]; [2]; [7]]%Z.
Definition efZ_fit tol := @fembv_fit_transform Z Num_Z_demo _ _ (@kmeans_class Z Num_Z_demo) (fun _ _ => LpFailed) (efZ_obj tol) efZ_data None None InitNone true true.
Example C21_fembv_example : match efZ_fit 0 with Ok (r, W) => fr_n_iter r = 1%nat /\ length (fr_log r) = 3%nat /\ fr_log r = [53; 26; 26]%Z | Raise _ => False end.
Proof. vm_compute. auto. Qed.

(** ** C45 *)
(** no component is emptied before one of the first m parameters updates *)
Definition never_emptied (solver : nat -> lp R -> lp_answer R) (o : fembv R (kmeans R)) data th weights init uw (m : nat) : Prop :=
  forall k w g' i s, resolve_components (fo_n_components o) (nc data) = PInt (Z.of_nat k) ->
    fembv_initialize kmeans_class (fo_cfg o) k (option_map f_params (fo_ws o)) data th weights init (fo_rng o) = Ok (w, g') ->
    (i < m)%nat -> fembv_after kmeans_class solver (fo_cfg o) k true uw i w = Ok s ->
    forall j, (j < nc (f_Gamma s))%nat -> 0 < Sum (nr (f_Gamma s)) (fun t => ent (f_Gamma s) t j).
(** costs of the reached states: no update of any iteration but the first increases the cost *)
Lemma kmeans_step_cost solver c n d k data up uw i w s h s' : (0 < n)%nat -> (0 < k)%nat -> (0 < i)%nat ->
  solver_optimal solver -> solver_honest solver -> finv c n k (kmok n d k data) w ->
  fembv_after kmeans_class solver c k up uw i w = Ok s -> (up = true -> masses_positive (f_Gamma s)) ->
  half_step kmeans_class up s = Ok h -> fembv_cost kmeans_class h <= fembv_cost kmeans_class s
  /\ (other_half kmeans_class solver c k uw h = Ok s' -> fembv_cost kmeans_class s' <= fembv_cost kmeans_class s).
Proof.
  intros Hn Hk Hi Hs Hh I0 Es Hm Eh. pose proof (kmeans_keeps n d k data) as HK.
  assert (Hf : solver_feasible solver) by (intros a p sol Ea; apply Hs in Ea; apply Ea).
  pose proof (after_inv kmeans_class solver c n k _ HK Hn Hk _ _ _ _ _ I0 Es) as I1.
  pose proof (half_cost c n d k data up s h I1 Hm Eh) as C1. destruct (half_inv kmeans_class c n k _ HK _ _ _ I1 Eh) as (I2 & G2 & _).
  split; [exact C1|]. intros E2. apply Rle_trans with (fembv_cost kmeans_class h); [|exact C1].
  apply (other_cost kmeans_class solver c n k _ HK Hn Hk h s' uw Hs I2); [|exact E2]. intros -> K1. rewrite G2.
  destruct i as [|i]; [lia|]. cbn [fembv_after] in Es. apply bind_ok in Es. destruct Es as (w1 & E1 & Es). apply bind_ok in Es. destruct Es as (w2 & E3 & Es).
  pose proof (after_inv kmeans_class solver c n k _ HK Hn Hk _ _ _ _ _ I0 E1) as I3. destruct (half_inv kmeans_class c n k _ HK _ _ _ I3 E3) as (I4 & _ & _).
  apply (other_admissible kmeans_class solver c n k _ HK Hn Hk w2 s K1 Hf Hh I4 Es).
Qed.
Theorem C45_cost_decreases : forall solver (o : fembv R (kmeans R)) n d data th weights init up uw r W,
  is_mat n d data -> (0 < n)%nat -> (forall Th, th = Some Th -> wf Th) -> (forall W0, weights = Some W0 -> wf W0) ->
  solver_optimal solver -> solver_honest solver ->
  fembv_fit_transform kmeans_class solver o data th weights init up uw = Ok (r, W) ->
  (up = true -> never_emptied solver o data th weights init uw (S (fr_n_iter r))) ->
  forall i, (0 < i <= fr_n_iter r)%nat -> nth (S i) (fr_log r) 0 <= nth i (fr_log r) 0.
Proof.
  intros solver o n d data th weights init up uw r W HX Hn WT WW Hs Hh H Hm i Hi.
  apply fembv_fit_inv in H. destruct H as (k & m & t & w & g' & w' & A1 & A2 & A3 & A4 & A5 & A6 & A7 & A8 & A9 & ->).
  pose proof A6 as A6'. apply (kmeans_start _ n d) in A6'; try assumption. destruct A6' as [I0 _].
  apply fembv_iterate_path in A7; [|exact A4]. destruct A7 as (N' & f & h & F0 & F1 & F2 & F3 & F4).
  destruct (F3 i ltac:(lia)) as (S1 & S2 & _). change (nth (S i) (fr_log r) n0 <= nth i (fr_log r) n0). rewrite !F4 by lia.
  apply (kmeans_step_cost solver (fo_cfg o) n d k data up uw i w (f i) (h i) (f (S i))); try assumption; try lia; [apply F2; lia|].
  intros ->. intros j Hj. eapply (Hm eq_refl k w g' i (f i)); try eassumption; [lia | apply F2; lia].
Qed.
Print Assumptions C45_cost_decreases.
(** so the guard never fires, even if it is switched on *)
Theorem C45_guard_never_fires : forall solver (o : fembv R (kmeans R)) n d data th weights init up uw,
  is_mat n d data -> (0 < n)%nat -> (forall Th, th = Some Th -> wf Th) -> (forall W0, weights = Some W0 -> wf W0) ->
  solver_optimal solver -> solver_honest solver -> (forall i p, solver i p <> LpRaises RuntimeError) ->
  (forall m, up = true -> fc_max_iterations (fo_cfg o) = PInt (Z.of_nat m) -> never_emptied solver o data th weights init uw m) ->
  fembv_fit_transform kmeans_class solver o data th weights init up uw <> Raise RuntimeError.
Proof.
  intros solver o n d data th weights init up uw HX Hn WT WW Hs Hh Hr Hm H. unfold fembv_fit_transform in H.
  destruct (fembv_fit kmeans_class solver o data th weights init up uw) as [r|e] eqn:E; cbn [bind] in H.
  { apply fembv_run_inv in E. destruct E as (k & m & t & w & g' & w' & _ & _ & _ & _ & _ & _ & _ & A8 & _). rewrite A8 in H. discriminate. }
  injection H as ->. unfold fembv_fit in E. destruct (check_params _ _ _) as [[[k m] t]|e] eqn:E1; cbn [bind] in E; [|injection E as ->; apply check_params_raise in E1; discriminate].
  apply check_params_ok in E1. destruct E1 as (K1 & K2 & M1 & M2 & T1).
  destruct (fembv_initialize _ _ _ _ _ _ _ _ _) as [[w g']|e] eqn:E2; cbn [bind] in E; [|injection E as ->; apply kmeans_start_raise in E2; discriminate].
  destruct (fembv_iterate _ _ _ _ _ _ _ _ _) as [[[[w' cost] ni] lg]|e] eqn:E3; cbn [bind] in E; [discriminate|]. injection E as ->.
  pose proof E2 as E2'. apply (kmeans_start _ n d) in E2'; try assumption. destruct E2' as [I0 _]. pose proof (kmeans_keeps n d k data) as HK.
  apply fembv_iterate_raise in E3. destruct E3 as (i & s & Hi & Es & E3).
  pose proof (after_inv kmeans_class solver _ n k _ HK Hn K2 _ _ _ _ _ I0 Es) as I1.
  assert (T0 : 0 <= t). { destruct T1 as [(z & _ & -> & Hz)|[_ Ht]]; [cbn; apply IZR_le; exact Hz | numR; apply Rltb_false in Ht; exact Ht]. }
  assert (Bad : forall x y, ((0 < i)%nat -> y <= x) -> fembv_bad (fc_monotone (fo_cfg o)) t i x y = true -> False).
  { intros x y Hxy Hb. unfold fembv_bad in Hb. destruct (Nat.ltb_spec 0 i); [|discriminate]. cbn [andb] in Hb. destruct (fc_monotone (fo_cfg o)); [|discriminate]. cbn [andb] in Hb. numR.
    destruct (Rltb x y) eqn:E4; [|discriminate]. apply Rltb_true in E4. specialize (Hxy ltac:(lia)). lra. }
  assert (Ms : up = true -> masses_positive (f_Gamma s)).
  { intros ->. intros j Hj. eapply (Hm m eq_refl M1 k w g' i s); eassumption. }
  destruct E3 as [E3|(h & Eh & [E3|[(_ & -> & E3)|(s2 & E4 & _ & -> & E3)]])].
  - revert E3. apply kmeans_half_total.
  - destruct (half_inv kmeans_class _ n k _ HK _ _ _ I1 Eh) as (I2 & _ & _).
    apply (other_raise kmeans_class solver _ n k _ _ _ _ K2 HK I2) in E3. destruct E3 as [E3|[[E3 _]|[p E3]]]; try discriminate. eapply Hr. exact E3.
  - eapply Bad; [|exact E3]. intros Hi0. apply (proj1 (kmeans_step_cost solver (fo_cfg o) n d k data true uw i w s h h Hn K2 Hi0 Hs Hh I0 Es Ms Eh)).
  - eapply Bad; [|exact E3]. intros Hi0. apply (proj2 (kmeans_step_cost solver (fo_cfg o) n d k data up true i w s h s2 Hn K2 Hi0 Hs Hh I0 Es Ms Eh) E4).
Qed.
Print Assumptions C45_guard_never_fires.
Lemma ef_after w i : forall s, ef_P w -> fembv_after kmeans_class ef_solver ef_cfg 2 true true i w = Ok s -> ef_P s.
Proof.
  induction i as [|i IH]; intros s Hw E; cbn [fembv_after] in E; [injection E as <-; exact Hw|]. apply bind_ok in E. destruct E as (w1 & E1 & E).
  specialize (IH w1 Hw E1). destruct (ef_step 0 w1 IH) as (s' & c' & R & _ & P'). apply run_two in R. destruct R as (s1 & R1 & R2 & _).
  unfold half_step, other_half in E. rewrite R1 in E. cbn [bind] in E. rewrite R2 in E. injection E as <-. exact P'.
Qed.
(** the concrete run satisfies every hypothesis of both theorems; it makes three iterations *)
Example C45_example : (forall m, never_emptied ef_solver ef_obj ef_data (Some ef_Theta) (Some ef_G) InitCustom true m)
  /\ solver_optimal ef_solver /\ solver_honest ef_solver /\ (forall i p, ef_solver i p <> LpRaises RuntimeError)
  /\ exists r W, fembv_fit_transform kmeans_class ef_solver ef_obj ef_data (Some ef_Theta) (Some ef_G) InitCustom true true = Ok (r, W) /\ fr_n_iter r = 2%nat.
Proof.
  split; [|split; [exact ef_solver_optimal | split; [exact ef_solver_honest | split]]].
  - intros m k w g' i s Ek Ei _ Es. cbn in Ek. assert (k = 2%nat) as -> by (injection Ek; lia).
    assert (Hw : ef_P w).
    { assert (Hd : (0 < 2)%nat) by lia. pose proof (kmeans_start _ 2 1 2 _ ef_data (Some ef_Theta) (Some ef_G) InitCustom _ w g' ef_data_mat
        (fun Th E => ltac:(injection E as <-; split; [reflexivity | intros row [<-|[<-|[]]]; reflexivity]))
        (fun W0 E => ltac:(injection E as <-; split; [reflexivity | intros row [<-|[<-|[]]]; reflexivity])) Ei) as [I0 _].
      pose proof (fembv_cost_spec kmeans_class _ 2 2 w (finv_fok kmeans_class _ 2 2 _ (kmeans_keeps 2 1 2 ef_data) w I0)) as Cw. destruct I0 as (J1 & J2 & J3).
      apply fembv_initialize_inv in Ei. destruct Ei as (p & g1 & B1 & B2 & B3 & B4 & B5 & _). unfold fembv_initialize_weights in B3.
      apply bind_ok in B3. destruct B3 as (W' & C1 & C2). apply check_init_weights_ok_inv in C1. destruct C1 as ([= <-] & _). injection C2 as C2 _. symmetry in C2.
      split; [exact C2|]. split; [apply J2|]. split; [exact J3|]. rewrite Cw, C2. cbn [kmeans_class cl_distance]. rewrite (kmeans_cost_spec 2 1 2 ef_data) by (exact J2 || exact ef_G_mat).
      unfold kmeans_cost. apply Sum_nonneg. intros t Ht. apply Sum_nonneg. intros j Hj. apply Rmult_le_pos; [apply ef_G_stochastic; assumption | apply Sum_sq_nonneg]. }
    pose proof (ef_after w i s Hw Es) as (-> & _). intros j Hj. cbn [ef_G nc] in Hj. two j; unfold ent; cbn; lra.
  - intros i p. unfold ef_solver. destruct (lp_eq_dec p ef_lp); discriminate.
  - destruct ef_fit as (r & W & E). exists r, W. split; [exact E|]. apply C44_stopping in E. destruct E as (m & t & M1 & T1 & L & _ & St). cbn in M1. assert (m = 3%nat) as -> by (injection M1; lia).
    destruct (Nat.eq_dec (fr_n_iter r) 2) as [|Ne]; [assumption|]. exfalso. specialize (St ltac:(lia)). destruct T1 as [(z & T1 & -> & _)|[T1 _]]; [|discriminate].
    cbn in T1. injection T1 as <-. numR. apply Rltb_true in St. pose proof (Rabs_pos (nth (S (fr_n_iter r)) (fr_log r) 0 - nth (fr_n_iter r) (fr_log r) 0)). lra.
Qed.

(** ** C46 (any arithmetic) *)
(** transform does not depend on what was fitted before: two objects that agree on the constructor
    arguments and the random stream give the same weights, cost and new parameters *)
Theorem C46_transform_ignores_fit : forall (T : Type) (N : Num T) solver (o1 o2 : fembv T (kmeans T)) data,
  fo_cfg o1 = fo_cfg o2 -> fo_n_components o1 = fo_n_components o2 -> fo_rng o1 = fo_rng o2 ->
  match fembv_transform kmeans_class solver o1 data None, fembv_transform kmeans_class solver o2 data None with
  | Ok (r1, W1), Ok (r2, W2) => W1 = W2 /\ fr_cost r1 = fr_cost r2 /\ fo_ws (fr_obj r1) = fo_ws (fr_obj r2)
  | Raise e1, Raise e2 => e1 = e2
  | _, _ => False
  end.
Proof.
  intros T N solver o1 o2 data E1 E2 E3. unfold fembv_transform, fembv_fit. rewrite E1, E2, E3.
  destruct (check_params _ _ _) as [[[k m] t]|e]; cbn [bind]; [|reflexivity].
  assert (I : forall old1 old2, fembv_initialize (kmeans_class (T := T)) (fo_cfg o2) k old1 data None None InitNone (fo_rng o2)
            = fembv_initialize kmeans_class (fo_cfg o2) k old2 data None None InitNone (fo_rng o2)) by reflexivity.
  rewrite (I _ (option_map f_params (fo_ws o2))). destruct (fembv_initialize _ _ _ _ _ _ _ _ _) as [[w g']|e]; cbn [bind]; [|reflexivity].
  destruct (fembv_iterate _ _ _ _ _ _ _ _ _) as [[[[w' cost] ni] lg]|e]; cbn [bind fo_ws fr_obj]; [|reflexivity]. cbn. auto.
Qed.
Print Assumptions C46_transform_ignores_fit.
(** the centroids of the fit are replaced by distinct rows of the new data *)
Theorem C46_transform_overwrites : forall (T : Type) (N : Num T) solver (o : fembv T (kmeans T)) data r W,
  fembv_transform kmeans_class solver o data None = Ok (r, W) ->
  exists k idx w', fo_ws (fr_obj r) = Some w' /\ comp_count (fo_n_components o) (nc data) k
    /\ length idx = k /\ NoDup idx /\ (forall i, In i idx -> (i < nr data)%nat)
    /\ km_X (f_params w') = data /\ nr (km_Theta (f_params w')) = k /\ nc (km_Theta (f_params w')) = nc data
    /\ forall j f, (j < k)%nat -> (f < nc data)%nat -> mget (km_Theta (f_params w')) j f = mget data (nth j idx 0%nat) f.
Proof.
  intros T N solver o data r W H.
  apply fembv_transform_inv in H. destruct H as (k & m & t & w & g' & w' & A1 & A2 & A3 & A4 & A5 & A6 & A7 & A8 & A9 & ->).
  apply fembv_iterate_path in A7; [|exact A4]. destruct A7 as (N' & f & h & F0 & F1 & F2 & _). specialize (F2 (S (fr_n_iter r)) (le_n _)). rewrite F1 in F2. apply after_params in F2.
  apply fembv_initialize_inv in A6. destruct A6 as (p & g1 & B1 & _ & _ & _ & B5 & _). cbn [kmeans_class cl_initialize] in B1. unfold kmeans_initialize in B1.
  apply bind_ok in B1. destruct B1 as ([idx g2] & C1 & C2). cbn [fst snd] in C2. injection C2 as C2 _. unfold draw_choice in C1.
  destruct (Nat.ltb_spec (nr data) k) as [|Hk]; [discriminate|]. injection C1 as C1.
  pose proof (choose_spec k (seq 0 (nr data)) (fo_rng o) (seq_NoDup _ _)) as S. rewrite C1, seq_length in S. cbn [fst] in S. destruct (S Hk) as (S1 & S2 & S3).
  exists k, idx, w'. rewrite A8. cbn [fo_ws]. rewrite F2, B5, <- C2. cbn [km_X km_Theta nr nc mbuild].
  split; [reflexivity|]. split; [apply comp_count_resolve; exact A1|]. split; [exact S1|]. split; [exact S2|].
  split; [intros i Hi; apply S3, in_seq in Hi; lia|]. repeat (split; [reflexivity|]). intros j q Hj Hq. rewrite mget_mbuild by assumption. reflexivity.
Qed.
Print Assumptions C46_transform_overwrites.
(** the init argument of the constructor has no influence on any fit, of any subclass *)
Theorem C46_constructor_init_ignored : forall (T : Type) (N : Num T) (P A : Type) (cl : fembv_class T P A) solver mtv i1 i2 mi tol mono ncomp g ws c_ n_ k_ data args weights init up uw,
  let o i := mk_fembv (mk_fembv_cfg mtv i mi tol mono) ncomp g ws c_ n_ k_ in
  match fembv_fit_transform cl solver (o i1) data args weights init up uw, fembv_fit_transform cl solver (o i2) data args weights init up uw with
  | Ok (r1, W1), Ok (r2, W2) => W1 = W2 /\ fr_cost r1 = fr_cost r2 /\ fr_log r1 = fr_log r2 /\ fo_ws (fr_obj r1) = fo_ws (fr_obj r2)
  | Raise e1, Raise e2 => e1 = e2
  | _, _ => False
  end.
Proof.
  intros T N P A cl solver mtv i1 i2 mi tol mono ncomp g ws c_ n_ k_ data args weights init up uw o. unfold fembv_fit_transform, fembv_fit. cbn [o fo_cfg fo_n_components fo_rng fo_ws fc_max_iterations fc_tolerance].
  destruct (check_params _ _ _) as [[[k m] t]|e]; cbn [bind]; [|reflexivity].
  change (fembv_initialize cl (mk_fembv_cfg mtv i1 mi tol mono)) with (fembv_initialize cl (mk_fembv_cfg mtv i2 mi tol mono)).
  destruct (fembv_initialize _ _ _ _ _ _ _ _ _) as [[w g']|e]; cbn [bind]; [|reflexivity].
  change (fembv_iterate cl solver (mk_fembv_cfg mtv i1 mi tol mono)) with (fembv_iterate cl solver (mk_fembv_cfg mtv i2 mi tol mono)).
  destruct (fembv_iterate _ _ _ _ _ _ _ _ _) as [[[[w' cost] ni] lg]|e]; cbn [bind fo_ws fr_obj]; [|reflexivity]. cbn. auto.
Qed.
Print Assumptions C46_constructor_init_ignored.
(** weights passed to fit are used iff init='custom' is passed too *)
Theorem C46_custom_weights : forall (T : Type) (N : Num T) (P A : Type) (cl : fembv_class T P A) solver (o : fembv T P) data args W0 init up uw,
  (init <> InitCustom ->
   fembv_fit_transform cl solver o data args (Some W0) init up uw = fembv_fit_transform cl solver o data args None init up uw)
  /\ (forall k old g w g', fembv_initialize cl (fo_cfg o) k old data args (Some W0) InitCustom g = Ok (w, g') -> f_Gamma w = W0).
Proof.
  intros T N P A cl solver o data args W0 init up uw. split.
  - intros Hi. unfold fembv_fit_transform, fembv_fit, fembv_initialize.
    destruct (check_params _ _ _) as [[[k m] t]|e]; cbn [bind]; [|reflexivity]. destruct (cl_initialize cl k data args init _ (fo_rng o)) as [[p g1]|e]; cbn [bind]; [|reflexivity].
    destruct init; try contradiction; reflexivity.
  - intros k old g w g' E. apply fembv_initialize_inv in E. destruct E as (p & g1 & _ & _ & E & _). cbn [fembv_initialize_weights] in E.
    apply bind_ok in E. destruct E as (W' & E1 & E2). apply check_init_weights_ok_inv in E1. destruct E1 as ([= <-] & _). injection E2 as E2 _. symmetry. exact E2.
Qed.
Print Assumptions C46_custom_weights.
(** likewise for the centroids *)
Theorem C46_custom_centroids : forall (T : Type) (N : Num T) solver (o : fembv T (kmeans T)) data Theta0 weights init up uw,
  init <> InitCustom ->
  fembv_fit_transform kmeans_class solver o data (Some Theta0) weights init up uw = fembv_fit_transform kmeans_class solver o data None weights init up uw.
Proof. intros T N solver o data Theta0 weights init up uw Hi. destruct init; try contradiction; reflexivity. Qed.
Print Assumptions C46_custom_centroids.
(** executed on integers: fitting one component moves the centroid to the mean 3; transforming the same
    data puts it back on a row of the data and returns another cost than the 26 of the fit *)
Example C46_example : match efZ_fit 0 with
  | Ok (r, _) =>
      option_map (fun w => dat (km_Theta (f_params w))) (fo_ws (fr_obj r)) = Some [[3]]%Z /\
      match @fembv_transform Z Num_Z_demo _ _ (@kmeans_class Z Num_Z_demo) (fun _ _ => LpFailed) (fr_obj r) efZ_data None with
      | Ok (r', W') => option_map (fun w => dat (km_Theta (f_params w))) (fo_ws (fr_obj r')) = Some [[2]]%Z
           /\ fo_cost_ (fr_obj r') = Some 26%Z /\ fr_cost r' = 29%Z
      | Raise _ => False end
  | Raise _ => False end.
Proof. vm_compute. repeat split. Qed.

(** ** C25 for FEMBVKMeans (any arithmetic) *)
Theorem C25_fembv_kmeans_history_independent : forall (T : Type) (N : Num T) solver (o1 o2 : fembv T (kmeans T)) data th weights init up uw,
  fo_cfg o1 = fo_cfg o2 -> fo_n_components o1 = fo_n_components o2 -> fo_rng o1 = fo_rng o2 ->
  fembv_fit_transform kmeans_class solver o1 data th weights init up uw = fembv_fit_transform kmeans_class solver o2 data th weights init up uw.
Proof.
  intros T N solver o1 o2 data th weights init up uw E1 E2 E3. unfold fembv_fit_transform, fembv_fit. rewrite E1, E2, E3.
  destruct (check_params _ _ _) as [[[k m] t]|e]; cbn [bind]; [|reflexivity].
  assert (I : forall old1 old2, fembv_initialize (kmeans_class (T := T)) (fo_cfg o2) k old1 data th weights init (fo_rng o2)
            = fembv_initialize kmeans_class (fo_cfg o2) k old2 data th weights init (fo_rng o2)) by reflexivity.
  rewrite (I _ (option_map f_params (fo_ws o2))). destruct (fembv_initialize _ _ _ _ _ _ _ _ _) as [[w g']|e]; cbn [bind]; [|reflexivity].
  destruct (fembv_iterate _ _ _ _ _ _ _ _ _) as [[[[w' cost] ni] lg]|e]; reflexivity.
Qed.
Print Assumptions C25_fembv_kmeans_history_independent.
Inductive kmeans_history {T} {N : Num T} (o : fembv T (kmeans T)) : fembv T (kmeans T) -> Prop :=
| kh_start : kmeans_history o o
| kh_fit o1 solver data th weights init up uw r W : kmeans_history o o1 ->
    fembv_fit_transform kmeans_class solver o1 data th weights init up uw = Ok (r, W) -> kmeans_history o (fr_obj r)
| kh_transform o1 solver data r W : kmeans_history o o1 ->
    fembv_transform kmeans_class solver o1 data None = Ok (r, W) -> kmeans_history o (fr_obj r).
Theorem C25_fembv_kmeans_history_configuration : forall (T : Type) (N : Num T) (o o' : fembv T (kmeans T)) z,
  kmeans_history o o' -> fo_n_components o = PInt z ->
  fo_cfg o' = fo_cfg o /\ fo_n_components o' = fo_n_components o /\ r_uniform (fo_rng o') = r_uniform (fo_rng o)
  /\ r_normal (fo_rng o') = r_normal (fo_rng o) /\ r_int (fo_rng o') = r_int (fo_rng o).
Proof.
  intros T N o o' z H Ez.
  assert (St : forall c k old data th weights init (g : rng T) w g', fembv_initialize kmeans_class c k old data th weights init g = Ok (w, g') ->
     r_uniform g' = r_uniform g /\ r_normal g' = r_normal g /\ r_int g' = r_int g).
  { intros c k old data th weights init g w g' E. apply fembv_initialize_inv in E. destruct E as (p & g1 & E1 & _ & E2 & _). cbn [kmeans_class cl_initialize] in E1.
    apply kmeans_initialize_streams in E1. apply fembv_weights_streams in E2. destruct E1 as (a1 & a2 & a3), E2 as (b1 & b2 & b3). rewrite b1, b2, b3. auto. }
  induction H as [|o1 solver data th weights init up uw r W H IH E|o1 solver data r W H IH E]; [auto| |].
  - apply fembv_fit_inv in E. destruct E as (k & m & t & w & g' & w' & A1 & A2 & A3 & A4 & A5 & A6 & A7 & A8 & A9 & _).
    destruct IH as (I1 & I2 & I3 & I4 & I5). rewrite A8. cbn [fo_cfg fo_n_components fo_rng]. apply St in A6. destruct A6 as (S1 & S2 & S3).
    rewrite I2, Ez in A1. cbn in A1. rewrite <- A1, Ez, S1, S2, S3. auto.
  - apply fembv_transform_inv in E. destruct E as (k & m & t & w & g' & w' & A1 & A2 & A3 & A4 & A5 & A6 & A7 & A8 & A9 & _).
    destruct IH as (I1 & I2 & I3 & I4 & I5). rewrite A8. cbn [fo_cfg fo_n_components fo_rng]. apply St in A6. destruct A6 as (S1 & S2 & S3).
    rewrite I2, Ez in A1. cbn in A1. rewrite <- A1, Ez, S1, S2, S3. auto.
Qed.
Print Assumptions C25_fembv_kmeans_history_configuration.

(** ** C26 *)
Theorem C26_fembv_validation : forall (T : Type) (N : Num T) (P A : Type) (cl : fembv_class T P A) solver (o : fembv T P) data args weights init up uw,
  ~ (valid_components (fo_n_components o) (nc data) /\ valid_max (fc_max_iterations (fo_cfg o)) /\ valid_tolerance (fc_tolerance (fo_cfg o))) ->
  fembv_fit_transform cl solver o data args weights init up uw = Raise ValueError.
Proof.
  intros T N P A cl solver o data args weights init up uw H. unfold fembv_fit_transform, fembv_fit.
  destruct (check_params _ _ _) as [[[k m] t]|e] eqn:E1; cbn [bind].
  - exfalso. apply H. apply check_params_ok in E1. destruct E1 as (K1 & K2 & M1 & M2 & T1).
    split; [exists k; split; [apply comp_count_resolve, K1 | exact K2]|]. split; [exists m; auto|].
    destruct T1 as [(z & -> & _ & Hz)|[-> Hz]]; [left; eauto | right; eauto].
  - apply check_params_raise in E1. rewrite E1. reflexivity.
Qed.
Print Assumptions C26_fembv_validation.
Theorem C26_fembv_resolution : forall (T : Type) (N : Num T) (P A : Type) (cl : fembv_class T P A) solver (o : fembv T P) data args weights init up uw r W,
  fembv_fit_transform cl solver o data args weights init up uw = Ok (r, W) ->
  valid_max (fc_max_iterations (fo_cfg o)) /\ valid_tolerance (fc_tolerance (fo_cfg o)) /\
  exists k, comp_count (fo_n_components o) (nc data) k /\ (0 < k)%nat /\ fo_n_components (fr_obj r) = PInt (Z.of_nat k)
    /\ forall d' k', comp_count (fo_n_components (fr_obj r)) d' k' -> k' = k.
Proof.
  intros T N P A cl solver o data args weights init up uw r W H.
  apply fembv_fit_inv in H. destruct H as (k & m & t & w & g' & w' & A1 & A2 & A3 & A4 & A5 & A6 & A7 & A8 & A9 & ->).
  split; [exists m; auto|]. split; [destruct A5 as [(z & -> & _ & Hz)|[-> Hz]]; [left; eauto | right; eauto]|].
  exists k. split; [apply comp_count_resolve, A1|]. split; [exact A2|]. rewrite A8. cbn [fo_n_components]. split; [reflexivity|].
  intros d' k' [E|[E _]]; [injection E; lia | discriminate].
Qed.
Print Assumptions C26_fembv_resolution.

(** ** C58 *)
(** a fit of FEMBVKMeans always ends; besides ValueError only the exceptions of the solver, TypeError if the
    solver has no value, and RuntimeError if the guard is on can escape *)
Definition fembv_exception (solver : nat -> lp R -> lp_answer R) (mono : bool) (e : exn) : Prop :=
  e = ValueError \/ (e = TypeError /\ exists i p, solver i p = LpNoValue) \/ (exists i p, solver i p = LpRaises e)
  \/ (e = RuntimeError /\ mono = true).
Lemma kmeans_fit_ends solver (o : fembv R (kmeans R)) n d data th weights init up uw e :
  is_mat n d data -> (0 < n)%nat -> (forall Th, th = Some Th -> wf Th) -> (forall W0, weights = Some W0 -> wf W0) ->
  fembv_fit kmeans_class solver o data th weights init up uw = Raise e -> fembv_exception solver (fc_monotone (fo_cfg o)) e.
Proof.
  intros HX Hn WT WW E. unfold fembv_exception.
  unfold fembv_fit in E. destruct (check_params _ _ _) as [[[k m] t]|e'] eqn:E1; cbn [bind] in E; [|injection E as ->; apply check_params_raise in E1; auto].
  apply check_params_ok in E1. destruct E1 as (K1 & K2 & M1 & M2 & T1).
  destruct (fembv_initialize _ _ _ _ _ _ _ _ _) as [[w g']|e'] eqn:E2; cbn [bind] in E; [|injection E as ->; apply kmeans_start_raise in E2; auto].
  destruct (fembv_iterate _ _ _ _ _ _ _ _ _) as [[[[w' cost] ni] lg]|e'] eqn:E3; cbn [bind] in E; [discriminate|]. injection E as ->.
  apply (kmeans_start _ n d) in E2; try assumption. destruct E2 as [I0 _]. pose proof (kmeans_keeps n d k data) as HK.
  apply fembv_iterate_raise in E3. destruct E3 as (i & s & Hi & Es & E3).
  pose proof (after_inv kmeans_class solver _ n k _ HK Hn K2 _ _ _ _ _ I0 Es) as I1.
  assert (Mono : forall x y, fembv_bad (fc_monotone (fo_cfg o)) t i x y = true -> fc_monotone (fo_cfg o) = true).
  { intros x y. unfold fembv_bad. destruct (fc_monotone (fo_cfg o)); [reflexivity|]. rewrite Bool.andb_false_r. discriminate. }
  destruct E3 as [E3|(h & Eh & [E3|[(-> & -> & E3)|(s2 & E4 & -> & -> & E3)]])].
  - exfalso. revert E3. apply kmeans_half_total.
  - destruct (half_inv kmeans_class _ n k _ HK _ _ _ I1 Eh) as (I2 & _ & _).
    apply (other_raise kmeans_class solver _ n k _ _ _ _ K2 HK I2) in E3. destruct E3 as [E3|[[E3 [p E4]]|[p E3]]]; [auto | right; left; eauto | right; right; left; eauto].
  - apply Mono in E3. auto.
  - apply Mono in E3. auto.
Qed.
Theorem C58_fembv_kmeans_terminates : forall solver (o : fembv R (kmeans R)) n d data th weights init up uw,
  is_mat n d data -> (0 < n)%nat -> (forall Th, th = Some Th -> wf Th) -> (forall W0, weights = Some W0 -> wf W0) ->
  (exists r, fembv_fit_transform kmeans_class solver o data th weights init up uw = Ok r)
  \/ (exists e, fembv_fit_transform kmeans_class solver o data th weights init up uw = Raise e
       /\ (e = ValueError \/ (e = TypeError /\ exists i p, solver i p = LpNoValue) \/ (exists i p, solver i p = LpRaises e)
           \/ (e = RuntimeError /\ fc_monotone (fo_cfg o) = true))).
Proof.
  intros solver o n d data th weights init up uw HX Hn WT WW. unfold fembv_fit_transform.
  destruct (fembv_fit kmeans_class solver o data th weights init up uw) as [r|e] eqn:E; cbn [bind].
  - left. apply fembv_run_inv in E. destruct E as (k & m & t & w & g' & w' & _ & _ & _ & _ & _ & _ & _ & A8 & _). rewrite A8. cbn. eauto.
  - right. exists e. split; [reflexivity|]. apply (kmeans_fit_ends _ _ n d) in E; assumption.
Qed.
Print Assumptions C58_fembv_kmeans_terminates.
Theorem C58_fembv_kmeans_transform_terminates : forall solver (o : fembv R (kmeans R)) n d data,
  is_mat n d data -> (0 < n)%nat ->
  (exists r, fembv_transform kmeans_class solver o data None = Ok r)
  \/ (exists e, fembv_transform kmeans_class solver o data None = Raise e
       /\ (e = ValueError \/ (e = TypeError /\ exists i p, solver i p = LpNoValue) \/ (exists i p, solver i p = LpRaises e)
           \/ (e = RuntimeError /\ fc_monotone (fo_cfg o) = true))).
Proof.
  intros solver o n d data HX Hn. unfold fembv_transform.
  destruct (fembv_fit kmeans_class solver o data None None InitNone false true) as [r|e] eqn:E; cbn [bind].
  - left. apply fembv_run_inv in E. destruct E as (k & m & t & w & g' & w' & _ & _ & _ & _ & _ & _ & _ & A8 & _). rewrite A8. cbn. eauto.
  - right. exists e. split; [reflexivity|]. apply (kmeans_fit_ends _ _ n d) in E; try assumption; discriminate.
Qed.
Print Assumptions C58_fembv_kmeans_transform_terminates.
Example C58_fembv_example : is_mat 2 1 ef_data /\ (0 < 2)%nat /\
  exists r, fembv_fit_transform kmeans_class ef_solver ef_obj ef_data (Some ef_Theta) (Some ef_G) InitCustom true true = Ok r.
Proof. split; [exact ef_data_mat|]. split; [lia|]. destruct ef_fit as (r & W & E). eauto. Qed.
