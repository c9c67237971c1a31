(** FEM-BV: the updates *)
From Coq Require Import List Arith ZArith Bool Reals Lra Lia.
From Verif Require Import Num Mat Py Lp M_random M_iter M_gpnh M_fembv Spec Spec_fembv P_lin P_random P_iter P_mat P_gpnh_run P_fembv.
Import ListNotations.
Local Open Scope R_scope.


Lemma has_tv_true (c : fembv_cfg R) : has_max_tv_norm_constraint c = true <-> exists C, fc_max_tv_norm c = Some C /\ 0 <= C.
Proof.
  unfold has_max_tv_norm_constraint. destruct (fc_max_tv_norm c) as [x|]; [|split; [discriminate | intros (C & H & _); discriminate]].
  numR. split; [intros H; apply Rleb_true in H; eauto | intros (C & [= <-] & H); apply Rleb_true; exact H].
Qed.
Lemma has_tv_false (c : fembv_cfg R) : has_max_tv_norm_constraint c = false <-> forall C, fc_max_tv_norm c = Some C -> C < 0.
Proof.
  split.
  - intros H C E. destruct (Rlt_le_dec C 0) as [|Hc]; [assumption|]. assert (has_max_tv_norm_constraint c = true) by (apply has_tv_true; eauto). congruence.
  - intros H. destruct (has_max_tv_norm_constraint c) eqn:E; [|reflexivity]. apply has_tv_true in E. destruct E as (C & E & Hc). apply H in E. lra.
Qed.
Lemma ent_block k n v t i : (t < n)%nat -> (i < k)%nat -> ent (block k n v) t i = at_ v (t * k + i)%nat.
Proof. intros. unfold block. apply ent_mbuild; assumption. Qed.
Lemma div_grid k t i : (i < k)%nat -> ((t * k + i) / k = t)%nat /\ ((t * k + i) mod k = i)%nat.
Proof.
  intros H. split; [rewrite Nat.div_add_l by lia; rewrite Nat.div_small by lia; lia|].
  rewrite Nat.add_comm, Nat.mod_add by lia. apply Nat.mod_small. lia.
Qed.
Lemma grid_div k n e : (0 < k)%nat -> (e < n * k)%nat -> (e / k < n)%nat /\ (e mod k < k)%nat /\ (e = e / k * k + e mod k)%nat.
Proof.
  intros Hk He. split; [apply Nat.div_lt_upper_bound; lia|]. split; [apply Nat.mod_upper_bound; lia|].
  rewrite (Nat.mul_comm (e / k) k). apply Nat.div_mod. lia.
Qed.

Lemma constraints_meaning (c : fembv_cfg R) k n : (1 < k)%nat -> (0 < n)%nat ->
  exists Ae be Au bu, initialize_constraints c k n = Ok (Some (Ae, be, Au, bu)) /\
  forall obj v, length obj = n_weight_parameters c k n -> length v = length obj ->
    (lp_feasible (mk_lp obj Ae be Au bu) v <->
     row_stochastic (block k n v) /\
     forall C, fc_max_tv_norm c = Some C -> 0 <= C ->
       (forall t i, (t < n - 1)%nat -> (i < k)%nat -> Rabs (ent (block k n v) (S t) i - ent (block k n v) t i) <= slack k n v t i)
       /\ (forall i, (i < k)%nat -> Sum (n - 1) (fun t => slack k n v t i) <= C)).
Proof.
  intros Hk Hn. unfold initialize_constraints. destruct (Nat.leb_spec k 1); [lia|]. destruct (Nat.eqb_spec n 0); [lia|]. cbn [andb].
  destruct (equality_ok c k n ltac:(lia)) as (Ae & E1 & R1 & _ & D1). rewrite E1. cbn [bind].
  assert (RS : forall v, (forall i, (i < k * n)%nat -> 0 <= at_ v i) -> (forall i, (i < n)%nat -> csr_dot Ae v i = at_ (repeat 1 n) i) -> row_stochastic (block k n v)).
  { intros v H1 H2 t Ht. cbn [block nr nc mbuild] in Ht |- *. split.
    - intros i Hi. rewrite ent_block by assumption. apply H1. pose proof (grid_lt k n t i). lia.
    - rewrite (Sum_ext k _ (fun j => at_ v (t * k + j)%nat)) by (intros; apply ent_block; assumption).
      rewrite <- D1 by exact Ht. rewrite H2 by exact Ht. apply at_repeat. exact Ht. }
  assert (RS1 : forall v, row_stochastic (block k n v) -> forall i, (i < k * n)%nat -> 0 <= at_ v i).
  { intros v H1 i Hi. destruct (grid_div k n i) as (G1 & G2 & G3); [lia | lia|]. rewrite G3.
    rewrite <- (ent_block k n) by assumption. apply H1; [exact G1 | exact G2]. }
  assert (RS2 : forall v, row_stochastic (block k n v) -> forall i, (i < n)%nat -> csr_dot Ae v i = at_ (repeat 1 n) i).
  { intros v H1 i Hi. rewrite at_repeat by exact Hi. rewrite D1 by exact Hi. destruct (H1 i Hi) as [_ H2]. rewrite <- H2. symmetry.
    apply Sum_ext. intros j Hj. apply ent_block; [exact Hi | exact Hj]. }
  destruct (has_max_tv_norm_constraint c) eqn:Htv.
  - pose proof Htv as Htv'. apply has_tv_true in Htv'. destruct Htv' as (C & HC & HC0).
    destruct (inequality_tv_ok c k n C ltac:(lia) Hn HC Htv) as (Au & bu & E2 & R2 & D2). rewrite E2. cbn [bind fst snd].
    exists Ae, (repeat 1 n), Au, bu. split; [reflexivity|]. intros obj v Lo Lv. specialize (D2 v).
    set (K := (k * (n - 1))%nat) in *. set (nw := (k * n + K)%nat) in *. destruct D2 as (D2a & D2b & D2c).
    unfold lp_feasible. cbn [lp_c lp_A_eq lp_b_eq lp_A_ub lp_b_ub]. rewrite R1, R2. split.
    + intros (_ & H1 & H2).
      assert (NN : forall i, (i < nw)%nat -> 0 <= at_ v i).
      { intros i Hi. destruct (D2a i Hi) as [F1 F2]. specialize (H2 i ltac:(lia)). rewrite F1, F2 in H2. lra. }
      split; [apply RS; [intros i Hi; apply NN; lia | exact H1]|].
      intros C' EC' _. rewrite HC in EC'. injection EC' as <-. split.
      * intros t i Ht Hi. rewrite !ent_block by lia. unfold slack.
        pose proof (grid_lt k (n - 1) t i Ht Hi). assert (He : (t * k + i < K)%nat) by (unfold K; lia).
        destruct (D2b _ He) as [[F1 F2] [F3 F4]]. destruct (div_grid k t i Hi) as [G1 G2]. rewrite G1, G2 in F1, F3.
        pose proof (H2 (nw + (t * k + i))%nat ltac:(lia)) as I1. pose proof (H2 (nw + K + (t * k + i))%nat ltac:(lia)) as I2.
        rewrite F1, F2 in I1. rewrite F3, F4 in I2. replace (S t * k + i)%nat with ((t + 1) * k + i)%nat by lia.
        apply Rabs_le. lra.
      * intros i Hi. destruct (D2c i Hi) as [F1 F2]. pose proof (H2 (nw + 2 * K + i)%nat ltac:(lia)) as I1. rewrite F1, F2 in I1. exact I1.
    + intros [H1 H2]. destruct (H2 C HC HC0) as [H3 H4]. split; [exact Lv|]. split; [apply RS2; exact H1|].
      intros i Hi. destruct (Nat.lt_ge_cases i nw) as [Hi1|Hi1].
      { destruct (D2a i Hi1) as [-> ->]. assert (0 <= at_ v i); [|lra].
        destruct (Nat.lt_ge_cases i (k * n)) as [Hi2|Hi2]; [apply RS1; assumption|].
        destruct (grid_div k (n - 1) (i - k * n)) as (G1 & G2 & G3); [lia | unfold nw, K in Hi1; lia|].
        specialize (H3 _ _ G1 G2). unfold slack in H3. replace (k * n + (i - k * n) / k * k + (i - k * n) mod k)%nat with i in H3 by lia.
        pose proof (Rabs_pos (ent (block k n v) (S ((i - k * n) / k)) ((i - k * n) mod k) - ent (block k n v) ((i - k * n) / k) ((i - k * n) mod k))). lra. }
      destruct (Nat.lt_ge_cases i (nw + 2 * K)) as [Hi2|Hi2].
      { assert (P : forall e, (e < K)%nat -> Rabs (at_ v ((e / k + 1) * k + e mod k)%nat - at_ v (e / k * k + e mod k)%nat) <= at_ v (k * n + e / k * k + e mod k)%nat).
        { intros e He. destruct (grid_div k (n - 1) e) as (G1 & G2 & G3); [lia | unfold K in He; lia|].
          specialize (H3 _ _ G1 G2). rewrite !ent_block in H3 by lia. unfold slack in H3. replace (S (e / k) * k)%nat with ((e / k + 1) * k)%nat in H3 by lia. exact H3. }
        assert (B : forall x y, Rabs x <= y -> - y <= x <= y) by (intros x y Hxy; unfold Rabs in Hxy; destruct (Rcase_abs x); lra).
        destruct (Nat.lt_ge_cases i (nw + K)) as [Hi3|Hi3].
        - replace i with (nw + (i - nw))%nat by lia. destruct (D2b (i - nw)%nat ltac:(lia)) as [[-> ->] _]. specialize (P (i - nw)%nat ltac:(lia)). apply B in P. lra.
        - replace i with (nw + K + (i - nw - K))%nat by lia. destruct (D2b (i - nw - K)%nat ltac:(lia)) as [_ [-> ->]]. specialize (P (i - nw - K)%nat ltac:(lia)). apply B in P. lra. }
      replace i with (nw + 2 * K + (i - nw - 2 * K))%nat by lia. destruct (D2c (i - nw - 2 * K)%nat ltac:(lia)) as [-> ->]. apply H4. lia.
  - destruct (inequality_plain_ok c k n Htv) as (Au & E2 & R2 & D2). rewrite E2. cbn [bind fst snd].
    exists Ae, (repeat 1 n), Au, (repeat 0 (k * n)). split; [reflexivity|]. intros obj v Lo Lv.
    unfold lp_feasible. cbn [lp_c lp_A_eq lp_b_eq lp_A_ub lp_b_ub]. rewrite R1, R2. split.
    + intros (_ & H1 & H2). split; [apply RS; [|exact H1]|].
      * intros i Hi. specialize (H2 i Hi). rewrite D2, at_repeat in H2 by exact Hi. lra.
      * intros C HC HC0. pose proof (proj1 (has_tv_false c) Htv C HC). lra.
    + intros [H1 _]. split; [exact Lv|]. split; [apply RS2; exact H1|]. intros i Hi. rewrite D2, at_repeat by exact Hi. pose proof (RS1 v H1 i Hi). lra.
Qed.

(** weights as a vector of the linear program, with the tightest slacks *)
Definition pack (c : fembv_cfg R) (k n : nat) (G : mat R) : list R :=
  tab (n_weight_parameters c k n) (fun e => if Nat.ltb e (k * n) then ent G (e / k) (e mod k)
     else let e' := (e - k * n)%nat in Rabs (ent G (S (e' / k)) (e' mod k) - ent G (e' / k) (e' mod k))).
Lemma block_pack c k n G : (0 < k)%nat -> is_mat n k G -> block k n (pack c k n G) = G.
Proof.
  intros Hk HG. apply (mat_ext_R n k); [apply is_mat_mbuild | exact HG|]. intros t i Ht Hi. rewrite ent_block by assumption.
  pose proof (grid_lt k n t i Ht Hi).
  unfold pack, at_. rewrite nth_tab by (unfold n_weight_parameters; destruct (has_max_tv_norm_constraint c); lia).
  destruct (Nat.ltb_spec (t * k + i) (k * n)); [|lia]. destruct (div_grid k t i Hi) as [-> ->]. reflexivity.
Qed.
Lemma slack_pack c k n G t i : has_max_tv_norm_constraint c = true -> (t < n - 1)%nat -> (i < k)%nat ->
  slack k n (pack c k n G) t i = Rabs (ent G (S t) i - ent G t i).
Proof.
  intros Htv Ht Hi. unfold slack, pack, at_. pose proof (grid_lt k (n - 1) t i Ht Hi).
  rewrite nth_tab by (unfold n_weight_parameters; rewrite Htv; lia).
  destruct (Nat.ltb_spec (k * n + t * k + i) (k * n)); [lia|]. cbv zeta. replace (k * n + t * k + i - k * n)%nat with (t * k + i)%nat by lia.
  destruct (div_grid k t i Hi) as [-> ->]. reflexivity.
Qed.
Lemma pack_length c k n G : length (pack c k n G) = n_weight_parameters c k n.
Proof. apply length_tab. Qed.

(** weights that satisfy the documented constraints are feasible, and conversely *)
Lemma feasible_admissible (c : fembv_cfg R) k n Ae be Au bu obj v : (1 < k)%nat -> (0 < n)%nat ->
  initialize_constraints c k n = Ok (Some (Ae, be, Au, bu)) -> length obj = n_weight_parameters c k n ->
  lp_feasible (mk_lp obj Ae be Au bu) v -> admissible (fc_max_tv_norm c) (block k n v).
Proof.
  intros Hk Hn E Lo F. destruct (constraints_meaning c k n Hk Hn) as (Ae' & be' & Au' & bu' & E' & M). rewrite E in E'. injection E' as <- <- <- <-.
  assert (Lv : length v = length obj) by apply F. apply (M obj v Lo Lv) in F. destruct F as [F1 F2]. split; [exact F1|].
  intros C HC HC0 i Hi. cbn [block nc mbuild] in Hi. destruct (F2 C HC HC0) as [F3 F4].
  unfold total_variation. cbn [block nr mbuild]. eapply Rle_trans; [|apply (F4 i Hi)]. apply Sum_le. intros t Ht. apply F3; assumption.
Qed.
Lemma admissible_feasible (c : fembv_cfg R) k n Ae be Au bu obj G : (1 < k)%nat -> (0 < n)%nat ->
  initialize_constraints c k n = Ok (Some (Ae, be, Au, bu)) -> length obj = n_weight_parameters c k n ->
  is_mat n k G -> admissible (fc_max_tv_norm c) G -> lp_feasible (mk_lp obj Ae be Au bu) (pack c k n G).
Proof.
  intros Hk Hn E Lo HG [A1 A2]. destruct (constraints_meaning c k n Hk Hn) as (Ae' & be' & Au' & bu' & E' & M). rewrite E in E'. injection E' as <- <- <- <-.
  apply (M obj _ Lo); [rewrite Lo; apply pack_length|]. rewrite block_pack by (lia || exact HG). split; [exact A1|]. intros C HC HC0.
  assert (Htv : has_max_tv_norm_constraint c = true) by (apply has_tv_true; eauto). destruct HG as (g1 & g2 & _). split.
  - intros t i Ht Hi. rewrite slack_pack by assumption. lra.
  - intros i Hi. specialize (A2 C HC HC0 i ltac:(lia)). unfold total_variation in A2. rewrite g1 in A2.
    erewrite Sum_ext; [exact A2|]. intros t Ht. apply slack_pack; assumption.
Qed.

(** ** the objective *)
Lemma Sum_grid n k f : Sum (n * k) f = Sum n (fun t => Sum k (fun i => f (t * k + i)%nat)).
Proof. induction n as [|n IH]; [reflexivity|]. replace (S n * k)%nat with (n * k + k)%nat by lia. rewrite Sum_split, IH. reflexivity. Qed.
Lemma lp_objective_length (c : fembv_cfg R) k n D : length (lp_objective c k n D) = n_weight_parameters c k n.
Proof.
  unfold lp_objective. rewrite app_length, repeat_length, (flat_map_length_const _ _ k), seq_length by (intros; rewrite map_length, seq_length; reflexivity).
  unfold n_weight_parameters. destruct (has_max_tv_norm_constraint c); lia.
Qed.
Lemma lp_value_cost (c : fembv_cfg R) k n D Ae be Au bu v : (0 < k)%nat -> is_mat n k D ->
  lp_value (mk_lp (lp_objective c k n D) Ae be Au bu) v = clustering_cost (block k n v) D.
Proof.
  intros Hk HD. unfold lp_value, clustering_cost. cbn [lp_c block nr nc mbuild]. rewrite lp_objective_length.
  replace (n_weight_parameters c k n) with (n * k + (n_weight_parameters c k n - n * k))%nat by (unfold n_weight_parameters; destruct (has_max_tv_norm_constraint c); lia).
  rewrite Sum_split. unfold lp_objective.
  change (flat_map (fun t => map (fun i => mget D t i) (seq 0 k)) (seq 0 n)) with (flat_map (fun t => tab k (mget D t)) (seq 0 n)).
  rewrite flat_map_tab_nested by exact Hk.
  rewrite (Sum_zero (n_weight_parameters c k n - n * k)).
  - rewrite Rplus_0_r, Sum_grid. apply Sum_ext. intros t Ht. apply Sum_ext. intros i Hi. rewrite ent_block by assumption.
    unfold at_ at 1. pose proof (grid_lt k n t i Ht Hi). rewrite app_nth1, nth_tab by (rewrite ?length_tab; assumption).
    destruct (div_grid k t i Hi) as [-> ->]. rewrite mget_ent. lra.
  - intros i Hi. unfold at_ at 1. rewrite app_nth2 by (rewrite length_tab; lia). rewrite length_tab.
    replace (n * k + i - n * k)%nat with i by lia. fold (at_ (repeat (n0 : R) (n_weight_parameters c k n - n * k)) i). rewrite at_repeat by exact Hi. numR. lra.
Qed.

(** ** clipping *)
Lemma clip01_id (x : R) : 0 <= x <= 1 -> clip01 x = x.
Proof. intros H. unfold clip01. numR. destruct (Rltb x 0) eqn:E1; [apply Rltb_true in E1; lra|]. destruct (Rltb 1 x) eqn:E2; [apply Rltb_true in E2; lra | reflexivity]. Qed.
Lemma clip01_range (x : R) : 0 <= clip01 x <= 1.
Proof. unfold clip01. numR. destruct (Rltb x 0) eqn:E1; [lra|]. apply Rltb_false in E1. destruct (Rltb 1 x) eqn:E2; [lra|]. apply Rltb_false in E2. lra. Qed.
Lemma clip01_lipschitz (x y : R) : Rabs (clip01 x - clip01 y) <= Rabs (x - y).
Proof.
  unfold clip01. numR.
  destruct (Rltb x 0) eqn:E1; [apply Rltb_true in E1 | apply Rltb_false in E1];
  (destruct (Rltb y 0) eqn:E2; [apply Rltb_true in E2 | apply Rltb_false in E2]);
  try (destruct (Rltb 1 x) eqn:E3; [apply Rltb_true in E3 | apply Rltb_false in E3]);
  try (destruct (Rltb 1 y) eqn:E4; [apply Rltb_true in E4 | apply Rltb_false in E4]);
  unfold Rabs; repeat destruct (Rcase_abs _); lra.
Qed.
Lemma row_stochastic_le1 G t i : row_stochastic G -> (t < nr G)%nat -> (i < nc G)%nat -> 0 <= ent G t i <= 1.
Proof.
  intros H Ht Hi. destruct (H t Ht) as [H1 H2]. split; [apply H1; exact Hi|]. rewrite <- H2. apply (Sum_ge_term (nc G) (fun j => ent G t j)); assumption.
Qed.
Lemma clip_block k n v : row_stochastic (block k n v) ->
  mbuild n k (fun t i => clip01 (vget v (t * k + i)%nat)) = block k n v.
Proof.
  intros H. unfold block. apply (mat_ext_R n k); try apply is_mat_mbuild. intros t i Ht Hi. rewrite !ent_mbuild by assumption. rewrite vget_at.
  apply clip01_id. rewrite <- (ent_block k n) by assumption. apply row_stochastic_le1; [exact H | exact Ht | exact Hi].
Qed.

(** ** the weights update *)
Section Upd.
  Context {P A : Type} (cl : fembv_class R P A) (solver : nat -> lp R -> lp_answer R).
  Definition fok (c : fembv_cfg R) (k n : nat) (w : fws R P) : Prop :=
    is_mat n k (f_Gamma w) /\ is_mat n k (cl_distance cl (f_params w))
    /\ initialize_constraints c k n = Ok (f_cons w).
  Lemma fembv_cost_spec c k n w : fok c k n w -> fembv_cost cl w = clustering_cost (f_Gamma w) (cl_distance cl (f_params w)).
  Proof.
    intros (HG & HD & _). unfold fembv_cost, minner, clustering_cost. rewrite nsum_Sum. apply Sum_ext. intros t _. rewrite nsum_Sum. apply Sum_ext. intros i _.
    rewrite !mget_ent. reflexivity.
  Qed.
  Lemma update_weights_cases c k n w w' : (1 < k)%nat -> (0 < n)%nat -> fok c k n w -> fembv_update_weights cl solver c k w = Ok w' ->
    exists Ae be Au bu, initialize_constraints c k n = Ok (Some (Ae, be, Au, bu)) /\ f_cons w = Some (Ae, be, Au, bu) /\
    let p := mk_lp (lp_objective c k n (cl_distance cl (f_params w))) Ae be Au bu in
    f_params w' = f_params w /\ f_cons w' = f_cons w /\ is_mat n k (f_Gamma w') /\ f_calls w' = S (f_calls w) /\
    ((solver (f_calls w) p = LpFailed /\ f_Gamma w' = f_Gamma w)
     \/ exists sol, solver (f_calls w) p = LpValue sol /\ length sol = n_weight_parameters c k n
        /\ f_Gamma w' = mbuild n k (fun t i => clip01 (vget sol (t * k + i)%nat))).
  Proof.
    intros Hk Hn (HG & HD & Hc) H. unfold fembv_update_weights in H. destruct (Nat.eqb_spec k 1); [lia|].
    pose proof HG as (g1 & g2 & _). pose proof HD as (d1 & d2 & _). rewrite g1, d1, d2, !Nat.eqb_refl in H. cbn [andb negb] in H.
    destruct (f_cons w) as [[[[Ae be] Au] bu]|] eqn:Ec; [|discriminate]. exists Ae, be, Au, bu. split; [exact Hc|]. split; [reflexivity|]. cbv zeta.
    destruct (solver (f_calls w) _) as [|sol| |e] eqn:Es; try discriminate.
    - injection H as <-. cbn. try rewrite Ec. repeat (split; [reflexivity || exact HG|]). left. split; reflexivity.
    - destruct (Nat.eqb_spec (length sol) (n_weight_parameters c k n)) as [El|]; cbn [negb] in H; [|discriminate]. injection H as <-. cbn.
      split; [reflexivity|]. try rewrite Ec. split; [reflexivity|]. split; [apply is_mat_mbuild|]. split; [reflexivity|]. right. exists sol. auto.
  Qed.
  Lemma update_weights_ok c k n w w' : (1 < k)%nat -> (0 < n)%nat -> fok c k n w -> fembv_update_weights cl solver c k w = Ok w' -> fok c k n w'.
  Proof.
    intros Hk Hn H E. pose proof H as (HG & HD & Hc). apply (update_weights_cases c k n) in E; try assumption.
    destruct E as (Ae & be & Au & bu & _ & Ec & E1 & E2 & E3 & _). split; [exact E3|]. rewrite E1, E2. split; [exact HD|]. exact Hc.
  Qed.
  (** a feasible answer gives admissible weights *)
  Lemma update_weights_admissible c k n w w' : (1 < k)%nat -> (0 < n)%nat -> fok c k n w ->
    (forall i p sol, solver i p = LpValue sol -> lp_feasible p sol) ->
    fembv_update_weights cl solver c k w = Ok w' ->
    f_Gamma w' = f_Gamma w \/ admissible (fc_max_tv_norm c) (f_Gamma w').
  Proof.
    intros Hk Hn H Hs E. apply (update_weights_cases c k n) in E; try assumption.
    destruct E as (Ae & be & Au & bu & Hc & Ec & E1 & E2 & E3 & E4 & [[_ ->]|(sol & E5 & E6 & ->)]); [left; reflexivity|]. right.
    apply Hs in E5. apply (feasible_admissible c k n) in E5; try assumption; [|apply lp_objective_length].
    rewrite clip_block by apply E5. exact E5.
  Qed.
  (** an optimal answer gives weights of least cost *)
  Lemma update_weights_optimal c k n w w' : (1 < k)%nat -> (0 < n)%nat -> fok c k n w ->
    (forall i p sol, solver i p = LpValue sol -> lp_optimal p sol) ->
    fembv_update_weights cl solver c k w = Ok w' ->
    f_Gamma w' = f_Gamma w \/
    (admissible (fc_max_tv_norm c) (f_Gamma w') /\
     forall G, is_mat n k G -> admissible (fc_max_tv_norm c) G ->
       clustering_cost (f_Gamma w') (cl_distance cl (f_params w)) <= clustering_cost G (cl_distance cl (f_params w))).
  Proof.
    intros Hk Hn H Hs E. pose proof H as (_ & HD & _). apply (update_weights_cases c k n) in E; try assumption.
    destruct E as (Ae & be & Au & bu & Hc & Ec & E1 & E2 & E3 & E4 & [[_ ->]|(sol & E5 & E6 & ->)]); [left; reflexivity|]. right.
    apply Hs in E5. destruct E5 as [F1 F2]. pose proof F1 as F3. apply (feasible_admissible c k n) in F3; try assumption; [|apply lp_objective_length].
    rewrite clip_block by apply F3. split; [exact F3|]. intros G HG AG.
    specialize (F2 (pack c k n G)). rewrite !lp_value_cost, block_pack in F2 by (lia || assumption). apply F2.
    apply (admissible_feasible c k n); try assumption. apply lp_objective_length.
  Qed.
End Upd.

(** ** k-means *)
Definition kmok (n d k : nat) (X : mat R) (s : kmeans R) : Prop := km_X s = X /\ is_mat n d X /\ is_mat k d (km_Theta s).
Lemma kmeans_distance_spec n d k X s t j : kmok n d k X s -> (t < n)%nat -> (j < k)%nat ->
  ent (kmeans_distance s) t j = centroid_dist2 X (km_Theta s) t j.
Proof.
  intros (<- & (x1 & x2 & _) & (t1 & t2 & _)) Ht Hj. unfold kmeans_distance. rewrite ent_mbuild by lia. unfold centroid_dist2, nsq. numR.
  rewrite nsum_Sum, (Sum_ext _ _ (fun f => (ent (km_X s) t f - ent (km_Theta s) j f) ^ 2)).
  - rewrite sqrt_sqrt; [reflexivity|]. apply Sum_sq_nonneg.
  - intros f Hf. change (mget (km_X s) t f) with (ent (km_X s) t f). change (mget (km_Theta s) j f) with (ent (km_Theta s) j f). ring.
Qed.
Lemma kmeans_distance_mat n d k X s : kmok n d k X s -> is_mat n k (kmeans_distance s).
Proof. intros (<- & (x1 & x2 & _) & (t1 & t2 & _)). unfold kmeans_distance. rewrite x1, t1. apply is_mat_mbuild. Qed.
Lemma kmeans_cost_spec n d k X s G : kmok n d k X s -> is_mat n k G ->
  clustering_cost G (kmeans_distance s) = kmeans_cost X G (km_Theta s).
Proof.
  intros H (g1 & g2 & _). unfold clustering_cost, kmeans_cost. apply Sum_ext. intros t Ht. apply Sum_ext. intros j Hj.
  rewrite (kmeans_distance_spec n d k X) by (assumption || lia). reflexivity.
Qed.
Lemma kmeans_update_spec n d k X s s' G : kmok n d k X s -> is_mat n k G -> kmeans_update G s = Ok s' ->
  kmok n d k X s' /\ forall j f, (j < k)%nat -> (f < d)%nat ->
    ent (km_Theta s') j f = Sum n (fun t => ent G t j * ent X t f) / Sum n (fun t => ent G t j).
Proof.
  intros (<- & HX & HT) (g1 & g2 & _) H. unfold kmeans_update in H. injection H as <-. pose proof HX as (x1 & x2 & _).
  cbn [nr nc mmul mtr mbuild]. rewrite g2, x2. split.
  - split; [reflexivity|]. split; [exact HX|]. cbn [km_Theta]. apply is_mat_mbuild.
  - intros j f Hj Hf. cbn [km_Theta]. rewrite ent_mbuild by assumption. rewrite mget_ent, ent_mmul by (cbn [nr mtr mbuild]; lia).
    unfold vget. rewrite nth_tab by exact Hj. numR. cbn [nc mtr mbuild]. rewrite g1, (nsum_Sum n (fun t => mget G t j)). f_equal.
    apply Sum_ext. intros t Ht. rewrite ent_mtr by lia. reflexivity.
Qed.
(** the weighted mean minimises the weighted squared distance *)
Lemma weighted_mean n (g x : nat -> R) th : 0 < Sum n g ->
  Sum n (fun t => g t * (x t - Sum n (fun t => g t * x t) / Sum n g) ^ 2) <= Sum n (fun t => g t * (x t - th) ^ 2).
Proof.
  intros H. set (M := Sum n g) in *. set (m := Sum n (fun t => g t * x t) / M).
  assert (E : Sum n (fun t => g t * (x t - th) ^ 2) = Sum n (fun t => g t * (x t - m) ^ 2) + M * (m - th) ^ 2).
  { rewrite (Sum_ext n (fun t => g t * (x t - th) ^ 2) (fun t => (g t * (x t - m) ^ 2 + (m - th) ^ 2 * g t) + 2 * (m - th) * (g t * x t - m * g t))) by (intros; ring).
    rewrite !Sum_plus, !Sum_scal_l, Sum_minus, Sum_scal_l. fold M. replace (Sum n (fun t => g t * x t)) with (m * M) by (unfold m; field; lra). ring. }
  rewrite E. pose proof (pow2_ge_0 (m - th)). nra.
Qed.
Lemma kmeans_update_minimises n d k X s s' G Theta : kmok n d k X s -> is_mat n k G -> kmeans_update G s = Ok s' ->
  (forall j, (j < k)%nat -> 0 < Sum n (fun t => ent G t j)) ->
  kmeans_cost X G (km_Theta s') <= kmeans_cost X G Theta.
Proof.
  intros H HG E Hp. pose proof H as (_ & (x1 & x2 & _) & _). pose proof HG as (g1 & g2 & _). apply (kmeans_update_spec n d k X) in E; try assumption. destruct E as [_ E].
  assert (S : forall Th, kmeans_cost X G Th = Sum k (fun j => Sum d (fun f => Sum n (fun t => ent G t j * (ent X t f - ent Th j f) ^ 2)))).
  { intros Th. unfold kmeans_cost, centroid_dist2. rewrite g1, g2, x2, Sum_swap. apply Sum_ext. intros j _. rewrite Sum_swap. apply Sum_ext. intros t _.
    rewrite <- Sum_scal_l. reflexivity. }
  rewrite !S. apply Sum_le. intros j Hj. apply Sum_le. intros f Hf. rewrite (E j f Hj Hf). apply (weighted_mean n (fun t => ent G t j) (fun t => ent X t f)). apply Hp. exact Hj.
Qed.
