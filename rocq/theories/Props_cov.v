(** C85: the noise covariance of a local VARX model. *)
From Coq Require Import List Arith Lia ZArith Reals Lra.
From Verif Require Import Num Mat Py M_varx Spec Spec_varx.
From Verif Require Import P_lin P_random P_mat P_varx Props_varx.
Import ListNotations.
Local Open Scope R_scope.

(** the residual products of the samples after the first [q], weighted *)
Definition scatter (q : nat) (res : mat R) (w : nat -> R) (i j : nat) : R :=
  Sum (nr res - q) (fun t => w (q + t)%nat * (ent res (q + t) i * ent res (q + t) j)).
(** the number the scatter is divided by: degrees of freedom without weights, total weight minus one with *)
Definition cov_divisor (p s n d e : nat) (w : option (list R)) : R :=
  match w with
  | None => IZR (Z.of_nat n - Z.of_nat (Nat.max p s) - Z.of_nat (p * d) - 1 - Z.of_nat (e * (1 + s)))
  | Some ws => Sum (n - Nat.max p s) (fun t => at_ ws (Nat.max p s + t)) - 1
  end.
Definition weight_fun (w : option (list R)) (t : nat) : R := match w with None => 1 | Some ws => at_ ws t end.
Definition exog_count (u : option (mat R)) : nat := match u with Some U => nc U | None => 0 end.

Lemma fit_parts lstsq inv m w m' : varx_fit (N := Num_R) lstsq inv m w = Ok m' -> vx_Sigma_u m' = varx_covariance m w (vx_residuals m') /\ exists B, varx_params lstsq m w = Ok B.
Proof.
  unfold varx_fit. intros H. apply bind_ok in H. destruct H as (B & EB & H). apply bind_ok in H. destruct H as (S & ES & H). injection H as <-. cbn [vx_Sigma_u vx_residuals]. split; [reflexivity|]. exists B. exact EB.
Qed.
Lemma skipn_sum q (ws : list R) : @vsum R Num_R (skipn q ws) = Sum (length ws - q) (fun t => at_ ws (q + t)).
Proof. unfold vsum. rewrite nsum_Sum, skipn_length. apply Sum_ext. intros t Ht. unfold vget, at_. rewrite nth_skipn'. reflexivity. Qed.
Lemma covariance_entry m w res n d q i j : vx_y m = vx_y m -> nr (vx_y m) = n -> nc (vx_y m) = d -> Nat.max (vx_p m) (vx_s m) = q -> is_mat n d res ->
  (forall ws, w = Some ws -> length ws = n /\ forall t, (t < n)%nat -> 0 <= at_ ws t) -> (i < d)%nat -> (j < d)%nat ->
  is_mat d d (varx_covariance m w res)
  /\ ent (varx_covariance m w res) i j = scatter q res (weight_fun w) i j / cov_divisor (vx_p m) (vx_s m) n d (exog_count (vx_u m)) w.
Proof.
  intros _ Hn Hd Hq HR HW Hi Hj. pose proof HR as HR'. destruct HR' as (R1 & R2 & _). unfold varx_covariance, cov_divisor, scatter. rewrite Hn, Hd, Hq, R1.
  destruct w as [ws|].
  - destruct (HW ws eq_refl) as [HL HN]. cbn [weight_fun]. rewrite skipn_sum, HL.
    set (rr := mslice q n res). assert (rs : nr rr = (n - q)%nat /\ nc rr = d) by (unfold rr; cbn [mslice mbuild nr nc]; rewrite R1, R2, Nat.min_id; auto). destruct rs as [r1 r2].
    set (wr := mul_rows _ rr). assert (wr1 : nr wr = (n - q)%nat /\ nc wr = d) by (unfold wr; cbn [mul_rows mbuild nr nc]; auto). destruct wr1 as [w1 w2].
    split.
    + unfold mmap. cbn [nr nc mmul mbuild mtr]. rewrite w2. apply is_mat_mbuild.
    + unfold mmap. rewrite ent_mbuild by (cbn [nr nc mmul mbuild mtr]; lia). rewrite mget_ent, ent_mmul by (cbn [nr mtr mbuild]; lia). cbn [nc mtr mbuild]. rewrite w1.
      change (ndiv (Num := Num_R)) with Rdiv. f_equal. apply Sum_ext. intros t Ht. rewrite ent_mtr by lia. unfold wr. rewrite !ent_mul_rows by lia. unfold rr. rewrite !ent_mslice by (rewrite ?R1, ?R2, ?Nat.min_id; assumption).
      assert (Er : at_ (map nsqrt (skipn q ws)) t * at_ (map nsqrt (skipn q ws)) t = at_ ws (q + t)).
      { unfold at_. rewrite (nth_indep _ _ (nsqrt n0)) by (rewrite map_length, skipn_length; lia). rewrite map_nth, nth_skipn'.
        change (sqrt (at_ ws (q + t)) * sqrt (at_ ws (q + t)) = at_ ws (q + t)). apply sqrt_sqrt, HN. lia. }
      rewrite <- Er. ring.
  - cbn [weight_fun]. set (rr := mslice q n res). assert (rs : nr rr = (n - q)%nat /\ nc rr = d) by (unfold rr; cbn [mslice mbuild nr nc]; rewrite R1, R2, Nat.min_id; auto). destruct rs as [r1 r2].
    split.
    + unfold mmap. cbn [nr nc mmul mbuild mtr]. rewrite r2. apply is_mat_mbuild.
    + unfold mmap. rewrite ent_mbuild by (cbn [nr nc mmul mbuild mtr]; lia). rewrite mget_ent, ent_mmul by (cbn [nr mtr mbuild]; lia). cbn [nc mtr mbuild]. rewrite r1.
      change (ndiv (Num := Num_R)) with Rdiv. f_equal.
      * apply Sum_ext. intros t Ht. rewrite ent_mtr by lia. unfold rr. rewrite !ent_mslice by (rewrite ?R1, ?R2, ?Nat.min_id; assumption). ring.
      * cbn [nofZ Num_R]. f_equal. unfold exog_count. destruct (vx_u m); reflexivity.
Qed.

(** the reported covariance is the scatter of the reported residuals divided by the degrees of freedom, or
    by the total weight minus one; it is symmetric (numpy reports infinities or NaN when the divisor is 0) *)
Theorem C85_covariance : forall lstsq inv y p u s m0 ws m w m', lstsq_shape lstsq ->
  varx_new y p u s = Ok m0 -> varx_fits lstsq inv m0 ws = Ok m -> varx_fit lstsq inv m w = Ok m' ->
  (forall v, w = Some v -> forall t, (t < nr y)%nat -> 0 <= at_ v t) ->
  let q := Nat.max (vx_p m0) (vx_s m0) in
  let D := cov_divisor (vx_p m0) (vx_s m0) (nr y) (nc y) (exog_count u) w in
  is_mat (nc y) (nc y) (vx_Sigma_u m')
  /\ (D <> 0 -> forall i j, (i < nc y)%nat -> (j < nc y)%nat ->
       ent (vx_Sigma_u m') i j = scatter q (vx_residuals m') (weight_fun w) i j / D
       /\ ent (vx_Sigma_u m') i j = ent (vx_Sigma_u m') j i).
Proof.
  intros lstsq inv y p u s m0 ws m w m' Hs E0 E1 E2 HW q D. destruct (new_ok _ _ _ _ _ E0) as [L0 Hu]. pose proof (fits_ok _ _ _ _ _ _ Hs Hu ws m0 m L0 E1) as L.
  destruct (fit_inv lstsq inv Hs _ _ _ _ _ _ _ L Hu E2) as (_ & _ & _ & _ & L' & _). destruct (fit_parts _ _ _ _ _ E2) as (ES & B & EB).
  assert (HL : forall v, w = Some v -> length v = nr y /\ forall t, (t < nr y)%nat -> 0 <= at_ v t).
  { intros v Ev. split; [|apply HW; exact Ev]. subst w. unfold varx_params in EB. destruct L as (_ & _ & H3 & _). rewrite H3 in EB. destruct (Nat.eqb_spec (length v) (nr y)); [assumption|discriminate EB]. }
  destruct L as (H1 & H2 & H3 & H4 & _). destruct L' as (_ & _ & _ & _ & _ & HR & _).
  assert (Q : forall i j, (i < nc y)%nat -> (j < nc y)%nat -> is_mat (nc y) (nc y) (vx_Sigma_u m') /\ ent (vx_Sigma_u m') i j = scatter q (vx_residuals m') (weight_fun w) i j / D).
  { intros i j Hi Hj. rewrite ES. destruct (covariance_entry m w (vx_residuals m') (nr y) (nc y) q i j) as [A1 A2]; try assumption; try reflexivity.
    - rewrite H3. reflexivity.
    - rewrite H3. reflexivity.
    - unfold q. rewrite H1, H2. reflexivity.
    - split; [exact A1|]. rewrite A2, H1, H2, H4. reflexivity. }
  split.
  - destruct (nc y) as [|d'] eqn:Ed; [|apply (Q 0%nat 0%nat); lia]. rewrite ES. unfold varx_covariance. rewrite H3, Ed. destruct HR as (_ & R2 & _).
    destruct w; unfold mmap; cbn [nr nc mmul mbuild mtr mul_rows mslice]; rewrite R2; apply is_mat_mbuild.
  - intros _ i j Hi Hj. destruct (Q i j Hi Hj) as [_ A1]. destruct (Q j i Hj Hi) as [_ A2]. split; [exact A1|]. rewrite A1, A2. f_equal. unfold scatter. apply Sum_ext. intros t Ht. ring.
Qed.
Print Assumptions C85_covariance.

(** with nonnegative weights the quadratic form of the covariance has the sign of the divisor: a component
    whose samples carry a total weight below one is reported a negative semidefinite "covariance" *)
Theorem C85_sign : forall lstsq inv y p u s m0 ws m w m', lstsq_shape lstsq ->
  varx_new y p u s = Ok m0 -> varx_fits lstsq inv m0 ws = Ok m -> varx_fit lstsq inv m w = Ok m' ->
  (forall v, w = Some v -> forall t, (t < nr y)%nat -> 0 <= at_ v t) ->
  let D := cov_divisor (vx_p m0) (vx_s m0) (nr y) (nc y) (exog_count u) w in
  forall x : nat -> R,
  (0 < D -> 0 <= Sum (nc y) (fun i => Sum (nc y) (fun j => x i * ent (vx_Sigma_u m') i j * x j)))
  /\ (D < 0 -> Sum (nc y) (fun i => Sum (nc y) (fun j => x i * ent (vx_Sigma_u m') i j * x j)) <= 0).
Proof.
  intros lstsq inv y p u s m0 ws m w m' Hs E0 E1 E2 HW D x. destruct (C85_covariance lstsq inv y p u s m0 ws m w m' Hs E0 E1 E2 HW) as [_ H]. cbv zeta in H. fold D in H.
  set (q := Nat.max (vx_p m0) (vx_s m0)) in H.
  destruct (new_ok _ _ _ _ _ E0) as [L0 Hu]. pose proof (fits_ok _ _ _ _ _ _ Hs Hu ws m0 m L0 E1) as L.
  destruct (fit_inv lstsq inv Hs _ _ _ _ _ _ _ L Hu E2) as (_ & _ & _ & _ & L' & _). destruct L' as (_ & _ & _ & _ & _ & (R1 & R2 & _) & _).
  set (n' := (nr (vx_residuals m') - q)%nat).
  assert (E : D <> 0 -> Sum (nc y) (fun i => Sum (nc y) (fun j => x i * ent (vx_Sigma_u m') i j * x j))
    = Sum n' (fun t => weight_fun w (q + t) * (Sum (nc y) (fun i => x i * ent (vx_residuals m') (q + t) i)) ^ 2) / D).
  { intros HD. specialize (H HD). rewrite (Sum_ext (nc y) _ (fun i => Sum n' (fun t => Sum (nc y) (fun j => weight_fun w (q + t) * (x i * ent (vx_residuals m') (q + t) i) * (x j * ent (vx_residuals m') (q + t) j))) / D)).
    - rewrite Sum_div. f_equal. rewrite Sum_swap. apply Sum_ext. intros t Ht. cbn [pow]. rewrite Rmult_1_r, Sum_mult, <- Sum_scal_l. apply Sum_ext. intros i Hi. rewrite <- Sum_scal_l. apply Sum_ext. intros j Hj. ring.
    - intros i Hi. rewrite Sum_swap, <- Sum_div. apply Sum_ext. intros j Hj. rewrite (proj1 (H i j Hi Hj)). unfold scatter. fold n'.
      unfold Rdiv. rewrite <- Rmult_assoc, <- Sum_scal_l. rewrite Rmult_assoc, (Rmult_comm (/ D)), <- Rmult_assoc, <- Sum_scal_r. f_equal. apply Sum_ext. intros t Ht. ring. }
  assert (P : 0 <= Sum n' (fun t => weight_fun w (q + t) * (Sum (nc y) (fun i => x i * ent (vx_residuals m') (q + t) i)) ^ 2)).
  { apply Sum_nonneg. intros t Ht. apply Rmult_le_pos; [|apply pow2_ge_0]. destruct w as [v|]; cbn [weight_fun]; [|lra]. apply (HW v eq_refl). unfold n' in Ht. lia. }
  split; intros HD; (rewrite E by lra).
  - apply Rmult_le_pos; [exact P|]. left. apply Rinv_0_lt_compat, HD.
  - assert (Q : / D < 0) by (apply Rinv_lt_0_compat; exact HD). unfold Rdiv. apply Rmult_le_compat_neg_l with (r := / D) in P; [|lra]. rewrite Rmult_0_r in P. rewrite Rmult_comm. lra.
Qed.
Print Assumptions C85_sign.

(** unit weights give the same model as no weights, but another covariance: the degrees of freedom do not
    count the coefficients *)
Lemma at_ones n t : (t < n)%nat -> at_ (repeat 1 n) t = 1.
Proof. revert t. induction n as [|n IH]; intros [|t] H; cbn; try lia; [reflexivity|]. apply IH. lia. Qed.
Lemma sqrt_ones n : map (@nsqrt R Num_R) (repeat 1 n) = repeat 1 n.
Proof. induction n as [|n IH]; [reflexivity|]. cbn [repeat map]. rewrite IH. cbn [nsqrt Num_R]. rewrite sqrt_1. reflexivity. Qed.
Lemma mul_rows_ones k (M : mat R) : wf M -> nr M = k -> mul_rows (map nsqrt (repeat 1 k)) M = M.
Proof.
  intros W E. assert (I : is_mat k (nc M) M) by (split; [exact E|]; split; [reflexivity|rewrite <- E; exact W]). apply (mat_ext_R k (nc M)).
  - unfold mul_rows. rewrite E. apply is_mat_mbuild.
  - exact I.
  - intros i j Hi Hj. rewrite ent_mul_rows by lia. rewrite sqrt_ones, at_ones by exact Hi. ring.
Qed.
Lemma skipn_repeat {A} (x : A) q n : skipn q (repeat x n) = repeat x (n - q).
Proof. revert n. induction q as [|q IH]; intros [|n]; cbn; auto. Qed.
Lemma unit_params lstsq m y p u s : local_ok y p u s m -> varx_params lstsq m (Some (repeat 1 (nr y))) = varx_params lstsq m None.
Proof.
  intros (H1 & H2 & H3 & H4 & H5 & _). unfold varx_params. rewrite H3, repeat_length, Nat.eqb_refl. cbn [negb]. rewrite H1, H2, skipn_repeat.
  rewrite (mul_rows_ones _ (vx_z m)); [|apply H5|apply H5]. rewrite (mul_rows_ones _ (mslice (Nat.max p s) (nr y) y)); [reflexivity|apply wf_mbuild|]. cbn [mslice mbuild nr]. rewrite Nat.min_id. reflexivity.
Qed.
Theorem C85_unit_weights : forall lstsq inv y p u s m0 ws m m1 m2, lstsq_shape lstsq ->
  varx_new y p u s = Ok m0 -> varx_fits lstsq inv m0 ws = Ok m ->
  varx_fit lstsq inv m None = Ok m1 -> varx_fit lstsq inv m (Some (repeat 1 (nr y))) = Ok m2 ->
  vx_mu m2 = vx_mu m1 /\ vx_A m2 = vx_A m1 /\ vx_B m2 = vx_B m1 /\ vx_B0 m2 = vx_B0 m1 /\ vx_residuals m2 = vx_residuals m1
  /\ let q := Nat.max (vx_p m0) (vx_s m0) in
     let total := INR (nr y - q) in
     let coefficients := INR (vx_p m0 * nc y + exog_count u * (1 + vx_s m0)) in
     (q <= nr y)%nat -> total - 1 <> 0 -> total - 1 - coefficients <> 0 ->
     forall i j, (i < nc y)%nat -> (j < nc y)%nat ->
       (total - 1) * ent (vx_Sigma_u m2) i j = (total - 1 - coefficients) * ent (vx_Sigma_u m1) i j.
Proof.
  intros lstsq inv y p u s m0 ws m m1 m2 Hs E0 E1 F1 F2.
  destruct (new_ok _ _ _ _ _ E0) as [L0 Hu]. pose proof (fits_ok _ _ _ _ _ _ Hs Hu ws m0 m L0 E1) as L.
  assert (HP : varx_params lstsq m (Some (repeat 1 (nr y))) = varx_params lstsq m None).
  { eapply unit_params, L. }
  assert (S : vx_mu m2 = vx_mu m1 /\ vx_A m2 = vx_A m1 /\ vx_B m2 = vx_B m1 /\ vx_B0 m2 = vx_B0 m1 /\ vx_residuals m2 = vx_residuals m1).
  { unfold varx_fit in F1, F2. rewrite HP in F2. apply bind_ok in F1. destruct F1 as (B & EB & F1). rewrite EB in F2. cbn [bind] in F2.
    apply bind_ok in F1. destruct F1 as (S1 & _ & F1). apply bind_ok in F2. destruct F2 as (S2 & _ & F2). injection F1 as <-. injection F2 as <-. cbn [vx_mu vx_A vx_B vx_B0 vx_residuals]. auto 6. }
  destruct S as (S1 & S2 & S3 & S4 & S5). do 5 (split; [assumption|]). intros q total coefficients Hq HT HC i j Hi Hj.
  destruct (C85_covariance lstsq inv y p u s m0 ws m None m1 Hs E0 E1 F1) as [_ Q1]; [discriminate|].
  destruct (C85_covariance lstsq inv y p u s m0 ws m (Some (repeat 1 (nr y))) m2 Hs E0 E1 F2) as [_ Q2].
  { intros v [= <-] t Ht. rewrite at_ones by exact Ht. lra. }
  assert (D2 : cov_divisor (vx_p m0) (vx_s m0) (nr y) (nc y) (exog_count u) (Some (repeat 1 (nr y))) = total - 1).
  { cbn [cov_divisor]. fold q. f_equal. unfold total. rewrite (Sum_ext (nr y - q) _ (fun _ => 1)).
    - generalize (nr y - q)%nat. induction n as [|n IH]; cbn [Sum]; [reflexivity|]. rewrite IH, S_INR. reflexivity.
    - intros t Ht. rewrite at_ones by lia. reflexivity. }
  assert (D1 : cov_divisor (vx_p m0) (vx_s m0) (nr y) (nc y) (exog_count u) None = total - 1 - coefficients).
  { cbn [cov_divisor]. fold q. unfold total, coefficients. rewrite !INR_IZR_INZ, <- !minus_IZR. f_equal. lia. }
  cbv zeta in Q1, Q2. rewrite D1 in Q1. rewrite D2 in Q2. rewrite (proj1 (Q1 HC i j Hi Hj)), (proj1 (Q2 HT i j Hi Hj)). rewrite S5. fold q.
  destruct (fit_inv lstsq inv Hs _ _ _ _ _ _ _ L Hu F1) as (_ & _ & _ & _ & L' & _). destruct L' as (_ & _ & _ & _ & _ & (R1 & R2 & _) & _).
  replace (scatter q (vx_residuals m1) (weight_fun (Some (repeat 1 (nr y)))) i j) with (scatter q (vx_residuals m1) (weight_fun None) i j).
  2:{ unfold scatter. apply Sum_ext. intros t Ht. cbn [weight_fun]. f_equal. rewrite at_ones by lia. reflexivity. }
  field. split; assumption.
Qed.
Print Assumptions C85_unit_weights.

(** two samples 0, 1 of weight 1/4 each, no memory: the reported variance is -1/4 *)
Definition ec_y : mat R := mkmat 2 1 [[0]; [1]].
Example C85_negative_variance : exists m0 m', varx_new ec_y (PInt 0) None (PInt 0) = Ok m0 /\ varx_fits ev_lstsq ev_inv m0 [] = Ok m0
  /\ varx_fit ev_lstsq ev_inv m0 (Some [1/4; 1/4]) = Ok m' /\ cov_divisor (vx_p m0) (vx_s m0) 2 1 0 (Some [1/4; 1/4]) = - (1/2) /\ ent (vx_Sigma_u m') 0 0 = - (1/4).
Proof.
  destruct (C47_design_matrix R Num_R ec_y 0 None 0) as (m0 & E0 & F1 & F2 & F3 & F4 & F5 & F6 & _ & F7); try (cbn [ec_y nr nc Nat.max]; lia); [discriminate|].
  cbn [ec_y nr nc Nat.max Nat.sub Nat.mul Nat.add] in F5, F6.
  assert (Z0 : forall t, (t < 2)%nat -> ent (vx_z m0) t 0 = 1) by (intros t Ht; apply F7; cbn; lia).
  assert (SQ : sqrt (1/4) = 1/2) by (replace (1/4) with (1/2 * (1/2)) by field; apply sqrt_square; lra).
  assert (EB : exists B, varx_params ev_lstsq m0 (Some [1/4; 1/4]) = Ok B /\ ent B 0 0 = 1/2).
  { unfold varx_params. rewrite F1, F2, F3. cbn [ec_y nr length Nat.eqb negb Nat.max skipn map nsqrt Num_R]. rewrite SQ. set (Zw := mul_rows _ (vx_z m0)). set (Yw := mul_rows _ (mslice _ _ _)).
    assert (zc : nc Zw = 1%nat) by (change (nc (vx_z m0) = 1%nat); rewrite F6; reflexivity). assert (yr : nr Yw = 2%nat) by reflexivity. unfold ev_lstsq. rewrite zc. eexists. split; [reflexivity|].
    rewrite ent_mbuild by (cbn; lia). rewrite yr. cbn [Sum]. unfold Zw, Yw. rewrite !ent_mul_rows by (rewrite ?F5, ?F6; cbn; lia). rewrite !Z0 by lia. rewrite !ent_mslice by (cbn; lia). unfold ent, at_. cbn. field. }
  destruct EB as (B & EB & B0).
  assert (EF : exists m', varx_fit ev_lstsq ev_inv m0 (Some [1/4; 1/4]) = Ok m') by (unfold varx_fit; rewrite EB; unfold ev_inv; cbn [bind]; eauto). destruct EF as (m' & EF).
  exists m0, m'. split; [exact E0|]. split; [reflexivity|]. split; [exact EF|]. assert (ED : cov_divisor (vx_p m0) (vx_s m0) 2 1 0 (Some [1/4; 1/4]) = - (1/2)) by (rewrite F1, F2; unfold cov_divisor, at_; cbn; lra). split; [exact ED|].
  destruct (C85_covariance ev_lstsq ev_inv ec_y _ _ _ m0 [] m0 _ m' ev_lstsq_shape E0 eq_refl EF) as [_ Q].
  { intros v [= <-] t Ht. cbn in Ht. destruct t as [|[|t]]; [| |lia]; unfold at_; cbn; lra. }
  cbv zeta in Q. cbn [ec_y nr nc exog_count] in Q. rewrite ED in Q. rewrite (proj1 (Q ltac:(lra) 0%nat 0%nat ltac:(lia) ltac:(lia))).
  assert (RS : forall t, (t < 2)%nat -> ent (vx_residuals m') t 0 = ent ec_y t 0 - 1/2).
  { destruct (new_ok _ _ _ _ _ E0) as [L0 Hu]. destruct (fit_inv ev_lstsq ev_inv ev_lstsq_shape _ _ _ _ _ _ _ L0 Hu EF) as (B' & S & EB' & SB & _ & F & _). rewrite EB in EB'. injection EB' as <-.
    destruct (C48_residuals ev_lstsq ev_inv ec_y _ _ _ m0 [] m0 _ m' ev_lstsq_shape E0 eq_refl EF) as (_ & _ & _ & RE). intros t Ht. rewrite RE by (cbn; lia). rewrite F1, F2. cbn [Nat.max Nat.ltb Nat.leb]. f_equal.
    pose proof (forecast_fitted m0 B m' 0 0 t 0 F F1 F2) as FF. rewrite F3, F4 in FF. rewrite FF; [|apply SB|destruct SB as (-> & _); lia|cbn; lia]. unfold design_row. cbn [Sum nc ec_y Nat.sub Nat.mul Nat.add]. rewrite B0. ring. }
  assert (NR : nr (vx_residuals m') = 2%nat) by (destruct (C48_residuals ev_lstsq ev_inv ec_y _ _ _ m0 [] m0 _ m' ev_lstsq_shape E0 eq_refl EF) as (_ & _ & (N1 & _) & _); exact N1).
  unfold scatter. rewrite NR, F1, F2. cbn [Nat.max Nat.sub Sum Nat.add weight_fun]. rewrite !RS by lia. unfold ent, at_. cbn. field.
Qed.
(** the autoregressive model of the C48 example: 2 * (covariance with unit weights) = 1 * (covariance without) *)
Example C85_unit_weights_example : exists m0 m1 m2, varx_new ev_y (PInt 1) None (PInt 0) = Ok m0
  /\ varx_fit ev_lstsq ev_inv m0 None = Ok m1 /\ varx_fit ev_lstsq ev_inv m0 (Some (repeat 1 (nr ev_y))) = Ok m2
  /\ ent (vx_Sigma_u m1) 0 0 = 2 /\ ent (vx_Sigma_u m2) 0 0 = 1.
Proof.
  destruct (C47_design_matrix R Num_R ev_y 1 None 0) as (m0 & E0 & F1 & F2 & F3 & F4 & F5 & F6 & _ & F7); try (cbn [ev_y nr nc Nat.max]; lia); [discriminate|].
  cbn [ev_y nr nc Nat.max Nat.sub Nat.mul Nat.add] in F5, F6. destruct (new_ok _ _ _ _ _ E0) as [L0 Hu].
  assert (Z0 : forall t, (t < 3)%nat -> ent (vx_z m0) t 0 = 1) by (intros t Ht; apply F7; cbn; lia).
  assert (Z1 : forall t, (t < 3)%nat -> ent (vx_z m0) t 1 = ent ev_y t 0).
  { intros t Ht. destruct (F7 t ltac:(cbn; lia)) as (_ & G & _). specialize (G 1%nat 0%nat ltac:(lia) ltac:(cbn; lia)). rewrite mget_ent in G.
    change (1 + (1 - 1) * nc ev_y + 0)%nat with 1%nat in G. rewrite G, mget_ent. f_equal. cbn. lia. }
  assert (Y0 : forall t, (t < 3)%nat -> ent (mslice 1 4 ev_y) t 0 = ent ev_y (1 + t) 0) by (intros t Ht; rewrite ent_mslice by (cbn; lia); reflexivity).
  assert (EB : exists B, varx_params ev_lstsq m0 None = Ok B /\ ent B 0 0 = 1 /\ ent B 1 0 = 1).
  { unfold varx_params. rewrite F1, F2, F3. change (nr ev_y) with 4%nat. change (Nat.max 1 0) with 1%nat. set (Y := mslice 1 4 ev_y) in *. assert (nY : nr Y = 3%nat) by reflexivity. unfold ev_lstsq. rewrite F6, nY. cbn [Sum]. rewrite !Z0, !Z1 by lia.
    destruct (Req_EM_T _ 0) as [E|E]; [exfalso; unfold ent in E; cbn in E; lra|]. eexists. split; [reflexivity|]. rewrite !ent_mbuild by (cbn; lia). cbn [Nat.eqb]. rewrite ?Z0, ?Z1, ?Y0 by lia. unfold ent; cbn. split; field; lra. }
  destruct EB as (B & EB & B0 & B1).
  assert (EF : exists m1, varx_fit ev_lstsq ev_inv m0 None = Ok m1) by (unfold varx_fit; rewrite EB; unfold ev_inv; cbn [bind]; eauto). destruct EF as (m1 & EF).
  assert (EG : exists m2, varx_fit ev_lstsq ev_inv m0 (Some (repeat 1 (nr ev_y))) = Ok m2) by (unfold varx_fit; rewrite (unit_params _ _ _ _ _ _ L0), EB; unfold ev_inv; cbn [bind]; eauto). destruct EG as (m2 & EG).
  exists m0, m1, m2. split; [exact E0|]. split; [exact EF|]. split; [exact EG|].
  assert (RS : forall t, (1 <= t < 4)%nat -> ent (vx_residuals m1) t 0 = ent ev_y t 0 - (1 + ent ev_y (t - 1) 0)).
  { destruct (fit_inv ev_lstsq ev_inv ev_lstsq_shape _ _ _ _ _ _ _ L0 Hu EF) as (B' & S & EB' & SB & _ & F & _). rewrite EB in EB'. injection EB' as <-.
    destruct (C48_residuals ev_lstsq ev_inv ev_y _ _ _ m0 [] m0 _ m1 ev_lstsq_shape E0 eq_refl EF) as (_ & _ & _ & RE). intros t Ht. rewrite RE by (cbn; lia). rewrite F1, F2. cbn [Nat.max]. destruct (Nat.ltb_spec t 1); [lia|]. f_equal.
    pose proof (forecast_fitted m0 B m1 1 0 t 0 F F1 F2) as FF. rewrite F3, F4 in FF. rewrite FF; [|apply SB|destruct SB as (-> & _); lia|cbn; lia]. unfold design_row. cbn [Sum nc ev_y Nat.mul Nat.add]. rewrite B0, B1. ring. }
  assert (NR : nr (vx_residuals m1) = 4%nat) by (destruct (C48_residuals ev_lstsq ev_inv ev_y _ _ _ m0 [] m0 _ m1 ev_lstsq_shape E0 eq_refl EF) as (_ & _ & (N1 & _) & _); exact N1).
  assert (V1 : ent (vx_Sigma_u m1) 0 0 = 2).
  { destruct (C85_covariance ev_lstsq ev_inv ev_y _ _ _ m0 [] m0 None m1 ev_lstsq_shape E0 eq_refl EF) as [_ Q]; [discriminate|].
    cbv zeta in Q. rewrite F1, F2 in Q. rewrite (proj1 (Q ltac:(cbn; lra) 0%nat 0%nat ltac:(cbn; lia) ltac:(cbn; lia))). unfold scatter. rewrite NR. cbn [Nat.max Nat.sub Sum Nat.add weight_fun]. rewrite !RS by lia. unfold ent, cov_divisor. cbn. field. }
  split; [exact V1|].
  destruct (C85_unit_weights ev_lstsq ev_inv ev_y _ _ _ m0 [] m0 m1 m2 ev_lstsq_shape E0 eq_refl EF EG) as (_ & _ & _ & _ & _ & Q). rewrite F1, F2 in Q.
  cbn [ev_y nr nc Nat.max Nat.sub exog_count Nat.mul Nat.add INR] in Q. specialize (Q ltac:(lia) ltac:(lra) ltac:(lra) 0%nat 0%nat ltac:(lia) ltac:(lia)). rewrite V1 in Q. lra.
Qed.
