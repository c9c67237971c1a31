(** Floating-point rounding: projections, random stochastic matrices, validation *)
From Coq Require Import List Arith ZArith Reals Lra Lia.
From Verif Require Import Num Mat Py M_random M_simplex Num_rnd Num_b64 Spec Spec_rnd P_lin P_mat P_simplex P_random P_rnd P_b64 P_rnd_draw.
Import ListNotations.
Local Open Scope R_scope.

(** binary64 with round to nearest, ties to even, meets the contract that the theorems assume *)
Theorem C79_binary64 : rounding (two_pow (-53)) (two_pow (-1075)) round_b64
  /\ (forall n, (Z.of_nat n <= 2 ^ 53)%Z -> counts_exact round_b64 n).
Proof. exact (conj b64_rounding b64_counts). Qed.
Print Assumptions C79_binary64.
Lemma b64_60 : two_pow (-60) = / IZR (2 ^ 60).
Proof. apply (two_pow_neg 60). lia. Qed.
Lemma b64_52 : two_pow (0 - 52) = / IZR (2 ^ 52).
Proof. apply (two_pow_neg 52). lia. Qed.
(** 1 + 2^-60 is not a binary64 number, 1 and 2^-60 are *)
Lemma b64_small_added : round_b64 (two_pow (-60)) = two_pow (-60) /\ round_b64 (1 + two_pow (-60)) = 1.
Proof.
  pose proof (two_pow_pos (-60)) as P. split.
  - rewrite round_b64_pos by lra. replace (two_pow (-60)) with (IZR (2 ^ 52) * two_pow (-60 - 52)).
    + apply round_pos_exact; [unfold emin; lia|lia|lia|right; lia].
    + rewrite <- two_pow_IZR, <- two_pow_add by lia. reflexivity.
  - rewrite round_b64_pos by lra. assert (S1 : two_pow (-60) <= / 1000) by (rewrite b64_60; change (2 ^ 60)%Z with 1152921504606846976%Z; lra).
    assert (E : expo (1 + two_pow (-60)) = 0%Z).
    { apply expo_unique; [lra|unfold emin; lia| |right; rewrite two_pow_0; lra]. change (0 + 1)%Z with 1%Z. rewrite (two_pow_IZR 1) by lia. change (2 ^ 1)%Z with 2%Z. lra. }
    unfold round_pos, ulp. rewrite E. rewrite b64_52.
    replace (nearest_even ((1 + two_pow (-60)) / / IZR (2 ^ 52))) with (2 ^ 52)%Z; [field; apply IZR_neq; lia|].
    pose proof (nearest_even_err ((1 + two_pow (-60)) / / IZR (2 ^ 52))) as H. set (z := nearest_even _) in *. unfold Rdiv in H. rewrite Rinv_inv in H.
    assert (S2 : two_pow (-60) * IZR (2 ^ 52) <= / 4).
    { rewrite b64_60. change (2 ^ 60)%Z with (256 * 2 ^ 52)%Z. rewrite mult_IZR. assert (0 < IZR (2 ^ 52)) by (apply IZR_lt; lia). rewrite Rinv_mult, Rmult_assoc, Rinv_l by lra. lra. }
    assert (0 < IZR (2 ^ 52)) by (apply IZR_lt; lia). apply Rabs_le_iff in H. assert (L1 : IZR (2 ^ 52) - 1 < IZR z) by nra. assert (L2 : IZR z < IZR (2 ^ 52) + 1) by nra.
    rewrite <- minus_IZR in L1. rewrite <- plus_IZR in L2. apply lt_IZR in L1, L2. lia.
Qed.
Example C79_binary64_example : round_b64 (two_pow (-60)) = two_pow (-60) /\ round_b64 1 = 1 /\ round_b64 (1 + two_pow (-60)) = 1.
Proof. destruct b64_small_added as [A B]. split; [exact A|]. split; [apply (rnd_one _ _ _ b64_rounding)|exact B]. Qed.

(** ** C79: the projection onto the simplex, computed with rounding *)
Theorem C79_rounded_projection : forall u eta rnd, rounding u eta rnd -> u <= 1 / 8 ->
  forall x p : list R, x <> [] -> counts_exact rnd (length x) -> INR (length x) * u <= 1 ->
  length p = length x -> prob_vec p -> (forall q, length q = length x -> prob_vec q -> dist2 x p <= dist2 x q) ->
  let y := @simplex_project_vector R (Num_rnd rnd) x in
  let slack := u * (abs_sum x + 1) + eta in
  length y = length x
  /\ (forall i, (i < length x)%nat -> 0 <= at_ y i /\ representable rnd (at_ y i) /\ Rabs (at_ y i - at_ p i) <= 16 * INR (length x) ^ 2 * slack)
  /\ Rabs (Sum (length x) (at_ y) - 1) <= 16 * INR (length x) ^ 3 * slack.
Proof.
  intros u eta rnd HR Hu x p Hx HC Hn Lp Pp Np y slack. destruct (proj_prob x Hx) as [PP LL]. unfold proj in *.
  assert (E : p = @simplex_project_vector R Num_R x).
  { destruct (proj_nearest x p Hx Lp Pp) as [H1 H2]. apply H2. apply Np; assumption. }
  subst p. split; [apply spv_length|]. split; [|apply (proj_rnd_sum u eta rnd HR Hu x Hx HC Hn)].
  intros i Hi. split; [apply proj_rnd_nonneg|]. split; [|apply (proj_rnd_err u eta rnd HR Hu x i Hi HC Hn)].
  unfold representable, y, simplex_project_vector. rewrite at_map by exact Hi. rewrite nfmax_rnd. cbn [nsub Num_rnd n0]. unfold Rmax. destruct (Rle_dec _ _); [apply (rnd0 _ _ _ HR)|apply (rnd_idem _ _ _ HR)].
Qed.
Print Assumptions C79_rounded_projection.
(** binary64: at most 100 components of size at most 1 *)
Theorem C79_projection_binary64 : forall x p : list R, x <> [] -> (length x <= 100)%nat -> (forall i, (i < length x)%nat -> Rabs (at_ x i) <= 1) ->
  length p = length x -> prob_vec p -> (forall q, length q = length x -> prob_vec q -> dist2 x p <= dist2 x q) ->
  let y := @simplex_project_vector R Num_b64 x in
  (forall i, (i < length x)%nat -> 0 <= at_ y i /\ Rabs (at_ y i - at_ p i) <= 2 / 1000000000)
  /\ Rabs (Sum (length x) (at_ y) - 1) <= 2 / 10000000.
Proof.
  intros x p Hx Hl Hb Lp Pp Np y. set (n := length x) in *.
  assert (N : 0 <= INR n <= 100) by (split; [apply pos_INR|]; rewrite INR_IZR_INZ; apply IZR_le; lia).
  assert (B : abs_sum x <= 100). { unfold abs_sum. fold n. eapply Rle_trans; [apply Sum_le; exact Hb|]. rewrite Sum_const. lra. }
  assert (B0 : 0 <= abs_sum x) by (apply Sum_nonneg; intros; apply Rabs_pos).
  pose proof b64_eta as Q. rewrite b64_eta' in Q. pose proof (two_pow_pos (-1075)) as Q0. pose proof b64_u as U. change (2 ^ 53)%Z with 9007199254740992%Z in *. change (2 ^ 106)%Z with 81129638414606681695789005144064%Z in *.
  assert (NZ : (Z.of_nat (length x) <= 2 ^ 53)%Z) by (fold n; change (2 ^ 53)%Z with 9007199254740992%Z; lia).
  assert (NU : INR n * two_pow (-53) <= 1) by (rewrite U; lra).
  destruct (C79_rounded_projection _ _ _ b64_rounding b64_unit x p Hx (b64_counts _ NZ) NU Lp Pp Np) as (_ & H1 & H2). fold n in H1, H2.
  assert (SL : 0 <= two_pow (-53) * (abs_sum x + 1) + two_pow (-1075) <= 113 / 10000000000000000).
  { assert (two_pow (-53) * (abs_sum x + 1) <= two_pow (-53) * 101) by (apply Rmult_le_compat_l; [left; apply two_pow_pos|lra]). assert (0 <= two_pow (-53) * (abs_sum x + 1)) by (apply Rmult_le_pos; [left; apply two_pow_pos|lra]). rewrite U in *. split; lra. }
  set (w := two_pow (-53) * (abs_sum x + 1) + two_pow (-1075)) in *. assert (N2 : 0 <= INR n ^ 2 <= 10000) by (cbn; nra). assert (N3 : 0 <= INR n ^ 3 <= 1000000) by (cbn; nra).
  split.
  - intros i Hi. destruct (H1 i Hi) as (A & _ & C). split; [exact A|]. eapply Rle_trans; [exact C|]. nra.
  - eapply Rle_trans; [exact H2|]. nra.
Qed.
Print Assumptions C79_projection_binary64.
Example C79_projection_example : let x := [1/2; 0; 1] in let p := [1/4; 0; 3/4] in
  x <> [] /\ (length x <= 100)%nat /\ (forall i, (i < length x)%nat -> Rabs (at_ x i) <= 1)
  /\ length p = length x /\ prob_vec p /\ (forall q, length q = length x -> prob_vec q -> dist2 x p <= dist2 x q).
Proof.
  cbv zeta. split; [discriminate|]. split; [cbn; lia|]. split.
  { intros i Hi. cbn in Hi. destruct i as [|[|[|i]]]; try lia; unfold at_; cbn [nth]; apply Rabs_le_iff; lra. }
  split; [reflexivity|]. split.
  { split; [|unfold at_; cbn; lra]. intros i Hi. cbn in Hi. destruct i as [|[|[|i]]]; try lia; unfold at_; cbn [nth]; lra. }
  intros q Lq [Pq Sq]. rewrite Lq in *. destruct q as [|a [|b [|c [|]]]]; try discriminate Lq. unfold dist2, at_ in *. cbn in *.
  pose proof (Pq 0%nat ltac:(lia)). pose proof (Pq 1%nat ltac:(lia)). pose proof (Pq 2%nat ltac:(lia)). cbn in *. assert (c = 1 - a - b) by lra. subst c.
  pose proof (Rle_0_sqr (a - 1/4)). pose proof (Rle_0_sqr b). pose proof (Rle_0_sqr (a - 1/4 + b)). unfold Rsqr in *. lra.
Qed.
(** the components need not add up to 1 exactly: [1; t] with t too small to change 1 is left as it is *)
Theorem C79_sum_not_exact : forall u eta rnd, rounding u eta rnd -> forall t, 0 < t -> t < 1 -> representable rnd t -> rnd (1 + t) = 1 ->
  @simplex_project_vector R (Num_rnd rnd) [1; t] = [1; t] /\ Sum 2 (at_ [1; t]) <> 1.
Proof.
  intros u eta rnd HR t T0 T1 Rt Et. split; [|unfold at_; cbn; lra]. pose proof (rnd0 _ _ _ HR) as Z. pose proof (rnd_one _ _ _ HR) as O.
  unfold simplex_project_vector. assert (ES : @np_sort R (Num_rnd rnd) [1; t] = [t; 1]).
  { unfold np_sort, insert, nisnan. cbn [nleb neqb Num_rnd]. rewrite Reqb_refl. destruct (Rleb_spec 1 t); [lra|reflexivity]. }
  rewrite ES. assert (ET : @t_hat R (Num_rnd rnd) [t; 1] = 0).
  { unfold t_hat. cbn [length]. cbn [t_hat_loop]. unfold t_hat_at, sorted_at, vsum, nofnat. cbn [length Nat.sub skipn nsum vget Nat.eqb nth Z.of_nat Pos.of_succ_nat Pos.succ].
    cbn [nadd nsub ndiv n0 n1 nofZ nleb Num_rnd]. rewrite ?Rplus_0_l. rewrite O. replace (1 - 1) with 0 by ring. rewrite Z. unfold Rdiv. rewrite Rmult_0_l, Z.
    destruct (Rleb_spec t 0); [lra|]. unfold representable in Rt. cbn [nth]. rewrite Rt, (Rplus_comm t 1), Et. replace (1 - 1) with 0 by ring. rewrite Z, Rmult_0_l, Z. destruct (Rleb 1 0); reflexivity. }
  rewrite ET. cbn [map]. rewrite !nfmax_rnd. cbn [nsub n0 Num_rnd]. rewrite !Rminus_0_r, O, Rt. rewrite !Rmax_left by lra. reflexivity.
Qed.
Print Assumptions C79_sum_not_exact.
Example C79_sum_example : let t := two_pow (-60) in 0 < t /\ t < 1 /\ representable round_b64 t /\ round_b64 (1 + t) = 1.
Proof.
  destruct b64_small_added as [A B]. cbv zeta. split; [apply two_pow_pos|]. split; [|split; assumption]. rewrite b64_60. change (2 ^ 60)%Z with 1152921504606846976%Z. lra.
Qed.

(** ** C80: random stochastic matrices and the validation of weights, computed with rounding *)
Theorem C80_rounded_stochastic : forall u eta rnd, rounding u eta rnd -> forall (r c : nat) (g : rng R),
  (forall n, 0 <= r_uniform g n /\ representable rnd (r_uniform g n)) ->
  (forall i, (i < r)%nat -> Sum c (fun j => r_uniform g (r_pos g + i * c + j)) <> 0 ->
     let W := fst (@right_stochastic_matrix R (Num_rnd rnd) r c g) in
     let S := Sum c (fun j => r_uniform g (r_pos g + i * c + j)) in
     (forall j, (j < c)%nat -> 0 <= ent W i j <= 1 /\ representable rnd (ent W i j))
     /\ (3 * INR c * (u + eta / S) <= 1 / 2 -> INR c * u <= 1 -> Rabs (Sum c (ent W i) - 1) <= 8 * INR c * (u + eta / S) + INR c * eta))
  /\ (forall j, (j < c)%nat -> Sum r (fun i => r_uniform g (r_pos g + i * c + j)) <> 0 ->
     let P := fst (@left_stochastic_matrix R (Num_rnd rnd) r c g) in
     let S := Sum r (fun i => r_uniform g (r_pos g + i * c + j)) in
     (forall i, (i < r)%nat -> 0 <= ent P i j <= 1 /\ representable rnd (ent P i j))
     /\ (3 * INR r * (u + eta / S) <= 1 / 2 -> INR r * u <= 1 -> Rabs (Sum r (fun i => ent P i j) - 1) <= 8 * INR r * (u + eta / S) + INR r * eta)).
Proof.
  intros u eta rnd HR r c g Hg. split; [intros i Hi|intros j Hj]; intros HS; cbv zeta; split.
  - intros j Hj. rewrite right_entry by assumption. split; [|apply (rnd_idem _ _ _ HR)]. apply (norm_entry u eta rnd HR c (fun j => r_uniform g (r_pos g + i * c + j))); [intros; apply Hg|exact HS|exact Hj].
  - intros H1 H2. rewrite (Sum_ext c _ _ (fun j Hj => right_entry rnd r c g i j Hi Hj)). apply (norm_sum u eta rnd HR c (fun j => r_uniform g (r_pos g + i * c + j))); [intros; apply Hg|exact HS|exact H1|exact H2].
  - intros i Hi. rewrite left_entry by assumption. split; [|apply (rnd_idem _ _ _ HR)]. apply (norm_entry u eta rnd HR r (fun i => r_uniform g (r_pos g + i * c + j))); [intros; apply Hg|exact HS|exact Hi].
  - intros H1 H2. rewrite (Sum_ext r _ _ (fun i Hi => left_entry rnd r c g i j Hi Hj)). apply (norm_sum u eta rnd HR r (fun i => r_uniform g (r_pos g + i * c + j))); [intros; apply Hg|exact HS|exact H1|exact H2].
Qed.
Print Assumptions C80_rounded_stochastic.
(** numpy's uniform draws are multiples of 2^-53 below 1: the drawn weights pass the library's own validation *)
Theorem C80_draws_pass_validation_binary64 : forall (r c : nat) (g : rng R), (Z.of_nat c <= 1000000)%Z ->
  (forall n, exists m, (0 <= m < 2 ^ 53)%Z /\ r_uniform g n = IZR m * two_pow (-53)) ->
  (forall i, (i < r)%nat -> Sum c (fun j => r_uniform g (r_pos g + i * c + j)) <> 0) ->
  let W := fst (@right_stochastic_matrix R Num_b64 r c g) in
  (forall i j, (i < r)%nat -> (j < c)%nat -> 0 <= ent W i j <= 1)
  /\ (forall i, (i < r)%nat -> Rabs (Sum c (ent W i) - 1) <= 1 / 100000000)
  /\ @check_init_weights R Num_b64 (Some W) r c = Ok W.
Proof.
  intros r c g Hc Hg HS W. assert (Hg' : forall n, 0 <= r_uniform g n /\ representable round_b64 (r_uniform g n)) by (intros n; apply uniform_b64_rep; exact Hg).
  destruct (C80_rounded_stochastic _ _ _ b64_rounding r c g Hg') as [H _]. fold Num_b64 W in H. cbv zeta in H.
  assert (B : forall i, (i < r)%nat -> Rabs (Sum c (ent W i) - 1) <= 1 / 100000000).
  { intros i Hi. destruct (b64_draw_bound c _ Hc (uniform_b64_sum g c (fun j => r_pos g + i * c + j)%nat Hg (HS i Hi))) as (B1 & B2 & B3 & _).
    eapply Rle_trans; [apply (H i Hi (HS i Hi)); assumption|exact B3]. }
  assert (EN : forall i j, (i < r)%nat -> (j < c)%nat -> 0 <= ent W i j <= 1) by (intros i j Hi Hj; apply (H i Hi (HS i Hi)); exact Hj).
  split; [exact EN|]. split; [exact B|].
  pose proof b64_u as U. change (2 ^ 53)%Z with 9007199254740992%Z in U. pose proof b64_eta as Q. rewrite b64_eta' in Q. change (2 ^ 106)%Z with 81129638414606681695789005144064%Z in Q.
  assert (U1 : two_pow (-53) <= 1 / 1000000) by lra. assert (Q1 : two_pow (-1075) <= 1 / 1000000000000) by lra.
  destruct (b64_draw_bound c 1 Hc ltac:(lra)) as (_ & B2 & _ & B4).
  destruct (check_weights_rnd _ _ _ b64_rounding U1 Q1 W r c B2) as [A _].
  { intros i Hi. unfold sum_slack. specialize (B i Hi). apply Rabs_le_iff in B. eapply Rle_trans; [apply B4|lra].
    rewrite (Sum_ext c (fun j => Rabs (ent W i j)) (ent W i)) by (intros j Hj; apply Rabs_pos_eq, EN; assumption). lra. }
  apply A; [reflexivity|reflexivity|]. intros i Hi. specialize (B i Hi). lra.
Qed.
Print Assumptions C80_draws_pass_validation_binary64.
Example C80_draw_example : let g := mkrng (fun n => IZR (Z.of_nat (n mod 3)) * two_pow (-53)) (fun _ => 0) (fun n => n) 0 in
  (forall n, exists m, (0 <= m < 2 ^ 53)%Z /\ r_uniform g n = IZR m * two_pow (-53))
  /\ (forall i, (i < 2)%nat -> Sum 3 (fun j => r_uniform g (r_pos g + i * 3 + j)) <> 0).
Proof.
  cbv zeta. cbn [r_uniform r_pos]. split.
  - intros n. exists (Z.of_nat (n mod 3)). split; [|reflexivity]. pose proof (Nat.mod_upper_bound n 3). lia.
  - intros i Hi. pose proof (two_pow_pos (-53)) as P. set (t := two_pow (-53)) in *. clearbody t. destruct i as [|[|i]]; [| |lia]; cbn; lra.
Qed.
(** the validation accepts row sums that differ by less than 9e-6 from 1 and rejects those that differ by more than 1.1e-5 *)
Theorem C80_rounded_validation : forall u eta rnd, rounding u eta rnd -> u <= 1 / 1000000 -> eta <= 1 / 1000000000000 ->
  forall (M : mat R) (r c : nat), nr M = r -> nc M = c -> INR c * u <= 1 ->
  (forall i, (i < r)%nat -> 3 * INR c * (u * Sum c (fun j => Rabs (ent M i j)) + eta) <= 5 / 10000000) ->
  ((forall i, (i < r)%nat -> Rabs (Sum c (ent M i) - 1) <= 9 / 1000000) -> @check_init_weights R (Num_rnd rnd) (Some M) r c = Ok M)
  /\ ((exists i, (i < r)%nat /\ 11 / 1000000 <= Rabs (Sum c (ent M i) - 1)) -> @check_init_weights R (Num_rnd rnd) (Some M) r c = Raise ValueError).
Proof.
  intros u eta rnd HR Hu He M r c Hr Hc H1 H2. destruct (check_weights_rnd u eta rnd HR Hu He M r c H1 H2) as [A B]. split; [apply A; assumption|exact B].
Qed.
Print Assumptions C80_rounded_validation.
(** two binary64 rows: one that adds up to 1, one to 1 + 2^-10 *)
Example C80_validation_example : let M := mkmat 2 2 [[1/2; 1/2]; [1/2; 1/2 + / 1024]] in
  (forall i, (i < 2)%nat -> 3 * INR 2 * (two_pow (-53) * Sum 2 (fun j => Rabs (ent M i j)) + two_pow (-1075)) <= 5 / 10000000)
  /\ Rabs (Sum 2 (ent M 0) - 1) <= 9 / 1000000 /\ 11 / 1000000 <= Rabs (Sum 2 (ent M 1) - 1).
Proof.
  pose proof b64_u as U. change (2 ^ 53)%Z with 9007199254740992%Z in U. pose proof b64_eta as Q. rewrite b64_eta' in Q. change (2 ^ 106)%Z with 81129638414606681695789005144064%Z in Q.
  cbv zeta. split; [|split].
  - intros i Hi. rewrite U. destruct i as [|[|i]]; [| |lia]; unfold ent; cbn [dat nth Sum INR]; rewrite !Rabs_pos_eq by lra; lra.
  - unfold ent; cbn [dat nth Sum]. replace (0 + 1/2 + 1/2 - 1) with 0 by lra. rewrite Rabs_R0. lra.
  - unfold ent; cbn [dat nth Sum]. rewrite Rabs_pos_eq; lra.
Qed.
