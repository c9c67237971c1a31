(** Random stochastic matrices and validation in rounded arithmetic *)
From Coq Require Import List Arith ZArith Reals Lra Lia Permutation Sorted.
From Verif Require Import Num Mat Py M_random M_simplex Num_rnd Num_b64 Spec Spec_rnd P_lin P_mat P_simplex P_random P_rnd P_b64.
Import ListNotations.
Local Open Scope R_scope.

Section Draw.
  Variables (u eta : R) (rnd : R -> R).
  Hypothesis HR : rounding u eta rnd.
  Notation NR := (Num_rnd rnd).

  Lemma nsum_rnd_nonneg c m : (forall j, (j < c)%nat -> 0 <= m j) -> 0 <= @nsum R NR c m.
  Proof using HR.
    induction c as [|c IH]; intros H; cbn [nsum]; [cbn; lra|]. cbn [nadd Num_rnd]. apply (rnd_pos _ _ _ HR).
    assert (0 <= @nsum R NR c m) by (apply IH; intros; apply H; lia). pose proof (H c ltac:(lia)). lra.
  Qed.
  Lemma nsum_rnd_rep c m : rnd (@nsum R NR c m) = @nsum R NR c m.
  Proof using HR. destruct c; cbn [nsum]; [apply (rnd0 _ _ _ HR)|]. apply (rnd_idem _ _ _ HR). Qed.
  Lemma nsum_rnd_ge c m j : (forall i, (i < c)%nat -> 0 <= m i /\ rnd (m i) = m i) -> (j < c)%nat -> m j <= @nsum R NR c m.
  Proof using HR.
    induction c as [|c IH]; intros H Hj; [lia|]. cbn [nsum]. cbn [nadd Num_rnd]. destruct (H c ltac:(lia)) as [P Q].
    assert (S0 : 0 <= @nsum R NR c m) by (apply nsum_rnd_nonneg; intros; apply H; lia).
    destruct (Nat.eq_dec j c) as [->|N].
    - rewrite <- Q at 1. apply (rnd_mono _ _ _ HR). lra.
    - apply Rle_trans with (@nsum R NR c m); [apply IH; [intros; apply H|]; lia|]. rewrite <- nsum_rnd_rep at 1. apply (rnd_mono _ _ _ HR). lra.
  Qed.
  Section Norm.
    Variables (c : nat) (m : nat -> R).
    Hypothesis Hm : forall j, (j < c)%nat -> 0 <= m j /\ rnd (m j) = m j.
    Hypothesis HS : Sum c m <> 0.
    Let s := @nsum R NR c m.
    Lemma norm_S : 0 < Sum c m.
    Proof using Hm HS. assert (0 <= Sum c m) by (apply Sum_nonneg; intros; apply Hm; assumption). lra. Qed.
    Lemma norm_s : 0 < s.
    Proof using HR Hm HS.
      destruct (Sum_pos_term c m norm_S) as (j & Hj & P). unfold s. eapply Rlt_le_trans; [exact P|]. apply nsum_rnd_ge; assumption.
    Qed.
    Lemma norm_entry j : (j < c)%nat -> 0 <= rnd (m j / s) <= 1.
    Proof using HR Hm HS.
      intros Hj. pose proof norm_s as P. destruct (Hm j Hj) as [Q _]. pose proof (nsum_rnd_ge c m j Hm Hj) as G. fold s in G.
      assert (I : 0 < / s) by (apply Rinv_0_lt_compat, P). assert (Rs : s * / s = 1) by (apply Rinv_r; lra).
      split; [apply (rnd_pos _ _ _ HR); unfold Rdiv; nra|]. apply (rnd_le1 _ _ _ HR). unfold Rdiv. nra.
    Qed.
    Lemma norm_sum : 3 * INR c * (u + eta / Sum c m) <= 1 / 2 -> INR c * u <= 1 ->
      Rabs (Sum c (fun j => rnd (m j / s)) - 1) <= 8 * INR c * (u + eta / Sum c m) + INR c * eta.
    Proof using HR Hm HS.
      intros Hq Hcu. pose proof norm_S as PS. pose proof norm_s as Ps. pose proof (rnd_u _ _ _ HR) as Hu. pose proof (rnd_eta _ _ _ HR) as He.
      pose proof (nsum_bound _ _ _ HR c c m (le_n c) Hcu) as B. fold s in B. set (S0 := Sum c m) in *.
      replace (Sum c (fun i => Rabs (m i))) with S0 in B by (apply Sum_ext; intros j Hj; symmetry; apply Rabs_pos_eq, Hm, Hj).
      set (q := 3 * INR c * (u + eta / S0)) in *. assert (Eq : 3 * INR c * (u * S0 + eta) = q * S0) by (unfold q; field; lra). rewrite Eq in B.
      assert (C1 : 1 <= INR c). { assert (c <> 0)%nat by (intros E0; unfold S0 in PS; rewrite E0 in PS; cbn in PS; lra). change 1 with (INR 1). apply le_INR. lia. }
      assert (E0 : 0 <= eta / S0) by (apply Rmult_le_pos; [exact He|left; apply Rinv_0_lt_compat; exact PS]). assert (Q0 : 0 <= q) by (unfold q; nra).
      set (t := S0 / s). assert (T : Rabs (t - 1) <= 2 * q).
      { apply Rabs_le_iff in B. apply Rabs_le_iff. assert (Ts : t * s = S0) by (unfold t; field; lra). assert (T0 : 0 < t) by (unfold t; apply Rdiv_lt_0_compat; assumption).
        assert (s1 : s <= (1 + q) * S0) by lra. assert (s2 : (1 - q) * S0 <= s) by lra. split.
        - apply Rmult_le_reg_r with s; [exact Ps|]. nra.
        - apply Rmult_le_reg_r with s; [exact Ps|]. nra. }
      assert (E1 : Sum c (fun j => m j / s) = t) by (unfold t, S0; apply Sum_div).
      assert (E2 : Rabs (Sum c (fun j => rnd (m j / s) - m j / s)) <= u * t + INR c * eta).
      { eapply Rle_trans; [apply Sum_abs|]. eapply Rle_trans; [apply Sum_le; intros j Hj; apply (rnd_err _ _ _ HR)|].
        rewrite Sum_plus, Sum_scal_l, Sum_const. rewrite <- E1. apply Req_le. f_equal. f_equal. apply Sum_ext. intros j Hj. apply Rabs_pos_eq.
        apply Rmult_le_pos; [apply Hm, Hj|left; apply Rinv_0_lt_compat; exact Ps]. }
      rewrite Sum_minus, E1 in E2. set (Y := Sum c (fun j => rnd (m j / s))) in *.
      assert (t <= 2) by (apply Rabs_le_iff in T; lra). assert (Rabs (Y - 1) <= Rabs (Y - t) + Rabs (t - 1)) by (replace (Y - 1) with ((Y - t) + (t - 1)) by ring; apply Rabs_triang).
      assert (u <= INR c * (u + eta / S0)) by nra. unfold q in T. nra.
    Qed.
  End Norm.

  (** the drawn entries *)
  Lemma right_entry r c (g : rng R) i j : (i < r)%nat -> (j < c)%nat ->
    ent (fst (@right_stochastic_matrix R NR r c g)) i j
    = rnd (r_uniform g (r_pos g + i * c + j) / @nsum R NR c (fun j => r_uniform g (r_pos g + i * c + j))).
  Proof using.
    intros Hi Hj. unfold right_stochastic_matrix, draw_uniform_mat. cbn [fst]. rewrite ent_mbuild by assumption. cbn [ndiv Num_rnd].
    rewrite vget_tab by exact Hi. rewrite mget_mbuild by assumption. f_equal. f_equal. apply nsum_ext. intros j' Hj'. rewrite mget_mbuild by assumption. reflexivity.
  Qed.
  Lemma left_entry r c (g : rng R) i j : (i < r)%nat -> (j < c)%nat ->
    ent (fst (@left_stochastic_matrix R NR r c g)) i j
    = rnd (r_uniform g (r_pos g + i * c + j) / @nsum R NR r (fun i => r_uniform g (r_pos g + i * c + j))).
  Proof using.
    intros Hi Hj. unfold left_stochastic_matrix, draw_uniform_mat. cbn [fst]. rewrite ent_mbuild by assumption. cbn [ndiv Num_rnd].
    rewrite vget_tab by exact Hj. rewrite mget_mbuild by assumption. f_equal. f_equal. apply nsum_ext. intros j' Hj'. rewrite mget_mbuild by assumption. reflexivity.
  Qed.
End Draw.

(** ** the tolerance of the validation *)
Section Check.
  Variables (u eta : R) (rnd : R -> R).
  Hypothesis HR : rounding u eta rnd.
  Hypothesis Hu : u <= 1 / 1000000.
  Hypothesis He : eta <= 1 / 1000000000000.
  Notation NR := (Num_rnd rnd).

  Lemma rnd_between x lo hi : 0 <= x -> lo <= x * (1 - 1 / 1000000) - 1 / 1000000000000 -> x * (1 + 1 / 1000000) + 1 / 1000000000000 <= hi -> lo <= rnd x <= hi.
  Proof using HR Hu He.
    intros Hx H1 H2. pose proof (rnd_err _ _ _ HR x) as E. rewrite (Rabs_pos_eq x Hx) in E. apply Rabs_le_iff in E. pose proof (rnd_u _ _ _ HR). assert (u * x <= 1 / 1000000 * x) by (apply Rmult_le_compat_r; assumption). split; lra.
  Qed.
  Lemma inv_between x lo hi : 0 < lo -> lo <= x <= hi -> / hi <= 1 / x <= / lo.
  Proof using. intros H0 [H1 H2]. unfold Rdiv. rewrite Rmult_1_l. split; apply Rinv_le_contravar; lra. Qed.
  Definition check_tol : R := rnd (rnd (1 / rnd 100000000) + rnd (rnd (1 / rnd 100000) * 1)).
  Lemma check_tol_range : 999 / 100000000 <= check_tol <= 1002 / 100000000.
  Proof using HR Hu He.
    assert (A : 99999 <= rnd 100000 <= 100001) by (apply rnd_between; lra).
    assert (B : 99999000 <= rnd 100000000 <= 100001000) by (apply rnd_between; lra).
    pose proof (inv_between _ 99999 100001 ltac:(lra) A) as A1. pose proof (inv_between _ 99999000 100001000 ltac:(lra) B) as B1.
    assert (A2 : 9999 / 1000000000 <= rnd (1 / rnd 100000) <= 10001 / 1000000000) by (apply rnd_between; lra).
    assert (B2 : 9 / 1000000000 <= rnd (1 / rnd 100000000) <= 11 / 1000000000) by (apply rnd_between; lra).
    unfold check_tol. rewrite Rmult_1_r, (rnd_idem _ _ _ HR). apply rnd_between; lra.
  Qed.
  Lemma isclose_rnd a : @isclose_one R NR a = true <-> Rabs (rnd (a - 1)) <= check_tol.
  Proof using.
    unfold isclose_one. cbn [nabs nsub ndiv nmul nadd n1 nofZ nleb Num_rnd]. rewrite Rabs_R1. fold check_tol.
    destruct (Rleb_spec (Rabs (rnd (a - 1))) check_tol); split; intros; try lra; try discriminate; reflexivity.
  Qed.
  Lemma rnd_abs x : Rabs (rnd x) = rnd (Rabs x).
  Proof using HR.
    unfold Rabs at 2. destruct (Rcase_abs x) as [L|L].
    - rewrite (rnd_odd _ _ _ HR). apply Rabs_left1, (rnd_neg _ _ _ HR). lra.
    - apply Rabs_pos_eq, (rnd_pos _ _ _ HR). lra.
  Qed.
  Lemma isclose_accepts a : Rabs (a - 1) <= 95 / 10000000 -> @isclose_one R NR a = true.
  Proof using HR Hu He.
    intros H. apply isclose_rnd. pose proof check_tol_range. rewrite rnd_abs. eapply Rle_trans; [apply (rnd_mono _ _ _ HR), H|].
    assert (0 <= rnd (95 / 10000000) <= 999 / 100000000) by (apply rnd_between; lra). lra.
  Qed.
  Lemma isclose_rejects a : 105 / 10000000 <= Rabs (a - 1) -> @isclose_one R NR a = false.
  Proof using HR Hu He.
    intros H. destruct (isclose_one a) eqn:E; [|reflexivity]. exfalso. apply isclose_rnd in E. pose proof check_tol_range. rewrite rnd_abs in E. apply (rnd_mono _ _ _ HR) in H.
    assert (1003 / 100000000 <= rnd (105 / 10000000) <= 1) by (apply rnd_between; lra). lra.
  Qed.
  (** rounding of the row sum *)
  Definition sum_slack (n : nat) (f : nat -> R) : R := 3 * INR n * (u * Sum n (fun j => Rabs (f j)) + eta).
  Lemma check_weights_rnd (M : mat R) r c : INR c * u <= 1 ->
    (forall i, (i < r)%nat -> sum_slack c (ent M i) <= 5 / 10000000) ->
    (nr M = r -> nc M = c -> (forall i, (i < r)%nat -> Rabs (Sum c (ent M i) - 1) <= 9 / 1000000) -> @check_init_weights R NR (Some M) r c = Ok M)
    /\ ((exists i, (i < r)%nat /\ 11 / 1000000 <= Rabs (Sum c (ent M i) - 1)) -> @check_init_weights R NR (Some M) r c = Raise ValueError).
  Proof using HR Hu He.
    intros Hc Hs. assert (V : forall i, (i < r)%nat -> Rabs (@nsum R NR c (ent M i) - Sum c (ent M i)) <= 5 / 10000000).
    { intros i Hi. eapply Rle_trans; [apply (nsum_bound _ _ _ HR c c _ (le_n c) Hc)|apply Hs, Hi]. }
    assert (F : @all_finite R NR M = true).
    { apply all_finite_zero. intros x. cbn [nsub neqb n0 Num_rnd]. unfold Rminus. rewrite Rplus_opp_r, (rnd0 _ _ _ HR). apply Reqb_refl. }
    unfold check_init_weights, check_array. rewrite F. cbn [bind]. unfold check_array_shape. split.
    - intros Hr Hcc H. rewrite Hr, Hcc, !Nat.eqb_refl. cbn [andb bind]. unfold check_unit_row_sums. rewrite Hr, Hcc.
      replace (forallb isclose_one _) with true; [reflexivity|]. symmetry. apply forallb_forall. intros a Ha. apply in_map_iff in Ha. destruct Ha as (i & <- & Hi). apply in_seq in Hi.
      specialize (V i ltac:(lia)). specialize (H i ltac:(lia)). change (fun j => mget M i j) with (ent M i). apply isclose_accepts. apply Rabs_le_iff in V, H. apply Rabs_le_iff. split; lra.
    - intros (i & Hi & H). destruct (Nat.eqb_spec (nr M) r) as [Hr|]; [|reflexivity]. destruct (Nat.eqb_spec (nc M) c) as [Hcc|]; [|reflexivity]. cbn [andb bind].
      unfold check_unit_row_sums. rewrite Hr, Hcc. replace (forallb isclose_one _) with false; [reflexivity|]. symmetry. destruct (forallb _ _) eqn:E; [|reflexivity]. exfalso.
      rewrite forallb_forall in E. specialize (E (@nsum R NR c (ent M i))). rewrite isclose_rejects in E; [discriminate E|..].
      + apply in_map_iff. exists i. split; [reflexivity|]. apply in_seq. lia.
      + specialize (V i Hi). apply Rabs_le_iff in V. unfold Rabs in *. destruct (Rcase_abs _) in H; destruct (Rcase_abs _); lra.
  Qed.
End Check.

(** ** binary64 *)
Lemma two_pow_neg z : (0 <= z)%Z -> two_pow (- z) = / IZR (2 ^ z).
Proof.
  intros H. rewrite <- two_pow_IZR by exact H. pose proof (two_pow_pos z). apply Rmult_eq_reg_r with (two_pow z); [|lra]. rewrite <- two_pow_add, Rinv_l by lra. replace (- z + z)%Z with 0%Z by lia. apply two_pow_0.
Qed.
Lemma b64_u : two_pow (-53) = / IZR (2 ^ 53).
Proof. apply (two_pow_neg 53). lia. Qed.
Lemma b64_eta : two_pow (-1075) <= two_pow (-106).
Proof. apply two_pow_le. lia. Qed.
Lemma b64_eta' : two_pow (-106) = / IZR (2 ^ 106).
Proof. apply (two_pow_neg 106). lia. Qed.
(** a value of RandomState.uniform(): a multiple of 2^-53 below 1 *)
Lemma b64_unit_rep m : (0 <= m < 2 ^ 53)%Z -> round_b64 (IZR m * two_pow (-53)) = IZR m * two_pow (-53).
Proof.
  intros [H1 H2]. destruct (Z.eq_dec m 0) as [->|N]; [rewrite Rmult_0_l; apply (rnd0 _ _ _ b64_rounding)|].
  pose proof (Z.log2_spec m ltac:(lia)) as [L1 L2]. set (l := Z.log2 m) in *. assert (L0 : (0 <= l)%Z) by apply Z.log2_nonneg. assert (L3 : (l <= 52)%Z).
  { destruct (Z.le_gt_cases l 52) as [Q|Q]; [exact Q|]. assert (2 ^ 53 <= 2 ^ l)%Z by (apply Z.pow_le_mono_r; lia). lia. }
  assert (P0 : 0 <= IZR m * two_pow (-53)) by (apply Rmult_le_pos; [apply IZR_le; exact H1|left; apply two_pow_pos]).
  rewrite round_b64_pos by exact P0. replace (IZR m * two_pow (-53)) with (IZR (m * 2 ^ (52 - l)) * two_pow (l - 53 - 52)).
  + apply round_pos_exact; [unfold emin; lia| | |right].
    * apply Z.mul_nonneg_nonneg; [lia|]. apply Z.pow_nonneg. lia.
    * replace 53%Z with (Z.succ l + (52 - l))%Z by lia. rewrite Z.pow_add_r by lia. apply Zmult_lt_compat_r; [apply Z.pow_pos_nonneg; lia|exact L2].
    * replace 52%Z with (l + (52 - l))%Z at 1 by lia. rewrite Z.pow_add_r by lia. apply Z.mul_le_mono_nonneg_r; [apply Z.pow_nonneg; lia|exact L1].
  + rewrite mult_IZR, <- two_pow_IZR by lia. rewrite Rmult_assoc, <- two_pow_add. replace (52 - l + (l - 53 - 52))%Z with (-53)%Z by lia. reflexivity.
Qed.
Definition uniform_b64 (g : rng R) : Prop := forall n, exists m, (0 <= m < 2 ^ 53)%Z /\ r_uniform g n = IZR m * two_pow (-53).
Lemma uniform_b64_rep g n : uniform_b64 g -> 0 <= r_uniform g n /\ round_b64 (r_uniform g n) = r_uniform g n.
Proof.
  intros H. destruct (H n) as (m & Hm & ->). split; [|apply b64_unit_rep; exact Hm]. apply Rmult_le_pos; [apply IZR_le; lia|left; apply two_pow_pos].
Qed.
Lemma uniform_b64_sum g n f : uniform_b64 g -> Sum n (fun j => r_uniform g (f j)) <> 0 -> two_pow (-53) <= Sum n (fun j => r_uniform g (f j)).
Proof.
  intros H N. assert (P : 0 < Sum n (fun j => r_uniform g (f j))).
  { assert (0 <= Sum n (fun j => r_uniform g (f j))) by (apply Sum_nonneg; intros; apply uniform_b64_rep, H). lra. }
  destruct (Sum_pos_term _ _ P) as (j & Hj & Pj). apply Rle_trans with (r_uniform g (f j)).
  - destruct (H (f j)) as (m & Hm & E). rewrite E in *. pose proof (two_pow_pos (-53)). assert (1 <= IZR m); [|nra]. apply IZR_le. destruct (Z.eq_dec m 0) as [->|]; [lra|lia].
  - apply (Sum_ge_term _ (fun j => r_uniform g (f j))); [intros; apply uniform_b64_rep, H|exact Hj].
Qed.
Lemma b64_draw_bound c S : (Z.of_nat c <= 1000000)%Z -> two_pow (-53) <= S ->
  3 * INR c * (two_pow (-53) + two_pow (-1075) / S) <= 1 / 2 /\ INR c * two_pow (-53) <= 1
  /\ 8 * INR c * (two_pow (-53) + two_pow (-1075) / S) + INR c * two_pow (-1075) <= 1 / 100000000
  /\ (forall B, 0 <= B <= 2 -> 3 * INR c * (two_pow (-53) * B + two_pow (-1075)) <= 1 / 100000000).
Proof.
  intros Hc HS. assert (C1 : 0 <= INR c <= 1000000) by (split; [apply pos_INR|]; rewrite INR_IZR_INZ; apply IZR_le; exact Hc).
  pose proof (two_pow_pos (-53)) as P. pose proof (two_pow_pos (-1075)) as P'. pose proof b64_eta as Q. rewrite b64_eta' in Q.
  assert (Q1 : two_pow (-1075) / S <= two_pow (-53)).
  { apply Rle_trans with (two_pow (-1075) / two_pow (-53)).
    - apply Rmult_le_compat_l; [lra|]. apply Rinv_le_contravar; assumption.
    - apply Rmult_le_reg_r with (two_pow (-53)); [exact P|]. unfold Rdiv. rewrite Rmult_assoc, Rinv_l, Rmult_1_r by lra. rewrite <- two_pow_add. apply two_pow_le. lia. }
  assert (Q0 : 0 <= two_pow (-1075) / S) by (apply Rmult_le_pos; [lra|left; apply Rinv_0_lt_compat; lra]).
  rewrite b64_u in *. change (2 ^ 53)%Z with 9007199254740992%Z in *. change (2 ^ 106)%Z with 81129638414606681695789005144064%Z in *. set (v := / 9007199254740992) in *. assert (V : v <= 1 / 9000000000000000) by (unfold v; lra). assert (V0 : 0 < v) by (unfold v; lra). clearbody v.
  set (e := two_pow (-1075)) in *. assert (E : e <= 1 / 9000000000000000) by lra. clearbody e. set (d := e / S) in *. clearbody d. clear Q P' HS.
  repeat split; [nra|nra|nra|]. intros B HB. assert (v * B <= 2 * v) by nra. nra.
Qed.
