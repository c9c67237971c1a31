(** binary64 rounding meets the rounding contract *)
From Coq Require Import List Arith ZArith Reals Lra Lia.
From Verif Require Import Num Num_rnd Num_b64 Spec Spec_rnd.
Local Open Scope R_scope.

Lemma two_pow_pos z : 0 < two_pow z.
Proof. apply powerRZ_lt. lra. Qed.
Lemma two_pow_add a b : two_pow (a + b) = two_pow a * two_pow b.
Proof. apply powerRZ_add. lra. Qed.
Lemma two_pow_S a : two_pow (a + 1) = 2 * two_pow a.
Proof. rewrite two_pow_add. unfold two_pow at 2. rewrite powerRZ_1. ring. Qed.
Lemma two_pow_0 : two_pow 0 = 1.
Proof. reflexivity. Qed.
Lemma two_pow_IZR z : (0 <= z)%Z -> two_pow z = IZR (2 ^ z).
Proof.
  intros H. rewrite <- (Z2Nat.id z H). generalize (Z.to_nat z). clear. intros n. induction n as [|n IH]; [reflexivity|].
  rewrite Nat2Z.inj_succ. unfold Z.succ. rewrite two_pow_S, IH, Z.pow_add_r, mult_IZR by lia. change (2 ^ 1)%Z with 2%Z. ring.
Qed.
Lemma two_pow_le a b : (a <= b)%Z -> two_pow a <= two_pow b.
Proof.
  intros H. replace b with (a + (b - a))%Z by lia. rewrite two_pow_add, (two_pow_IZR (b - a)) by lia. pose proof (two_pow_pos a).
  assert (1 <= IZR (2 ^ (b - a))) by (apply IZR_le; pose proof (Z.pow_pos_nonneg 2 (b - a)); lia). nra.
Qed.
Lemma two_pow_lt_inv a b : two_pow a < two_pow b -> (a < b)%Z.
Proof. intros H. destruct (Z.lt_ge_cases a b) as [L|L]; [exact L|]. pose proof (two_pow_le _ _ L). lra. Qed.

Lemma nearest_even_err t : Rabs (IZR (nearest_even t) - t) <= / 2.
Proof.
  unfold nearest_even. destruct (base_Int_part t) as [B1 B2]. set (k := Int_part t) in *.
  destruct (Rlt_dec _ _); [apply Rabs_le; split; lra|]. destruct (Rlt_dec _ _); [rewrite plus_IZR; apply Rabs_le; split; lra|].
  destruct (Z.even k); [|rewrite plus_IZR]; apply Rabs_le; split; lra.
Qed.
Lemma nearest_even_mono t t' : t <= t' -> (nearest_even t <= nearest_even t')%Z.
Proof.
  intros [H|H]; [|subst; lia]. destruct (Z.le_gt_cases (nearest_even t) (nearest_even t')) as [L|L]; [exact L|].
  pose proof (nearest_even_err t) as A. pose proof (nearest_even_err t') as B. assert (C : IZR (nearest_even t') + 1 <= IZR (nearest_even t)) by (rewrite <- plus_IZR; apply IZR_le; lia).
  unfold Rabs in A, B. destruct (Rcase_abs _), (Rcase_abs _); lra.
Qed.
Lemma nearest_even_IZR z : nearest_even (IZR z) = z.
Proof.
  pose proof (nearest_even_err (IZR z)) as A. rewrite <- minus_IZR, <- abs_IZR in A. assert (B : IZR (Z.abs (nearest_even (IZR z) - z)) < IZR 1) by lra.
  apply lt_IZR in B. lia.
Qed.

Lemma exponent_spec n : forall e x, x < two_pow (e + Z.of_nat n + 1) ->
  let e' := exponent n e x in (e <= e')%Z /\ x < two_pow (e' + 1) /\ (e' = e \/ two_pow e' <= x).
Proof.
  induction n as [|n IH]; intros e x H; cbn [exponent]; cbv zeta.
  - split; [lia|]. split; [|left; reflexivity]. replace (e + 1)%Z with (e + Z.of_nat 0 + 1)%Z by lia. exact H.
  - destruct (Rlt_dec _ _) as [L|L]; [split; [lia|]; auto|].
    destruct (IH (e + 1)%Z x) as (A & B & C); [replace (e + 1 + Z.of_nat n + 1)%Z with (e + Z.of_nat (S n) + 1)%Z by lia; exact H|].
    split; [lia|]. split; [exact B|]. right. destruct C as [->|C]; [lra|exact C].
Qed.
Lemma below_two_pow x : 0 <= x -> x < two_pow (up x).
Proof.
  intros H. destruct (archimed x) as [A _]. assert (U : (0 <= up x)%Z) by (apply le_IZR; lra). rewrite two_pow_IZR by exact U.
  assert (IZR (up x) <= IZR (2 ^ up x)); [|lra]. apply IZR_le. pose proof (Z.pow_gt_lin_r 2 (up x)). lia.
Qed.
Lemma expo_spec x : 0 <= x -> (emin <= expo x)%Z /\ x < two_pow (expo x + 1) /\ (expo x = emin \/ two_pow (expo x) <= x).
Proof.
  intros H. apply exponent_spec. eapply Rlt_le_trans; [apply below_two_pow, H|]. apply two_pow_le.
  destruct (archimed x) as [A _]. assert (U : (0 <= up x)%Z) by (apply le_IZR; lra). unfold emin. lia.
Qed.
Lemma expo_unique x e : 0 <= x -> (emin <= e)%Z -> x < two_pow (e + 1) -> e = emin \/ two_pow e <= x -> expo x = e.
Proof.
  intros H H1 H2 H3. destruct (expo_spec x H) as (A & B & C). destruct (Z.lt_trichotomy (expo x) e) as [L|[L|L]]; [|exact L|].
  - destruct H3 as [->|H3]; [lia|]. pose proof (two_pow_le (expo x + 1) e). assert (two_pow (expo x + 1) <= two_pow e) by (apply H0; lia). lra.
  - destruct C as [C|C]; [lia|]. pose proof (two_pow_le (e + 1) (expo x)) as Q. assert (two_pow (e + 1) <= two_pow (expo x)) by (apply Q; lia). lra.
Qed.
Lemma ulp_pos x : 0 < ulp x.
Proof. apply two_pow_pos. Qed.
(** multiples of the spacing are not changed *)
Lemma round_pos_exact m e : (emin <= e)%Z -> (0 <= m)%Z -> (m < 2 ^ 53)%Z -> e = emin \/ (2 ^ 52 <= m)%Z -> round_pos (IZR m * two_pow (e - 52)) = IZR m * two_pow (e - 52).
Proof.
  intros He H0 H1 H2. pose proof (two_pow_pos (e - 52)) as P. assert (M0 : 0 <= IZR m) by (apply IZR_le; exact H0).
  assert (E : expo (IZR m * two_pow (e - 52)) = e).
  { apply expo_unique; [nra|exact He| |].
    - replace (e + 1)%Z with (53 + (e - 52))%Z by lia. rewrite two_pow_add, (two_pow_IZR 53) by lia. apply Rmult_lt_compat_r; [exact P|]. apply IZR_lt. exact H1.
    - destruct H2 as [H2|H2]; [left; exact H2|right]. replace e with (52 + (e - 52))%Z at 1 by lia. rewrite two_pow_add, (two_pow_IZR 52) by lia. apply Rmult_le_compat_r; [lra|]. apply IZR_le. exact H2. }
  unfold round_pos, ulp. rewrite E. unfold Rdiv. rewrite Rmult_assoc, Rinv_r, Rmult_1_r by lra. rewrite nearest_even_IZR. reflexivity.
Qed.
Lemma round_pos_range x : 0 <= x -> exists m, (0 <= m <= 2 ^ 53)%Z /\ round_pos x = IZR m * ulp x /\ (expo x = emin \/ (2 ^ 52 <= m)%Z).
Proof.
  intros H. destruct (expo_spec x H) as (A & B & C). exists (nearest_even (x / ulp x)). pose proof (ulp_pos x) as P.
  assert (Q : x = x / ulp x * ulp x) by (field; lra). assert (Q0 : 0 <= x / ulp x) by (apply Rmult_le_pos; [exact H|left; apply Rinv_0_lt_compat; exact P]).
  assert (Q1 : x / ulp x <= IZR (2 ^ 53)).
  { rewrite <- two_pow_IZR by lia. replace (expo x + 1)%Z with (53 + (expo x - 52))%Z in B by lia. rewrite two_pow_add in B. fold (ulp x) in B. apply Rmult_le_reg_r with (ulp x); [exact P|]. lra. }
  split; [split|split].
  - rewrite <- (nearest_even_IZR 0). apply nearest_even_mono. exact Q0.
  - rewrite <- (nearest_even_IZR (2 ^ 53)). apply nearest_even_mono. exact Q1.
  - reflexivity.
  - destruct C as [C|C]; [left; exact C|right]. rewrite <- (nearest_even_IZR (2 ^ 52)). apply nearest_even_mono.
    rewrite <- two_pow_IZR by lia. replace (expo x) with (52 + (expo x - 52))%Z in C at 1 by lia. rewrite two_pow_add in C. fold (ulp x) in C. apply Rmult_le_reg_r with (ulp x); [exact P|]. lra.
Qed.
Lemma round_pos_idem x : 0 <= x -> round_pos (round_pos x) = round_pos x.
Proof.
  intros H. destruct (round_pos_range x H) as (m & (M0 & M1) & -> & M2). destruct (expo_spec x H) as (A & _ & _). unfold ulp.
  destruct (Z.eq_dec m (2 ^ 53)) as [->|N].
  - replace (IZR (2 ^ 53) * two_pow (expo x - 52)) with (IZR (2 ^ 52) * two_pow (expo x + 1 - 52)).
    + apply round_pos_exact; [lia|lia|lia|right; lia].
    + replace (expo x + 1 - 52)%Z with (1 + (expo x - 52))%Z by lia. rewrite two_pow_add, (two_pow_IZR 1) by lia. rewrite <- Rmult_assoc, <- mult_IZR. reflexivity.
  - apply round_pos_exact; [exact A|exact M0|lia|exact M2].
Qed.
Lemma round_pos_nonneg x : 0 <= x -> 0 <= round_pos x.
Proof. intros H. destruct (round_pos_range x H) as (m & (M0 & _) & -> & _). pose proof (ulp_pos x). apply IZR_le in M0. nra. Qed.
Lemma round_pos_mono x y : 0 <= x -> x <= y -> round_pos x <= round_pos y.
Proof.
  intros H H1. assert (Hy : 0 <= y) by lra. destruct (expo_spec x H) as (A & B & C). destruct (expo_spec y Hy) as (A' & B' & C').
  destruct (Z.lt_trichotomy (expo x) (expo y)) as [L|[L|L]].
  - destruct (round_pos_range x H) as (m & (_ & M1) & -> & _). destruct (round_pos_range y Hy) as (m' & (_ & _) & -> & [M2|M2]); [lia|]. apply IZR_le in M1. apply IZR_le in M2.
    pose proof (ulp_pos x) as P. pose proof (ulp_pos y) as P'. apply Rle_trans with (two_pow (expo x + 1)).
    + replace (expo x + 1)%Z with (53 + (expo x - 52))%Z by lia. rewrite two_pow_add, two_pow_IZR by lia. fold (ulp x). nra.
    + apply Rle_trans with (two_pow (expo y)); [apply two_pow_le; lia|]. replace (expo y) with (52 + (expo y - 52))%Z by lia. rewrite two_pow_add, two_pow_IZR by lia. fold (ulp y). nra.
  - unfold round_pos, ulp. rewrite L. apply Rmult_le_compat_r; [left; apply two_pow_pos|]. apply IZR_le, nearest_even_mono. apply Rmult_le_compat_r; [|exact H1]. left. apply Rinv_0_lt_compat, two_pow_pos.
  - exfalso. destruct C as [C|C]; [lia|]. assert (two_pow (expo y + 1) <= two_pow (expo x)) by (apply two_pow_le; lia). lra.
Qed.
Lemma round_pos_err x : 0 <= x -> Rabs (round_pos x - x) <= two_pow (-53) * x + two_pow (-1075).
Proof.
  intros H. pose proof (ulp_pos x) as P. assert (E : Rabs (round_pos x - x) <= / 2 * ulp x).
  { unfold round_pos. replace (IZR (nearest_even (x / ulp x)) * ulp x - x) with ((IZR (nearest_even (x / ulp x)) - x / ulp x) * ulp x) by (field; lra).
    rewrite Rabs_mult, (Rabs_pos_eq (ulp x)) by lra. apply Rmult_le_compat_r; [lra|]. apply nearest_even_err. }
  eapply Rle_trans; [exact E|]. pose proof (two_pow_pos (-53)). pose proof (two_pow_pos (-1075)). replace (/ 2 * ulp x) with (two_pow (expo x - 53)).
  2:{ unfold ulp. replace (expo x - 52)%Z with (expo x - 53 + 1)%Z by lia. rewrite two_pow_S. field. }
  destruct (expo_spec x H) as (_ & _ & [C|C]).
  - rewrite C. change (emin - 53)%Z with (-1075)%Z. nra.
  - replace (expo x - 53)%Z with (-53 + expo x)%Z by lia. rewrite two_pow_add. nra.
Qed.

Lemma round_b64_pos x : 0 <= x -> round_b64 x = round_pos x.
Proof. intros H. unfold round_b64. destruct (Rlt_dec x 0); [lra|reflexivity]. Qed.
Lemma round_pos_0 : round_pos 0 = 0.
Proof. replace 0 with (IZR 0 * two_pow (emin - 52)) at 1 by ring. rewrite round_pos_exact; [ring|lia|lia|lia|left; reflexivity]. Qed.
Lemma round_b64_odd x : round_b64 (- x) = - round_b64 x.
Proof.
  unfold round_b64. destruct (Rlt_dec x 0), (Rlt_dec (- x) 0); try lra.
  - rewrite Ropp_involutive. reflexivity.
  - assert (x = 0) as -> by lra. rewrite Ropp_0, round_pos_0. ring.
Qed.
(** integers up to 2^53 and powers of two *)
Lemma round_b64_IZR z : (0 <= z <= 2 ^ 53)%Z -> round_b64 (IZR z) = IZR z.
Proof.
  intros [H1 H2]. assert (Z0 : 0 <= IZR z) by (apply IZR_le; exact H1). rewrite round_b64_pos by exact Z0.
  destruct (Z.eq_dec z 0) as [->|N]; [exact round_pos_0|]. destruct (Z.eq_dec z (2 ^ 53)) as [->|N2].
  - replace (IZR (2 ^ 53)) with (IZR (2 ^ 52) * two_pow (53 - 52)); [apply round_pos_exact; [unfold emin; lia|lia|lia|right; lia]|].
    rewrite two_pow_IZR, <- mult_IZR by lia. reflexivity.
  - pose proof (Z.log2_spec z ltac:(lia)) as [L1 L2]. set (l := Z.log2 z) in *. assert (L0 : (0 <= l)%Z) by apply Z.log2_nonneg. assert (L3 : (l <= 52)%Z).
    { destruct (Z.le_gt_cases l 52) as [Q|Q]; [exact Q|]. assert (2 ^ 53 <= 2 ^ l)%Z by (apply Z.pow_le_mono_r; lia). lia. }
    replace (IZR z) with (IZR (z * 2 ^ (52 - l)) * two_pow (l - 52)).
    + apply round_pos_exact; [unfold emin; lia| | |right].
      * apply Z.mul_nonneg_nonneg; [lia|]. apply Z.pow_nonneg. lia.
      * replace 53%Z with (Z.succ l + (52 - l))%Z by lia. rewrite Z.pow_add_r by lia. apply Zmult_lt_compat_r; [apply Z.pow_pos_nonneg; lia|exact L2].
      * replace 52%Z with (l + (52 - l))%Z at 1 by lia. rewrite Z.pow_add_r by lia. apply Z.mul_le_mono_nonneg_r; [apply Z.pow_nonneg; lia|exact L1].
    + rewrite mult_IZR, <- two_pow_IZR by lia. rewrite Rmult_assoc, <- two_pow_add. replace (52 - l + (l - 52))%Z with 0%Z by lia. rewrite two_pow_0. ring.
Qed.
Lemma round_b64_half : round_b64 (1 / 2) = 1 / 2.
Proof.
  rewrite round_b64_pos by lra. replace (1 / 2) with (IZR (2 ^ 52) * two_pow (-1 - 52)).
  - apply round_pos_exact; [unfold emin; lia|lia|lia|right; lia].
  - rewrite <- two_pow_IZR, <- two_pow_add by lia. change (52 + (-1 - 52))%Z with (-1)%Z. unfold two_pow, powerRZ. change (Pos.to_nat 1) with 1%nat. cbn [pow]. lra.
Qed.

Theorem b64_rounding : rounding (two_pow (-53)) (two_pow (-1075)) round_b64.
Proof.
  constructor.
  - intros x y H. unfold round_b64. destruct (Rlt_dec x 0), (Rlt_dec y 0).
    + assert (round_pos (- y) <= round_pos (- x)) by (apply round_pos_mono; lra). lra.
    + assert (0 <= round_pos (- x)) by (apply round_pos_nonneg; lra). assert (0 <= round_pos y) by (apply round_pos_nonneg; lra). lra.
    + lra.
    + apply round_pos_mono; lra.
  - exact round_b64_odd.
  - intros x. destruct (Rle_lt_dec 0 x) as [H|H].
    + rewrite (round_b64_pos x H), round_b64_pos by (apply round_pos_nonneg, H). apply round_pos_idem, H.
    + replace x with (- - x) by ring. rewrite (round_b64_odd (- x)), round_b64_odd. f_equal. rewrite (round_b64_pos (- x)) by lra. rewrite round_b64_pos by (apply round_pos_nonneg; lra). apply round_pos_idem; lra.
  - apply (round_b64_IZR 1). lia.
  - apply (round_b64_IZR 2). lia.
  - exact round_b64_half.
  - intros x. destruct (Rle_lt_dec 0 x) as [H|H].
    + rewrite (round_b64_pos x H), (Rabs_pos_eq x H). apply round_pos_err, H.
    + replace x with (- - x) at 1 2 by ring. rewrite (round_b64_odd (- x)), (Rabs_left x H), (round_b64_pos (- x)) by lra.
      replace (- round_pos (- x) - - - x) with (- (round_pos (- x) - - x)) by ring. rewrite Rabs_Ropp. apply round_pos_err; lra.
  - left. apply two_pow_pos.
  - left. apply two_pow_pos.
Qed.
Lemma b64_counts n : (Z.of_nat n <= 2 ^ 53)%Z -> counts_exact round_b64 n.
Proof. intros H k Hk. rewrite INR_IZR_INZ. apply round_b64_IZR. lia. Qed.
Lemma b64_unit : two_pow (-53) <= 1 / 8.
Proof. apply Rle_trans with (two_pow (-3)); [apply two_pow_le; lia|]. unfold two_pow, powerRZ. change (Pos.to_nat 3) with 3%nat. cbn [pow]. lra. Qed.
