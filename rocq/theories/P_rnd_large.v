(** The projection of vectors with a large entry, in rounded arithmetic *)
From Coq Require Import List Arith ZArith Reals Lra Lia Sorting.Sorted Sorting.Permutation.
From Verif Require Import Num Mat M_simplex Num_rnd Num_b64 Spec Spec_rnd P_lin P_mat P_simplex P_rnd P_b64.
Import ListNotations.
Local Open Scope R_scope.

Section Large.
  Variables (u eta : R) (rnd : R -> R).
  Hypothesis HR : rounding u eta rnd.
  Notation NR := (Num_rnd rnd).

  Lemma skipn_last (s : list R) n : length s = S n -> skipn n s = [at_ s n].
  Proof using.
    revert s. induction n as [|n IH]; intros s H.
    - destruct s as [|a [|b s]]; try discriminate. reflexivity.
    - destruct s as [|a s]; [discriminate|]. cbn [length] in H. injection H as H. cbn [skipn]. rewrite (IH s H). reflexivity.
  Qed.
  Lemma large_vanish x M : (forall y, In y x -> y <= M) -> In M x -> rnd M = M -> rnd (M - 1) = M ->
    @simplex_project_vector R NR x = repeat 0 (length x).
  Proof using HR.
    intros HM IM E1 E2. assert (T : @t_hat R NR (@np_sort R NR x) = M).
    { rewrite sort_rnd. set (s := @np_sort R Num_R x). assert (L : length s = length x) by apply np_sort_length.
      assert (P : Permutation s x) by apply np_sort_perm. assert (S1 : StronglySorted Rle s) by apply np_sort_sorted.
      destruct (length s) as [|n] eqn:En; [destruct x; [destruct IM|discriminate]|].
      assert (B : forall i, (i <= n)%nat -> at_ s i <= M) by (intros i Hi; apply HM; apply (Permutation_in _ P); apply nth_In; lia).
      assert (A : at_ s n = M).
      { apply Rle_antisym; [apply B; lia|]. apply (Permutation_in _ (Permutation_sym P)) in IM. apply (In_nth _ _ 0) in IM. destruct IM as (i & Hi & Ei).
        rewrite <- Ei. apply (sorted_nth s i n S1); lia. }
      unfold t_hat. rewrite En. assert (T1 : @t_hat_at R NR s 1 = M).
      { unfold t_hat_at. rewrite En. replace (S n - 1)%nat with n by lia. rewrite (skipn_last s n En), A. unfold vsum. cbn [length nsum vget nth nofnat nofZ nadd nsub ndiv n0 n1 Num_rnd].
        unfold nofnat. cbn [nofZ Num_rnd]. change (IZR (Z.of_nat 1)) with 1. rewrite (rnd_one _ _ _ HR), Rplus_0_l, E1, E2. unfold Rdiv. rewrite Rinv_1, Rmult_1_r. exact E1. }
      assert (Q : forall l, @t_hat_loop R NR s l 1 = M); [|apply Q]. intros l. destruct l; cbn [t_hat_loop]; rewrite T1; cbn [nleb Num_rnd]; [destruct (Rleb _ _); reflexivity|].
      destruct (Rleb_spec (@sorted_at R NR s 1) M) as [H|H]; [reflexivity|]. exfalso. unfold sorted_at in H. rewrite En in H. destruct (Nat.eqb 1 (S n)); cbn [vget] in H.
      - assert (@vget R NR s (S n - 1) <= M); [|lra]. apply (B (S n - 1)%nat). lia.
      - assert (@vget R NR s (S n - 1 - 1) <= M); [|lra]. apply (B (S n - 1 - 1)%nat). lia. }
    unfold simplex_project_vector. rewrite T. clear T IM. induction x as [|a x IH]; [reflexivity|]. cbn [map length repeat]. f_equal.
    - rewrite nfmax_rnd. cbn [nsub n0 Num_rnd]. apply Rmax_right. apply (rnd_neg _ _ _ HR). assert (a <= M) by (apply HM; left; reflexivity). lra.
    - apply IH. intros y Hy. apply HM. right. exact Hy.
  Qed.
End Large.

(** in binary64 subtracting 1 changes no number above 2^54 *)
Lemma nearest_quarter t z : Rabs (IZR z - t) <= / 4 -> nearest_even t = z.
Proof.
  intros H. pose proof (nearest_even_err t) as A. apply Rabs_le_iff in H, A. assert (B : IZR (nearest_even t - z) < 1) by (rewrite minus_IZR; lra).
  assert (C : -1 < IZR (nearest_even t - z)) by (rewrite minus_IZR; lra). apply lt_IZR in B. apply (lt_IZR (-1)) in C. lia.
Qed.
Lemma b64_large M : two_pow 55 <= M -> round_b64 M = M -> round_b64 (M - 1) = M.
Proof.
  intros HM E. pose proof (two_pow_pos 55) as P55. assert (L1 : 1 <= two_pow 54) by (rewrite <- two_pow_0; apply two_pow_le; lia).
  assert (E55 : two_pow 55 = 2 * two_pow 54) by (change 55%Z with (54 + 1)%Z; apply two_pow_S).
  rewrite round_b64_pos in E by lra. rewrite round_b64_pos by lra. destruct (expo_spec M) as (X1 & X2 & X3); [lra|]. set (e := expo M) in *.
  assert (He : (55 <= e)%Z).
  { assert (55 < e + 1)%Z; [|lia]. apply two_pow_lt_inv. lra. }
  assert (X : two_pow e <= M) by (destruct X3 as [X3|X3]; [rewrite X3 in He; unfold emin in He; lia|exact X3]). clear X3.
  unfold round_pos in E. assert (U : ulp M = two_pow (e - 52)) by reflexivity. rewrite U in E. set (z := nearest_even _) in E. clearbody z.
  pose proof (two_pow_pos (e - 52)) as PU. assert (U8 : 8 <= two_pow (e - 52)) by (replace 8 with (two_pow 3) by (rewrite two_pow_IZR by lia; reflexivity); apply two_pow_le; lia).
  assert (D1 : two_pow e = IZR (2 ^ 52) * two_pow (e - 52)) by (rewrite <- two_pow_IZR, <- two_pow_add by lia; f_equal; lia).
  destruct (Rle_lt_dec (two_pow e) (M - 1)) as [C|C].
  - assert (EX : expo (M - 1) = e) by (apply expo_unique; [lra|lia|lra|right; lra]). unfold round_pos, ulp. rewrite EX.
    rewrite (nearest_quarter _ z); [exact E|]. apply Rabs_le. rewrite <- E.
    replace ((IZR z * two_pow (e - 52) - 1) / two_pow (e - 52)) with (IZR z - / two_pow (e - 52)) by (field; lra).
    assert (0 < / two_pow (e - 52) <= / 8) by (split; [apply Rinv_0_lt_compat; lra|apply Rinv_le_contravar; lra]). lra.
  - (* M is the power of 2 itself *)
    assert (Z : z = (2 ^ 52)%Z).
    { assert (A1 : IZR (2 ^ 52) <= IZR z) by (apply (Rmult_le_reg_r (two_pow (e - 52))); [exact PU|lra]).
      assert (A2 : IZR z < IZR (2 ^ 52) + 1).
      { apply (Rmult_lt_reg_r (two_pow (e - 52))); [exact PU|]. lra. }
      rewrite <- plus_IZR in A2. apply lt_IZR in A2. apply le_IZR in A1. lia. }
    subst z. assert (D2 : M = two_pow e) by lra.
    assert (D3 : two_pow e = 2 * two_pow (e - 1)) by (replace e with (e - 1 + 1)%Z at 1 by lia; apply two_pow_S).
    assert (D4 : two_pow (e - 52) = 2 * two_pow (e - 1 - 52)) by (replace (e - 52)%Z with (e - 1 - 52 + 1)%Z by lia; apply two_pow_S).
    assert (D5 : 1 <= two_pow (e - 1)) by (rewrite <- two_pow_0; apply two_pow_le; lia).
    assert (EX : expo (M - 1) = (e - 1)%Z).
    { apply expo_unique; [lra|unfold emin; lia| |right; lra]. replace (e - 1 + 1)%Z with e by lia. lra. }
    unfold round_pos, ulp. rewrite EX. set (w := two_pow (e - 1 - 52)) in *. assert (W : 4 <= w) by lra.
    assert (D6 : M = IZR (2 ^ 53) * w) by (change (2 ^ 53)%Z with (2 * 2 ^ 52)%Z; rewrite mult_IZR; rewrite D2, D1, D4; ring).
    rewrite (nearest_quarter _ (2 ^ 53)); [symmetry; exact D6|]. rewrite D6. apply Rabs_le.
    replace ((IZR (2 ^ 53) * w - 1) / w) with (IZR (2 ^ 53) - / w) by (field; lra).
    assert (0 < / w <= / 4) by (split; [apply Rinv_0_lt_compat; lra|apply Rinv_le_contravar; lra]). lra.
Qed.
