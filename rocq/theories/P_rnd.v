(** Rounded arithmetic: sums and the simplex projection *)
From Coq Require Import List Arith Lia ZArith Reals Lra Psatz Permutation Sorted.
From Verif Require Import Num Mat Num_rnd Spec Spec_rnd M_simplex P_lin P_simplex.
Import ListNotations.
Local Open Scope R_scope.

Lemma Rabs_le_iff x a : Rabs x <= a <-> - a <= x <= a.
Proof. split; [intros H; unfold Rabs in H; destruct (Rcase_abs x); lra | intros [H1 H2]; apply Rabs_le; lra]. Qed.

Lemma abs_minus1 a : Rabs (a - 1) <= Rabs a + 1.
Proof. unfold Rabs. destruct (Rcase_abs _), (Rcase_abs _); lra. Qed.

Section Rnd.
  Variables (u eta : R) (rnd : R -> R).
  Hypothesis HR : rounding u eta rnd.
  Notation NR := (Num_rnd rnd).

  Lemma rnd0 : rnd 0 = 0.
  Proof using HR. pose proof (rnd_odd _ _ _ HR 0) as H. rewrite Ropp_0 in H. lra. Qed.
  Lemma rnd_pos x : 0 <= x -> 0 <= rnd x.
  Proof using HR. intros H. rewrite <- rnd0. apply (rnd_mono _ _ _ HR). exact H. Qed.
  Lemma rnd_neg x : x <= 0 -> rnd x <= 0.
  Proof using HR. intros H. rewrite <- rnd0. apply (rnd_mono _ _ _ HR). exact H. Qed.
  Lemma rnd_le1 x : x <= 1 -> rnd x <= 1.
  Proof using HR. intros H. rewrite <- (rnd_one _ _ _ HR). apply (rnd_mono _ _ _ HR). exact H. Qed.

  Lemma nsum_err m f : Rabs (@nsum R NR m f - Sum m f) <= INR m * (1 + u) ^ m * (u * Sum m (fun i => Rabs (f i)) + eta).
  Proof using HR.
    pose proof (rnd_u _ _ _ HR) as Hu. pose proof (rnd_eta _ _ _ HR) as He. induction m as [|m IH]; cbn [nsum Sum].
    - replace (n0 - 0) with 0 by (cbn; lra). rewrite Rabs_R0. cbn. lra.
    - cbn [nadd Num_rnd]. set (s := @nsum R NR m f) in *. set (S0 := Sum m f) in *. set (B := Sum m (fun i => Rabs (f i))) in *.
      assert (HB : Rabs S0 <= B) by apply Sum_abs. assert (HB0 : 0 <= B) by (apply Sum_nonneg; intros; apply Rabs_pos).
      pose proof (rnd_err _ _ _ HR (s + f m)) as E. pose proof (Rabs_pos (f m)) as Pf.
      assert (P1 : 1 <= (1 + u) ^ m) by (apply pow_R1_Rle; lra). assert (Pm : 0 <= INR m) by apply pos_INR.
      set (e := INR m * (1 + u) ^ m * (u * B + eta)) in *.
      assert (E1 : Rabs (s + f m) <= Rabs (s - S0) + B + Rabs (f m)).
      { replace (s + f m) with (s - S0 + (S0 + f m)) by ring. pose proof (Rabs_triang (s - S0) (S0 + f m)). pose proof (Rabs_triang S0 (f m)). lra. }
      assert (E2 : Rabs (rnd (s + f m) - (S0 + f m)) <= Rabs (rnd (s + f m) - (s + f m)) + Rabs (s - S0)).
      { replace (rnd (s + f m) - (S0 + f m)) with (rnd (s + f m) - (s + f m) + (s - S0)) by ring. apply Rabs_triang. }
      assert (E3 : Rabs (rnd (s + f m) - (S0 + f m)) <= (1 + u) * e + (u * (B + Rabs (f m)) + eta)) by nra.
      rewrite S_INR. cbn [pow]. eapply Rle_trans; [exact E3|].
      set (w := u * (B + Rabs (f m)) + eta). assert (W0 : 0 <= w) by (unfold w; nra). assert (W1 : u * B + eta <= w) by (unfold w; nra).
      assert (e <= INR m * (1 + u) ^ m * w) by (unfold e; apply Rmult_le_compat_l; [nra | exact W1]).
      assert (1 <= (1 + u) * (1 + u) ^ m) by nra. assert (w <= (1 + u) * (1 + u) ^ m * w) by nra.
      replace ((INR m + 1) * ((1 + u) * (1 + u) ^ m) * w) with ((1 + u) * (INR m * (1 + u) ^ m * w) + (1 + u) * (1 + u) ^ m * w) by ring. nra.
  Qed.
  Lemma pow_bound n : INR n * u <= 1 -> (1 + u) ^ n <= 3.
  Proof using HR.
    intros H. pose proof (rnd_u _ _ _ HR) as Hu. assert (P : forall m, INR m * u <= 1 -> (1 + u) ^ m <= 1 + INR m * u + (INR m * u) * (INR m * u)).
    { induction m as [|m IH]; [cbn; lra|]. rewrite S_INR. intros Hm. pose proof (pos_INR m) as M0. assert (Hm' : INR m * u <= 1) by nra. specialize (IH Hm'). cbn [pow]. set (x := INR m * u) in *.
      assert (X0 : 0 <= x) by (unfold x; nra). replace ((INR m + 1) * u) with (x + u) by (unfold x; ring).  assert (XU : x * (x * u) <= 1 * (x * u)) by (apply Rmult_le_compat_r; [apply Rmult_le_pos|]; assumption). assert (0 <= x * u) by (apply Rmult_le_pos; assumption).
      apply Rle_trans with ((1 + u) * (1 + x + x * x)); [apply Rmult_le_compat_l; lra|]. assert (0 <= u * u) by (apply Rmult_le_pos; assumption). lra. }
    specialize (P n H). pose proof (pos_INR n). assert (0 <= INR n * u) by nra. cbn [pow] in P. nra.
  Qed.
  Lemma nsum_bound n m f : (m <= n)%nat -> INR n * u <= 1 ->
    Rabs (@nsum R NR m f - Sum m f) <= 3 * INR n * (u * Sum m (fun i => Rabs (f i)) + eta).
  Proof using HR.
    intros Hm H. pose proof (rnd_u _ _ _ HR) as Hu. pose proof (rnd_eta _ _ _ HR) as He. eapply Rle_trans; [apply nsum_err|].
    assert (I : INR m <= INR n) by (apply le_INR; exact Hm). pose proof (pos_INR m). assert (Q : (1 + u) ^ m <= 3) by (apply pow_bound; nra).
    assert (0 <= Sum m (fun i => Rabs (f i))) by (apply Sum_nonneg; intros; apply Rabs_pos). assert (0 <= (1 + u) ^ m) by (apply pow_le; lra).
    set (w := u * _ + eta). assert (0 <= w) by (unfold w; nra). apply Rmult_le_compat_r; [assumption|]. nra.
  Qed.
End Rnd.

(** ** the threshold from perturbed scans *)
Section Scan.
  Variables (N' : Num R) (s : list R) (eps : R).
  Hypothesis Hs : StronglySorted Rle s.
  Hypothesis Hleb : @nleb R N' = Rleb.
  Hypothesis H0 : @n0 R N' = 0.
  Hypothesis Heps : 0 <= eps.
  Notation n := (length s).
  Notation top k := (lsum (skipn (n - k) s)).
  Notation th k := ((top k - 1) / INR k).
  Notation T k := (@t_hat_at R N' s k).
  Hypothesis HT : forall k, (1 <= k <= n)%nat -> Rabs (T k - th k) <= eps.

  Lemma scan_sorted k : (k < n)%nat -> @sorted_at R N' s k = at_ s (n - 1 - k).
  Proof using H0. intros H. unfold sorted_at. replace (Nat.eqb k n) with false by (symmetry; apply Nat.eqb_neq; lia). unfold vget, at_. rewrite H0. reflexivity. Qed.
  Lemma scan_loop left : forall k, (1 <= k)%nat -> (k + left = n)%nat -> th k <= at_ s (n - k) + eps ->
    exists K, (1 <= K <= n)%nat /\ @t_hat_loop R N' s left k = T K /\ th K <= at_ s (n - K) + eps /\ (K = n \/ at_ s (n - 1 - K) <= th K + eps).
  Proof using Hleb H0 HT Heps.
    induction left as [|left IH]; intros k H1 Hk Hlt; cbn [t_hat_loop]; rewrite Hleb.
    - exists k. split; [lia|]. split; [destruct (Rleb _ _); reflexivity|]. split; [exact Hlt|]. left; lia.
    - rewrite scan_sorted by lia. pose proof (proj1 (Rabs_le_iff _ _) (HT k ltac:(lia))) as HTk. destruct (Rleb_spec (at_ s (n - 1 - k)) (T k)) as [E|E].
      + exists k. split; [lia|]. split; [reflexivity|]. split; [exact Hlt|]. right. lra.
      + apply IH; [lia|lia|]. rewrite top_S by lia. replace (n - S k)%nat with (n - 1 - k)%nat by lia. set (z := at_ s (n - 1 - k)) in *.
        assert (Hk0 : 0 < INR k) by (apply lt_0_INR; lia). rewrite S_INR. 
        assert (Q : top k - 1 <= (z + eps) * INR k). { replace (top k - 1) with (th k * INR k) by (field; lra). apply Rmult_le_compat_r; lra. }
        apply Rmult_le_reg_r with (INR k + 1); [lra|]. replace ((z + top k - 1) / (INR k + 1) * (INR k + 1)) with (z + top k - 1) by (field; lra). nra.
  Qed.
  Lemma scan_t_hat : (0 < n)%nat -> exists K, (1 <= K <= n)%nat /\ @t_hat R N' s = T K /\ th K <= at_ s (n - K) + eps /\ (K = n \/ at_ s (n - 1 - K) <= th K + eps).
  Proof using Hleb H0 HT Heps.
    intros Hn. unfold t_hat. destruct n as [|m] eqn:E; [lia|]. rewrite <- E in *. apply scan_loop; try lia.
    rewrite top_S by lia. rewrite top_0. replace (n - 1 - 0)%nat with (n - 1)%nat by lia. cbn [INR]. lra.
  Qed.
  Lemma lsum_map_le {A} (f g : A -> R) l : (forall x, In x l -> f x <= g x) -> lsum (map f l) <= lsum (map g l).
  Proof using. unfold lsum. induction l as [|x l IH]; cbn [map fold_right]; intros H; [lra|]. pose proof (H x (or_introl eq_refl)). pose proof (IH (fun y Hy => H y (or_intror Hy))). lra. Qed.
  Lemma lsum_map_const {A} (c : R) (l : list A) : lsum (map (fun _ => c) l) = INR (length l) * c.
  Proof using. unfold lsum. induction l as [|x l IH]; [cbn; lra|]. cbn [map fold_right length]. rewrite S_INR, IH. lra. Qed.
  Lemma scan_sum K : (1 <= K <= n)%nat -> th K <= at_ s (n - K) + eps -> (K = n \/ at_ s (n - 1 - K) <= th K + eps) ->
    1 <= lsum (map (fun x => Rmax (x - th K) 0) s) <= 1 + INR n * eps.
  Proof using Hs Heps.
    intros HK Hlt Hge. assert (SP : forall f : R -> R, lsum (map f s) = lsum (map f (firstn (n - K) s)) + lsum (map f (skipn (n - K) s))) by (intros f; rewrite <- lsum_app, <- map_app, firstn_skipn; reflexivity).
    rewrite SP.
    assert (A1 : forall x, In x (firstn (n - K) s) -> x - th K <= eps).
    { intros x Hx. apply In_nth with (d := 0) in Hx. destruct Hx as (i & Hi & <-). rewrite firstn_length in Hi. destruct Hge as [->|Hge]; [lia|].
      assert (at_ s i <= at_ s (n - 1 - K)) by (apply sorted_nth; [assumption | lia..]).
      assert (nth i (firstn (n - K) s) 0 = at_ s i) as ->; [|lra]. transitivity (nth i (firstn (n - K) s ++ skipn (n - K) s) 0); [|rewrite firstn_skipn; reflexivity]. rewrite app_nth1; [reflexivity|]. rewrite firstn_length; lia. }
    assert (A2 : forall x, In x (skipn (n - K) s) -> - eps <= x - th K).
    { intros x Hx. apply In_nth with (d := 0) in Hx. destruct Hx as (i & Hi & <-). rewrite skipn_length in Hi.
      assert (nth i (skipn (n - K) s) 0 = at_ s (n - K + i)) as ->.
      { transitivity (nth (n - K + i) (firstn (n - K) s ++ skipn (n - K) s) 0); [|rewrite firstn_skipn; reflexivity]. rewrite app_nth2; rewrite firstn_length; [f_equal|]; lia. }
      assert (at_ s (n - K) <= at_ s (n - K + i)) by (apply sorted_nth; [assumption | lia..]). lra. }
    assert (LK : lsum (map (fun x => x - th K) (skipn (n - K) s)) = 1).
    { rewrite lsum_map_shift, skipn_length. replace (n - (n - K))%nat with K by lia. field. apply not_0_INR; lia. }
    assert (B1 : 0 <= lsum (map (fun x => Rmax (x - th K) 0) (firstn (n - K) s))).
    { eapply Rle_trans; [|apply (lsum_map_le (fun _ => 0)); intros; apply Rmax_r]. rewrite lsum_map_const. lra. }
    assert (B2 : lsum (map (fun x => Rmax (x - th K) 0) (firstn (n - K) s)) <= INR (n - K) * eps).
    { eapply Rle_trans; [apply (lsum_map_le _ (fun _ => eps)); intros x Hx; apply Rmax_lub; [apply A1; exact Hx | exact Heps]|]. rewrite lsum_map_const, firstn_length. rewrite Nat.min_l by lia. lra. }
    assert (B3 : lsum (map (fun x => x - th K) (skipn (n - K) s)) <= lsum (map (fun x => Rmax (x - th K) 0) (skipn (n - K) s))) by (apply lsum_map_le; intros; apply Rmax_l).
    assert (B4 : lsum (map (fun x => Rmax (x - th K) 0) (skipn (n - K) s)) <= 1 + INR K * eps).
    { eapply Rle_trans; [apply (lsum_map_le _ (fun x => x - (th K - eps))); intros x Hx; pose proof (A2 x Hx); apply Rmax_lub; lra|].
      rewrite lsum_map_shift in *. rewrite skipn_length in *. replace (n - (n - K))%nat with K in * by lia. lra. }
    rewrite minus_INR, Rmult_minus_distr_r in B2 by lia. split; lra.
  Qed.
End Scan.

(** the sum of the clipped entries determines the threshold *)
Lemma lsum_index (f : R -> R) l : lsum (map f l) = Sum (length l) (fun i => f (at_ l i)).
Proof. rewrite <- Sum_lsum, map_length. apply Sum_ext. intros i Hi. apply at_map. exact Hi. Qed.
Lemma Sum_pos_term n f : 0 < Sum n f -> exists i, (i < n)%nat /\ 0 < f i.
Proof.
  induction n as [|n IH]; cbn [Sum]; intros H; [lra|]. destruct (Rlt_dec 0 (f n)) as [L|L]; [exists n; split; [lia|exact L]|].
  destruct IH as (i & Hi & P); [lra|]. exists i. split; [lia|exact P].
Qed.
Lemma threshold_close s t t' d : lsum (map (fun x => Rmax (x - t) 0) s) = 1 -> 1 <= lsum (map (fun x => Rmax (x - t') 0) s) <= 1 + d -> t' <= t <= t' + d.
Proof.
  rewrite !lsum_index. intros H1 H2.
  assert (EX : exists i, (i < length s)%nat /\ 0 < Rmax (at_ s i - t) 0) by (apply (Sum_pos_term (length s) (fun i => Rmax (at_ s i - t) 0)); rewrite H1; lra).
  destruct EX as (i & Hi & Li). assert (Li' : t < at_ s i) by (unfold Rmax in Li; destruct (Rle_dec _ _) in Li; lra). clear Li. rename Li' into Li. assert (L : t' <= t).
  { destruct (Rle_lt_dec t' t) as [L|L]; [exact L|]. exfalso.
    assert (D : 0 < Sum (length s) (fun i => Rmax (at_ s i - t) 0 - Rmax (at_ s i - t') 0)).
    { apply (Sum_pos _ _ i); [|exact Hi|].
      - intros j _. assert (Rmax (at_ s j - t') 0 <= Rmax (at_ s j - t) 0) by (apply Rmax_lub; [eapply Rle_trans; [|apply Rmax_l]; lra | apply Rmax_r]). lra.
      - cbv beta. rewrite (Rmax_left (at_ s i - t)) by lra. unfold Rmax. destruct (Rle_dec _ _); lra. }
    rewrite Sum_minus in D. lra. }
  split; [exact L|].
  assert (D : Rmax (at_ s i - t') 0 - Rmax (at_ s i - t) 0 <= Sum (length s) (fun i => Rmax (at_ s i - t') 0 - Rmax (at_ s i - t) 0)).
  { apply (Sum_ge_term _ (fun i => Rmax (at_ s i - t') 0 - Rmax (at_ s i - t) 0)); [|exact Hi]. intros j _.
    assert (Rmax (at_ s j - t) 0 <= Rmax (at_ s j - t') 0) by (apply Rmax_lub; [eapply Rle_trans; [|apply Rmax_l]; lra | apply Rmax_r]). lra. }
  rewrite Sum_minus in D. rewrite !Rmax_left in D by lra. lra.
Qed.

(** ** the rounded projection *)
Section Proj.
  Variables (u eta : R) (rnd : R -> R).
  Hypothesis HR : rounding u eta rnd.
  Hypothesis Hu8 : u <= 1 / 8.
  Notation NR := (Num_rnd rnd).

  Lemma skipn_abs_sum (s : list R) m : lsum (map Rabs (skipn m s)) <= lsum (map Rabs s).
  Proof using.
    rewrite <- (firstn_skipn m s) at 2. rewrite map_app, lsum_app. assert (0 <= lsum (map Rabs (firstn m s))); [|lra].
    eapply Rle_trans; [|apply (lsum_map_le (fun _ => 0)); intros; apply Rabs_pos]. rewrite lsum_map_const. lra.
  Qed.
  Lemma lsum_abs (s : list R) : Rabs (lsum s) <= lsum (map Rabs s).
  Proof using. rewrite lsum_index, <- Sum_lsum. apply Sum_abs. Qed.
  Lemma vsum_bound (l : list R) n : (length l <= n)%nat -> INR n * u <= 1 -> Rabs (@vsum R NR l - lsum l) <= 3 * INR n * (u * lsum (map Rabs l) + eta).
  Proof using HR. intros H1 H2. unfold vsum. rewrite <- Sum_lsum, lsum_index. change (@vget R NR l) with (at_ l). apply (nsum_bound _ _ _ HR); assumption. Qed.

  Lemma t_hat_at_err s k : (1 <= k <= length s)%nat -> counts_exact rnd (length s) -> INR (length s) * u <= 1 ->
    Rabs (@t_hat_at R NR s k - (lsum (skipn (length s - k) s) - 1) / INR k) <= 6 * INR (length s) * (u * (lsum (map Rabs s) + 1) + eta).
  Proof using HR Hu8.
    intros Hk HC Hn. pose proof (rnd_u _ _ _ HR) as Hu. pose proof (rnd_eta _ _ _ HR) as He. set (n := length s) in *. set (B := lsum (map Rabs s)).
    set (l := skipn (n - k) s). assert (Ll : (length l <= n)%nat) by (unfold l; rewrite skipn_length; lia).
    pose proof (vsum_bound l n Ll Hn) as V. pose proof (skipn_abs_sum s (n - k)) as BL. fold l B in BL. pose proof (lsum_abs l) as SL. set (S0 := lsum l) in *.
    assert (I1 : 1 <= INR n) by (change 1 with (INR 1); apply le_INR; lia). assert (K1 : 1 <= INR k) by (change 1 with (INR 1); apply le_INR; lia).
    unfold t_hat_at. fold n l. cbn [ndiv nsub n1 Num_rnd]. unfold nofnat. cbn [nofZ Num_rnd]. rewrite <- INR_IZR_INZ, HC by lia. set (vs := @vsum R NR l) in *.
    set (w := u * (B + 1) + eta). set (nw := INR n * w). assert (B0 : 0 <= B) by (pose proof (Rabs_pos S0); lra).
    assert (W0 : 0 <= w) by (unfold w; nra). assert (W1 : w <= nw) by (unfold nw; nra).
    assert (V' : Rabs (vs - S0) <= 3 * nw).
    { eapply Rle_trans; [exact V|]. unfold nw. rewrite Rmult_assoc. apply Rmult_le_compat_l; [lra|]. apply Rmult_le_compat_l; [lra|]. unfold w. nra. }
    assert (Bu : u * (B + 1) + eta <= w) by apply Rle_refl.
    pose proof (rnd_err _ _ _ HR (vs - 1)) as E1. set (q := rnd (vs - 1)) in *.
    assert (A1 : Rabs (vs - 1) <= B + 1 + 3 * nw).
    { replace (vs - 1) with ((vs - S0) + (S0 - 1)) by ring. pose proof (Rabs_triang (vs - S0) (S0 - 1)). pose proof (abs_minus1 S0). lra. }
    assert (E2 : Rabs (q - (S0 - 1)) <= 35 / 8 * nw).
    { replace (q - (S0 - 1)) with ((q - (vs - 1)) + (vs - S0)) by ring. pose proof (Rabs_triang (q - (vs - 1)) (vs - S0)). unfold w in *. nra. }
    assert (A2 : Rabs q <= B + 1 + 35 / 8 * nw).
    { replace q with ((q - (S0 - 1)) + (S0 - 1)) by ring. pose proof (Rabs_triang (q - (S0 - 1)) (S0 - 1)). pose proof (abs_minus1 S0). lra. }
    assert (DV : forall a, Rabs (a / INR k) <= Rabs a).
    { intros a. unfold Rdiv. rewrite Rabs_mult, Rabs_inv. rewrite (Rabs_pos_eq (INR k)) by lra. rewrite <- (Rmult_1_r (Rabs a)) at 2. apply Rmult_le_compat_l; [apply Rabs_pos|]. rewrite <- Rinv_1. apply Rinv_le_contravar; lra. }
    pose proof (rnd_err _ _ _ HR (q / INR k)) as E3. pose proof (DV q) as D1. pose proof (DV (q - (S0 - 1))) as D2.
    replace (rnd (q / INR k) - (S0 - 1) / INR k) with ((rnd (q / INR k) - q / INR k) + (q - (S0 - 1)) / INR k) by (field; lra).
    eapply Rle_trans; [apply Rabs_triang|]. replace (6 * INR n * w) with (6 * nw) by (unfold nw; ring). unfold w in *. nra.
  Qed.

  Lemma lsum_map_perm (f : R -> R) a b : Permutation a b -> lsum (map f a) = lsum (map f b).
  Proof using. intros H. apply lsum_perm, Permutation_map, H. Qed.
  Lemma sort_rnd x : @np_sort R NR x = @np_sort R Num_R x.
  Proof using. reflexivity. Qed.
  Lemma nfmax_rnd a b : @nfmax R NR a b = Rmax a b.
  Proof using. exact (nfmax_R a b). Qed.

  Lemma proj_rnd_nonneg x i : 0 <= at_ (@simplex_project_vector R NR x) i.
  Proof using.
    destruct (Nat.lt_ge_cases i (length x)) as [Hi|Hi].
    - unfold simplex_project_vector. rewrite at_map by exact Hi. rewrite nfmax_rnd. apply Rmax_r.
    - unfold at_. rewrite nth_overflow; [lra|]. unfold simplex_project_vector. rewrite map_length. exact Hi.
  Qed.
  Lemma proj_rnd_err x i : (i < length x)%nat -> counts_exact rnd (length x) -> INR (length x) * u <= 1 ->
    Rabs (at_ (@simplex_project_vector R NR x) i - at_ (@simplex_project_vector R Num_R x) i) <= 16 * INR (length x) ^ 2 * (u * (abs_sum x + 1) + eta).
  Proof using HR Hu8.
    intros Hi HC Hn. pose proof (rnd_u _ _ _ HR) as Hu. pose proof (rnd_eta _ _ _ HR) as He.
    set (s := @np_sort R Num_R x). assert (Ls : length s = length x) by apply np_sort_length. assert (Ss : StronglySorted Rle s) by apply np_sort_sorted.
    set (n := length x) in *. set (B := abs_sum x). assert (EB : lsum (map Rabs s) = B) by (unfold B, abs_sum; rewrite <- (lsum_index Rabs); apply lsum_map_perm, np_sort_perm).
    set (w := u * (B + 1) + eta). assert (I1 : 1 <= INR n) by (change 1 with (INR 1); apply le_INR; lia).
    assert (HB : forall j, (j < n)%nat -> Rabs (at_ x j) <= B) by (intros j Hj; apply (Sum_ge_term _ (fun i => Rabs (at_ x i))); [intros; apply Rabs_pos | exact Hj]).
    pose proof (HB i Hi) as HBi. pose proof (Rabs_pos (at_ x i)) as P0. assert (W0 : 0 <= w) by (unfold w; nra).
    set (eps := 6 * INR n * w). assert (E0 : 0 <= eps) by (unfold eps; nra).
    assert (HT : forall k, (1 <= k <= length s)%nat -> Rabs (@t_hat_at R NR s k - (lsum (skipn (length s - k) s) - 1) / INR k) <= eps).
    { intros k Hk. unfold eps, w. rewrite <- Ls, <- EB. apply t_hat_at_err; [exact Hk | rewrite Ls; exact HC | rewrite Ls; exact Hn]. }
    destruct (scan_t_hat NR s eps eq_refl eq_refl E0 HT ltac:(lia)) as (K & HK & EK & L1 & L2).
    pose proof (scan_sum s eps Ss E0 K HK L1 L2) as SU. pose proof (t_hat_sum s Ss ltac:(lia)) as TS.
    pose proof (threshold_close _ _ _ _ TS SU) as TC. specialize (HT K HK). set (tK := (lsum (skipn (length s - K) s) - 1) / INR K) in *. rewrite Ls in TC.
    rewrite <- EK in HT. set (t := @t_hat R NR s) in *. set (t0 := @t_hat R Num_R s) in *.
    assert (T0 : Rabs t0 <= B + 1).
    { unfold t0. destruct (t_hat_spec s ltac:(lia)) as (K' & H1 & H2 & -> & _). pose proof (lsum_abs (skipn (length s - K') s)) as Q. pose proof (skipn_abs_sum s (length s - K')) as Q'. rewrite EB in Q'.
      assert (1 <= INR K') by (change 1 with (INR 1); apply le_INR; lia). set (a := lsum (skipn (length s - K') s)) in *. unfold Rdiv. rewrite Rabs_mult, Rabs_inv, (Rabs_pos_eq (INR K')) by lra.
      apply Rle_trans with (Rabs (a - 1)); [rewrite <- (Rmult_1_r (Rabs (a - 1))) at 2; apply Rmult_le_compat_l; [apply Rabs_pos|]; rewrite <- Rinv_1; apply Rinv_le_contravar; lra|].
      pose proof (abs_minus1 a). lra. }
    set (nw := INR n ^ 2 * w). assert (N2 : INR n <= INR n ^ 2) by (cbn; nra). assert (W1 : w <= nw) by (unfold nw; nra).
    assert (TE : Rabs (t - t0) <= 12 * nw).
    { apply Rabs_le_iff in HT. apply Rabs_le_iff. assert (INR n * eps = 6 * nw) by (unfold eps, nw; ring). assert (eps <= 6 * nw) by (unfold eps, nw; nra). split; lra. }
    unfold simplex_project_vector. rewrite !at_map by exact Hi. rewrite nfmax_rnd, nfmax_R. rewrite sort_rnd. fold s t t0. cbn [nsub Num_rnd n0 Num_R].
    assert (MX : forall a b, Rabs (Rmax a 0 - Rmax b 0) <= Rabs (a - b)).
    { intros a b. unfold Rmax. destruct (Rle_dec a 0), (Rle_dec b 0); unfold Rabs; repeat destruct (Rcase_abs _); lra. }
    eapply Rle_trans; [apply MX|]. set (xi := at_ x i) in *. pose proof (rnd_err _ _ _ HR (xi - t)) as ER.
    replace (rnd (xi - t) - (xi - t0)) with ((rnd (xi - t) - (xi - t)) - (t - t0)) by ring.
    assert (XT : Rabs (xi - t) <= B + (B + 1) + 12 * nw).
    { replace (xi - t) with (xi - t0 - (t - t0)) by ring. apply Rabs_le_iff in HBi, T0, TE. apply Rabs_le_iff. split; lra. }
    assert (FT : Rabs (rnd (xi - t) - (xi - t) - (t - t0)) <= Rabs (rnd (xi - t) - (xi - t)) + Rabs (t - t0)).
    { unfold Rminus at 1. eapply Rle_trans; [apply Rabs_triang|]. rewrite Rabs_Ropp. lra. }
    replace (16 * INR n ^ 2 * w) with (16 * nw) by (unfold nw; ring). unfold w in W1. clearbody nw.
    assert (U1 : u * Rabs (xi - t) <= u * (B + (B + 1) + 12 * nw)) by (apply Rmult_le_compat_l; assumption).
    assert (U2 : 0 <= nw) by nra. assert (U3 : u * nw <= 1 / 8 * nw) by (apply Rmult_le_compat_r; assumption). assert (U4 : u * B <= u * (B + 1)) by (apply Rmult_le_compat_l; lra).
    replace (u * (B + (B + 1) + 12 * nw)) with (u * B + u * (B + 1) + 12 * (u * nw)) in U1 by ring. lra.
  Qed.
  Lemma proj_rnd_sum x : x <> [] -> counts_exact rnd (length x) -> INR (length x) * u <= 1 ->
    Rabs (Sum (length x) (at_ (@simplex_project_vector R NR x)) - 1) <= 16 * INR (length x) ^ 3 * (u * (abs_sum x + 1) + eta).
  Proof using HR Hu8.
    intros Hx HC Hn. destruct (proj_prob x Hx) as [[_ P] L]. rewrite L in P.
    assert (E : Rabs (Sum (length x) (fun i => at_ (@simplex_project_vector R NR x) i - at_ (proj x) i)) <= INR (length x) * (16 * INR (length x) ^ 2 * (u * (abs_sum x + 1) + eta))).
    { eapply Rle_trans; [apply Sum_abs|]. rewrite <- Sum_const. apply Sum_le; intros i Hi; apply (proj_rnd_err x i Hi HC Hn). }
    rewrite Sum_minus, P in E. eapply Rle_trans; [exact E|]. right. ring.
  Qed.
End Proj.
