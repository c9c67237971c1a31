(** Proofs about the simplex projection (exact arithmetic). *)
From Coq Require Import List Arith Lia ZArith Reals Lra Permutation Sorted.
From Verif Require Import Num Mat Spec M_simplex P_lin.
Import ListNotations.
Local Open Scope R_scope.

(** ** sorting *)
Lemma insert_perm x l : Permutation (@insert R Num_R x l) (x :: l).
Proof.
  induction l as [|y t IH]; cbn [insert]; [reflexivity|].
  destruct (orb _ _); [reflexivity|]. rewrite IH. apply perm_swap.
Qed.
Lemma np_sort_perm l : Permutation (@np_sort R Num_R l) l.
Proof. induction l as [|x t IH]; cbn [np_sort]; [reflexivity|]. rewrite insert_perm, IH; reflexivity. Qed.
Lemma insert_sorted x l : StronglySorted Rle l -> StronglySorted Rle (@insert R Num_R x l).
Proof.
  induction 1 as [|y t Hs IH Hf]; cbn [insert]; [repeat constructor|].
  unfold nisnan; numR. rewrite Reqb_refl, Bool.orb_false_r. destruct (Rleb_spec x y) as [H|H].
  - constructor; [constructor; assumption|]. constructor; [exact H|].
    eapply Forall_impl; [|exact Hf]. intros a Ha; cbv beta in Ha; lra.
  - constructor; [exact IH|]. apply Forall_forall. intros z Hz.
    apply (Permutation_in _ (insert_perm x t)) in Hz. destruct Hz as [<-|Hz]; [lra|].
    rewrite Forall_forall in Hf; apply Hf; exact Hz.
Qed.
Lemma np_sort_sorted l : StronglySorted Rle (@np_sort R Num_R l).
Proof. induction l; cbn [np_sort]; [constructor | apply insert_sorted; assumption]. Qed.
Lemma np_sort_length l : length (@np_sort R Num_R l) = length l.
Proof. apply Permutation_length, np_sort_perm. Qed.
Lemma sorted_nth l i j : StronglySorted Rle l -> (i <= j)%nat -> (j < length l)%nat -> at_ l i <= at_ l j.
Proof.
  intros H; revert i j; induction H as [|x t Hs IH Hf]; cbn [length]; intros i j Hij Hj; [lia|].
  destruct i as [|i], j as [|j]; try lia.
  - apply Rle_refl.
  - unfold at_; cbn [nth]. rewrite Forall_forall in Hf. apply Hf, nth_In; lia.
  - unfold at_; cbn [nth]. apply IH; lia.
Qed.

Lemma skipn_cons {A} (l : list A) m d : (m < length l)%nat -> skipn m l = nth m l d :: skipn (S m) l.
Proof.
  revert m; induction l as [|x l IH]; cbn [length]; intros m H; [lia|].
  destruct m as [|m]; [reflexivity|]. cbn [nth]. change (skipn (S m) (x :: l)) with (skipn m l). rewrite IH by lia. reflexivity.
Qed.

(** ** the threshold *)
Section Thr.
  Variable s : list R.
  Hypothesis Hs : StronglySorted Rle s.
  Local Notation n := (length s).
  Local Notation top k := (lsum (skipn (n - k) s)).
  Local Notation th k := ((top k - 1) / INR k).

  Lemma t_hat_at_eq k : @t_hat_at R Num_R s k = th k.
  Proof.
    unfold t_hat_at. rewrite vsum_lsum. unfold nofnat; numR.
    rewrite <- INR_IZR_INZ. reflexivity.
  Qed.
  Lemma top_S k : (k < n)%nat -> top (S k) = at_ s (n - 1 - k) + top k.
  Proof.
    intros H; rewrite (skipn_cons s (n - S k) 0) by lia.
    replace (S (n - S k)) with (n - k)%nat by lia.
    replace (n - S k)%nat with (n - 1 - k)%nat by lia. reflexivity.
  Qed.
  Lemma top_0 : top 0 = 0.
  Proof. rewrite Nat.sub_0_r. rewrite skipn_all; reflexivity. Qed.

  (** the k-th largest is above the k-th threshold if the scan reached k *)
  Lemma loop_spec left : forall k,
    (1 <= k)%nat -> (k + left = n)%nat -> th k < at_ s (n - k) ->
    exists K, (1 <= K)%nat /\ (K <= n)%nat /\ @t_hat_loop R Num_R s left k = th K
      /\ th K < at_ s (n - K)
      /\ (K = n \/ at_ s (n - 1 - K) <= th K).
  Proof.
    induction left as [|left IH]; intros k H1 Hk Hlt; cbn [t_hat_loop]; rewrite t_hat_at_eq.
    - exists k. numR. repeat split; try lia; try assumption; destruct (Rleb _ _); reflexivity.
    - destruct (nleb (sorted_at s k) (th k)) eqn:E.
      + exists k. repeat split; try lia; try assumption. right.
        numR. apply Rleb_true in E. unfold sorted_at in E.
        replace (Nat.eqb k n) with false in E by (symmetry; apply Nat.eqb_neq; lia). exact E.
      + apply IH; try lia.
        numR. apply Rleb_false in E. unfold sorted_at in E.
        replace (Nat.eqb k n) with false in E by (symmetry; apply Nat.eqb_neq; lia).
        unfold vget in E; numR. fold (at_ s (n - 1 - k)) in E.
        rewrite top_S by lia. replace (n - S k)%nat with (n - 1 - k)%nat by lia.
        set (z := at_ s (n - 1 - k)) in *.
        assert (Hk0 : 0 < INR k) by (apply lt_0_INR; lia). rewrite S_INR.
        apply Rmult_lt_reg_r with (INR k + 1); [lra|].
        replace ((z + top k - 1) / (INR k + 1) * (INR k + 1)) with (z + top k - 1) by (field; lra).
        apply Rmult_lt_compat_r with (r := INR k) in E; [|exact Hk0].
        replace ((top k - 1) / INR k * INR k) with (top k - 1) in E by (field; lra). lra.
  Qed.

  Lemma t_hat_spec : (0 < n)%nat -> exists K, (1 <= K)%nat /\ (K <= n)%nat /\ @t_hat R Num_R s = th K
      /\ th K < at_ s (n - K) /\ (K = n \/ at_ s (n - 1 - K) <= th K).
  Proof.
    intros Hn. unfold t_hat. destruct n as [|m] eqn:E; [lia|].
    rewrite <- E in *. apply loop_spec; try lia.
    rewrite top_S by lia. rewrite top_0. replace (n - 1 - 0)%nat with (n - 1)%nat by lia. cbn [INR]. lra.
  Qed.

  Lemma t_hat_sum : (0 < n)%nat -> lsum (map (fun x => Rmax (x - @t_hat R Num_R s) 0) s) = 1.
  Proof.
    intros Hn. destruct (t_hat_spec Hn) as (K & H1 & HK & -> & Hlt & Hge).
    rewrite <- (firstn_skipn (n - K) s) at 1.
    rewrite map_app, lsum_app.
    rewrite (lsum_map_zero _ (firstn (n - K) s)).
    2:{ intros x Hx. apply In_nth with (d := 0) in Hx. destruct Hx as (i & Hi & <-).
        rewrite firstn_length in Hi. rewrite Rmax_right; [reflexivity|].
        destruct Hge as [->|Hge]; [lia|].
        assert (at_ s i <= at_ s (n - 1 - K)) by (apply sorted_nth; [assumption | lia..]).
        assert (nth i (firstn (n - K) s) 0 = at_ s i) as ->; [|lra].
        transitivity (nth i (firstn (n - K) s ++ skipn (n - K) s) 0); [|rewrite firstn_skipn; reflexivity].
        rewrite app_nth1; [reflexivity|]. rewrite firstn_length; lia. }
    rewrite (lsum_map_ext _ (fun x => x - th K)).
    2:{ intros x Hx. apply In_nth with (d := 0) in Hx. destruct Hx as (i & Hi & <-).
        rewrite skipn_length in Hi. apply Rmax_left.
        assert (nth i (skipn (n - K) s) 0 = at_ s (n - K + i)) as ->.
        { transitivity (nth (n - K + i) (firstn (n - K) s ++ skipn (n - K) s) 0); [|rewrite firstn_skipn; reflexivity].
          rewrite app_nth2; rewrite firstn_length; [f_equal|]; lia. }
        assert (at_ s (n - K) <= at_ s (n - K + i)) by (apply sorted_nth; [assumption | lia..]). lra. }
    rewrite lsum_map_shift, skipn_length. replace (n - (n - K))%nat with K by lia.
    field. apply not_0_INR; lia.
  Qed.
End Thr.

(** ** the projection *)
Notation proj := (@simplex_project_vector R Num_R).

Lemma proj_form x : exists t, proj x = map (fun xi => Rmax (xi - t) 0) x.
Proof.
  eexists. unfold simplex_project_vector. apply map_ext; intros a. rewrite nfmax_R; numR. reflexivity.
Qed.
Lemma proj_length x : length (proj x) = length x.
Proof. apply map_length. Qed.

(** threshold form with unit sum *)
Lemma proj_kkt x : x <> [] ->
  exists t, (forall i, (i < length x)%nat -> at_ (proj x) i = Rmax (at_ x i - t) 0)
            /\ Sum (length x) (at_ (proj x)) = 1.
Proof.
  intros Hx. exists (@t_hat R Num_R (np_sort x)). split.
  - intros i Hi. unfold simplex_project_vector. change at_ with (@vget R Num_R). rewrite vget_map by exact Hi.
    apply nfmax_R.
  - replace (length x) with (length (proj x)) by apply proj_length. rewrite Sum_lsum.
    rewrite <- (t_hat_sum (np_sort x)).
    + apply lsum_perm. unfold simplex_project_vector.
      rewrite (map_ext _ (fun xi => Rmax (xi - @t_hat R Num_R (np_sort x)) 0)) by (intros; apply nfmax_R).
      apply Permutation_map. symmetry; apply np_sort_perm.
    + apply np_sort_sorted.
    + rewrite np_sort_length. destruct x; [congruence | cbn; lia].
Qed.

Lemma proj_prob x : x <> [] -> prob_vec (proj x) /\ length (proj x) = length x.
Proof.
  intros Hx. destruct (proj_kkt x Hx) as (t & H1 & H2). split; [|apply proj_length]. split.
  - rewrite proj_length. intros i Hi. rewrite H1 by exact Hi. apply Rmax_r.
  - rewrite proj_length. exact H2.
Qed.

(** variational inequality *)
Lemma proj_vi x y : x <> [] -> length y = length x -> prob_vec y ->
  0 <= Sum (length x) (fun i => (at_ x i - at_ (proj x) i) * (at_ (proj x) i - at_ y i)).
Proof.
  intros Hx Hl [Hy0 Hy1]. rewrite Hl in *. destruct (proj_kkt x Hx) as (t & H1 & H2).
  replace (Sum _ _) with (Sum (length x) (fun i => (at_ x i - at_ (proj x) i - t) * (at_ (proj x) i - at_ y i))
     + t * (Sum (length x) (at_ (proj x)) - Sum (length x) (at_ y))).
  - rewrite H2, Hy1. replace (t * (1 - 1)) with 0 by ring. rewrite Rplus_0_r.
    apply Sum_nonneg; intros i Hi. rewrite H1 by exact Hi. specialize (Hy0 i Hi).
    unfold Rmax; destruct (Rle_dec (at_ x i - t) 0).
    + replace ((at_ x i - 0 - t) * (0 - at_ y i)) with ((t - at_ x i) * at_ y i) by ring. apply Rmult_le_pos; lra.
    + right; ring.
  - rewrite <- Sum_minus, <- Sum_scal_l, <- Sum_plus. apply Sum_ext; intros; ring.
Qed.

(** Pythagorean inequality *)
Lemma proj_pythagoras x y : x <> [] -> length y = length x -> prob_vec y ->
  dist2 x (proj x) + dist2 (proj x) y <= dist2 x y.
Proof.
  intros Hx Hl Hy. pose proof (proj_vi x y Hx Hl Hy) as H.
  unfold dist2. rewrite proj_length.
  assert (E : Sum (length x) (fun i => (at_ x i - at_ y i) ^ 2) =
    Sum (length x) (fun i => (at_ x i - at_ (proj x) i) ^ 2) + Sum (length x) (fun i => (at_ (proj x) i - at_ y i) ^ 2)
    + 2 * Sum (length x) (fun i => (at_ x i - at_ (proj x) i) * (at_ (proj x) i - at_ y i))).
  { rewrite <- Sum_scal_l, <- !Sum_plus. apply Sum_ext; intros; ring. }
  rewrite E. lra.
Qed.

Lemma dist2_nonneg x y : 0 <= dist2 x y. Proof. apply Sum_sq_nonneg. Qed.
Lemma dist2_refl x : dist2 x x = 0.
Proof. unfold dist2. apply Sum_zero; intros; ring. Qed.
Lemma dist2_sym x y : length x = length y -> dist2 x y = dist2 y x.
Proof. intros E; unfold dist2; rewrite E; apply Sum_ext; intros; ring. Qed.
Lemma dist2_0 x y : length x = length y -> dist2 x y = 0 -> x = y.
Proof.
  intros E H. apply (@list_ext R Num_R); [exact E|]. intros i Hi.
  assert (Hz : (at_ x i - at_ y i) ^ 2 = 0).
  { apply (Sum_nonneg_0 (length x) (fun i => (at_ x i - at_ y i) ^ 2)); auto. intros; apply pow2_ge_0. }
  apply Rminus_diag_uniq. change (at_ x i - at_ y i = 0).
  destruct (Req_dec (at_ x i - at_ y i) 0); [assumption|]. exfalso; eapply pow_nonzero; eassumption.
Qed.

Lemma proj_nearest x y : x <> [] -> length y = length x -> prob_vec y ->
  dist2 x (proj x) <= dist2 x y /\ (dist2 x y <= dist2 x (proj x) -> y = proj x).
Proof.
  intros Hx Hl Hy. pose proof (proj_pythagoras x y Hx Hl Hy). pose proof (dist2_nonneg (proj x) y).
  split; [lra|]. intros H1. symmetry; apply dist2_0; [rewrite proj_length; congruence|]. lra.
Qed.

Lemma proj_fixed x : prob_vec x -> proj x = x.
Proof.
  intros H. assert (Hx : x <> []) by (intros ->; destruct H as [_ H]; cbn in H; lra).
  symmetry. apply (proj_nearest x x Hx eq_refl H).
  rewrite dist2_refl. apply dist2_nonneg.
Qed.

(** characterisation: a probability vector in threshold form is the projection *)
Lemma proj_unique x p t : x <> [] -> length p = length x -> Sum (length x) (at_ p) = 1 ->
  (forall i, (i < length x)%nat -> at_ p i = Rmax (at_ x i - t) 0) -> p = proj x.
Proof.
  intros Hx Hl Hs Hp.
  assert (Pp : prob_vec p).
  { split; rewrite Hl; [|exact Hs]. intros i Hi; rewrite Hp by exact Hi; apply Rmax_r. }
  destruct (proj_prob x Hx) as [Pq Lq].
  (* symmetric variational inequalities *)
  apply (proj_nearest x p Hx Hl Pp).
  assert (V : 0 <= Sum (length x) (fun i => (at_ x i - at_ p i) * (at_ p i - at_ (proj x) i))).
  { destruct Pq as [Q0 Q1]. rewrite Lq in *.
    replace (Sum _ _) with (Sum (length x) (fun i => (at_ x i - at_ p i - t) * (at_ p i - at_ (proj x) i))
       + t * (Sum (length x) (at_ p) - Sum (length x) (at_ (proj x)))).
    - rewrite Hs, Q1. replace (t * (1 - 1)) with 0 by ring. rewrite Rplus_0_r.
      apply Sum_nonneg; intros i Hi. rewrite Hp by exact Hi. specialize (Q0 i Hi).
      unfold Rmax; destruct (Rle_dec (at_ x i - t) 0).
      + replace ((at_ x i - 0 - t) * (0 - at_ (proj x) i)) with ((t - at_ x i) * at_ (proj x) i) by ring. apply Rmult_le_pos; lra.
      + right; ring.
    - rewrite <- Sum_minus, <- Sum_scal_l, <- Sum_plus. apply Sum_ext; intros; ring. }
  assert (E : dist2 x (proj x) = dist2 x p + dist2 p (proj x) + 2 * Sum (length x) (fun i => (at_ x i - at_ p i) * (at_ p i - at_ (proj x) i))).
  { unfold dist2. rewrite Hl. rewrite <- Sum_scal_l, <- !Sum_plus. apply Sum_ext; intros; ring. }
  pose proof (dist2_nonneg p (proj x)). lra.
Qed.

Lemma proj_idem x : x <> [] -> proj (proj x) = proj x.
Proof. intros Hx; apply proj_fixed, proj_prob, Hx. Qed.

Lemma at_map f v i : (i < length v)%nat -> at_ (map f v) i = f (at_ v i).
Proof. apply (@vget_map R Num_R). Qed.

Lemma proj_shift c x : proj (map (fun a => a + c) x) = proj x.
Proof.
  destruct x as [|a x']; [reflexivity|]. set (x := a :: x').
  assert (Hx : x <> []) by discriminate.
  destruct (proj_kkt x Hx) as (t & H1 & H2). symmetry.
  apply proj_unique with (t := t + c).
  - discriminate.
  - rewrite proj_length, map_length; reflexivity.
  - rewrite map_length; exact H2.
  - rewrite map_length. intros i Hi. rewrite at_map, H1 by exact Hi. f_equal; lra.
Qed.

Lemma lsum_perm_index x sigma : Permutation sigma (seq 0 (length x)) ->
  lsum (map (fun i => at_ x i) sigma) = lsum x.
Proof.
  intros P. rewrite (lsum_perm _ (map (fun i => at_ x i) (seq 0 (length x)))) by (apply Permutation_map; exact P).
  f_equal. symmetry. apply (list_eq_tab x 0).
Qed.

Lemma proj_perm x sigma : Permutation sigma (seq 0 (length x)) ->
  proj (map (at_ x) sigma) = map (at_ (proj x)) sigma.
Proof.
  intros P. destruct x as [|a x'].
  { cbn in P. apply Permutation_sym, Permutation_nil in P. subst; reflexivity. }
  set (x := a :: x') in *.
  assert (Hx : x <> []) by discriminate.
  assert (Ls : length sigma = length x) by (rewrite (Permutation_length P), seq_length; reflexivity).
  destruct (proj_kkt x Hx) as (t & H1 & H2). symmetry.
  assert (In_ : forall i, (i < length sigma)%nat -> (nth i sigma 0 < length x)%nat).
  { intros i Hi. assert (In (nth i sigma 0%nat) (seq 0 (length x))) as H.
    - eapply Permutation_in; [exact P|]. apply nth_In; exact Hi.
    - apply in_seq in H; lia. }
  assert (Nth : forall f i, (i < length sigma)%nat -> at_ (map f sigma) i = f (nth i sigma 0%nat)).
  { intros f i Hi. unfold at_. rewrite nth_indep with (d' := f 0%nat) by (rewrite map_length; exact Hi). apply map_nth. }
  apply proj_unique with (t := t).
  - intros E. apply (f_equal (@length R)) in E. rewrite map_length, Ls in E. discriminate.
  - rewrite !map_length; reflexivity.
  - rewrite map_length. replace (length sigma) with (length (map (at_ (proj x)) sigma)) by apply map_length.
    rewrite Sum_lsum. rewrite lsum_perm_index by (rewrite proj_length; exact P).
    rewrite <- Sum_lsum, proj_length. exact H2.
  - rewrite map_length. intros i Hi. rewrite !Nth by exact Hi. apply H1, In_, Hi.
Qed.

Lemma proj_nonexp x y : length x = length y -> dist2 (proj x) (proj y) <= dist2 x y.
Proof.
  intros Hl. destruct (list_eq_dec Req_EM_T x []) as [E|Hx].
  { subst x. destruct y; [|discriminate]. cbn; lra. }
  assert (Hy : y <> []) by (intros ->; destruct x; [congruence | discriminate]).
  pose proof (proj_vi x (proj y) Hx ltac:(rewrite proj_length; congruence) (proj1 (proj_prob y Hy))) as V1.
  pose proof (proj_vi y (proj x) Hy ltac:(rewrite proj_length; congruence) (proj1 (proj_prob x Hx))) as V2.
  unfold dist2. rewrite proj_length. rewrite <- Hl in *.
  set (p := proj x) in *. set (q := proj y) in *. set (n := length x) in *.
  assert (E : Sum n (fun i => (at_ x i - at_ y i) ^ 2) = Sum n (fun i => (at_ p i - at_ q i) ^ 2)
    + Sum n (fun i => (at_ x i - at_ y i - (at_ p i - at_ q i)) ^ 2)
    + 2 * Sum n (fun i => (at_ x i - at_ p i) * (at_ p i - at_ q i)) + 2 * Sum n (fun i => (at_ y i - at_ q i) * (at_ q i - at_ p i))).
  { rewrite <- !Sum_scal_l, <- !Sum_plus. apply Sum_ext; intros; ring. }
  rewrite E. pose proof (Sum_sq_nonneg n (fun i => at_ x i - at_ y i - (at_ p i - at_ q i))). lra.
Qed.

(** ** rows and columns: generic in the arithmetic *)
Section Rows.
  Context {T : Type} {N : Num T}.
  Lemma spv_length (x : list T) : length (simplex_project_vector x) = length x.
  Proof. apply map_length. Qed.

  Definition rows_spec (k : nat) (A : mat T) : mat T :=
    mbuild (nr A) (nc A) (fun i j => if Nat.ltb i k then vget (simplex_project_vector (mrow A i)) j else mget A i j).
  Definition cols_spec (k : nat) (A : mat T) : mat T :=
    mbuild (nr A) (nc A) (fun i j => if Nat.ltb j k then vget (simplex_project_vector (mcol A j)) i else mget A i j).

  Lemma mrow_ext (A B : mat T) i : nc A = nc B -> (forall j, (j < nc A)%nat -> mget A i j = mget B i j) -> mrow A i = mrow B i.
  Proof. intros E H; unfold mrow; rewrite <- E; apply tab_ext; exact H. Qed.
  Lemma mcol_ext (A B : mat T) j : nr A = nr B -> (forall i, (i < nr A)%nat -> mget A i j = mget B i j) -> mcol A j = mcol B j.
  Proof. intros E H; unfold mcol; rewrite <- E; apply tab_ext; exact H. Qed.

  Lemma rows_loop (A : mat T) k : wf A -> (k <= nr A)%nat ->
    fold_left (fun B i => set_row B i (simplex_project_vector (mrow B i))) (seq 0 k) A = rows_spec k A.
  Proof.
    intros W. induction k as [|k IH]; intros Hk.
    - cbn [seq fold_left]. unfold rows_spec. rewrite (wf_mbuild_eq A W) at 1. apply mbuild_ext.
      intros; destruct (Nat.ltb_spec i 0); [lia|reflexivity].
    - rewrite seq_S, fold_left_app, IH by lia. cbn [fold_left Nat.add].
      unfold set_row, rows_spec; mdim. apply mbuild_ext. intros i j Hi Hj.
      replace (mrow (mbuild (nr A) (nc A) _) k) with (mrow A k).
      2:{ symmetry. apply mrow_ext; mdim; [reflexivity|]. intros j' Hj'. mg. destruct (Nat.ltb_spec k k); [lia|reflexivity]. }
      mg. destruct (Nat.eqb_spec i k) as [->|Hne].
      + destruct (Nat.ltb_spec k (S k)); [reflexivity|lia].
      + destruct (Nat.ltb_spec i k), (Nat.ltb_spec i (S k)); try lia; reflexivity.
  Qed.
  Lemma cols_loop (A : mat T) k : wf A -> (k <= nc A)%nat ->
    fold_left (fun B i => set_col B i (simplex_project_vector (mcol B i))) (seq 0 k) A = cols_spec k A.
  Proof.
    intros W. induction k as [|k IH]; intros Hk.
    - cbn [seq fold_left]. unfold cols_spec. rewrite (wf_mbuild_eq A W) at 1. apply mbuild_ext.
      intros; destruct (Nat.ltb_spec j 0); [lia|reflexivity].
    - rewrite seq_S, fold_left_app, IH by lia. cbn [fold_left Nat.add].
      unfold set_col, cols_spec; mdim. apply mbuild_ext. intros i j Hi Hj.
      replace (mcol (mbuild (nr A) (nc A) _) k) with (mcol A k).
      2:{ symmetry. apply mcol_ext; mdim; [reflexivity|]. intros j' Hj'. mg. destruct (Nat.ltb_spec k k); [lia|reflexivity]. }
      mg. destruct (Nat.eqb_spec j k) as [->|Hne].
      + destruct (Nat.ltb_spec k (S k)); [reflexivity|lia].
      + destruct (Nat.ltb_spec j k), (Nat.ltb_spec j (S k)); try lia; reflexivity.
  Qed.

  Lemma project_rows_eq (A : mat T) : wf A ->
    simplex_project_rows A = mbuild (nr A) (nc A) (fun i j => vget (simplex_project_vector (mrow A i)) j).
  Proof.
    intros W; unfold simplex_project_rows. rewrite rows_loop by (auto; lia). unfold rows_spec. apply mbuild_ext; intros.
    destruct (Nat.ltb_spec i (nr A)); [reflexivity | lia].
  Qed.
  Lemma project_cols_eq (A : mat T) : wf A ->
    simplex_project_columns A = mbuild (nr A) (nc A) (fun i j => vget (simplex_project_vector (mcol A j)) i).
  Proof.
    intros W; unfold simplex_project_columns. rewrite cols_loop by (auto; lia). unfold cols_spec. apply mbuild_ext; intros.
    destruct (Nat.ltb_spec j (nc A)); [reflexivity | lia].
  Qed.
  Lemma project_rows_row (A : mat T) i : wf A -> (i < nr A)%nat ->
    mrow (simplex_project_rows A) i = simplex_project_vector (mrow A i).
  Proof.
    intros W Hi. rewrite project_rows_eq by exact W. apply list_ext.
    - rewrite length_mrow, spv_length, length_mrow; reflexivity.
    - rewrite length_mrow; mdim. intros j Hj. rewrite vget_mrow by (mdim; exact Hj). mg. reflexivity.
  Qed.
  Lemma project_cols_col (A : mat T) j : wf A -> (j < nc A)%nat ->
    mcol (simplex_project_columns A) j = simplex_project_vector (mcol A j).
  Proof.
    intros W Hi. rewrite project_cols_eq by exact W. apply list_ext.
    - rewrite length_mcol, spv_length, length_mcol; reflexivity.
    - rewrite length_mcol; mdim. intros i Hj. rewrite vget_mcol by (mdim; exact Hj). mg. reflexivity.
  Qed.
  Lemma project_rows_shape (A : mat T) : wf A ->
    wf (simplex_project_rows A) /\ nr (simplex_project_rows A) = nr A /\ nc (simplex_project_rows A) = nc A.
  Proof. intros W; rewrite project_rows_eq by exact W. split; [apply wf_mbuild | split; reflexivity]. Qed.
  Lemma project_cols_shape (A : mat T) : wf A ->
    wf (simplex_project_columns A) /\ nr (simplex_project_columns A) = nr A /\ nc (simplex_project_columns A) = nc A.
  Proof. intros W; rewrite project_cols_eq by exact W. split; [apply wf_mbuild | split; reflexivity]. Qed.
  Lemma mrow_mtr (A : mat T) j : (j < nc A)%nat -> mrow (mtr A) j = mcol A j.
  Proof.
    intros Hj. unfold mrow, mcol, mtr; mdim. apply tab_ext; intros i Hi. rewrite mget_mbuild by lia. reflexivity.
  Qed.
  Lemma project_cols_tr (A : mat T) : wf A ->
    mtr (simplex_project_columns A) = simplex_project_rows (mtr A).
  Proof.
    intros W. rewrite project_cols_eq by exact W. rewrite project_rows_eq by apply wf_mbuild.
    unfold mtr at 1 2 3; mdim. apply mbuild_ext; intros i j Hi Hj. rewrite mget_mbuild by lia.
    rewrite mrow_mtr by exact Hi. reflexivity.
  Qed.
End Rows.

Lemma project_rows_stochastic A : wf A -> (0 < nc A)%nat -> row_stochastic (@simplex_project_rows R Num_R A).
Proof.
  intros W Hc i Hi. destruct (project_rows_shape A W) as (W' & Hr & Hc'). rewrite Hr in Hi. rewrite Hc'.
  pose proof (project_rows_row A i W Hi) as E.
  destruct (proj_prob (mrow A i)) as [[P0 P1] L].
  { intros E'. apply (f_equal (@length R)) in E'. rewrite length_mrow in E'. cbn in E'; lia. }
  rewrite <- E in *. rewrite length_mrow, Hc' in *.
  assert (G : forall j, (j < nc A)%nat -> at_ (mrow (simplex_project_rows A) i) j = ent (simplex_project_rows A) i j).
  { intros j Hj. apply (@vget_mrow R Num_R). rewrite Hc'; exact Hj. }
  split.
  - intros j Hj. rewrite <- G by exact Hj. apply P0, Hj.
  - rewrite <- P1. apply Sum_ext; intros j Hj. symmetry; apply G, Hj.
Qed.
Lemma project_cols_stochastic A : wf A -> (0 < nr A)%nat -> col_stochastic (@simplex_project_columns R Num_R A).
Proof.
  intros W Hc j Hj. destruct (project_cols_shape A W) as (W' & Hr & Hc'). rewrite Hc' in Hj. rewrite Hr.
  pose proof (project_cols_col A j W Hj) as E.
  destruct (proj_prob (mcol A j)) as [[P0 P1] L].
  { intros E'. apply (f_equal (@length R)) in E'. rewrite length_mcol in E'. cbn in E'; lia. }
  rewrite <- E in *. rewrite length_mcol, Hr in *.
  assert (G : forall i, (i < nr A)%nat -> at_ (mcol (simplex_project_columns A) j) i = ent (simplex_project_columns A) i j).
  { intros i Hi. apply (@vget_mcol R Num_R). rewrite Hr; exact Hi. }
  split.
  - intros i Hi. rewrite <- G by exact Hi. apply P0, Hi.
  - rewrite <- P1. apply Sum_ext; intros i Hi. symmetry; apply G, Hi.
Qed.
