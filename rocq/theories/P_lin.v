(** Finite sums and matrices over R: library lemmas. *)
From Coq Require Import List Arith Lia ZArith Reals Lra Permutation.
From Verif Require Import Num Mat Spec.
Import ListNotations.

(** ** Generic matrix lemmas *)
Section Gen.
  Context {T : Type} {N : Num T}.
  Lemma mget_mbuild r c (f : nat -> nat -> T) i j :
    i < r -> j < c -> mget (mbuild r c f) i j = f i j.
  Proof.
    intros Hi Hj; unfold mget, mbuild; cbn [dat].
    rewrite nth_tab by exact Hi. rewrite nth_tab by exact Hj. reflexivity.
  Qed.
  Lemma mget_mbuild_out r c (f : nat -> nat -> T) i j :
    (r <= i \/ c <= j)%nat -> mget (mbuild r c f) i j = n0.
  Proof.
    intros H; unfold mget, mbuild; cbn [dat].
    destruct (Nat.lt_ge_cases i r) as [Hi|Hi].
    - rewrite nth_tab by exact Hi. apply nth_tab_out; lia.
    - rewrite (nth_tab_out r) by exact Hi. destruct j; reflexivity.
  Qed.
  Lemma wf_mbuild r c (f : nat -> nat -> T) : wf (mbuild r c f).
  Proof.
    unfold wf, mbuild; cbn [dat nr nc]; split; [apply length_tab|].
    intros row H; apply in_tab in H. destruct H as (i & _ & ->). apply length_tab.
  Qed.
  Lemma nr_mbuild r c (f : nat -> nat -> T) : nr (mbuild r c f) = r. Proof. reflexivity. Qed.
  Lemma nc_mbuild r c (f : nat -> nat -> T) : nc (mbuild r c f) = c. Proof. reflexivity. Qed.
  Lemma mbuild_ext r c (f g : nat -> nat -> T) :
    (forall i j, i < r -> j < c -> f i j = g i j) -> mbuild r c f = mbuild r c g.
  Proof. intros H; unfold mbuild; f_equal; apply tab_ext; intros i Hi; apply tab_ext; intros; auto. Qed.
  Lemma wf_mbuild_eq (M : mat T) : wf M -> M = mbuild (nr M) (nc M) (mget M).
  Proof.
    destruct M as [r c d]; unfold wf, mbuild; cbn [dat nr nc]; intros [H1 H2]; f_equal.
    apply nth_ext with (d := []) (d' := []); [rewrite length_tab; exact H1|].
    intros i Hi. rewrite nth_tab by lia.
    apply nth_ext with (d := n0) (d' := n0).
    - rewrite length_tab. apply H2. apply nth_In; exact Hi.
    - intros j Hj. rewrite H2 in Hj by (apply nth_In; exact Hi). rewrite nth_tab by exact Hj. reflexivity.
  Qed.
  Lemma mat_ext (A B : mat T) :
    wf A -> wf B -> nr A = nr B -> nc A = nc B ->
    (forall i j, i < nr A -> j < nc A -> mget A i j = mget B i j) -> A = B.
  Proof.
    intros HA HB Hr Hc H. rewrite (wf_mbuild_eq A HA), (wf_mbuild_eq B HB), <- Hr, <- Hc.
    apply mbuild_ext; exact H.
  Qed.
  Lemma mget_out (M : mat T) i j : wf M -> (nr M <= i \/ nc M <= j)%nat -> mget M i j = n0.
  Proof. intros W H; rewrite (wf_mbuild_eq M W); apply mget_mbuild_out; exact H. Qed.
  Lemma nsum_ext n (f g : nat -> T) : (forall i, i < n -> f i = g i) -> nsum n f = nsum n g.
  Proof. induction n as [|n IH]; cbn [nsum]; intros H; [reflexivity|]. rewrite IH, H by auto; reflexivity. Qed.
  Lemma length_mrow (M : mat T) i : length (mrow M i) = nc M. Proof. apply length_tab. Qed.
  Lemma length_mcol (M : mat T) i : length (mcol M i) = nr M. Proof. apply length_tab. Qed.
  Lemma vget_tab n (f : nat -> T) i : i < n -> vget (tab n f) i = f i.
  Proof. intros; apply nth_tab; assumption. Qed.
  Lemma vget_mrow (M : mat T) i j : j < nc M -> vget (mrow M i) j = mget M i j.
  Proof. intros; apply vget_tab; assumption. Qed.
  Lemma vget_mcol (M : mat T) i j : i < nr M -> vget (mcol M j) i = mget M i j.
  Proof. intros; unfold mcol; rewrite vget_tab by assumption; reflexivity. Qed.
  Lemma vget_map f (v : list T) i : i < length v -> vget (map f v) i = f (vget v i).
  Proof.
    intros H; unfold vget. rewrite nth_indep with (d' := f n0) by (rewrite map_length; exact H).
    apply map_nth.
  Qed.
  Lemma list_ext (a b : list T) : length a = length b ->
    (forall i, i < length a -> vget a i = vget b i) -> a = b.
  Proof. intros; eapply nth_ext; eauto. Qed.
End Gen.

Ltac mdim := cbn [nr nc mbuild mtr mmap mmap2 madd msub mscale mmul mzeros mdiag meye mslice] in *.
(** rewrite one [mget] of a built matrix, dimensions by lia *)
Ltac mg := repeat (rewrite mget_mbuild by (mdim; lia)).

Local Open Scope R_scope.

(** ** Sums *)
Lemma nsum_Sum n f : @nsum R Num_R n f = Sum n f.
Proof. induction n as [|n IH]; cbn; [reflexivity|]. rewrite IH; reflexivity. Qed.
Lemma mget_ent M i j : @mget R Num_R M i j = ent M i j. Proof. reflexivity. Qed.
Lemma vget_at v i : @vget R Num_R v i = at_ v i. Proof. reflexivity. Qed.

Lemma Sum_ext n f g : (forall i, (i < n)%nat -> f i = g i) -> Sum n f = Sum n g.
Proof. induction n as [|n IH]; cbn [Sum]; intros H; [reflexivity|]. rewrite IH, H by auto; reflexivity. Qed.
Lemma Sum_0 n : Sum n (fun _ => 0) = 0.
Proof. induction n; cbn [Sum]; lra. Qed.
Lemma Sum_zero n f : (forall i, (i < n)%nat -> f i = 0) -> Sum n f = 0.
Proof. intros H; rewrite (Sum_ext n f (fun _ => 0)) by exact H; apply Sum_0. Qed.
Lemma Sum_plus n f g : Sum n (fun i => f i + g i) = Sum n f + Sum n g.
Proof. induction n; cbn [Sum]; lra. Qed.
Lemma Sum_minus n f g : Sum n (fun i => f i - g i) = Sum n f - Sum n g.
Proof. induction n; cbn [Sum]; lra. Qed.
Lemma Sum_opp n f : Sum n (fun i => - f i) = - Sum n f.
Proof. induction n; cbn [Sum]; lra. Qed.
Lemma Sum_scal_l n c f : Sum n (fun i => c * f i) = c * Sum n f.
Proof. induction n; cbn [Sum]; lra. Qed.
Lemma Sum_scal_r n c f : Sum n (fun i => f i * c) = Sum n f * c.
Proof. induction n; cbn [Sum]; lra. Qed.
Lemma Sum_div n c f : Sum n (fun i => f i / c) = Sum n f / c.
Proof. unfold Rdiv; apply Sum_scal_r. Qed.
Lemma Sum_const n c : Sum n (fun _ => c) = INR n * c.
Proof. induction n as [|n IH]; cbn [Sum]; [cbn; lra|]. rewrite IH, S_INR; lra. Qed.
Lemma Sum_swap n m f : Sum n (fun i => Sum m (fun j => f i j)) = Sum m (fun j => Sum n (fun i => f i j)).
Proof.
  induction n as [|n IH]; cbn [Sum]; [rewrite Sum_0; reflexivity|].
  rewrite IH, Sum_plus; reflexivity.
Qed.
Lemma Sum_nonneg n f : (forall i, (i < n)%nat -> 0 <= f i) -> 0 <= Sum n f.
Proof.
  induction n as [|n IH]; cbn [Sum]; intros H; [lra|].
  assert (0 <= f n) by (apply H; lia). assert (0 <= Sum n f) by (apply IH; intros; apply H; lia). lra.
Qed.
Lemma Sum_le n f g : (forall i, (i < n)%nat -> f i <= g i) -> Sum n f <= Sum n g.
Proof.
  induction n as [|n IH]; cbn [Sum]; intros H; [lra|].
  assert (f n <= g n) by (apply H; lia). assert (Sum n f <= Sum n g) by (apply IH; intros; apply H; lia). lra.
Qed.
Lemma Sum_ge_term n f k : (forall i, (i < n)%nat -> 0 <= f i) -> (k < n)%nat -> f k <= Sum n f.
Proof.
  induction n as [|n IH]; cbn [Sum]; intros H Hk; [lia|].
  destruct (Nat.eq_dec k n) as [->|Hne].
  - assert (0 <= Sum n f) by (apply Sum_nonneg; intros; apply H; lia). lra.
  - assert (f k <= Sum n f) by (apply IH; [intros; apply H; lia | lia]).
    assert (0 <= f n) by (apply H; lia). lra.
Qed.
Lemma Sum_nonneg_0 n f k : (forall i, (i < n)%nat -> 0 <= f i) -> Sum n f = 0 -> (k < n)%nat -> f k = 0.
Proof. intros H E Hk. pose proof (Sum_ge_term n f k H Hk). pose proof (H k Hk). lra. Qed.
Lemma Sum_pos n f k : (forall i, (i < n)%nat -> 0 <= f i) -> (k < n)%nat -> 0 < f k -> 0 < Sum n f.
Proof. intros H Hk Hp. pose proof (Sum_ge_term n f k H Hk). lra. Qed.
Lemma Sum_delta n k f : (k < n)%nat -> Sum n (fun i => if Nat.eqb i k then f i else 0) = f k.
Proof.
  induction n as [|n IH]; cbn [Sum]; intros Hk; [lia|].
  destruct (Nat.eqb_spec n k) as [->|Hne].
  - rewrite Sum_zero; [lra|]. intros i Hi. destruct (Nat.eqb_spec i k); [lia|reflexivity].
  - rewrite IH by lia; lra.
Qed.
Lemma Sum_delta_out n k f : (n <= k)%nat -> Sum n (fun i => if Nat.eqb i k then f i else 0) = 0.
Proof. intros H; apply Sum_zero; intros i Hi; destruct (Nat.eqb_spec i k); [lia|reflexivity]. Qed.
Lemma Sum_split n m f : Sum (n + m) f = Sum n f + Sum m (fun i => f (n + i)%nat).
Proof.
  induction m as [|m IH].
  - rewrite Nat.add_0_r; cbn [Sum]; lra.
  - rewrite Nat.add_succ_r; cbn [Sum]; rewrite IH; lra.
Qed.
Lemma Sum_shift n f : Sum (S n) f = f O + Sum n (fun i => f (S i)).
Proof. rewrite (Sum_split 1 n f : Sum (S n) f = _); cbn [Sum]; rewrite Rplus_0_l; reflexivity. Qed.
Lemma Sum_abs n f : Rabs (Sum n f) <= Sum n (fun i => Rabs (f i)).
Proof.
  induction n as [|n IH]; cbn [Sum]; [rewrite Rabs_R0; lra|].
  pose proof (Rabs_triang (Sum n f) (f n)); lra.
Qed.
Lemma Sum_sq_nonneg n f : 0 <= Sum n (fun i => f i ^ 2).
Proof. apply Sum_nonneg; intros; apply pow2_ge_0. Qed.
Lemma Sum_mult n m f g : Sum n f * Sum m g = Sum n (fun i => Sum m (fun j => f i * g j)).
Proof. rewrite <- Sum_scal_r. apply Sum_ext; intros; rewrite <- Sum_scal_l; reflexivity. Qed.

(** sums over lists *)
Definition lsum (l : list R) : R := fold_right Rplus 0 l.
Lemma lsum_app a b : lsum (a ++ b) = lsum a + lsum b.
Proof. unfold lsum; induction a as [|x a IH]; cbn [fold_right app]; [lra|]. rewrite IH; lra. Qed.
Lemma Sum_lsum l : Sum (length l) (at_ l) = lsum l.
Proof.
  induction l as [|x l IH]; [reflexivity|].
  cbn [length]. rewrite Sum_shift. cbn [lsum fold_right]. fold (lsum l). rewrite <- IH. reflexivity.
Qed.
Lemma vsum_lsum l : @vsum R Num_R l = lsum l.
Proof. unfold vsum; rewrite nsum_Sum. apply Sum_lsum. Qed.
Lemma lsum_perm a b : Permutation a b -> lsum a = lsum b.
Proof. unfold lsum; induction 1; cbn [fold_right]; lra. Qed.
Lemma lsum_map_zero {A} (f : A -> R) l : (forall x, In x l -> f x = 0) -> lsum (map f l) = 0.
Proof.
  unfold lsum; induction l as [|x l IH]; cbn [fold_right map In]; intros H; [reflexivity|].
  rewrite H by auto. rewrite IH by auto. lra.
Qed.
Lemma lsum_map_ext {A} (f g : A -> R) l : (forall x, In x l -> f x = g x) -> lsum (map f l) = lsum (map g l).
Proof. intros H; f_equal; apply map_ext_in; exact H. Qed.
Lemma lsum_map_shift t l : lsum (map (fun x => x - t) l) = lsum l - INR (length l) * t.
Proof.
  induction l as [|x l IH]; [cbn; lra|].
  cbn [map length lsum fold_right]. fold (lsum (map (fun x => x - t) l)) (lsum l). rewrite IH, S_INR. lra.
Qed.
Lemma lsum_nonneg l : (forall x, In x l -> 0 <= x) -> 0 <= lsum l.
Proof.
  unfold lsum; induction l as [|x l IH]; cbn [fold_right In]; intros H; [lra|].
  assert (0 <= x) by auto. assert (0 <= fold_right Rplus 0 l) by auto. lra.
Qed.
Lemma lsum_tab n f : lsum (tab n f) = Sum n f.
Proof.
  rewrite <- Sum_lsum, length_tab. apply Sum_ext; intros; unfold at_; apply nth_tab; assumption.
Qed.

(** Cauchy-Schwarz *)
Lemma Sum_CS n f g : (Sum n (fun i => f i * g i)) ^ 2 <= Sum n (fun i => f i ^ 2) * Sum n (fun i => g i ^ 2).
Proof.
  set (A := Sum n (fun i => f i ^ 2)). set (B := Sum n (fun i => g i ^ 2)). set (C := Sum n (fun i => f i * g i)).
  assert (H : forall t, 0 <= A + 2 * t * C + t ^ 2 * B).
  { intros t. replace (A + 2 * t * C + t ^ 2 * B) with (Sum n (fun i => (f i + t * g i) ^ 2)); [apply Sum_sq_nonneg|].
    unfold A, B, C. rewrite <- !Sum_scal_l, <- !Sum_plus. apply Sum_ext; intros; ring. }
  assert (HB : 0 <= B) by apply Sum_sq_nonneg.
  assert (HA : 0 <= A) by apply Sum_sq_nonneg.
  destruct (Req_dec B 0) as [E|E].
  - rewrite E, Rmult_0_r.
    destruct (Req_dec C 0) as [EC|EC]; [rewrite EC; lra|].
    exfalso. specialize (H (- (A + 1) / (2 * C))). rewrite E in H.
    replace (A + 2 * (- (A + 1) / (2 * C)) * C + (- (A + 1) / (2 * C)) ^ 2 * 0) with (-1) in H by (field; exact EC). lra.
  - specialize (H (- C / B)).
    replace (A + 2 * (- C / B) * C + (- C / B) ^ 2 * B) with ((A * B - C ^ 2) / B) in H by (field; exact E).
    assert (0 < B) by lra.
    assert (0 <= (A * B - C ^ 2) / B * B) by (apply Rmult_le_pos; lra).
    replace ((A * B - C ^ 2) / B * B) with (A * B - C ^ 2) in * by (field; exact E). lra.
Qed.
