(** Proofs about crom.py. *)
From Coq Require Import List Arith Lia ZArith Reals Lra Bool.
From Verif Require Import Num NumExt Mat Py Spec Spec_markov M_markov P_lin P_mat P_mtd_pred.
Import ListNotations.

(** *** counting *)
Lemma filter_seq_S (f : nat -> bool) b n : length (filter f (seq (S b) n)) = length (filter (fun t => f (S t)) (seq b n)).
Proof. revert b. induction n as [|n IH]; intros b; cbn [seq filter]; [reflexivity|]. destruct (f (S b)); cbn [length]; rewrite IH; reflexivity. Qed.
Lemma indicator_cons a l j : indicator (a :: l) j = (if Nat.eqb a j then 1%nat else 0%nat) :: indicator l j.
Proof. reflexivity. Qed.
Lemma transitions_cons a b r k j : transitions (a :: b :: r) k j = ((if andb (Nat.eqb a k) (Nat.eqb b j) then 1 else 0) + transitions (b :: r) k j)%nat.
Proof.
  unfold transitions. cbn [length]. replace (S (S (length r)) - 1)%nat with (S (length r)) by lia. replace (S (length r) - 1)%nat with (length r) by lia.
  cbn [seq filter]. change (nth 0 (a :: b :: r) 0)%nat with a. change (nth 1 (a :: b :: r) 0)%nat with b. destruct (andb (Nat.eqb a k) (Nat.eqb b j)); cbn [length]; rewrite filter_seq_S; reflexivity.
Qed.
Lemma visits_cons a b r k : visits (a :: b :: r) k = ((if Nat.eqb a k then 1 else 0) + visits (b :: r) k)%nat.
Proof.
  unfold visits. cbn [length]. replace (S (S (length r)) - 1)%nat with (S (length r)) by lia. replace (S (length r) - 1)%nat with (length r) by lia.
  cbn [seq filter]. change (nth 0 (a :: b :: r) 0)%nat with a. destruct (Nat.eqb a k); cbn [length]; rewrite filter_seq_S; reflexivity.
Qed.
Lemma lagged_count l j k : lagged_sum (indicator l j) (indicator l k) = transitions l k j.
Proof.
  induction l as [|a [|b r] IH]; [reflexivity | reflexivity|]. rewrite transitions_cons, <- IH. unfold lagged_sum. rewrite !indicator_cons.
  set (ja := if Nat.eqb a j then 1%nat else 0%nat). set (jb := if Nat.eqb b j then 1%nat else 0%nat). set (ka := if Nat.eqb a k then 1%nat else 0%nat). set (kb := if Nat.eqb b k then 1%nat else 0%nat).
  change (removelast (ka :: kb :: indicator r k)) with (ka :: removelast (kb :: indicator r k)). cbn [skipn]. set (rest := removelast (kb :: indicator r k)).
  cbn [combine map list_sum fold_right fst snd]. unfold list_sum at 1. cbn [fold_right]. f_equal. unfold jb, ka. destruct (Nat.eqb a k), (Nat.eqb b j); reflexivity.
Qed.
Lemma visits_count l k : list_sum (removelast (indicator l k)) = visits l k.
Proof.
  induction l as [|a [|b r] IH]; [reflexivity | reflexivity|]. rewrite visits_cons, <- IH. rewrite !indicator_cons. reflexivity.
Qed.
(** leaving k means going somewhere *)
Lemma transitions_total K l k : (forall x, In x l -> (x < K)%nat) -> Sum K (fun j => INR (transitions l k j)) = INR (visits l k).
Proof.
  induction l as [|a [|b r] IH]; intros H; [apply Sum_0 | apply Sum_0|]. rewrite visits_cons, plus_INR, <- IH by (intros x Hx; apply H; right; exact Hx).
  rewrite (Sum_ext K _ (fun j => (if Nat.eqb j b then (if Nat.eqb a k then 1 else 0) else 0) + INR (transitions (b :: r) k j))%R).
  - rewrite Sum_plus. f_equal. rewrite (Sum_delta K b (fun _ => if Nat.eqb a k then 1 else 0)%R) by (apply H; right; left; reflexivity). destruct (Nat.eqb a k); reflexivity.
  - intros j _. rewrite transitions_cons, plus_INR. f_equal. rewrite (Nat.eqb_sym b j). destruct (Nat.eqb a k), (Nat.eqb j b); reflexivity.
Qed.
Lemma transitions_le l k j : (transitions l k j <= visits l k)%nat.
Proof. induction l as [|a [|b r] IH]; [apply le_n | apply le_n|]. rewrite transitions_cons, visits_cons. destruct (Nat.eqb a k), (Nat.eqb b j); cbn [andb]; lia. Qed.
Lemma visits_iff l k : (0 < visits l k)%nat <-> exists t, (S t < length l)%nat /\ nth t l O = k.
Proof.
  unfold visits. split.
  - intros H. destruct (filter _ _) as [|t ts] eqn:E; [cbn in H; lia|]. exists t. assert (I : In t (t :: ts)) by (left; reflexivity). rewrite <- E in I.
    apply filter_In in I. destruct I as [I1 I2]. apply in_seq in I1. apply Nat.eqb_eq in I2. split; [lia | exact I2].
  - intros (t & Ht & E). assert (I : In t (filter (fun t => Nat.eqb (nth t l O) k) (seq 0 (length l - 1)))) by (apply filter_In; split; [apply in_seq; lia | apply Nat.eqb_eq; exact E]).
    destruct (filter _ _); [contradiction | cbn; lia].
Qed.

(** *** the transition matrix *)
Lemma transition_entry {T} {N : Num T} labels K j k : (j < K)%nat -> (k < K)%nat ->
  mget (transition_matrix labels K) j k = ndiv (nofnat (transitions labels k j)) (nofnat (visits labels k)).
Proof. intros Hj Hk. unfold transition_matrix. rewrite mget_mbuild by assumption. rewrite lagged_count, visits_count. reflexivity. Qed.
Lemma ediv_counts a b : ndiv (nofnat a) (nofnat b) = if Nat.eqb b 0 then (if Nat.eqb a 0 then NaN else PInf) else Fin (INR a / INR b).
Proof.
  unfold nofnat. cbn [ndiv nofZ Num_E ediv]. rewrite <- !INR_IZR_INZ. destruct (Nat.eqb_spec b 0) as [->|Hb]; destruct (Req_EM_T _ 0%R) as [E|E].
  - unfold inf_of. destruct (Nat.eqb_spec a 0) as [->|Ha]; [destruct (Rlt_dec 0 _); [cbn in *; lra|]; destruct (Rlt_dec _ 0); [cbn in *; lra | reflexivity]|].
    destruct (Rlt_dec 0 (INR a)) as [_|C]; [reflexivity|]. exfalso. apply C. apply lt_0_INR. lia.
  - cbn in E. lra.
  - exfalso. apply (not_0_INR b Hb E).
  - reflexivity.
Qed.

(** *** predictions *)
Section Chain.
  Local Open Scope R_scope.
  Lemma chain_ext K P h x y : (forall i, (i < K)%nat -> x i = y i) -> forall i, (i < K)%nat -> chain K P h x i = chain K P h y i.
  Proof. intros H. induction h as [|h IH]; intros i Hi; cbn [chain]; [apply H; exact Hi|]. unfold chain_step. apply Sum_ext; intros k Hk. rewrite IH by exact Hk. reflexivity. Qed.
  Lemma chain_plus K P a b x : chain K P (a + b) x = chain K P a (chain K P b x).
  Proof. induction a as [|a IH]; cbn [chain Nat.add]; [reflexivity | rewrite IH; reflexivity]. Qed.
  Lemma chain_step_comm K P h x : chain K P h (chain_step K P x) = chain_step K P (chain K P h x).
  Proof. induction h as [|h IH]; cbn [chain]; [reflexivity | rewrite IH; reflexivity]. Qed.
  Lemma chain_distribution K P h x : (forall k, (k < K)%nat -> distribution K (fun j => P j k)) -> distribution K x -> distribution K (chain K P h x).
  Proof.
    intros HP Hx. induction h as [|h IH]; cbn [chain]; [exact Hx|]. destruct IH as [I1 I2]. split.
    - intros j Hj. apply Sum_nonneg. intros k Hk. apply Rmult_le_pos; [apply HP; assumption | apply I1; exact Hk].
    - unfold chain_step. rewrite Sum_swap. rewrite <- I2. apply Sum_ext; intros k Hk. rewrite Sum_scal_r. destruct (HP k Hk) as [_ ->]. ring.
  Qed.
  Lemma one_hot_distribution K l : (l < K)%nat -> distribution K (one_hot l).
  Proof. intros H. split; [intros i _; unfold one_hot; destruct (Nat.eqb i l); lra|]. unfold one_hot. apply (Sum_delta K l (fun _ => 1)). exact H. Qed.
  Lemma advance_chain tm h : forall L, nr tm = nc tm -> nc L = nc tm ->
    exists L', advance_labels h tm L = Ok L' /\ nr L' = nr L /\ nc L' = nc tm /\ (h <> 0%nat \/ wf L -> wf L')
      /\ forall i j, (i < nr L)%nat -> (j < nc tm)%nat -> ent L' i j = chain (nc tm) (ent tm) h (ent L i) j.
  Proof.
    induction h as [|h IH]; intros L Hsq HL; cbn [advance_labels].
    - exists L. split; [reflexivity|]. split; [reflexivity|]. split; [exact HL|]. split; [intros [C|W]; [lia | exact W] | reflexivity].
    - rewrite HL, Nat.eqb_refl. cbn [negb].
      assert (W : wf (mmul L (mtr tm))) by apply wf_mbuild.
      assert (n1' : nr (mmul L (mtr tm)) = nr L) by reflexivity. assert (c1 : nc (mmul L (mtr tm)) = nc tm) by (cbn; exact Hsq).
      destruct (IH (mmul L (mtr tm)) Hsq c1) as (L' & E & A1 & A2 & A3 & A4). exists L'. split; [exact E|]. split; [congruence|]. split; [exact A2|]. split; [intros _; apply A3; right; exact W|].
      intros i j Hi Hj. rewrite A4 by (rewrite ?n1'; assumption). cbn [chain]. rewrite <- chain_step_comm. apply chain_ext; [|exact Hj].
      intros k Hk. rewrite ent_mmul by (cbn; lia). unfold chain_step. rewrite HL. apply Sum_ext; intros q Hq. rewrite ent_mtr by lia. ring.
  Qed.
End Chain.
Lemma advance_nan {T} {N : Num T} tm h : nan_sticks T N -> forall L k, nr tm = nc tm -> nc L = nc tm -> (k < nc tm)%nat -> (forall j, (j < nr tm)%nat -> mget tm j k = nnan) ->
  exists L', advance_labels (S h) tm L = Ok L' /\ nr L' = nr L /\ nc L' = nc tm /\ forall i j, (i < nr L)%nat -> (j < nc tm)%nat -> mget L' i j = nnan.
Proof.
  intros HN L k Hsq HL Hk HC.
  assert (ST : forall L, nc L = nc tm -> forall i j, (i < nr L)%nat -> (j < nc tm)%nat -> mget (mmul L (mtr tm)) i j = nnan).
  { intros L0 HL0 i j Hi Hj. unfold mmul. rewrite mget_mbuild by (cbn; lia). apply nsum_nan; [exact HN | lia|]. exists k. split; [lia|]. unfold mtr. rewrite mget_mbuild by (cbn; lia). rewrite HC by lia. apply HN. }
  revert L HL. induction h as [|h IH]; intros L HL.
  - cbn [advance_labels]. rewrite HL, Nat.eqb_refl. cbn [negb]. eexists. split; [reflexivity|]. split; [reflexivity|]. split; [exact Hsq | apply ST; exact HL].
  - change (advance_labels (S (S h)) tm L) with (if negb (Nat.eqb (nc L) (nc tm)) then Raise ValueError else advance_labels (S h) tm (mmul L (mtr tm))). rewrite HL, Nat.eqb_refl. cbn [negb].
    destruct (IH (mmul L (mtr tm)) Hsq) as (L' & E & A1 & A2 & A3). exists L'. split; [exact E|]. split; [exact A1|]. split; [exact A2 | exact A3].
Qed.
