(** FurthestSum starting dictionaries of data sets with proportional distances: lemmas *)
From Coq Require Import List Arith Lia ZArith Reals Lra.
From Verif Require Import Num Mat Py Spec M_random M_furthest M_gpnh M_aa P_lin P_furthest P_mat P_aa_run P_exclude P_fs_affine.
Import ListNotations.
Local Open Scope R_scope.

(** squared dissimilarity of samples [i] and [j] in a kernel *)
Definition kdist2 (K : mat R) (i j : nat) : R := ent K i i - 2 * ent K i j + ent K j j.

Lemma dissim_kdist (K : mat R) i j : (i < nr K)%nat -> (j < nr K)%nat -> ent (kernel_dissimilarities K) i j = sqrt (kdist2 K i j).
Proof. intros Hi Hj. unfold kernel_dissimilarities, kdist2. rewrite ent_mbuild by assumption. rewrite (mget_ent K j j), (mget_ent K i j), (mget_ent K i i). numR. f_equal. ring. Qed.
Lemma fs_proportional (K K' : mat R) a nk s ex es : 0 < a -> nr K' = nr K ->
  (forall i j, (i < nr K)%nat -> (j < nr K)%nat -> i <> j -> kdist2 K' i j = a * kdist2 K i j) ->
  furthest_sum (kernel_dissimilarities K') nk s ex es = furthest_sum (kernel_dissimilarities K) nk s ex es.
Proof.
  intros Ha Er H.
  assert (HD : forall i j, (i < nr (kernel_dissimilarities K))%nat -> (j < nr (kernel_dissimilarities K))%nat -> i <> j ->
     ent (kernel_dissimilarities K') i j = sqrt a * ent (kernel_dissimilarities K) i j + 0).
  { cbn [kernel_dissimilarities nr mbuild]. intros i j Hi Hj Hn. rewrite !dissim_kdist by lia. rewrite H by assumption. rewrite sqrt_mult_alt by lra. ring. }
  destruct (Z.ltb_spec s 0) as [Hs|Hs]; [apply negative_start_any; [exact Hs | exact Er | exact Er]|].
  apply (furthest_affine _ _ (sqrt a) 0); [apply sqrt_lt_R0, Ha | reflexivity | exact Er | exact Er | exact HD | exact Hs].
Qed.
Lemma gram_kdist n d (X : mat R) i j : is_mat n d X -> (i < n)%nat -> (j < n)%nat ->
  kdist2 (mmul X (mtr X)) i j = Sum d (fun f => (ent X i f - ent X j f) ^ 2).
Proof.
  intros (x1 & x2 & _) Hi Hj. unfold kdist2. rewrite !ent_mmul by (mdim; lia). rewrite x2.
  rewrite <- Sum_scal_l, <- Sum_minus, <- Sum_plus. apply Sum_ext; intros f Hf. rewrite !ent_mtr by lia. ring.
Qed.
Lemma selected_range (D : mat R) n k s ex es sel u : nr D = n -> (0 < k)%nat -> furthest_sum D (Z.of_nat k) s ex es = Ok sel -> check_selected n sel = Ok u ->
  length sel = k /\ forall z, In z sel -> (pyindex n z < n)%nat.
Proof.
  intros En Hk E2 E3.
  assert (Hl : length sel = k /\ (forall z, In z sel -> (z < Z.of_nat n)%Z) /\ (n > 0)%nat).
  { destruct (Z_lt_le_dec s 0) as [Hneg|Hpos].
    - assert (n <> 0)%nat.
      { intros E0. pose proof E2 as E. apply furthest_negative_start in E; [|lia|lia]. destruct E as (-> & Ek & _).
        unfold check_selected in E3. rewrite E0 in E3. cbn in E3. destruct s; [lia|lia|discriminate]. }
      apply furthest_negative_start in E2; [|lia|lia]. destruct E2 as (-> & Ek & _).
      split; [cbn; lia|]. split; [|lia]. intros z [<-|[]]; lia.
    - apply furthest_distinct in E2; [|lia]. destruct E2 as (L & _ & B). rewrite En in B.
      split; [lia|]. split; [intros z Hz; apply B in Hz; lia|].
      destruct sel as [|z sel]; [cbn in L; lia|]. specialize (B z (or_introl eq_refl)). lia. }
  destruct Hl as (L1 & L2 & L3). split; [exact L1|].
  intros z Hz. unfold check_selected in E3. destruct (forallb _ sel) eqn:Ef; [|discriminate].
  rewrite forallb_forall in Ef. specialize (Ef z Hz). apply Z.leb_le in Ef. specialize (L2 z Hz).
  unfold pyindex. destruct (Z.ltb_spec z 0); lia.
Qed.
Lemma gpnh_proportional n d d' (X X' : mat R) a k kw (g : rng R) : is_mat n d X -> is_mat n d' X' -> 0 < a -> (0 < k)%nat ->
  (forall i j, (i < n)%nat -> (j < n)%nat -> i <> j -> Sum d' (fun f => (ent X' i f - ent X' j f) ^ 2) = a * Sum d (fun f => (ent X i f - ent X j f) ^ 2)) ->
  match initialize_dictionary_furthest_sum X k kw g, initialize_dictionary_furthest_sum X' k kw g with
  | Ok (D, h), Ok (D', h') => h' = h /\ is_mat k d D /\ is_mat k d' D' /\ exists p, forall i, (i < k)%nat -> (p i < n)%nat
      /\ (forall f, (f < d)%nat -> ent D i f = ent X (p i) f) /\ (forall f, (f < d')%nat -> ent D' i f = ent X' (p i) f)
  | Raise e, Raise e' => e' = e
  | _, _ => False
  end.
Proof.
  intros HX HX' Ha Hk H. pose proof HX as (x1 & x2 & _). pose proof HX' as (y1 & y2 & _).
  assert (E : forall s, furthest_sum (kernel_dissimilarities (mmul X' (mtr X'))) (Z.of_nat k) s (fk_exclude kw) (fk_n_extra_steps kw)
                      = furthest_sum (kernel_dissimilarities (mmul X (mtr X))) (Z.of_nat k) s (fk_exclude kw) (fk_n_extra_steps kw)).
  { intros s. apply (fs_proportional _ _ a); [exact Ha | cbn [mmul mbuild nr]; lia|].
    change (nr (mmul X (mtr X))) with (nr X). rewrite x1. intros i j Hi Hj Hn. rewrite (gram_kdist n d'), (gram_kdist n d) by assumption. apply H; assumption. }
  unfold initialize_dictionary_furthest_sum. cbv zeta. change (nr (mmul X' (mtr X'))) with (nr X'). change (nr (mmul X (mtr X))) with (nr X). rewrite x1, x2, y1, y2.
  destruct (match fk_start_index kw with Some s => Ok (s, g) | None => _ end) as [[s h]|e]; cbn [bind fst snd]; [|reflexivity].
  rewrite E. destruct (furthest_sum (kernel_dissimilarities (mmul X (mtr X))) _ s _ _) as [sel|e] eqn:ES; cbn [bind]; [|reflexivity].
  destruct (check_selected n sel) as [u|e] eqn:EC; cbn [bind]; [|reflexivity].
  split; [reflexivity|]. split; [apply is_mat_mbuild|]. split; [apply is_mat_mbuild|].
  destruct (selected_range (kernel_dissimilarities (mmul X (mtr X))) n k s _ _ sel u x1 Hk ES EC) as [L B].
  exists (fun i => pyindex n (nth i sel 0%Z)). intros i Hi. split; [apply B, nth_In; lia|]. split; intros f Hf; rewrite ent_mbuild by assumption; apply mget_ent.
Qed.
Lemma aa_proportional (K K' : mat R) a k init kw (g : rng R) : 0 < a -> nr K' = nr K ->
  (forall i j, (i < nr K)%nat -> (j < nr K)%nat -> i <> j -> kdist2 K' i j = a * kdist2 K i j) ->
  aa_initialize_dictionary K' k init kw g = aa_initialize_dictionary K k init kw g.
Proof.
  intros Ha Er H. assert (E : aa_dictionary_furthest_sum K' k kw g = aa_dictionary_furthest_sum K k kw g).
  { unfold aa_dictionary_furthest_sum. cbv zeta. rewrite Er. destruct (match fk_start_index kw with Some s => Ok (s, g) | None => _ end) as [[s h]|e]; cbn [bind fst snd]; [|reflexivity].
    rewrite (fs_proportional K K' a) by assumption. reflexivity. }
  unfold aa_initialize_dictionary. rewrite E, Er. reflexivity.
Qed.
