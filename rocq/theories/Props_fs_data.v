(** C92: FurthestSum starting dictionaries and changes of the coordinates *)
From Coq Require Import List Arith Lia ZArith Reals Lra.
From Verif Require Import Num Mat Py Spec M_random M_furthest M_gpnh M_aa P_lin P_furthest P_mat P_aa_run P_exclude P_fs_affine P_fs_data Props_base.
Import ListNotations.
Local Open Scope R_scope.

(** archetypal analysis: kernels whose squared distances are proportional, as after centring, give the
    same starting dictionary, the same exception and the same state of the generator *)
Theorem C92_aa_dictionary : forall (K K' : mat R) a k init kw (g : rng R),
  0 < a -> nr K' = nr K ->
  (forall i j, (i < nr K)%nat -> (j < nr K)%nat -> 0 <= ent K i i - 2 * ent K i j + ent K j j) ->
  (forall i j, (i < nr K)%nat -> (j < nr K)%nat -> i <> j ->
     ent K' i i - 2 * ent K' i j + ent K' j j = a * (ent K i i - 2 * ent K i j + ent K j j)) ->
  aa_initialize_dictionary K' k init kw g = aa_initialize_dictionary K k init kw g.
Proof. intros K K' a k init kw g Ha Er _ H. apply (aa_proportional K K' a); assumption. Qed.
Print Assumptions C92_aa_dictionary.

(** convex coding: data sets with proportional distances between samples, even with different numbers
    of features, start from the same samples *)
Theorem C92_gpnh_same_samples : forall n d d' (X X' : mat R) a k kw (g : rng R),
  is_mat n d X -> is_mat n d' X' -> 0 < a -> (0 < k)%nat ->
  (forall i j, (i < n)%nat -> (j < n)%nat -> i <> j ->
     Sum d' (fun f => (ent X' i f - ent X' j f) ^ 2) = a * Sum d (fun f => (ent X i f - ent X j f) ^ 2)) ->
  match initialize_dictionary X k InitFurthestSum kw g, initialize_dictionary X' k InitFurthestSum kw g with
  | Ok (D, h), Ok (D', h') => h' = h /\ is_mat k d D /\ is_mat k d' D' /\ exists p : nat -> nat, forall i, (i < k)%nat -> (p i < n)%nat
      /\ (forall f, (f < d)%nat -> ent D i f = ent X (p i) f) /\ (forall f, (f < d')%nat -> ent D' i f = ent X' (p i) f)
  | Raise e, Raise e' => e' = e
  | _, _ => False
  end.
Proof. intros n d d' X X' a k kw g. exact (gpnh_proportional n d d' X X' a k kw g). Qed.
Print Assumptions C92_gpnh_same_samples.

(** in particular a common scale and an offset for each feature carry over to the starting dictionary *)
Theorem C92_gpnh_affine : forall n d (X X' : mat R) c (t : nat -> R) k kw (g : rng R),
  is_mat n d X -> is_mat n d X' -> c <> 0 -> (0 < k)%nat ->
  (forall i f, (i < n)%nat -> (f < d)%nat -> ent X' i f = c * ent X i f + t f) ->
  match initialize_dictionary X k InitFurthestSum kw g, initialize_dictionary X' k InitFurthestSum kw g with
  | Ok (D, h), Ok (D', h') => h' = h /\ is_mat k d D /\ is_mat k d D'
      /\ forall i f, (i < k)%nat -> (f < d)%nat -> ent D' i f = c * ent D i f + t f
  | Raise e, Raise e' => e' = e
  | _, _ => False
  end.
Proof.
  intros n d X X' c t k kw g HX HX' Hc Hk H.
  pose proof (C92_gpnh_same_samples n d d X X' (c ^ 2) k kw g HX HX' ltac:(nra) Hk) as S.
  assert (E : forall i j, (i < n)%nat -> (j < n)%nat -> i <> j ->
     Sum d (fun f => (ent X' i f - ent X' j f) ^ 2) = c ^ 2 * Sum d (fun f => (ent X i f - ent X j f) ^ 2)).
  { intros i j Hi Hj _. rewrite <- Sum_scal_l. apply Sum_ext; intros f Hf. rewrite !H by assumption. ring. }
  specialize (S E). destruct (initialize_dictionary X k InitFurthestSum kw g) as [[D h]|e], (initialize_dictionary X' k InitFurthestSum kw g) as [[D' h']|e']; try exact S.
  destruct S as (S1 & S2 & S3 & p & P). do 3 (split; [assumption|]). intros i f Hi Hf. destruct (P i Hi) as (P1 & P2 & P3). rewrite P2, P3, H by assumption. reflexivity.
Qed.
Print Assumptions C92_gpnh_affine.

(** three samples; their kernel and the kernel of the doubled and moved samples *)
Example C92_aa_example :
  let K := mkmat 3 3 [[0;0;0]; [0;9;30]; [0;30;100]] in
  let K' := mkmat 3 3 [[1;7;21]; [7;49;147]; [21;147;441]] in
  forall k init kw g, aa_initialize_dictionary K' k init kw g = aa_initialize_dictionary K k init kw g.
Proof.
  intros K K' k init kw g. apply (C92_aa_dictionary K K' 4); [lra | reflexivity | |];
  intros i j Hi Hj; cbn in Hi, Hj; destruct i as [|[|[|i]]]; try lia; destruct j as [|[|[|j]]]; try lia; intros; unfold ent; cbn; lra.
Qed.
(** three samples in the plane, turned by a right angle, doubled and moved, with a constant third feature *)
Example C92_gpnh_example :
  let X := mkmat 3 2 [[0;0]; [3;0]; [1;5]] in
  let X' := mkmat 3 3 [[1;3;8]; [1;9;8]; [-9;5;8]] in
  is_mat 3 2 X /\ is_mat 3 3 X' /\
  forall i j, (i < 3)%nat -> (j < 3)%nat -> i <> j ->
     Sum 3 (fun f => (ent X' i f - ent X' j f) ^ 2) = 4 * Sum 2 (fun f => (ent X i f - ent X j f) ^ 2).
Proof.
  cbv zeta. split; [|split].
  - repeat split; intros r Hr; cbn in Hr; intuition (subst; reflexivity).
  - repeat split; intros r Hr; cbn in Hr; intuition (subst; reflexivity).
  - intros i j Hi Hj _. destruct i as [|[|[|i]]]; try lia; destruct j as [|[|[|j]]]; try lia; unfold ent; cbn; lra.
Qed.
