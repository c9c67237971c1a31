(** C91: FurthestSum and the units, offset and diagonal of the dissimilarities *)
From Coq Require Import List Arith ZArith Bool Lia Reals Lra.
From Verif Require Import Num Mat Py Spec M_furthest P_lin P_furthest P_fs_affine Props_base.
Import ListNotations.
Local Open Scope R_scope.

(** a positive scale, any offset and any diagonals: the same points in the same order, or the same exception *)
Theorem C91_units_offset_diagonal : forall (D D' : mat R) (a b : R) (n_components start_index : Z) (exclude : list Z) (extra_steps : Z),
  0 < a -> nr D' = nr D -> nc D' = nc D ->
  (forall i j, (i < nr D)%nat -> (j < nr D)%nat -> i <> j -> ent D' i j = a * ent D i j + b) ->
  @furthest_sum R Num_R D' n_components start_index exclude extra_steps = @furthest_sum R Num_R D n_components start_index exclude extra_steps.
Proof.
  intros D D' a b nk st ex es Ha Er Ec HD. destruct (Z.ltb_spec st 0) as [Hs|Hs]; [apply negative_start_any; assumption|]. destruct (Nat.eq_dec (nr D) (nc D)) as [E|E]; [apply (furthest_affine D D' a b); assumption|].
  unfold furthest_sum. rewrite Er, Ec. apply Nat.eqb_neq in E. rewrite E. reflexivity.
Qed.
Print Assumptions C91_units_offset_diagonal.

(** the hypotheses hold for doubled and shifted dissimilarities with another diagonal *)
Example C91_example :
  let D := mkmat 3 3 [[0;1;4]; [1;0;2]; [4;2;0]] in
  let D' := mkmat 3 3 [[7;1;7]; [1;-5;3]; [7;3;0]] in
  forall k st ex es, @furthest_sum R Num_R D' k st ex es = @furthest_sum R Num_R D k st ex es.
Proof.
  intros D D' k st ex es. apply (C91_units_offset_diagonal D D' 2 (-1)); [lra | reflexivity | reflexivity |].
  intros i j Hi Hj Hn. cbn in Hi, Hj.
  destruct i as [|[|[|i]]]; [..|lia]; destruct j as [|[|[|j]]]; try lia; unfold ent; cbn; lra.
Qed.
(** the same on integers: [A] doubles [D], subtracts 1 and has another diagonal. A negative scale, or a
    monotone change that is not affine (squaring), selects other points *)
Example C91_example_values :
  let D := mkmat 4 4 [[0;10;1;5]; [10;0;9;6]; [1;9;0;2]; [5;6;2;0]]%Z in
  let A := mkmat 4 4 [[7;19;1;9]; [19;-5;17;11]; [1;17;0;3]; [9;11;3;90]]%Z in
  let Neg := mkmat 4 4 [[0;-10;-1;-5]; [-10;0;-9;-6]; [-1;-9;0;-2]; [-5;-6;-2;0]]%Z in
  let Sq := mkmat 4 4 [[0;100;1;25]; [100;0;81;36]; [1;81;0;4]; [25;36;4;0]]%Z in
  let fs M := @furthest_sum Z Num_Z_demo M 3 0 [] 0 in
  fs D = Ok [0; 1; 3]%Z /\ fs A = Ok [0; 1; 3]%Z
  /\ fs Neg = Ok [0; 2; 3]%Z /\ fs Sq = Ok [0; 1; 2]%Z.
Proof. repeat split. Qed.
