(** C90: FurthestSum and its exclusion list *)
From Coq Require Import List Arith ZArith Bool Lia.
From Verif Require Import Num Mat Py M_furthest P_furthest P_exclude Props_base.
Import ListNotations.

(** the outcome for every exclusion list, with a start index in range that is not excluded *)
Theorem C90_exclusions : forall (T : Type) (N : Num T) (D : mat T) (n_components start_index : Z) (exclude : list Z) (extra_steps : Z),
  nr D = nc D -> (0 <= start_index < Z.of_nat (nr D))%Z -> ~ In start_index exclude -> (1 <= n_components)%Z ->
  let run := furthest_sum D n_components start_index exclude extra_steps in
  let too_many := (length exclude < nr D)%nat /\ (Z.of_nat (nr D) - Z.of_nat (length exclude) < n_components)%Z in
  let clean := NoDup exclude /\ forall e, In e exclude -> (0 <= e < Z.of_nat (nr D))%Z in
  let alone := forall z, (0 <= z < Z.of_nat (nr D))%Z -> z <> start_index -> In z exclude in
  (too_many -> run = Raise ValueError)
  /\ (~ too_many -> clean -> exists l, run = Ok l)
  /\ (~ too_many -> ~ clean -> ~ alone -> run = Raise IndexError)
  /\ (~ clean -> alone -> run = if (n_components =? 1)%Z then Ok [start_index] else Raise IndexError).
Proof.
  intros T N D nk st ex es Hsq Hs Hex Hnk. cbv zeta. split; [|split; [|split]].
  - intros [H1 H2]. apply exclude_too_many; assumption.
  - intros Ht [C1 C2]. apply furthest_never_raises; try assumption. pose proof (candidates_count (nr D) 1 st ex ltac:(lia) Hs Hex C1 C2). lia.
  - intros Ht. apply exclude_unclean; try assumption. lia.
  - apply exclude_alone; assumption.
Qed.
Print Assumptions C90_exclusions.

(** on four points: a repeated exclusion and one out of range fail although enough points remain; a
    list naming all other points, one of them twice, still gives the start *)
Example C90_example :
  let D := mkmat 4 4 [[0;1;4;9]; [1;0;1;4]; [4;1;0;1]; [9;4;1;0]]%Z in
  @furthest_sum Z Num_Z_demo D 2 1 [2]%Z 1 = Ok [0; 3]%Z
  /\ @furthest_sum Z Num_Z_demo D 2 1 [2; 2]%Z 1 = Raise IndexError
  /\ @furthest_sum Z Num_Z_demo D 2 1 [7]%Z 1 = Raise IndexError
  /\ @furthest_sum Z Num_Z_demo D 4 1 [2]%Z 1 = Raise ValueError
  /\ @furthest_sum Z Num_Z_demo D 1 1 [0; 2; 3; 3]%Z 1 = Ok [1]%Z
  /\ @furthest_sum Z Num_Z_demo D 2 1 [0; 2; 3; 3]%Z 1 = Raise IndexError.
Proof. repeat split. Qed.
