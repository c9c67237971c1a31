(** Which arrays handed to a fit with init='custom' should be accepted. *)
From Coq Require Import List Arith Reals.
From Verif Require Import Mat Spec.
Import ListNotations.
Local Open Scope R_scope.

(** equal to 1 up to the tolerances of np.isclose *)
Definition about_one (s : R) : Prop := Rabs (s - 1) <= 1 / 100000000 + 1 / 100000.

(** a matrix of the given shape *)
Definition shape_ok (r c : nat) (a : option (mat R)) : Prop := exists M, a = Some M /\ nr M = r /\ nc M = c.
(** ... whose rows sum to one *)
Definition rows_ok (r c : nat) (a : option (mat R)) : Prop :=
  exists M, a = Some M /\ nr M = r /\ nc M = c /\ forall i, (i < r)%nat -> about_one (Sum c (fun j => ent M i j)).
(** a vector of length p that sums to one *)
Definition vector_ok (p : nat) (a : option (list R)) : Prop :=
  exists v, a = Some v /\ length v = p /\ about_one (Sum p (fun i => at_ v i)).
(** p square matrices whose columns sum to one *)
Definition columns_ok (p k : nat) (a : option (list (mat R))) : Prop :=
  exists Ts, a = Some Ts /\ length Ts = p /\ forall M, In M Ts -> nr M = k /\ nc M = k
    /\ forall j, (j < k)%nat -> about_one (Sum k (fun i => ent M i j)).
