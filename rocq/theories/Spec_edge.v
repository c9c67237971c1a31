(** Series that are exactly as long as the largest lag.  Vocabulary. *)
From Coq Require Import List Arith Reals.
From Verif Require Import NumExt Mat Spec_nan.
Import ListNotations.

Definition largest_lag (lags : list nat) (L : nat) : Prop := In L lags /\ forall l, In l lags -> l <= L.
(** time t is the predecessor, at one of the lags, of a time below n *)
Definition has_successor (lags : list nat) (n t : nat) : Prop := exists l, In l lags /\ t + l < n.
(** p order weights, all zero *)
Definition zero_vector (p : nat) (v : list ext) : Prop := v = repeat (Fin 0%R) p.
(** p matrices of size k x k, all zero *)
Definition zero_stack (p k : nat) (Ts : list (mat ext)) : Prop :=
  length Ts = p /\ Forall (fun M => nr M = k /\ nc M = k /\ all_zero M) Ts.
Definition all_real (M : mat ext) : Prop := forall i j, i < nr M -> j < nc M -> exists x, cell M i j = Fin x.
