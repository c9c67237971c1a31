(** Specification vocabulary for Markov chains on cluster labels. *)
From Coq Require Import List Arith Reals.
From Verif Require Import Num Mat Spec.
Import ListNotations.
Local Open Scope R_scope.

(** number of times t, not the last, with label k; and with label k and next label j *)
Definition visits (labels : list nat) (k : nat) : nat :=
  length (filter (fun t => Nat.eqb (nth t labels O) k) (seq 0 (length labels - 1))).
Definition transitions (labels : list nat) (k j : nat) : nat :=
  length (filter (fun t => andb (Nat.eqb (nth t labels O) k) (Nat.eqb (nth (S t) labels O) j)) (seq 0 (length labels - 1))).

(** one step, and h steps, of the chain whose probability of going from k to j is P j k *)
Definition chain_step (K : nat) (P : nat -> nat -> R) (x : nat -> R) : nat -> R := fun j => Sum K (fun k => P j k * x k).
Fixpoint chain (K : nat) (P : nat -> nat -> R) (h : nat) (x : nat -> R) : nat -> R :=
  match h with O => x | S h' => chain_step K P (chain K P h' x) end.
Definition one_hot (l : nat) : nat -> R := fun i => if Nat.eqb i l then 1 else 0.
Definition distribution (K : nat) (x : nat -> R) : Prop := (forall i, (i < K)%nat -> 0 <= x i) /\ Sum K x = 1.
