(** What it means for a call to leave the arrays of the program alone. *)
From Coq Require Import List Arith.
From Verif Require Import Num Mat Py Heap.

(** Every array that existed in [m] still exists in [m'] with the same contents. *)
Definition unchanged {V} (m m' : mem V) : Prop :=
  m_next m <= m_next m' /\ forall a, a < m_next m -> m_heap m' a = m_heap m a.
(** [a] is an array of [m] / did not exist in [m] *)
Definition exists_in {V} (m : mem V) (a : nat) : Prop := a < m_next m.
Definition fresh_for {V} (m : mem V) (a : nat) : Prop := m_next m <= a.
(** an optional array argument: None or an existing array *)
Definition arg_in {V} (m : mem V) (a : option nat) : Prop := forall x, a = Some x -> exists_in m x.
