(** What a transition model with negative lags is fitted to. *)
From Coq Require Import List Arith ZArith Reals.
From Verif Require Import Num Mat Spec.
Import ListNotations.
Local Open Scope R_scope.

(** lags -a_1, ..., -a_p, of which -b is the largest *)
Definition negatives (a : list nat) : list Z := map (fun x => (- Z.of_nat x)%Z) a.
Definition smallest (b : nat) (a : list nat) : Prop := In b a /\ forall x, In x a -> (b <= x)%nat.
(** the combination that stands for sample n - b + s: sum_i w_i T_i W[a_i - b + s] *)
Definition backward_forecast (a : list nat) (b : nat) (ow : list R) (Ts : list (mat R)) (W : mat R) (s j : nat) : R :=
  Sum (length a) (fun i => at_ ow i * Sum (nc W) (fun l => ent W (nth i a 0 - b + s)%nat l * ent (nth i Ts (mkmat 0 0 [])) j l)).
