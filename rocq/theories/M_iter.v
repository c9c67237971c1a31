(** The outer iteration shared by every iterative estimator:
    gpnh_convex_coding.py:516-552, archetypal_analysis.py:635-671, mtd_convex_coding.py:713-756,
    gpnh_convex_coding_crom.py:299-325, fembv.py:260-304.

        old_cost = self._evaluate_cost()
        new_cost = old_cost
        for n_iter in range(self.max_iterations):
            old_cost = new_cost
            if <update enabled>:                       # once per enabled update
                <update>
                new_cost = self._evaluate_cost()
                if <cost increased>: raise RuntimeError
            cost_delta = new_cost - old_cost
            if abs(cost_delta) < self.tolerance: break
        return new_cost, n_iter *)
From Coq Require Import List Arith ZArith Bool.
From Verif Require Import Num Mat Py.
Import ListNotations.

Section Iter.
  Context {T : Type} {N : Num T} {St : Type}.
  Local Open Scope num_scope.

  (** The enabled updates of one iteration, in order.  [bad new_cost] is the test that raises
      RuntimeError; it always compares with the cost at the start of the iteration. *)
  Fixpoint run_updates (cost : St -> T) (bad : T -> bool) (us : list (St -> res St)) (st : St) (new_cost : T)
    : res (St * T) :=
    match us with
    | [] => Ok (st, new_cost)
    | u :: us' =>
        let! st' := u st in
        let new_cost' := cost st' in
        if bad new_cost' then Raise RuntimeError
        else run_updates cost bad us' st' new_cost'
    end.

  (** Iterations n_iter, n_iter + 1, ..., [left] of them at most.  [log] collects the costs reported
      by the verbose output.  Result: state, cost, last value of n_iter, log. *)
  Fixpoint iterate_loop (cost : St -> T) (bad : nat -> T -> T -> bool) (us : list (St -> res St))
           (tolerance : T) (left n_iter : nat) (st : St) (new_cost : T) (log : list T)
    : res (St * T * nat * list T) :=
    match left with
    | O => Ok (st, new_cost, Nat.pred n_iter, log)    (* range exhausted: n_iter keeps its last value *)
    | S left' =>
        let old_cost := new_cost in
        let! s := run_updates cost (bad n_iter old_cost) us st new_cost in
        let '(st', new_cost') := s in
        let cost_delta := new_cost' - old_cost in
        let log' := log ++ [new_cost'] in
        if nabs cost_delta <? tolerance then Ok (st', new_cost', n_iter, log')
        else iterate_loop cost bad us tolerance left' (S n_iter) st' new_cost' log'
    end.

  (** [new_cost > old_cost and self.require_monotonic_cost_decrease]
      (gpnh_convex_coding.py:527; not in fembv.py) *)
  Definition cost_increased (monotone : bool) (n_iter : nat) (old_cost new_cost : T) : bool :=
    andb (new_cost >? old_cost) monotone.

  Definition iterate (cost : St -> T) (bad : nat -> T -> T -> bool) (us : list (St -> res St))
             (tolerance : T) (max_iterations : nat) (st : St) : res (St * T * nat * list T) :=
    let old_cost := cost st in
    iterate_loop cost bad us tolerance max_iterations 0 st old_cost [old_cost].

  (** "if flag: <update>" *)
  Definition enabled (flag : bool) (u : St -> res St) : list (St -> res St) := if flag then [u] else [].
End Iter.
