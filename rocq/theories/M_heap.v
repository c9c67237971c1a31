(** The line-search loop and the outer iteration shared by the estimators, as heap programs
    (see M_spg.v and M_iter.v for the corresponding functions on values). *)
From Coq Require Import List Arith ZArith Bool.
From Verif Require Import Num Mat Py M_spg M_iter Heap.
Import ListNotations.

Section HLoops.
  Context {T : Type} {N : Num T} {V nm R sc : Type}.
  Notation prog := (prog V nm R sc).
  Local Open Scope num_scope.
  Local Open Scope prog_scope.

  (** The while loop of every line search, e.g. gpnh_convex_coding.py:375-387.  [retry s] is the
      block of statements that sets the state to "old + s * incr" and refreshes the caches. *)
  Fixpoint p_backtrack (fuel : nat) (p : ls_params T) (cost : prog T) (retry : T -> prog unit)
           (incr_norm current_cost f_max factor : T) (step_size next_cost : T) {struct fuel} : prog T :=
    if next_cost >? (f_max + factor * step_size) then
      match fuel with
      | O => Throw OutOfFuel
      | S fuel' =>
          let step' := get_next_spg_step_length step_size incr_norm current_cost next_cost
                         (ls_sigma_one p) (ls_sigma_two p) in
          retry step' ;;;
          do! next' <- cost ;;
          if nabs step' <? ls_step_tol p then Ret step'
          else p_backtrack fuel' p cost retry incr_norm current_cost f_max factor step' next'
      end
    else Ret step_size.

  (** A line search, e.g. gpnh_convex_coding.py:350-389: [save] is "self.S_old = self.S.copy()",
      [getmem]/[setmem] the deque of recent costs, [full] the full step "self.S += self.incr_S"
      with its caches. *)
  Definition p_line_search (fuel : nat) (p : ls_params T) (cost : prog T) (save : prog unit)
             (getmem : sc -> list T) (setmem : list T -> sc -> sc) (incr_norm : R -> T)
             (full : prog unit) (retry : T -> prog unit) : prog T :=
    do! current_cost <- cost ;;
    save ;;;
    do! mem <- look (fun _ s => getmem s) ;;
    match mem with
    | [] => Throw IndexError
    | _ :: rest =>
        let mem' := rest ++ [current_cost] in
        setsc (fun _ => setmem mem') ;;;
        match mem_max mem' with
        | None => Throw TypeError
        | Some f_max =>
            do! inorm <- look (fun r _ => incr_norm r) ;;
            full ;;;
            do! next_cost <- cost ;;
            p_backtrack fuel p cost retry inorm current_cost f_max (ls_gamma p * inorm) n1 next_cost
        end
    end.

  (** The body of the outer loop, e.g. gpnh_convex_coding.py:521-537 *)
  Fixpoint p_run_updates (cost : prog T) (bad : T -> bool) (us : list (prog unit)) (new_cost : T) : prog T :=
    match us with
    | [] => Ret new_cost
    | u :: us' =>
        u ;;;
        do! new_cost' <- cost ;;
        if bad new_cost' then Throw RuntimeError else p_run_updates cost bad us' new_cost'
    end.
  (** The outer loop, e.g. gpnh_convex_coding.py:516-552 *)
  Fixpoint p_iterate_loop (cost : prog T) (bad : nat -> T -> T -> bool) (us : list (prog unit))
           (tolerance : T) (left n_iter : nat) (new_cost : T) (log : list T) : prog (T * nat * list T) :=
    match left with
    | O => Ret (new_cost, Nat.pred n_iter, log)
    | S left' =>
        do! new_cost' <- p_run_updates cost (bad n_iter new_cost) us new_cost ;;
        let log' := log ++ [new_cost'] in
        if nabs (new_cost' - new_cost) <? tolerance then Ret (new_cost', n_iter, log')
        else p_iterate_loop cost bad us tolerance left' (S n_iter) new_cost' log'
    end.
  Definition p_iterate (cost : prog T) (bad : nat -> T -> T -> bool) (us : list (prog unit))
             (tolerance : T) (max_iterations : nat) : prog (T * nat * list T) :=
    do! old_cost <- cost ;;
    p_iterate_loop cost bad us tolerance max_iterations 0 old_cost [old_cost].

  (** "if flag: <update>" *)
  Definition p_enabled (flag : bool) (u : prog unit) : list (prog unit) := if flag then [u] else [].
End HLoops.
