(** Model of src/reor/spg.py, and of the backtracking loop that every line search in the
    library repeats around it. *)
From Coq Require Import List Arith ZArith.
From Verif Require Import Num Mat Py.
Import ListNotations.

Section Spg.
  Context {T : Type} {N : Num T}.
  Local Open Scope num_scope.

  (** spg.py:5-18 *)
  Definition get_next_spg_step_length (current_step_length delta f_old f_new
                                       sigma_one sigma_two : T) : T :=
    let step_length_tmp :=
      (nopp nhalf * nsq current_step_length * delta)
      / (f_new - f_old - current_step_length * delta) in          (* :9-10 *)
    if andb (sigma_one <=? step_length_tmp)
            (step_length_tmp <=? sigma_two * current_step_length)  (* :13 *)
    then step_length_tmp
    else nhalf * current_step_length.                              (* :16 *)

  (** spg.py:21-27 *)
  Definition get_next_spg_alpha (beta sksk alpha_min alpha_max : T) : T :=
    if beta <=? n0 then alpha_max
    else pymin alpha_max (pymax alpha_min (sksk / beta)).

  (** Line-search settings, set by the constructors (e.g. gpnh_convex_coding.py:226-232). *)
  Record ls_params := mk_ls {
    ls_gamma : T; ls_alpha_min : T; ls_alpha_max : T;
    ls_sigma_one : T; ls_sigma_two : T; ls_step_tol : T }.

  (** The loop shared (verbatim up to the state update) by
      gpnh_convex_coding.py:375-387, 461-472; archetypal_analysis.py:365-379, 466-486, 537-552;
      mtd_convex_coding.py:434-446, 537-549, 634-650; gpnh_convex_coding_crom.py:208-224:

        while next_cost > f_max + factor * step_size:
            step_size = get_next_spg_step_length(step_size, incr_norm, current_cost, next_cost, ...)
            <set state to old + step_size * incr, refresh caches>
            next_cost = <evaluate cost>
            if abs(step_size) < self.step_size_tolerance: break

      [trial s] is the state "old + s * incr" with refreshed caches, [cost] evaluates it. *)
  Fixpoint backtrack {St : Type} (fuel : nat) (p : ls_params) (cost : St -> T) (trial : T -> St)
           (incr_norm current_cost f_max factor : T)
           (st : St) (step_size next_cost : T) {struct fuel} : res (St * T) :=
    if next_cost >? (f_max + factor * step_size) then
      match fuel with
      | O => Raise OutOfFuel
      | S fuel' =>
          let step' := get_next_spg_step_length step_size incr_norm current_cost next_cost
                         (ls_sigma_one p) (ls_sigma_two p) in
          let st' := trial step' in
          let next' := cost st' in
          if nabs step' <? ls_step_tol p then Ok (st', step')
          else backtrack fuel' p cost trial incr_norm current_cost f_max factor st' step' next'
      end
    else Ok (st, step_size).

  (** f_max = None; for f in mem: if f_max is None or f >= f_max: f_max = f
      (e.g. gpnh_convex_coding.py:360-363) *)
  Definition mem_max (mem : list T) : option T :=
    fold_left (fun acc f => match acc with
                            | None => Some f
                            | Some m => if f >=? m then Some f else Some m end) mem None.

  (** The line search shared by all the methods above:
      mem.popleft(); mem.append(current_cost)  (IndexError on an empty deque, i.e.
      line_search_memory = 0; None + float raises TypeError but cannot occur after append),
      then the full step, then backtracking.  [full] is the state after [+= incr]. Returns the
      state, the step and the memory. *)
  Definition line_search {St : Type} (fuel : nat) (p : ls_params) (cost : St -> T)
             (trial : T -> St) (full : St)
             (mem : list T) (current_cost incr_norm : T) : res (St * T * list T) :=
    match mem with
    | [] => Raise IndexError
    | _ :: rest =>
        let mem' := rest ++ [current_cost] in
        match mem_max mem' with
        | None => Raise TypeError
        | Some f_max =>
            let factor := ls_gamma p * incr_norm in
            let! r := backtrack fuel p cost trial incr_norm current_cost f_max factor
                        full n1 (cost full) in
            Ok (fst r, snd r, mem')
        end
    end.
End Spg.
Arguments ls_params : clear implicits.
