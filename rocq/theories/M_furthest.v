(** Model of src/reor/furthest_sum.py *)
From Coq Require Import List Arith ZArith Bool.
From Verif Require Import Num Mat Py.
Import ListNotations.

Section FurthestSum.
  Context {T : Type} {N : Num T}.
  Local Open Scope num_scope.

  (** An entry [index, distance sum] of the queue. *)
  Definition entry : Type := (Z * T)%type.

  (** D[i, j] with Python's negative indexing.  Indices below -n_samples raise IndexError in
      numpy; the only one that can occur is a negative start index, handled in [fill_queue]
      (if the queue is empty the matrix is never read at the start index). *)
  Definition pyindex (n : nat) (i : Z) : nat :=
    Z.to_nat (if (i <? 0)%Z then Z.of_nat n + i else i)%Z.
  Definition mgetZ (D : mat T) (i j : Z) : T :=
    mget D (pyindex (nr D) i) (pyindex (nc D) j).

  (** furthest_sum.py:12-15 *)
  Definition update_distance_sums (D : mat T) (new_index : Z) (q : list entry) : list entry :=
    map (fun qi => (fst qi, snd qi + mgetZ D new_index (fst qi))) q.

  (** current_distances.sort(key=lambda x: x[1]) (furthest_sum.py:19): Python's stable sort.
      (For incomparable keys, i.e. NaN, Python's result is some permutation; the theorems that
      cover NaN only use that.) *)
  Fixpoint insert_entry (x : entry) (l : list entry) : list entry :=
    match l with
    | [] => [x]
    | y :: t => if snd x <=? snd y then x :: l else y :: insert_entry x t
    end.
  Fixpoint sort_entries (l : list entry) : list entry :=
    match l with [] => [] | x :: t => insert_entry x (sort_entries t) end.

  (** furthest_sum.py:18-21; pop(-1) from an empty list raises IndexError *)
  Definition get_furthest_index (q : list entry) : res (Z * list entry) :=
    match rev (sort_entries q) with
    | [] => Raise IndexError
    | x :: r => Ok (fst x, rev r)
    end.

  (** selected[i] = v *)
  Fixpoint set_nth {A} (i : nat) (v : A) (l : list A) : list A :=
    match l, i with
    | [], _ => []
    | _ :: t, O => v :: t
    | x :: t, S j => x :: set_nth j v t
    end.

  (** furthest_sum.py:77-90.  At the time of the calls every element of [selected] is
      start_index. *)
  Definition is_valid_candidate (selected exclude : list Z) (index : Z) : bool :=
    negb (existsb (Z.eqb index) selected) && negb (existsb (Z.eqb index) exclude).

  (** furthest_sum.py:92-97: q has n_samples - n_excluded - 1 slots (none if that is negative),
      filled from the front.  q[pos] past the end raises IndexError, and so does reading the
      matrix at a start index below -n_samples.  Slots never written stay None: [fill_queue]
      returns the written entries and the number of slots left. *)
  Fixpoint fill_queue (D : mat T) (start : Z) (cand : list Z) (slots : nat)
    : res (list entry * nat) :=
    match cand with
    | [] => Ok ([], slots)
    | i :: rest =>
        if (start <? - Z.of_nat (nc D))%Z then Raise IndexError else
        match slots with
        | O => Raise IndexError
        | S slots' =>
            let! r := fill_queue D start rest slots' in
            Ok ((i, mgetZ D i start) :: fst r, snd r)
        end
    end.

  (** furthest_sum.py:99-101, iterations i = pos, pos+1, ... *)
  Fixpoint greedy (D : mat T) (todo pos : nat) (selected : list Z) (q : list entry)
    : res (list Z * list entry) :=
    match todo with
    | O => Ok (selected, q)
    | S todo' =>
        let! r := get_furthest_index q in
        let '(new, q') := r in
        greedy D todo' (S pos) (set_nth pos new selected) (update_distance_sums D new q')
    end.

  (** furthest_sum.py:105-121, one extra step for loop index [i] *)
  Definition extra_step (D : mat T) (n_components i : nat) (selected : list Z) (q : list entry)
    : res (list Z * list entry) :=
    let update_index := i mod n_components in
    let index_to_replace := nth update_index selected 0%Z in
    let q1 := map (fun qi => (fst qi, snd qi - mgetZ D (fst qi) index_to_replace)) q in
    let qi := fold_left (fun acc index =>
                 if Z.eqb index index_to_replace then acc
                 else acc + mgetZ D index_to_replace index) selected n0 in
    let q2 := q1 ++ [(index_to_replace, qi)] in
    let! r := get_furthest_index q2 in
    let '(new, q3) := r in
    Ok (set_nth update_index new selected, update_distance_sums D new q3).

  (** furthest_sum.py:104-121 *)
  Fixpoint extra_loop (D : mat T) (n_components todo i : nat) (selected : list Z) (q : list entry)
    : res (list Z * list entry) :=
    match todo with
    | O => Ok (selected, q)
    | S todo' =>
        let! r := extra_step D n_components i selected q in
        extra_loop D n_components todo' (S i) (fst r) (snd r)
    end.

  (** furthest_sum.py:24-123.  All integer arguments are arbitrary Python integers.  If slots
      of q remain unwritten ([None] entries), any later use of q subscripts None: TypeError. *)
  Definition furthest_sum_impl (D : mat T) (n_components start_index : Z)
             (exclude : list Z) (extra_steps : Z) : res (list Z) :=
    if (n_components =? 0)%Z then Ok [] else                                        (* :52 *)
    let n_samples := nr D in
    let n_excluded := length exclude in
    if (Z.of_nat n_samples <=? start_index)%Z then Raise ValueError else              (* :61 *)
    if existsb (Z.eqb start_index) exclude then Raise ValueError else                (* :65 *)
    if andb (Nat.ltb n_excluded n_samples)
            (Z.of_nat n_samples - Z.of_nat n_excluded <? n_components)%Z
    then Raise ValueError else                                                       (* :69 *)
    if (n_components <? 0)%Z then Raise ValueError else        (* :75 np.full: negative dimension *)
    let k := Z.to_nat n_components in
    let selected := repeat start_index k in                                          (* :75 *)
    let cand := filter (is_valid_candidate selected exclude) (map Z.of_nat (seq 0 n_samples)) in
    let! qs := fill_queue D start_index cand (n_samples - n_excluded - 1) in         (* :92-97 *)
    let '(q, unfilled) := qs in
    if andb (negb (Nat.eqb unfilled 0)) (orb (Nat.ltb 1 k) (0 <? extra_steps)%Z)
    then Raise TypeError else
    let! r1 := greedy D (k - 1) 1 selected q in                                      (* :99 *)
    let! r2 := extra_loop D k (Z.to_nat extra_steps) 0 (fst r1) (snd r1) in          (* :103 *)
    Ok (fst r2).

  (** furthest_sum.py:126-161 *)
  Definition furthest_sum (D : mat T) (n_components start_index : Z)
             (exclude : list Z) (extra_steps : Z) : res (list Z) :=
    if Nat.eqb (nr D) (nc D)
    then furthest_sum_impl D n_components start_index exclude extra_steps
    else Raise ValueError.

  (** Indexing n samples with the selected indices (gpnh_convex_coding.py:76,
      archetypal_analysis.py:85): an index below -n raises IndexError (only a negative start
      index can be one). *)
  Definition check_selected (n : nat) (selected : list Z) : res unit :=
    if forallb (fun z => (- Z.of_nat n <=? z)%Z) selected then Ok tt else Raise IndexError.
End FurthestSum.
