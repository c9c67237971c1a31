(** Model of /repo/src/reor/pwvarx.py: ClusterPWVARX, piecewise VARX models by clustering.

    The clusterer and the classifier are scikit-learn objects (or the user's): they are oracles, as is
    numpy.linalg.lstsq.  The orders p and s and the number of components are natural numbers (the code
    does not validate them).  Arrays have floating-point entries (np.zeros_like of an integer array
    truncates the residuals, see M_int.v).  A call that raises is modelled by its exception only. *)
From Coq Require Import List Arith ZArith Bool.
From Verif Require Import Num Mat Py M_furthest M_varx.
Import ListNotations.

(** a numpy array of one or two dimensions *)
Inductive arr (T : Type) := A1 (v : list T) | A2 (M : mat T).
Arguments A1 {T}. Arguments A2 {T}.

(** external routines; [C] is the type of a trained classifier.
    - [po_cluster calls z]: the [calls]-th call of clusterer.fit_predict(z), labels are integers;
    - [po_train c x labels]: the classifier after c.fit(x, labels), [None]: a new SVC();
    - [po_classify c x]: c.predict(x);
    - [po_lstsq X Y]: np.linalg.lstsq(X, Y, rcond=None)[0]. *)
Record pw_oracles (T C : Type) := mk_pwo {
  po_cluster : nat -> mat T -> res (list Z);
  po_train : option C -> mat T -> list Z -> res C;
  po_classify : C -> mat T -> res (list Z);
  po_lstsq : mat T -> mat T -> res (mat T) }.
Arguments mk_pwo {T C}. Arguments po_cluster {T C}. Arguments po_train {T C}. Arguments po_classify {T C}. Arguments po_lstsq {T C}.

(** the object; [pw_B] and [pw_mu], [pw_A] are None until assigned (pwvarx.py:57-61) *)
Record pwvarx (T C : Type) := mk_pw {
  pw_K : nat; pw_p : nat; pw_s : nat; pw_trend : bool;
  pw_calls : nat; pw_classifier : option C;
  pw_mu : option (mat T); pw_A : option (list (list (mat T))); pw_B : option (list (list (mat T)));
  pw_Sigma_u : option (list (mat T)); pw_residuals : option (mat T); pw_cluster_labels : option (list Z) }.
Arguments mk_pw {T C}.
Arguments pw_K {T C}. Arguments pw_p {T C}. Arguments pw_s {T C}. Arguments pw_trend {T C}. Arguments pw_calls {T C}.
Arguments pw_classifier {T C}. Arguments pw_mu {T C}. Arguments pw_A {T C}. Arguments pw_B {T C}.
Arguments pw_Sigma_u {T C}. Arguments pw_residuals {T C}. Arguments pw_cluster_labels {T C}.

Section Pwvarx.
  Context {T C : Type} {N : Num T}.
  Local Open Scope num_scope.
  Variable po : pw_oracles T C.

  (** pwvarx.py:47-61 *)
  Definition pw_new (n_components p s : nat) (include_trend : bool) (classifier : option C) : pwvarx T C :=
    mk_pw n_components p s include_trend 0 classifier None None None None None None.

  (** pwvarx.py:67-71 and 74-78: one-dimensional data become a column (np.expand_dims(a, -1)) *)
  Definition as_columns (a : arr T) : mat T :=
    match a with A1 v => mbuild (length v) 1 (fun i _ => vget v i) | A2 M => M end.

  (** x[:, c:c + B.shape[1]] = B: numpy broadcasts a single row, any other row count must agree *)
  Definition assign_cols (x : mat T) (c : nat) (B : mat T) : res (mat T) :=
    if Nat.eqb (nr B) (nr x) || Nat.eqb (nr B) 1 then
      Ok (mbuild (nr x) (nc x) (fun t q =>
            if andb (Nat.leb c q) (Nat.ltb q (c + nc B))
            then mget B (if Nat.eqb (nr B) (nr x) then t else 0%nat) (q - c) else mget x t q))
    else Raise ValueError.

  (** pwvarx.py:88-91 and 94-97: the loops over [i in range(1, order + 1)] *)
  Fixpoint stack_lags (x M : mat T) (presample : nat) (lags : list nat) (col_index : nat) : res (mat T * nat) :=
    match lags with
    | [] => Ok (x, col_index)
    | i :: rest =>
        let! x' := assign_cols x col_index (mslice (presample - i) (nr M - i) M) in
        stack_lags x' M presample rest (col_index + nc M)
    end.

  (** pwvarx.py:63-99 *)
  Definition stack_predictors (p s : nat) (endog : arr T) (exog : option (arr T)) : res (mat T) :=
    let y := as_columns endog in
    let n_samples := nr y in
    let n_endog := nc y in
    let u := option_map as_columns exog in
    let n_exog := match u with Some U => nc U | None => 0%nat end in
    let n_predictors := (p * n_endog + s * n_exog)%nat in
    let presample := Nat.max p s in
    if Nat.ltb n_samples presample then Raise ValueError         (* negative dimension *)
    else
      let! xc := stack_lags (mzeros (n_samples - presample) n_predictors) y presample (seq 1 p) 0 in
      match u with
      | None => Ok (fst xc)
      | Some U =>
          if Nat.ltb 0 s then
            let! xc' := stack_lags (fst xc) U presample (seq 1 s) (snd xc) in Ok (fst xc')
          else Ok (fst xc)
      end.

  (** np.hstack([A, B]) of two matrices with as many rows *)
  Definition hstack2 (A B : mat T) : res (mat T) :=
    if negb (Nat.eqb (nr A) (nr B)) then Raise ValueError
    else Ok (mbuild (nr A) (nc A + nc B)%nat (fun i j => if Nat.ltb j (nc A) then mget A i j else mget B i (j - nc A))).

  (** pwvarx.py:193-203: the targets.  A one-dimensional endog gives a column; for a 2-D endog with a
      single column np.expand_dims gives a three-dimensional array ([None]). *)
  Definition targets (presample : nat) (endog : arr T) : option (mat T) :=
    match endog with
    | A1 v => Some (mslice presample (length v) (as_columns endog))
    | A2 M => if Nat.eqb (nc M) 1 then None else Some (mslice presample (nr M) M)
    end.

  (** pwvarx.py:134: the positions t with labels[t] == k, increasing *)
  Definition masked (labels : list Z) (k : nat) : list nat :=
    filter (fun t => Z.eqb (nth t labels (-1)%Z) (Z.of_nat k)) (seq 0 (length labels)).
  (** M[mask] *)
  Definition take_rows (idx : list nat) (M : mat T) : mat T :=
    mbuild (length idx) (nc M) (fun i j => mget M (nth i idx 0%nat) j).
  (** position of t in a list of indices *)
  Fixpoint position (t : nat) (idx : list nat) : option nat :=
    match idx with
    | [] => None
    | i :: rest => if Nat.eqb t i then Some O else option_map S (position t rest)
    end.
  (** M[mask] = B *)
  Definition put_rows (idx : list nat) (M B : mat T) : mat T :=
    mbuild (nr M) (nc M) (fun t j => match position t idx with Some i => mget B i j | None => mget M t j end).
  (** np.hstack([np.ones((n, 1)), X]) *)
  Definition with_ones (X : mat T) : mat T :=
    mbuild (nr X) (1 + nc X)%nat (fun i j => match j with O => n1 | S j' => mget X i j' end).

  (** what the loop over the components updates *)
  Record fitted := mk_fitted {
    fi_mu : option (mat T); fi_A : option (list (list (mat T))); fi_B : option (list (list (mat T)));
    fi_Sigma_u : list (mat T); fi_residuals : mat T }.

  (** pwvarx.py:132-172: one pass of the loop.  lstsq answers an array of shape (X.shape[1], n_endog). *)
  Definition fit_component (p s : nat) (trend : bool) (n_exog : nat) (y x : mat T) (labels : list Z)
      (st : fitted) (k : nat) : res fitted :=
    let d := nc y in
    let idx := masked labels k in
    let Y := take_rows idx y in
    let X := if trend then with_ones (take_rows idx x) else take_rows idx x in
    let! params := po_lstsq po X Y in
    let mu := if trend
              then option_map (fun m => mbuild (nr m) (nc m) (fun i j => if Nat.eqb i k then mget params 0 j else mget m i j)) (fi_mu st)
              else fi_mu st in
    let row_start := if trend then 1%nat else 0%nat in
    let A := if Nat.ltb 0 p
             then option_map (set_nth k (swapaxes12 (reshape3 (mslice row_start (row_start + d * p) params) p d d))) (fi_A st)
             else fi_A st in
    let row_start' := if Nat.ltb 0 p then (row_start + d * p)%nat else row_start in
    let B := if Nat.ltb 0 n_exog && Nat.ltb 0 s
             then option_map (set_nth k (swapaxes12 (reshape3 (mslice row_start' (nr params) params) s n_exog d))) (fi_B st)
             else fi_B st in
    let residuals := put_rows idx (fi_residuals st) (msub Y (mmul X params)) in
    let df := (Z.of_nat (nr Y) - Z.of_nat (p * d) - (if trend then 1 else 0)
               - (if Nat.ltb 0 n_exog then Z.of_nat (n_exog * s) else 0))%Z in
    let r := take_rows idx residuals in
    let Sigma_u := set_nth k (mmap (fun v => v / nofZ df) (mmul (mtr r) r)) (fi_Sigma_u st) in
    Ok (mk_fitted mu A B Sigma_u residuals).

  Fixpoint fit_components (p s : nat) (trend : bool) (n_exog : nat) (y x : mat T) (labels : list Z)
      (ks : list nat) (st : fitted) : res fitted :=
    match ks with
    | [] => Ok st
    | k :: rest =>
        let! st' := fit_component p s trend n_exog y x labels st k in
        fit_components p s trend n_exog y x labels rest st'
    end.

  (** pwvarx.py:110-172.  The assertion on line 122 is kept; the boolean masks must have as many
      entries as y has rows.  B is assigned only if there are lagged external factors. *)
  Definition fit_var_model (o : pwvarx T C) (y x : mat T) (labels : list Z) : res fitted :=
    let d := nc y in
    let K := pw_K o in
    let p := pw_p o in
    let s := pw_s o in
    let mu := if pw_trend o then Some (mzeros K d) else pw_mu o in
    let A := if Nat.ltb 0 p then Some (repeat (repeat (mzeros d d) p) K) else pw_A o in
    if Nat.ltb (nc x) (p * d) then Raise AssertionError
    else
      let n_lagged_exog := (nc x - p * d)%nat in
      let n_exog := if Nat.ltb 0 n_lagged_exog then (n_lagged_exog / s)%nat else 0%nat in
      let B := if Nat.ltb 0 n_lagged_exog then Some (repeat (repeat (mzeros d n_exog) s) K) else pw_B o in
      if negb (Nat.eqb (length labels) (nr y)) && Nat.ltb 0 K then Raise IndexError
      else fit_components p s (pw_trend o) n_exog y x labels (seq 0 K)
             (mk_fitted mu A B (repeat (mzeros d d) K) (mzeros (nr y) d)).

  (** pwvarx.py:174-217 with _cluster (101-108): hstack of the predictors with a three-dimensional
      array of targets raises *)
  Definition pw_fit_transform (o : pwvarx T C) (endog : arr T) (exog : option (arr T))
    : res (pwvarx T C * list Z) :=
    let presample := Nat.max (pw_p o) (pw_s o) in
    let! x := stack_predictors (pw_p o) (pw_s o) endog exog in
    match targets presample endog with
    | None => Raise ValueError
    | Some y =>
        let! z := hstack2 x y in
        let! cluster_labels := po_cluster po (pw_calls o) z in
        let! c := po_train po (pw_classifier o) x cluster_labels in
        let! labels := po_classify po c x in
        let! fi := fit_var_model o y x labels in
        Ok (mk_pw (pw_K o) (pw_p o) (pw_s o) (pw_trend o) (S (pw_calls o)) (Some c)
              (fi_mu fi) (fi_A fi) (fi_B fi) (Some (fi_Sigma_u fi)) (Some (fi_residuals fi)) (Some cluster_labels),
            labels)
    end.

  (** pwvarx.py:219-233 *)
  Definition pw_fit (o : pwvarx T C) (endog : arr T) (exog : option (arr T)) : res (pwvarx T C) :=
    let! (o', _) := pw_fit_transform o endog exog in Ok o'.

  (** pwvarx.py:235-251; the classifier is None before the first fit unless the caller gave one *)
  Definition pw_transform (o : pwvarx T C) (endog : arr T) (exog : option (arr T)) : res (list Z) :=
    let! x := stack_predictors (pw_p o) (pw_s o) endog exog in
    match pw_classifier o with
    | None => Raise AttributeError
    | Some c => po_classify po c x
    end.
End Pwvarx.
