(** Integer data in the FEM-BV classes and in the piecewise VARX class.

    The models M_fembv, M_varx and M_pwvarx read every array as an array of floating-point numbers.
    These classes keep the dtype of their data (fembv_kmeans.py:146, fembv_varx.py:300, check_array at
    fembv_varx.py:26, pwvarx.py:198-203) and create further arrays with that dtype.  Assigning floats
    to entries of an int64 array truncates them, without an exception or a warning.  This file reads the
    methods once more for int64 data.  [trunc] is the conversion from float64 to int64.  Arrays that are
    bound to fresh floating-point results keep their values.  Not modelled: other dtypes, overflow,
    the conversion of nan and infinities. *)
From Coq Require Import List Arith ZArith Bool.
From Verif Require Import Num Mat Py M_furthest M_fembv M_varx M_pwvarx.
Import ListNotations.

Section Int.
  Context {T : Type} {N : Num T}.
  Local Open Scope num_scope.
  Variable trunc : T -> T.

  (** ** fembv_kmeans.py *)

  (** fembv_kmeans.py:136-140 with the distance matrix created at :150-151 *)
  Definition int_kmeans_distance (s : kmeans T) : mat T := mmap trunc (kmeans_distance s).
  (** self.Theta is only read and rebound: fembv_kmeans.py:158, 160, 168-170.  A sum of Gamma times an
      integer matrix is floating point, as are the weights of the linear programme (fembv.py:223). *)
  Definition int_kmeans_class : fembv_class T (kmeans T) (option (mat T)) :=
    mk_class int_kmeans_distance kmeans_initialize kmeans_update.

  (** ** fembv_varx.py *)
  Section IntVarx.
    Variable lstsq : mat T -> mat T -> res (mat T).
    Variable inv : mat T -> res (mat T).

    (** fembv_varx.py:20-90: the regressors have the dtype of y (:72-73), so external factors are
        truncated when they are copied into them (:83-88); only the number of columns of
        [self._u] is used afterwards *)
    Definition int_varx_new (y : mat T) (p : pyval T) (u : option (mat T)) (s : pyval T) : res (varx T) :=
      let! m := varx_new y p (option_map (mmap trunc) u) s in
      Ok (mk_varx (vx_p m) (vx_s m) (vx_y m) u (vx_z m) (vx_residuals m) (vx_mu m) (vx_A m) (vx_B m) (vx_B0 m)
            (vx_Sigma_u m) (vx_Sigma_u_inv m)).

    (** fembv_varx.py:92-149: the residuals are written into an array of the dtype of y (:90, 112-113),
        mu, A, B, B0 and Sigma_u are rebound *)
    Definition int_varx_fit (m : varx T) (weights : option (list T)) : res (varx T) :=
      let n := nr (vx_y m) in
      let d := nc (vx_y m) in
      let p := vx_p m in
      let s := vx_s m in
      let presample := Nat.max p s in
      let! params := varx_params lstsq m weights in
      let fitted := mmul (vx_z m) params in
      let residuals := mbuild n d (fun t f =>
        if Nat.ltb t presample then mget (vx_residuals m) t f
        else trunc (mget (vx_y m) t f - mget fitted (t - presample) f)) in
      let mu := mrow params 0 in
      let A := if Nat.ltb 0 p then Some (swapaxes12 (reshape3 (mslice 1 (1 + d * p) params) p d d)) else vx_A m in
      let BB0 :=
        match vx_u m with
        | None => (vx_B m, vx_B0 m)
        | Some U =>
            let n_exog := nc U in
            let row_start := (1 + d * p)%nat in
            let row_end := (row_start + s * n_exog)%nat in
            let B := if Nat.ltb 0 s
                     then Some (swapaxes12 (reshape3 (mslice row_start row_end params) s n_exog d)) else vx_B m in
            let row_start0 := (1 + d * p + s * n_exog)%nat in
            (B, Some (mtr (mslice row_start0 (nr params) params)))
        end in
      let Sigma_u := varx_covariance m weights residuals in
      let! Sigma_u_inv := inv Sigma_u in
      Ok (mk_varx p s (vx_y m) (vx_u m) (vx_z m) residuals mu A (fst BB0) (snd BB0) Sigma_u (Some Sigma_u_inv)).

    Section Memory.
      Variable memory : list Z.

      (** fembv_varx.py:287-295 with the distance matrix created at :341-343 *)
      Definition int_varx_distance (p : vparams T) : mat T := mmap trunc (varx_distance memory p).

      (** fembv_varx.py:297-345 *)
      Definition int_varx_initialize (k : nat) (data : mat T) (external : option (mat T)) (init : init_method)
                 (old : option (vparams T)) (g : rng T) : res (vparams T * rng T) :=
        let! u := match external with
                  | None => Ok None
                  | Some U => let! U := check_nonempty U in
                              if negb (Nat.eqb (nr U) (nr data)) then Raise ValueError else Ok (Some U)
                  end in
        let d := nc data in
        let P := zmax memory in
        let mu := mzeros k d in
        let A := if (0 <? P)%Z then Some (repeat (stack_zeros (Z.to_nat P) d d) k)
                 else match old with Some o => vp_A o | None => None end in
        let B0 := match u with
                  | Some U => Some (stack_zeros k d (nc U))
                  | None => match old with Some o => vp_B0 o | None => None end
                  end in
        let! models := map_res (fun i =>
            let m_i := nth i memory 0%Z in
            int_varx_new (mslice (Z.to_nat (P - m_i)) (nr data) data) (PInt m_i) u (PInt 0)) (seq 0 k) in
        let! models' := map_res (fun m => int_varx_fit m None) models in
        if negb (forallb (fun m => assignable (nr data - mem_max memory) (residual_norms memory m)) models') then Raise ValueError else
        Ok (mk_vparams data u models' mu A B0, g).

      (** fembv_varx.py:353-368, one pass of the loop: the weights are written into an array of the dtype of
          the data (:355-358), and so are the reported mu, A and B0 (created at :319-330) *)
      Definition int_varx_update_one (G : mat T) (i : nat) (p : vparams T) : res (vparams T) :=
        match nth_error (vp_models p) i with
        | None => Raise IndexError
        | Some m =>
            let m_i := Z.to_nat (nth i memory 0%Z) in
            let weights := repeat n1 m_i ++ map trunc (mcol G i) in
            let! m' := int_varx_fit m (Some weights) in
            let mu := mbuild (nr (vp_mu p)) (nc (vp_mu p)) (fun j f =>
              if Nat.eqb j i then trunc (vget (vx_mu m') f) else mget (vp_mu p) j f) in
            let! A := if Nat.ltb 0 m_i then
                        match vp_A p, vx_A m' with
                        | Some A, Some A_i => Ok (Some (set_nth i (map (mmap trunc) A_i ++ skipn m_i (nth i A [])) A))
                        | _, _ => Raise TypeError
                        end
                      else Ok (vp_A p) in
            let! B0 := match vp_u p with
                       | None => Ok (vp_B0 p)
                       | Some _ => match vp_B0 p, vx_B0 m' with
                                   | Some B0, Some B0_i => Ok (Some (set_nth i (mmap trunc B0_i) B0))
                                   | _, _ => Raise TypeError
                                   end
                       end in
            Ok (mk_vparams (vp_X p) (vp_u p) (set_nth i m' (vp_models p)) mu A B0)
        end.
      Fixpoint int_varx_update_from (G : mat T) (components : list nat) (p : vparams T) : res (vparams T) :=
        match components with
        | [] => Ok p
        | i :: rest => let! p' := int_varx_update_one G i p in int_varx_update_from G rest p'
        end.
      (** fembv_varx.py:347-368 *)
      Definition int_varx_update (G : mat T) (p : vparams T) : res (vparams T) :=
        int_varx_update_from G (seq 0 (length (vp_models p))) p.
      Definition int_varx_class : fembv_class T (vparams T) (option (mat T)) :=
        mk_class int_varx_distance int_varx_initialize int_varx_update.
    End Memory.
  End IntVarx.

  (** ** pwvarx.py *)
  Section IntPw.
    Context {C : Type}.
    Variable po : pw_oracles T C.

    (** pwvarx.py:132-172: the residuals are an array of the dtype of the targets (:131), written at :163;
        the predictors (:86), mu, A, B and Sigma_u (:113-130) are floating point *)
    Definition int_fit_component (p s : nat) (trend : bool) (n_exog : nat) (y x : mat T) (labels : list Z)
        (st : fitted (T := T)) (k : nat) : res fitted :=
      let d := nc y in
      let idx := masked labels k in
      let Y := take_rows idx y in
      let X := if trend then with_ones (take_rows idx x) else take_rows idx x in
      let! params := po_lstsq po X Y in
      let mu := if trend
                then option_map (fun m => mbuild (nr m) (nc m) (fun i j => if Nat.eqb i k then mget params 0 j else mget m i j)) (fi_mu st)
                else fi_mu st in
      let row_start := if trend then 1%nat else 0%nat in
      let A := if Nat.ltb 0 p
               then option_map (set_nth k (swapaxes12 (reshape3 (mslice row_start (row_start + d * p) params) p d d))) (fi_A st)
               else fi_A st in
      let row_start' := if Nat.ltb 0 p then (row_start + d * p)%nat else row_start in
      let B := if Nat.ltb 0 n_exog && Nat.ltb 0 s
               then option_map (set_nth k (swapaxes12 (reshape3 (mslice row_start' (nr params) params) s n_exog d))) (fi_B st)
               else fi_B st in
      let residuals := put_rows idx (fi_residuals st) (mmap trunc (msub Y (mmul X params))) in
      let df := (Z.of_nat (nr Y) - Z.of_nat (p * d) - (if trend then 1 else 0)
                 - (if Nat.ltb 0 n_exog then Z.of_nat (n_exog * s) else 0))%Z in
      let r := take_rows idx residuals in
      let Sigma_u := set_nth k (mmap (fun v => v / nofZ df) (mmul (mtr r) r)) (fi_Sigma_u st) in
      Ok (mk_fitted mu A B Sigma_u residuals).
    Fixpoint int_fit_components (p s : nat) (trend : bool) (n_exog : nat) (y x : mat T) (labels : list Z)
        (ks : list nat) (st : fitted) : res fitted :=
      match ks with
      | [] => Ok st
      | k :: rest =>
          let! st' := int_fit_component p s trend n_exog y x labels st k in
          int_fit_components p s trend n_exog y x labels rest st'
      end.
    (** pwvarx.py:110-172 *)
    Definition int_fit_var_model (o : pwvarx T C) (y x : mat T) (labels : list Z) : res fitted :=
      let d := nc y in
      let K := pw_K o in
      let p := pw_p o in
      let s := pw_s o in
      let mu := if pw_trend o then Some (mzeros K d) else pw_mu o in
      let A := if Nat.ltb 0 p then Some (repeat (repeat (mzeros d d) p) K) else pw_A o in
      if Nat.ltb (nc x) (p * d) then Raise AssertionError
      else
        let n_lagged_exog := (nc x - p * d)%nat in
        let n_exog := if Nat.ltb 0 n_lagged_exog then (n_lagged_exog / s)%nat else 0%nat in
        let B := if Nat.ltb 0 n_lagged_exog then Some (repeat (repeat (mzeros d n_exog) s) K) else pw_B o in
        if negb (Nat.eqb (length labels) (nr y)) && Nat.ltb 0 K then Raise IndexError
        else int_fit_components p s (pw_trend o) n_exog y x labels (seq 0 K)
               (mk_fitted mu A B (repeat (mzeros d d) K) (mzeros (nr y) d)).
    (** pwvarx.py:174-217 *)
    Definition int_pw_fit_transform (o : pwvarx T C) (endog : arr T) (exog : option (arr T))
      : res (pwvarx T C * list Z) :=
      let presample := Nat.max (pw_p o) (pw_s o) in
      let! x := stack_predictors (pw_p o) (pw_s o) endog exog in
      match targets presample endog with
      | None => Raise ValueError
      | Some y =>
          let! z := hstack2 x y in
          let! cluster_labels := po_cluster po (pw_calls o) z in
          let! c := po_train po (pw_classifier o) x cluster_labels in
          let! labels := po_classify po c x in
          let! fi := int_fit_var_model o y x labels in
          Ok (mk_pw (pw_K o) (pw_p o) (pw_s o) (pw_trend o) (S (pw_calls o)) (Some c)
                (fi_mu fi) (fi_A fi) (fi_B fi) (Some (fi_Sigma_u fi)) (Some (fi_residuals fi)) (Some cluster_labels),
              labels)
      end.
  End IntPw.
End Int.
