(** Model of src/reor/fembv_varx.py.

    Simplifications: dtypes are dropped (integer data truncate the fitted residuals and parameters
    in the code, see M_int.v); the data are assumed finite (check_array rejects NaN and infinities);
    np.linalg.lstsq (first component of its result) and np.linalg.inv are oracles that may raise;
    entries of np.empty arrays start as 0 (they are all overwritten, see C47_design_matrix);
    [external_factors] is the only extra keyword of fit that is read. *)
From Coq Require Import List Arith ZArith Bool.
From Verif Require Import Num Mat Py M_furthest M_fembv.
Import ListNotations.

Section Varx.
  Context {T : Type} {N : Num T}.
  Local Open Scope num_scope.
  Variable lstsq : mat T -> mat T -> res (mat T).
  Variable inv : mat T -> res (mat T).

  (** sklearn's check_array: at least one sample and one feature *)
  Definition check_nonempty (M : mat T) : res (mat T) :=
    if orb (Nat.eqb (nr M) 0) (Nat.eqb (nc M) 0) then Raise ValueError else Ok M.

  (** Z[:, c:c + B.shape[1]] = B for B with as many rows as Z (numpy would also broadcast a single
      row; C47_design_matrix shows that the constructor always passes as many rows as Z has) *)
  Definition set_cols (Z : mat T) (c : nat) (B : mat T) : res (mat T) :=
    if negb (Nat.eqb (nr B) (nr Z)) then Raise ValueError
    else Ok (mbuild (nr Z) (nc Z) (fun t q =>
               if andb (Nat.leb c q) (Nat.ltb q (c + nc B)) then mget B t (q - c) else mget Z t q)).

  (** fembv_varx.py:73-76 and 80-82: the loops over [i in range(1, order + 1)] *)
  Fixpoint fill_lags (Z M : mat T) (presample : nat) (lags : list nat) (col_index : nat) : res (mat T * nat) :=
    match lags with
    | [] => Ok (Z, col_index)
    | i :: rest =>
        let! Z' := set_cols Z col_index (mslice (presample - i) (nr M - i) M) in
        fill_lags Z' M presample rest (col_index + nc M)
    end.

  (** the local model *)
  Record varx := mk_varx {
    vx_p : nat; vx_s : nat; vx_y : mat T; vx_u : option (mat T);
    vx_z : mat T; vx_residuals : mat T;
    vx_mu : list T; vx_A : option (list (mat T)); vx_B : option (list (mat T)); vx_B0 : option (mat T);
    vx_Sigma_u : mat T; vx_Sigma_u_inv : option (mat T) }.

  Definition stack_zeros (k r c : nat) : list (mat T) := repeat (mzeros r c) k.

  (** fembv_varx.py:64-86: the regressors *)
  Definition varx_design (y : mat T) (p : nat) (u : option (mat T)) (s : nat) : res (mat T) :=
    let n := nr y in
    let d := nc y in
    let n_exog := match u with Some U => nc U | None => 0%nat end in
    let presample := Nat.max p s in
    let n_cols := (1 + p * d + n_exog * (1 + s))%nat in
    if Nat.ltb n presample then Raise ValueError              (* negative dimension *)
    else
      let z0 := mbuild (n - presample) n_cols (fun _ q => if Nat.eqb q 0 then n1 else n0) in
      let! zc := fill_lags z0 y presample (seq 1 p) 1 in
      match u with
      | None => Ok (fst zc)
      | Some U =>
          let! zc' := fill_lags (fst zc) U presample (seq 1 s) (snd zc) in
          set_cols (fst zc') (snd zc') (mslice presample (nr U) U)
      end.

  (** fembv_varx.py:20-90.  The order of the checks matters only for which ValueError is raised. *)
  Definition varx_new (y : mat T) (p : pyval T) (u : option (mat T)) (s : pyval T) : res varx :=
    match p with
    | PInt zp =>
        if (zp <? 0)%Z then Raise ValueError else
        let p := Z.to_nat zp in
        let! y := check_nonempty y in
        let n := nr y in
        let d := nc y in
        let A := if Nat.ltb 0 p then Some (stack_zeros p d d) else None in
        match u with
        | Some U =>
            let! U := check_nonempty U in
            if negb (Nat.eqb (nr U) n) then Raise ValueError else
            match s with
            | PInt zs =>
                if (zs <? 0)%Z then Raise ValueError else
                let s := Z.to_nat zs in
                let! z := varx_design y p (Some U) s in
                Ok (mk_varx p s y (Some U) z (mzeros n d) (repeat n0 d) A
                      (if Nat.ltb 0 s then Some (stack_zeros s d (nc U)) else None)
                      (Some (mzeros d (nc U))) (mzeros d d) None)
            | _ => Raise ValueError
            end
        | None =>
            let! z := varx_design y p None 0 in
            Ok (mk_varx p 0 y None z (mzeros n d) (repeat n0 d) A None None (mzeros d d) None)
        end
    | _ => Raise ValueError
    end.

  (** np.reshape(M, (a, b, c)) of a matrix with a * b * c entries, row-major *)
  Definition reshape3 (M : mat T) (a b c : nat) : list (mat T) :=
    tab a (fun k => mbuild b c (fun i j =>
      let e := ((k * b + i) * c + j)%nat in mget M (e / nc M) (e mod nc M))).
  (** X.swapaxes(1, 2) *)
  Definition swapaxes12 (X : list (mat T)) : list (mat T) := map (@mtr T N) X.

  (** v[:, np.newaxis] * M *)
  Definition mul_rows (v : list T) (M : mat T) : mat T :=
    mbuild (nr M) (nc M) (fun i j => vget v i * mget M i j).

  (** fembv_varx.py:97-113 *)
  Definition varx_params (m : varx) (weights : option (list T)) : res (mat T) :=
    let n := nr (vx_y m) in
    let presample := Nat.max (vx_p m) (vx_s m) in
    let y' := mslice presample n (vx_y m) in
    match weights with
    | None => lstsq (vx_z m) y'
    | Some ws =>
        if negb (Nat.eqb (length ws) n) then Raise ValueError else
        let w := map nsqrt (skipn presample ws) in
        lstsq (mul_rows w (vx_z m)) (mul_rows w y')
    end.

  (** fembv_varx.py:136-149 *)
  Definition varx_covariance (m : varx) (weights : option (list T)) (residuals : mat T) : mat T :=
    let n := nr (vx_y m) in
    let d := nc (vx_y m) in
    let presample := Nat.max (vx_p m) (vx_s m) in
    let r := mslice presample n residuals in
    match weights with
    | None =>
        let df := (Z.of_nat n - Z.of_nat presample - Z.of_nat (vx_p m * d) - 1
                   - match vx_u m with Some U => Z.of_nat (nc U * (1 + vx_s m)) | None => 0 end)%Z in
        mmap (fun x => x / nofZ df) (mmul (mtr r) r)
    | Some ws =>
        let wr := mul_rows (map nsqrt (skipn presample ws)) r in
        let df := vsum (skipn presample ws) - n1 in
        mmap (fun x => x / df) (mmul (mtr wr) wr)
    end.

  (** fembv_varx.py:92-149; lstsq answers an array of shape (z.shape[1], n_features) *)
  Definition varx_fit (m : varx) (weights : option (list T)) : res varx :=
    let n := nr (vx_y m) in
    let d := nc (vx_y m) in
    let p := vx_p m in
    let s := vx_s m in
    let presample := Nat.max p s in
    let! params := varx_params m weights in
    let fitted := mmul (vx_z m) params in
    let residuals := mbuild n d (fun t f =>
      if Nat.ltb t presample then mget (vx_residuals m) t f
      else mget (vx_y m) t f - mget fitted (t - presample) f) in
    let mu := mrow params 0 in
    let A := if Nat.ltb 0 p then Some (swapaxes12 (reshape3 (mslice 1 (1 + d * p) params) p d d)) else vx_A m in
    let BB0 :=
      match vx_u m with
      | None => (vx_B m, vx_B0 m)
      | Some U =>
          let n_exog := nc U in
          let row_start := (1 + d * p)%nat in
          let row_end := (row_start + s * n_exog)%nat in
          let B := if Nat.ltb 0 s
                   then Some (swapaxes12 (reshape3 (mslice row_start row_end params) s n_exog d)) else vx_B m in
          let row_start0 := (1 + d * p + s * n_exog)%nat in
          (B, Some (mtr (mslice row_start0 (nr params) params)))
      end in
    let Sigma_u := varx_covariance m weights residuals in
    let! Sigma_u_inv := inv Sigma_u in
    Ok (mk_varx p s (vx_y m) (vx_u m) (vx_z m) residuals mu A (fst BB0) (snd BB0) Sigma_u (Some Sigma_u_inv)).

  (** ** FEMBVVARX *)

  (** the memory argument: None, an integer, a list or tuple of integers, anything else *)
  Inductive memory_arg := MemNone | MemInt (z : Z) | MemList (l : list Z) | MemOther.

  (** fembv_varx.py:260-277; [n_components] is used as a shape: None or a float is a TypeError, a
      negative number a ValueError.  A list must have that many entries (the code also accepts a list
      with a float equal to its length here, and rejects that float in fit). *)
  Definition varx_memory (n_components : pyval T) (memory : memory_arg) : res (list Z) :=
    let full (z : Z) :=
      match n_components with
      | PInt k => if (k <? 0)%Z then Raise ValueError else Ok (repeat z (Z.to_nat k))
      | _ => Raise TypeError
      end in
    match memory with
    | MemNone => full 0%Z
    | MemInt z => if (z <? 0)%Z then Raise ValueError else full z
    | MemList l =>
        match n_components with
        | PInt k => if (Z.of_nat (length l) =? k)%Z then Ok l else Raise ValueError
        | _ => Raise ValueError                              (* the shape (m,) differs from (None,) *)
        end
    | MemOther => Raise ValueError
    end.

  (** np.max of a non-empty integer array *)
  Definition zmax (l : list Z) : Z := match l with [] => 0%Z | x :: r => fold_left Z.max r x end.

  Record vparams := mk_vparams {
    vp_X : mat T; vp_u : option (mat T); vp_models : list varx;
    vp_mu : mat T; vp_A : option (list (list (mat T))); vp_B0 : option (list (mat T)) }.

  Section Memory.
    Variable memory : list Z.
    Definition mem_max : nat := Z.to_nat (zmax memory).

    (** fembv_varx.py:290-295: the right-hand side for one model *)
    Definition residual_norms (m : varx) : list T :=
      let r := mslice mem_max (nr (vx_residuals m)) (vx_residuals m) in
      let metric := match vx_Sigma_u_inv m with Some M => meye (nr M) | None => mzeros 0 0 end in
      tab (nr r) (fun t => nsum (nc r) (fun j => nsum (nc r) (fun k => mget r t j * mget metric j k * mget r t k))).

    (** assigning a vector to a column of [rows] entries: same length, or one entry for all *)
    Definition assignable (rows : nat) (v : list T) : bool := orb (Nat.eqb (length v) rows) (Nat.eqb (length v) 1).
    Definition assigned (v : list T) (t : nat) : T := if Nat.eqb (length v) 1 then vget v 0 else vget v t.

    (** fembv_varx.py:287-295 *)
    Definition varx_distance (p : vparams) : mat T :=
      let norms := map residual_norms (vp_models p) in
      mbuild (nr (vp_X p) - mem_max) (length (vp_models p)) (fun t i => assigned (nth i norms []) t).

    Fixpoint map_res {A B} (f : A -> res B) (l : list A) : res (list B) :=
      match l with
      | [] => Ok []
      | x :: r => let! y := f x in let! ys := map_res f r in Ok (y :: ys)
      end.

    (** fembv_varx.py:297-345: [parameters] and [init] are not read; [old] keeps B0 (and A) *)
    Definition varx_initialize (k : nat) (data : mat T) (external : option (mat T)) (init : init_method)
               (old : option vparams) (g : rng T) : res (vparams * rng T) :=
      let! u := match external with
                | None => Ok None
                | Some U => let! U := check_nonempty U in
                            if negb (Nat.eqb (nr U) (nr data)) then Raise ValueError else Ok (Some U)
                end in
      let d := nc data in
      let P := zmax memory in
      let mu := mzeros k d in
      let A := if (0 <? P)%Z then Some (repeat (stack_zeros (Z.to_nat P) d d) k)
               else match old with Some o => vp_A o | None => None end in
      let B0 := match u with
                | Some U => Some (stack_zeros k d (nc U))
                | None => match old with Some o => vp_B0 o | None => None end
                end in
      let! models := map_res (fun i =>
          let m_i := nth i memory 0%Z in
          varx_new (mslice (Z.to_nat (P - m_i)) (nr data) data) (PInt m_i) u (PInt 0)) (seq 0 k) in
      let! models' := map_res (fun m => varx_fit m None) models in
      if negb (forallb (fun m => assignable (nr data - mem_max) (residual_norms m)) models') then Raise ValueError else
      Ok (mk_vparams data u models' mu A B0, g).

    (** fembv_varx.py:353-368, one pass of the loop *)
    Definition varx_update_one (G : mat T) (i : nat) (p : vparams) : res vparams :=
      match nth_error (vp_models p) i with
      | None => Raise IndexError
      | Some m =>
          let m_i := Z.to_nat (nth i memory 0%Z) in
          let weights := repeat n1 m_i ++ mcol G i in
          let! m' := varx_fit m (Some weights) in
          let mu := mbuild (nr (vp_mu p)) (nc (vp_mu p)) (fun j f => if Nat.eqb j i then vget (vx_mu m') f else mget (vp_mu p) j f) in
          let! A := if Nat.ltb 0 m_i then
                      match vp_A p, vx_A m' with
                      | Some A, Some A_i => Ok (Some (set_nth i (A_i ++ skipn m_i (nth i A [])) A))
                      | _, _ => Raise TypeError
                      end
                    else Ok (vp_A p) in
          let! B0 := match vp_u p with
                     | None => Ok (vp_B0 p)
                     | Some _ => match vp_B0 p, vx_B0 m' with
                                 | Some B0, Some B0_i => Ok (Some (set_nth i B0_i B0))
                                 | _, _ => Raise TypeError
                                 end
                     end in
          Ok (mk_vparams (vp_X p) (vp_u p) (set_nth i m' (vp_models p)) mu A B0)
      end.

    Fixpoint varx_update_from (G : mat T) (components : list nat) (p : vparams) : res vparams :=
      match components with
      | [] => Ok p
      | i :: rest => let! p' := varx_update_one G i p in varx_update_from G rest p'
      end.

    (** fembv_varx.py:347-368 *)
    Definition varx_update (G : mat T) (p : vparams) : res vparams :=
      varx_update_from G (seq 0 (length (vp_models p))) p.

    Definition varx_class : fembv_class T vparams (option (mat T)) :=
      mk_class varx_distance varx_initialize varx_update.
  End Memory.
End Varx.
Arguments varx T : clear implicits.
Arguments vparams T : clear implicits.
