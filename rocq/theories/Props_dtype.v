(** Property theorems C70 - C73: integer arrays in the convex coding classes. *)
From Coq Require Import List Arith Lia ZArith QArith Qabs.
From Verif Require Import Num Mat Py M_simplex M_spg M_iter M_random M_furthest M_gpnh M_aa M_mtd M_crom M_dtype.
From Verif Require Import Spec_dtype P_dtype.
Import ListNotations.

(** The examples compute with rational numbers. *)
Definition Num_Q : Num Q :=
  {| n0 := 0; n1 := 1; nadd a b := Qred (a + b); nsub a b := Qred (a - b); nmul a b := Qred (a * b);
     ndiv a b := Qred (a / b); nopp a := Qred (- a); nabs := Qabs; nsqrt a := a; nleb := Qle_bool;
     nltb a b := negb (Qle_bool b a); neqb := Qeq_bool; nnan := 0; nofZ := inject_Z |}%Q.
Definition q_ls : ls_params Q := (mk_ls (1#10000) (1#1000) 1000 1 0 (1#100))%Q.
Definition q_rng : rng Q := mkrng (fun n => inject_Z (Z.of_nat n + 1)) (fun _ => 1%Q) (fun n => n) 0.
Definition q_m2 (a b c d : Q) : mat Q := mkmat 2 2 [[a; b]; [c; d]].
Definition q_data : mat Q := mkmat 3 2 [[1; 2]; [3; 1]; [2; 5]]%Q.
Definition q_eye : mat Q := (q_m2 1 0 0 1)%Q.
Definition q_weights : mat Q := mkmat 3 2 [[1; 0]; [0; 1]; [1; 0]]%Q.
Definition q_trunc (x : Q) : Q := inject_Z (Z.quot (Qnum x) (Zpos (Qden x))).
Definition q_gpnh (init : init_method) : gpnh Q :=
  gpnh_new (mk_gpnh_cfg 0%Q init (PInt 0) (PInt 1) q_ls 1 true) (PInt 2) q_rng.
Definition is_ok {A} (r : res A) : bool := match r with Ok _ => true | Raise _ => false end.
Lemma is_ok_ex {A} (r : res A) : is_ok r = true -> exists a, r = Ok a.
Proof. destruct r as [a|e]; [eauto | discriminate]. Qed.

(** ** C70 *)
(** A fit that would have to update an integer dictionary or integer weights never returns ... *)
Theorem C70_integer_factors_never_fit : forall (T : Type) (N : Num T) fuel (o : gpnh T) data dictionary weights ud uw kw,
  gpnh_fails (gc_init (go_cfg o)) ud uw data dictionary weights ->
  forall x, d_fit_transform fuel o data dictionary weights ud uw kw <> Ok x.
Proof. intros. apply d_fit_fails; assumption. Qed.
Print Assumptions C70_integer_factors_never_fit.
(** ... it raises TypeError whenever the same numbers in float64 arrays can be fitted ... *)
Theorem C70_integer_factors_type_error : forall (T : Type) (N : Num T) fuel (o : gpnh T) data dictionary weights ud uw kw r,
  gpnh_fails (gc_init (go_cfg o)) ud uw data dictionary weights ->
  fit_transform fuel o (val data) (oval dictionary) (oval weights) ud uw kw = Ok r ->
  d_fit_transform fuel o data dictionary weights ud uw kw = Raise TypeError.
Proof. intros T N fuel o data D W ud uw kw r H E. apply d_fit_fails; [exact H | eauto]. Qed.
Print Assumptions C70_integer_factors_type_error.
(** ... and in every other case the dtypes make no difference; updated factors are float64 arrays. *)
Theorem C70_other_dtypes_agree : forall (T : Type) (N : Num T) fuel (o : gpnh T) data dictionary weights ud uw kw,
  ~ gpnh_fails (gc_init (go_cfg o)) ud uw data dictionary weights ->
  exists t, d_fit_transform fuel o data dictionary weights ud uw kw
            = (let! r := fit_transform fuel o (val data) (oval dictionary) (oval weights) ud uw kw in Ok (t, r))
    /\ (ud = true -> gt_S t = DFloat) /\ (uw = true -> gt_Gamma t = DFloat).
Proof.
  intros T N fuel o data D W ud uw kw H. eexists. split; [apply d_fit_agrees, H|].
  unfold gpnh_fails in H. rewrite <- gt_initial_S with (W := W), <- gt_initial_Gamma with (data := data) (D := D) in H.
  split; intros ->.
  - destruct (dtype_dec (gt_S (gt_initial (gc_init (go_cfg o)) (dt data) (odt D) (odt W) true uw))); tauto.
  - destruct (dtype_dec (gt_Gamma (gt_initial (gc_init (go_cfg o)) (dt data) (odt D) (odt W) ud true))); tauto.
Qed.
Print Assumptions C70_other_dtypes_agree.
(** transform never fails because of dtypes: neither the data nor the stored dictionary need be float *)
Theorem C70_transform_agrees : forall (T : Type) (N : Num T) fuel (o : gpnh T) dS data,
  gc_init (go_cfg o) <> InitCustom ->
  exists t, d_transform fuel o dS data = (let! r := transform fuel o (val data) in Ok (t, r)).
Proof. intros. apply d_transform_agrees; assumption. Qed.
Print Assumptions C70_transform_agrees.

(** furthest-sum start on integer data: the fit of the same numbers as floats succeeds *)
Example C70_example_fails : gpnh_fails InitFurthestSum true true (mkarr DInt q_data) None None
  /\ (exists r, @fit_transform Q Num_Q 50 (q_gpnh InitFurthestSum) q_data None None true true None = Ok r)
  /\ @d_fit_transform Q Num_Q 50 (q_gpnh InitFurthestSum) (mkarr DInt q_data) None None true true None = Raise TypeError.
Proof.
  split; [left; split; [reflexivity|]; right; split; [intros [H|[H _]]; discriminate | split; reflexivity]|].
  split; [apply is_ok_ex; vm_compute; reflexivity | vm_compute; reflexivity].
Qed.
(** random start on the same integer data: works *)
Example C70_example_agrees : ~ gpnh_fails InitRandom true true (mkarr DInt q_data) None None
  /\ (exists r, @d_fit_transform Q Num_Q 50 (q_gpnh InitRandom) (mkarr DInt q_data) None None true true None = Ok r)
  /\ (exists r, @d_transform Q Num_Q 50
        (match @fit_transform Q Num_Q 50 (q_gpnh InitRandom) q_data None None true true None with
         | Ok r => gr_obj (fst r) | Raise _ => q_gpnh InitRandom end) DFloat (mkarr DInt q_data) = Ok r).
Proof.
  split; [|split; apply is_ok_ex; vm_compute; reflexivity].
  intros [[_ [[[H|[H _]] _]|[_ [H _]]]]|[_ [[H|[_ H]] _]]]; discriminate.
Qed.

(** ** C71 *)
Theorem C71_integer_kernel_never_fits : forall (T : Type) (N : Num T) fuel (o : aa T) kernel dictionary weights ud uw kw,
  aa_fails_value (ac_delta (ao_cfg o) >? n0)%num (ac_init (ao_cfg o)) ud uw kernel dictionary weights
  \/ aa_fails_type (ac_delta (ao_cfg o) >? n0)%num (ac_init (ao_cfg o)) ud uw kernel dictionary weights ->
  forall x, d_aa_fit_transform fuel o kernel dictionary weights ud uw kw <> Ok x.
Proof. intros T N fuel o K D W ud uw kw H. apply (d_aa_fit_fails fuel o K D W ud uw kw H). Qed.
Print Assumptions C71_integer_kernel_never_fits.
Theorem C71_integer_kernel_exception : forall (T : Type) (N : Num T) fuel (o : aa T) kernel dictionary weights ud uw kw r,
  aa_fit_transform fuel o (val kernel) (oval dictionary) (oval weights) ud uw kw = Ok r ->
  (aa_fails_value (ac_delta (ao_cfg o) >? n0)%num (ac_init (ao_cfg o)) ud uw kernel dictionary weights ->
   d_aa_fit_transform fuel o kernel dictionary weights ud uw kw = Raise ValueError)
  /\ (~ aa_fails_value (ac_delta (ao_cfg o) >? n0)%num (ac_init (ao_cfg o)) ud uw kernel dictionary weights ->
      aa_fails_type (ac_delta (ao_cfg o) >? n0)%num (ac_init (ao_cfg o)) ud uw kernel dictionary weights ->
      d_aa_fit_transform fuel o kernel dictionary weights ud uw kw = Raise TypeError).
Proof.
  intros T N fuel o K D W ud uw kw r E. split; intros H.
  - apply (d_aa_fit_fails fuel o K D W ud uw kw (or_introl H)); eauto.
  - intros H2. apply (d_aa_fit_fails fuel o K D W ud uw kw (or_intror H2)); eauto.
Qed.
Print Assumptions C71_integer_kernel_exception.
Theorem C71_other_dtypes_agree : forall (T : Type) (N : Num T) fuel (o : aa T) kernel dictionary weights ud uw kw,
  ~ aa_fails_value (ac_delta (ao_cfg o) >? n0)%num (ac_init (ao_cfg o)) ud uw kernel dictionary weights ->
  ~ aa_fails_type (ac_delta (ao_cfg o) >? n0)%num (ac_init (ao_cfg o)) ud uw kernel dictionary weights ->
  exists t, d_aa_fit_transform fuel o kernel dictionary weights ud uw kw
            = (let! r := aa_fit_transform fuel o (val kernel) (oval dictionary) (oval weights) ud uw kw in Ok (t, r))
    /\ (ud = true -> at_C t = DFloat) /\ (uw = true -> at_S t = DFloat).
Proof.
  intros T N fuel o K D W ud uw kw H1 H2. eexists. split; [apply (d_aa_fit_agrees fuel o K D W ud uw kw H1 H2)|].
  unfold aa_fails_type in H2. rewrite <- at_initial_C with (W := W), <- at_initial_S with (kernel := K) (D := D) in H2.
  destruct (aa_starts (ac_init (ao_cfg o)) K D W ud uw) as [dC dS]; cbn in *.
  split; intros ->; [destruct dC | destruct dS]; cbn; tauto.
Qed.
Print Assumptions C71_other_dtypes_agree.
(** ArchetypalAnalysis with its default kernel and default start never fits integer data. *)
Theorem C71_default_on_integer_data : forall (T : Type) (N : Num T) fuel (o : aa T) data uw dictionary weights kw,
  ac_init (ao_cfg o) = InitFurthestSum -> dt data = DInt ->
  forall x, d_arch_fit_transform fuel None o data dictionary weights true uw kw <> Ok x.
Proof.
  intros T N fuel o data uw D W kw Hi Hd. unfold d_arch_fit_transform, d_arch_kernel.
  apply C71_integer_kernel_never_fits. right. left. split; [reflexivity|]. left. right. rewrite Hi, Hd.
  split; [intros [H|[H _]]; discriminate|]. split; [discriminate | reflexivity].
Qed.
Print Assumptions C71_default_on_integer_data.

Definition q_aa (delta : Q) (init : init_method) : aa Q :=
  mk_aa (mk_aa_cfg delta init (PInt 0) (PInt 1) q_ls 1 false) (PInt 2) true q_rng None None None None None.
Definition q_aa_fit (delta : Q) init (d : dtype) (D : option (arr (mat Q))) ud :=
  @d_arch_fit_transform Q Num_Q 50 None (q_aa delta init) (mkarr d q_data) D None ud true None.
(** default start: floats work, integers raise (TypeError without, ValueError with scale factors); a
    random start and a float dictionary work with an integer kernel *)
Example C71_example :
  is_ok (q_aa_fit 0 InitFurthestSum DFloat None true) = true
  /\ q_aa_fit 0 InitFurthestSum DInt None true = Raise TypeError
  /\ is_ok (q_aa_fit (1#10) InitFurthestSum DFloat None true) = true
  /\ q_aa_fit (1#10) InitFurthestSum DInt None true = Raise ValueError
  /\ is_ok (q_aa_fit 0 InitRandom DInt None true) = true
  /\ (exists r, @aa_fit_transform Q Num_Q 50 (q_aa 0 InitFurthestSum) (@mmul Q Num_Q q_data (@mtr Q Num_Q q_data)) None None true true None = Ok r).
Proof.
  split; [vm_compute; reflexivity|]. split; [vm_compute; reflexivity|]. split; [vm_compute; reflexivity|].
  split; [vm_compute; reflexivity|]. split; [vm_compute; reflexivity|]. apply is_ok_ex; vm_compute; reflexivity.
Qed.

(** ** C72 *)
Theorem C72_integer_arrays_never_fit : forall (T : Type) (N : Num T) trunc fuel (o : mtd T) data dictionary weights ow Ts ud uw up kw,
  mtd_fails (mc_init (mo_cfg o)) ud uw up data dictionary weights ow Ts ->
  forall x, d_mtd_fit_transform trunc fuel o data dictionary weights ow Ts ud uw up kw <> Ok x.
Proof. intros T N trunc fuel o data D W ow Ts ud uw up kw H. apply (d_mtd_fit_fails trunc fuel o data D W ow Ts ud uw up kw H). Qed.
Print Assumptions C72_integer_arrays_never_fit.
(** the exception, if the values are those of the float fit: no transition matrices are drawn, or the
    data are floats *)
Theorem C72_integer_arrays_type_error : forall (T : Type) (N : Num T) trunc fuel (o : mtd T) data dictionary weights ow Ts ud uw up kw r,
  mtd_fails (mc_init (mo_cfg o)) ud uw up data dictionary weights ow Ts ->
  (mc_init (mo_cfg o) <> InitCustom -> up = true -> dt data = DFloat) ->
  mtd_fit_transform fuel o (val data) (oval dictionary) (oval weights) (oval ow) (oval Ts) ud uw up kw = Ok r ->
  d_mtd_fit_transform trunc fuel o data dictionary weights ow Ts ud uw up kw = Raise TypeError.
Proof.
  intros T N trunc fuel o data D W ow Ts ud uw up kw r H Hd E.
  apply (d_mtd_fit_fails trunc fuel o data D W ow Ts ud uw up kw H); eauto.
Qed.
Print Assumptions C72_integer_arrays_type_error.
Theorem C72_other_dtypes_agree : forall (T : Type) (N : Num T) trunc fuel (o : mtd T) data dictionary weights ow Ts ud uw up kw,
  ~ mtd_fails (mc_init (mo_cfg o)) ud uw up data dictionary weights ow Ts ->
  exists t, d_mtd_fit_transform trunc fuel o data dictionary weights ow Ts ud uw up kw
    = (let! r := mtd_fit_transform fuel o (val data) (oval dictionary) (oval weights) (oval ow) (oval Ts) ud uw up kw in
       Ok (t, r)).
Proof. intros T N trunc fuel o data D W ow Ts ud uw up kw H. eexists. apply (d_mtd_fit_agrees trunc fuel o data D W ow Ts ud uw up kw H). Qed.
Print Assumptions C72_other_dtypes_agree.
(** whatever the start (except init='custom'), a fit of all parameters to integer data never returns *)
Theorem C72_integer_data : forall (T : Type) (N : Num T) trunc fuel (o : mtd T) data dictionary weights ow Ts ud uw kw,
  mc_init (mo_cfg o) <> InitCustom -> dt data = DInt ->
  forall x, d_mtd_fit_transform trunc fuel o data dictionary weights ow Ts ud uw true kw <> Ok x.
Proof.
  intros T N trunc fuel o data D W ow Ts ud uw kw Hi Hd. apply C72_integer_arrays_never_fit.
  right. right. left. split; [reflexivity|]. right. right. auto.
Qed.
Print Assumptions C72_integer_data.

Definition q_mtd (init : init_method) : mtd Q :=
  mk_mtd (mk_mtd_cfg [1%nat] 0%Q 1%Q init (PInt 0) (PInt 1) q_ls 1 false) (PInt 2) q_rng None None None None None.
Definition q_mtd_fit init (dX : dtype) D W ow Ts ud uw up :=
  @d_mtd_fit_transform Q Num_Q q_trunc 50 (q_mtd init) (mkarr dX q_data) D W ow Ts ud uw up None.
Definition q_custom (dow : dtype) up := q_mtd_fit InitCustom DInt (Some (mkarr DFloat q_eye)) (Some (mkarr DFloat q_weights))
  (Some (mkarr dow [1%Q])) (Some (mkarr DFloat [q_eye])) true true up.
(** random start: floats work, integers raise.  Custom start on integer data: float parameters work,
    integer order weights (np.array([1])) raise if the parameters are updated *)
Example C72_example :
  is_ok (q_mtd_fit InitRandom DFloat None None None None true true true) = true
  /\ q_mtd_fit InitRandom DInt None None None None true true true = Raise TypeError
  /\ is_ok (q_custom DFloat true) = true /\ q_custom DInt true = Raise TypeError
  /\ is_ok (q_custom DInt false) = true.
Proof. vm_compute. auto 6. Qed.

(** ** C73 *)
Theorem C73_crom_integer_data_never_fits : forall (T : Type) (N : Num T) trunc fuel (o : crom T) data dictionary weights ud uw kw,
  dt data = DInt -> co_lags o <> [] ->
  (forall x, d_crom_fit_transform trunc fuel o data dictionary weights ud uw kw <> Ok x)
  /\ (forall r, fit_transform fuel (co_gpnh o) (val data) (oval dictionary) (oval weights) ud uw kw = Ok r ->
      d_crom_fit_transform trunc fuel o data dictionary weights ud uw kw = Raise TypeError).
Proof.
  intros T N trunc fuel o data D W ud uw kw Hd Hl.
  destruct (d_crom_fit_fails trunc fuel o data D W ud uw kw (or_introl Hd) Hl) as [A B].
  split; [exact A|]. intros r E. apply B. eauto.
Qed.
Print Assumptions C73_crom_integer_data_never_fits.
Theorem C73_crom_float_data_agrees : forall (T : Type) (N : Num T) trunc fuel (o : crom T) data dictionary weights ud uw kw,
  dt data = DFloat ->
  ~ gpnh_fails (gc_init (go_cfg (co_gpnh o))) ud uw data dictionary weights ->
  ~ gpnh_int_weights (gc_init (go_cfg (co_gpnh o))) ud uw weights ->
  exists t, d_crom_fit_transform trunc fuel o data dictionary weights ud uw kw
    = (let! r := crom_fit_transform fuel o (val data) (oval dictionary) (oval weights) ud uw kw in Ok (t, r)).
Proof. intros. eexists. apply d_crom_fit_agrees; assumption. Qed.
Print Assumptions C73_crom_float_data_agrees.

Definition q_crom : crom Q := mk_crom (q_gpnh InitRandom) [1%Z] None.
Example C73_example :
  is_ok (@d_crom_fit_transform Q Num_Q q_trunc 50 q_crom (mkarr DFloat q_data) None None true true None) = true
  /\ is_ok (@d_fit_transform Q Num_Q 50 (co_gpnh q_crom) (mkarr DInt q_data) None None true true None) = true
  /\ @d_crom_fit_transform Q Num_Q q_trunc 50 q_crom (mkarr DInt q_data) None None true true None = Raise TypeError.
Proof. vm_compute. auto. Qed.
