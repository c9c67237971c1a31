(** Which arrays a call starts from, and when their integer dtype matters: written in terms of the
    arguments only, without the dtype computations of M_dtype. *)
From Coq Require Import List Bool.
From Verif Require Import Num Mat Py M_gpnh M_aa M_mtd M_crom M_dtype.

Section Spec.
  Context {T : Type}.

  Definition integer_arg {A} (a : option (arr A)) : Prop := exists x, a = Some x /\ dt x = DInt.

  (** The call uses the dictionary (weights) passed by the caller. *)
  Definition uses_dictionary (init : init_method) (ud uw : bool) : Prop :=
    init = InitCustom \/ (ud = false /\ uw = true).
  Definition uses_weights (init : init_method) (ud uw : bool) : Prop :=
    init = InitCustom \/ (ud = true /\ uw = false).

  (** GPNHConvexCoding: the starting dictionary / weights are an integer array. *)
  Definition gpnh_int_dictionary (init : init_method) (ud uw : bool) (data : arr (mat T))
             (dictionary : option (arr (mat T))) : Prop :=
    (uses_dictionary init ud uw /\ integer_arg dictionary)
    \/ (~ uses_dictionary init ud uw /\ init = InitFurthestSum /\ dt data = DInt).
  Definition gpnh_int_weights (init : init_method) (ud uw : bool) (weights : option (arr (mat T))) : Prop :=
    uses_weights init ud uw /\ integer_arg weights.
  (** ... and it would have to be updated. *)
  Definition gpnh_fails (init : init_method) (ud uw : bool) (data : arr (mat T))
             (dictionary weights : option (arr (mat T))) : Prop :=
    (ud = true /\ gpnh_int_dictionary init ud uw data dictionary)
    \/ (uw = true /\ gpnh_int_weights init ud uw weights).

  (** KernelAA: the furthest-sum dictionary (the default) has the dtype of the kernel. *)
  Definition aa_int_dictionary (init : init_method) (ud uw : bool) (kernel : arr (mat T))
             (dictionary : option (arr (mat T))) : Prop :=
    (uses_dictionary init ud uw /\ integer_arg dictionary)
    \/ (~ uses_dictionary init ud uw /\ init <> InitRandom /\ dt kernel = DInt).
  (** [pos]: delta > 0.  ValueError before the first iteration ... *)
  Definition aa_fails_value (pos : bool) (init : init_method) (ud uw : bool) (kernel : arr (mat T))
             (dictionary weights : option (arr (mat T))) : Prop :=
    pos = true /\ dt kernel = DInt /\ aa_int_dictionary init ud uw kernel dictionary.
  (** ... TypeError in the first update of the dictionary or of the weights *)
  Definition aa_fails_type (pos : bool) (init : init_method) (ud uw : bool) (kernel : arr (mat T))
             (dictionary weights : option (arr (mat T))) : Prop :=
    (ud = true /\ (aa_int_dictionary init ud uw kernel dictionary
                   \/ (dt kernel = DInt /\ gpnh_int_weights init ud uw weights)))
    \/ (uw = true /\ (gpnh_int_weights init ud uw weights
                      \/ (dt kernel = DInt /\ aa_int_dictionary init ud uw kernel dictionary))).

  (** MTDConvexCoding: the caller's arrays are used when not updated, or with init='custom'. *)
  Definition mtd_int_dictionary (init : init_method) (ud : bool) (data : arr (mat T))
             (dictionary : option (arr (mat T))) : Prop :=
    ((init = InitCustom \/ ud = false) /\ integer_arg dictionary)
    \/ (init = InitFurthestSum /\ ud = true /\ dt data = DInt).
  Definition mtd_int_arg {A} (init : init_method) (upd : bool) (a : option (arr A)) : Prop :=
    (init = InitCustom \/ upd = false) /\ integer_arg a.
  Definition mtd_int_matrices (init : init_method) (up : bool) (data : arr (mat T))
             (Ts : option (arr (list (mat T)))) : Prop :=
    mtd_int_arg init up Ts \/ (init <> InitCustom /\ up = true /\ dt data = DInt).
  Definition mtd_fails (init : init_method) (ud uw up : bool) (data : arr (mat T))
             (dictionary weights : option (arr (mat T))) (ow : option (arr (list T)))
             (Ts : option (arr (list (mat T)))) : Prop :=
    (ud = true /\ mtd_int_dictionary init ud data dictionary)
    \/ (uw = true /\ mtd_int_arg init uw weights)
    \/ (up = true /\ (mtd_int_arg init up ow \/ mtd_int_matrices init up data Ts))
    \/ (mtd_int_arg init uw weights
        /\ ~ (mtd_int_arg init up ow /\ mtd_int_matrices init up data Ts)).
End Spec.
