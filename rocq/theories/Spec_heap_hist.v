(** Notions about programs that use the estimators. *)
From Coq Require Import List Arith ZArith.
From Verif Require Import Num Mat Py M_gpnh M_aa M_mtd M_crom Heap M_heap_gpnh M_heap_aa M_heap_mtd M_heap_crom M_heap_hist Spec_heap Spec_heap_obj.
Import ListNotations.

Section SpecHist.
  Context {T : Type} {N : Num T}.
  (** the arrays of an object exist *)
  Definition o_valid (m : mem (arr T)) (o : hobj T) : Prop :=
    match o with
    | OGpnh o => g_valid m o
    | OKernel o | OArch _ o => a_valid m o
    | OMtd o => m_valid m o
    | OCrom o => c_valid m o
    end.
  (** kernel functions behave (see [kernel_pure]) *)
  Definition o_pure (o : hobj T) : Prop := match o with OArch kf _ => kernel_pure kf | _ => True end.
  Definition w_ok (w : world T) : Prop :=
    Forall (fun o => o_valid (w_mem w) o /\ o_pure o) (w_objs w).
  Definition c_pure (c : hcall T) : Prop := match c with CMake o => o_pure o | _ => True end.

  (** the program's own writes, and the object a statement is a call on *)
  Definition writes (c : hcall T) (a : nat) : Prop := match c with CWrite b _ => b = a | _ => False end.
  Definition calls (c : hcall T) (i : nat) : Prop :=
    match c with
    | CFit k _ _ _ _ _ _ _ _ _ _ | CTransform k _ _ | CPredict k _ _ _ | CInverse k _ => k = i
    | _ => False
    end.

  (** The values an object holds, as an object of the functional models. *)
  Inductive fobj := FGpnh (o : gpnh T) | FAA (o : aa T) | FMtd (o : mtd T) | FCrom (o : crom T).
  Definition o_abs (m : mem (arr T)) (o : hobj T) : fobj :=
    match o with
    | OGpnh o => FGpnh (g_abs m o)
    | OKernel o | OArch _ o => FAA (a_abs m o)
    | OMtd o => FMtd (m_abs m o)
    | OCrom o => FCrom (c_abs m o)
    end.
  Definition holds (w : world T) (i : nat) : option fobj :=
    option_map (o_abs (w_mem w)) (nth_error (w_objs w) i).
End SpecHist.
Arguments fobj : clear implicits.
