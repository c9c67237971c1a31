(** Third instance of the arithmetic: exact real numbers together with the infinities and NaN, with
    the IEEE rules for the special values.  Used for the claims about NaN.
    Difference from floating point: no rounding, no overflow, and a single zero, so that x / 0 is
    the infinity with the sign of x (0 / 0 is NaN). *)
From Coq Require Import ZArith Reals Lra.
From Verif Require Import Num.
Local Open Scope R_scope.

Inductive ext := Fin (x : R) | PInf | NInf | NaN.

(** infinity with the sign of x; NaN for x = 0 *)
Definition inf_of (x : R) : ext := if Rlt_dec 0 x then PInf else if Rlt_dec x 0 then NInf else NaN.
Definition eopp (a : ext) : ext :=
  match a with Fin x => Fin (- x) | PInf => NInf | NInf => PInf | NaN => NaN end.
Definition eadd (a b : ext) : ext :=
  match a, b with
  | NaN, _ | _, NaN => NaN
  | Fin x, Fin y => Fin (x + y)
  | PInf, NInf | NInf, PInf => NaN
  | PInf, _ | _, PInf => PInf
  | NInf, _ | _, NInf => NInf
  end.
Definition emul (a b : ext) : ext :=
  match a, b with
  | NaN, _ | _, NaN => NaN
  | Fin x, Fin y => Fin (x * y)
  | Fin x, PInf | PInf, Fin x => inf_of x
  | Fin x, NInf | NInf, Fin x => inf_of (- x)
  | PInf, PInf | NInf, NInf => PInf
  | PInf, NInf | NInf, PInf => NInf
  end.
Definition ediv (a b : ext) : ext :=
  match a, b with
  | NaN, _ | _, NaN => NaN
  | Fin x, Fin y => if Req_EM_T y 0 then inf_of x else Fin (x / y)
  | Fin _, _ => Fin 0
  | PInf, Fin y => if Rlt_dec y 0 then NInf else PInf
  | NInf, Fin y => if Rlt_dec y 0 then PInf else NInf
  | _, _ => NaN
  end.
Definition eabs (a : ext) : ext :=
  match a with Fin x => Fin (Rabs x) | PInf | NInf => PInf | NaN => NaN end.
Definition esqrt (a : ext) : ext :=
  match a with Fin x => if Rlt_dec x 0 then NaN else Fin (sqrt x) | PInf => PInf | NInf | NaN => NaN end.
Definition eltb (a b : ext) : bool :=
  match a, b with
  | NaN, _ | _, NaN => false
  | Fin x, Fin y => Rltb x y
  | NInf, NInf | PInf, PInf => false
  | NInf, _ | _, PInf => true
  | _, _ => false
  end.
Definition eeqb (a b : ext) : bool :=
  match a, b with
  | Fin x, Fin y => if Req_EM_T x y then true else false
  | PInf, PInf | NInf, NInf => true
  | _, _ => false
  end.

#[global] Instance Num_E : Num ext := {
  n0 := Fin 0; n1 := Fin 1;
  nadd := eadd; nsub := fun a b => eadd a (eopp b); nmul := emul; ndiv := ediv; nopp := eopp;
  nabs := eabs; nsqrt := esqrt;
  nleb := fun a b => orb (eltb a b) (eeqb a b); nltb := eltb; neqb := eeqb;
  nnan := NaN; nofZ := fun z => Fin (IZR z)
}.

(** NaN propagates through sums and products *)
Definition nan_sticks (T : Type) (N : Num T) : Prop :=
  forall x : T, nadd nnan x = nnan /\ nadd x nnan = nnan /\ nmul nnan x = nnan /\ nmul x nnan = nnan.
Lemma nan_sticks_E : nan_sticks ext Num_E.
Proof. intros [x| | |]; repeat split; reflexivity. Qed.
