(** Binary64 instance, used to run the model (sanity tests only, no theorem depends on it). *)
From Coq Require Import List ZArith PrimFloat.
From Verif Require Import Num Mat Py M_simplex M_spg M_furthest.
Import ListNotations.

Fixpoint float_ofpos (p : positive) : float :=
  match p with
  | xH => 1
  | xO q => 2 * float_ofpos q
  | xI q => 2 * float_ofpos q + 1
  end%float.
Definition float_ofZ (z : Z) : float :=
  match z with
  | Z0 => 0%float
  | Zpos p => float_ofpos p
  | Zneg p => PrimFloat.opp (float_ofpos p)
  end.
Definition Num_F : Num float := {|
  n0 := 0%float; n1 := 1%float;
  nadd := PrimFloat.add; nsub := PrimFloat.sub; nmul := PrimFloat.mul; ndiv := PrimFloat.div;
  nopp := PrimFloat.opp; nabs := PrimFloat.abs; nsqrt := PrimFloat.sqrt;
  nleb := PrimFloat.leb; nltb := PrimFloat.ltb; neqb := PrimFloat.eqb;
  nnan := PrimFloat.nan; nofZ := float_ofZ |}.

(** tests *)
Example run_projection :
  @simplex_project_vector float Num_F [0.25; 2; -1]%float = [0; 1; 0]%float.
Proof. vm_compute. reflexivity. Qed.
Example run_projection2 :
  @simplex_project_vector float Num_F [0.5; 1; 0.25]%float = [0.25; 0.75; 0]%float.
Proof. vm_compute. reflexivity. Qed.
