(** IEEE 754 binary64 rounding of a real number, to nearest, ties to even, without overflow.
    This is the rounding of numpy's float64 operations as long as no result reaches 2^1024 in size. *)
From Coq Require Import ZArith Reals.
From Verif Require Import Num Num_rnd.
Local Open Scope R_scope.

Definition two_pow (z : Z) : R := powerRZ 2 z.
(** the nearest integer, the even one of two *)
Definition nearest_even (t : R) : Z :=
  let k := Int_part t in
  if Rlt_dec (t - IZR k) (/ 2) then k
  else if Rlt_dec (/ 2) (t - IZR k) then (k + 1)%Z
  else if Z.even k then k else (k + 1)%Z.
(** the exponent of the smallest normal number *)
Definition emin : Z := -1022.
(** the first e >= e0 with x < 2^(e+1); at most n steps *)
Fixpoint exponent (n : nat) (e : Z) (x : R) : Z :=
  match n with
  | O => e
  | S n' => if Rlt_dec x (two_pow (e + 1)) then e else exponent n' (e + 1) x
  end.
Definition expo (x : R) : Z := exponent (Z.to_nat (up x - emin)) emin x.
(** the distance of neighbouring numbers at x: 52 fraction bits, gradual underflow below 2^emin *)
Definition ulp (x : R) : R := two_pow (expo x - 52).
Definition round_pos (x : R) : R := IZR (nearest_even (x / ulp x)) * ulp x.
Definition round_b64 (x : R) : R :=
  if Rlt_dec x 0 then - round_pos (- x) else round_pos x.

Definition Num_b64 : Num R := Num_rnd round_b64.
