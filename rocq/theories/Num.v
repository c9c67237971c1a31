(** Arithmetic operations used by the code, as a class of *operations only* (no laws).
    The model (files M_*.v) is written once over any [Num T].

    Python/numpy scalars are modelled by a single carrier [T]: the code mixes int,
    float and numpy scalars freely and never relies on the difference. *)
From Coq Require Import ZArith Reals Lra Bool.

Class Num (T : Type) : Type := {
  n0 : T;
  n1 : T;
  nadd : T -> T -> T;
  nsub : T -> T -> T;
  nmul : T -> T -> T;
  ndiv : T -> T -> T;
  nopp : T -> T;
  nabs : T -> T;
  nsqrt : T -> T;
  nleb : T -> T -> bool;      (* a <= b *)
  nltb : T -> T -> bool;      (* a < b  *)
  neqb : T -> T -> bool;      (* a == b *)
  nnan : T;                   (* np.NaN *)
  nofZ : Z -> T               (* integer literals *)
}.

Declare Scope num_scope.
Delimit Scope num_scope with num.
Infix "+" := nadd : num_scope.
Infix "-" := nsub : num_scope.
Infix "*" := nmul : num_scope.
Infix "/" := ndiv : num_scope.
Notation "- x" := (nopp x) : num_scope.
Infix "<=?" := nleb : num_scope.
Infix "<?" := nltb : num_scope.
Notation "a >=? b" := (nleb b a) : num_scope.
Notation "a >? b" := (nltb b a) : num_scope.

Section Derived.
  Context {T : Type} {N : Num T}.
  Local Open Scope num_scope.

  Definition n2 : T := nofZ 2.
  Definition nofnat (n : nat) : T := nofZ (Z.of_nat n).
  Definition nhalf : T := n1 / n2.                         (* 0.5 *)
  Definition nsq (x : T) : T := x * x.                     (* x ** 2 *)
  Definition nisnan (x : T) : bool := negb (neqb x x).
  (** np.fmax / np.fmin: NaN operands are ignored. *)
  Definition nfmax (a b : T) : T :=
    if nisnan a then b else if nisnan b then a else if b <=? a then a else b.
  Definition nfmin (a b : T) : T :=
    if nisnan a then b else if nisnan b then a else if a <=? b then a else b.
  (** Python's builtin max(a, b): b if b > a else a;  min(a, b): b if b < a else a. *)
  Definition pymax (a b : T) : T := if b >? a then b else a.
  Definition pymin (a b : T) : T := if b <? a then b else a.
End Derived.

(** Exact real arithmetic. [nnan] is not a real number: no theorem over [R] concerns a value
    the code sets to NaN (those are stated over [Num_E] or over every [Num T]). *)
Definition Rleb (x y : R) : bool := if Rle_dec x y then true else false.
Definition Rltb (x y : R) : bool := if Rlt_dec x y then true else false.
Definition Reqb (x y : R) : bool := if Req_EM_T x y then true else false.

#[global] Instance Num_R : Num R := {
  n0 := 0%R; n1 := 1%R;
  nadd := Rplus; nsub := Rminus; nmul := Rmult; ndiv := Rdiv; nopp := Ropp;
  nabs := Rabs; nsqrt := sqrt;
  nleb := Rleb; nltb := Rltb; neqb := Reqb;
  nnan := 0%R; nofZ := IZR
}.

Lemma Rleb_spec x y : reflect (x <= y)%R (Rleb x y).
Proof. unfold Rleb; destruct (Rle_dec x y); constructor; assumption. Qed.
Lemma Rltb_spec x y : reflect (x < y)%R (Rltb x y).
Proof. unfold Rltb; destruct (Rlt_dec x y); constructor; assumption. Qed.
Lemma Reqb_spec x y : reflect (x = y)%R (Reqb x y).
Proof. unfold Reqb; destruct (Req_EM_T x y); constructor; assumption. Qed.

Lemma Reqb_refl x : Reqb x x = true.
Proof. destruct (Reqb_spec x x); congruence. Qed.
Lemma Rleb_true x y : Rleb x y = true <-> (x <= y)%R.
Proof. destruct (Rleb_spec x y); split; intros; try assumption; try reflexivity; try discriminate; contradiction. Qed.
Lemma Rltb_true x y : Rltb x y = true <-> (x < y)%R.
Proof. destruct (Rltb_spec x y); split; intros; try assumption; try reflexivity; try discriminate; contradiction. Qed.
Lemma Rleb_false x y : Rleb x y = false <-> (y < x)%R.
Proof. destruct (Rleb_spec x y); split; intros; try reflexivity; try discriminate; lra. Qed.
Lemma Rltb_false x y : Rltb x y = false <-> (y <= x)%R.
Proof. destruct (Rltb_spec x y); split; intros; try reflexivity; try discriminate; lra. Qed.

(** Unfold the operations of [Num_R] (and the derived ones) to those of [R]. *)
Ltac numR :=
  cbn [n0 n1 nadd nsub nmul ndiv nopp nabs nsqrt nleb nltb neqb nofZ Num_R] in *;
  change (@n2 R Num_R) with 2%R in *;
  change (@nhalf R Num_R) with (1 / 2)%R in *.

Lemma nfmax_R a b : @nfmax R Num_R a b = Rmax a b.
Proof.
  unfold nfmax, nisnan; numR. rewrite !Reqb_refl; cbn [negb].
  unfold Rmax. destruct (Rleb_spec b a); destruct (Rle_dec a b); lra.
Qed.
Lemma nfmin_R a b : @nfmin R Num_R a b = Rmin a b.
Proof.
  unfold nfmin, nisnan; numR. rewrite !Reqb_refl; cbn [negb].
  unfold Rmin. destruct (Rleb_spec a b); destruct (Rle_dec a b); lra.
Qed.
Lemma pymax_R a b : @pymax R Num_R a b = Rmax a b.
Proof. unfold pymax; numR. unfold Rmax; destruct (Rltb_spec a b), (Rle_dec a b); lra. Qed.
Lemma pymin_R a b : @pymin R Num_R a b = Rmin a b.
Proof. unfold pymin; numR. unfold Rmin; destruct (Rltb_spec b a), (Rle_dec a b); lra. Qed.
