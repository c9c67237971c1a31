(** Python-side vocabulary: exceptions as values, parameter values, random streams. *)
From Coq Require Import List Arith ZArith Lia.
From Verif Require Import Num Mat.
Import ListNotations.

(** Exceptions raised by the code (or by numpy/sklearn on its behalf).
    [OutOfFuel] is not a Python exception: it marks a [while] loop of the model that was
    given too little fuel (see the termination theorems). *)
Inductive exn : Type :=
| ValueError | RuntimeError | IndexError | TypeError | AttributeError
| NotImplementedError | LinAlgError | AssertionError | OutOfFuel.

Inductive res (A : Type) : Type := Ok (a : A) | Raise (e : exn).
Arguments Ok {A}. Arguments Raise {A}.

Definition bind {A B} (m : res A) (f : A -> res B) : res B :=
  match m with Ok a => f a | Raise e => Raise e end.
Notation "'let!' x ':=' m 'in' k" := (bind m (fun x => k))
  (at level 200, x pattern, m at level 100, k at level 200, right associativity).

Lemma bind_ok {A B} (m : res A) (f : A -> res B) b :
  bind m f = Ok b -> exists a, m = Ok a /\ f a = Ok b.
Proof. destruct m; cbn; intros H; [eauto | discriminate]. Qed.

(** Parameter values as seen by the [isinstance] checks. *)
Inductive pyval (T : Type) : Type :=
| PNone | PInt (z : Z) | PFloat (x : T) | POther.
Arguments PNone {T}. Arguments PInt {T}. Arguments PFloat {T}. Arguments POther {T}.

(** init parameter: None | 'random' | 'furthest_sum' | 'custom' | any other value. *)
Inductive init_method := InitNone | InitRandom | InitFurthestSum | InitCustom | InitOther.

(** A [np.random.RandomState]: arbitrary streams of draws and a position.  One position is
    consumed per draw.  numpy derives all kinds of draws from one bit stream; here each kind is an
    arbitrary stream, which only allows more behaviours. *)
Record rng (T : Type) : Type := mkrng {
  r_uniform : nat -> T;        (* value of the i-th draw if it is a uniform() draw *)
  r_normal : nat -> T;         (* ... if it is a randn() draw *)
  r_int : nat -> nat;          (* ... if it is an integer draw, reduced modulo the bound *)
  r_pos : nat
}.
Arguments mkrng {T}. Arguments r_uniform {T}. Arguments r_normal {T}. Arguments r_int {T}. Arguments r_pos {T}.

Definition advance {T} (n : nat) (r : rng T) : rng T :=
  mkrng (r_uniform r) (r_normal r) (r_int r) (r_pos r + n).

Section Draws.
  Context {T : Type} {N : Num T}.
  (** rng.uniform(size=(r, c)) *)
  Definition draw_uniform_mat (r c : nat) (g : rng T) : mat T * rng T :=
    (mbuild r c (fun i j => r_uniform g (r_pos g + i * c + j)), advance (r * c) g).
  (** rng.uniform(size=(n,)) *)
  Definition draw_uniform_vec (n : nat) (g : rng T) : list T * rng T :=
    (tab n (fun i => r_uniform g (r_pos g + i)), advance n g).
  (** rng.randn(r, c) *)
  Definition draw_normal_mat (r c : nat) (g : rng T) : mat T * rng T :=
    (mbuild r c (fun i j => r_normal g (r_pos g + i * c + j)), advance (r * c) g).
  (** rng.randint(n): uniform in 0..n-1; numpy raises ValueError for n = 0 *)
  Definition draw_randint (n : nat) (g : rng T) : res (nat * rng T) :=
    if Nat.eqb n 0 then Raise ValueError else Ok (r_int g (r_pos g) mod n, advance 1 g).
  (** rng.choice(n, k, replace=False): k distinct indices below n (the i-th pick removes an
      arbitrary remaining index); numpy raises ValueError if k > n *)
  Fixpoint remove_nth {A} (i : nat) (l : list A) : list A :=
    match l, i with
    | [], _ => []
    | _ :: t, O => t
    | x :: t, S j => x :: remove_nth j t
    end.
  Fixpoint choose (k : nat) (avail : list nat) (g : rng T) : list nat * rng T :=
    match k with
    | O => ([], g)
    | S k' =>
        let i := r_int g (r_pos g) mod length avail in
        let '(rest, g') := choose k' (remove_nth i avail) (advance 1 g) in
        (nth i avail 0 :: rest, g')
    end.
  Definition draw_choice (n k : nat) (g : rng T) : res (list nat * rng T) :=
    if Nat.ltb n k then Raise ValueError else Ok (choose k (seq 0 n) g).
End Draws.
