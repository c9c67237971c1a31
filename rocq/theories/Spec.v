(** Specification vocabulary over the reals, independent of the model of the code.
    Only the *representation* of arrays ([mat], [mget], [nth]) is shared with the model. *)
From Coq Require Import List Arith ZArith Reals.
From Verif Require Import Num Mat.
Import ListNotations.
Local Open Scope R_scope.

(** f 0 + f 1 + ... + f (n-1) *)
Fixpoint Sum (n : nat) (f : nat -> R) : R :=
  match n with O => 0 | S m => Sum m f + f m end.

Definition at_ (v : list R) (i : nat) : R := nth i v 0.

(** a probability vector *)
Definition prob_vec (v : list R) : Prop :=
  (forall i, (i < length v)%nat -> 0 <= at_ v i) /\ Sum (length v) (at_ v) = 1.

(** squared Euclidean distance of two vectors of the same length *)
Definition dist2 (x y : list R) : R := Sum (length x) (fun i => (at_ x i - at_ y i) ^ 2).

(** entry of a matrix *)
Definition ent (M : mat R) (i j : nat) : R := nth j (nth i (dat M) []) 0.

(** a genuine r x c array *)
Definition is_mat (r c : nat) (M : mat R) : Prop :=
  nr M = r /\ nc M = c /\ length (dat M) = r /\ (forall row, In row (dat M) -> length row = c).

(** every row / every column is a probability vector *)
Definition row_stochastic (M : mat R) : Prop :=
  forall i, (i < nr M)%nat ->
    (forall j, (j < nc M)%nat -> 0 <= ent M i j) /\ Sum (nc M) (fun j => ent M i j) = 1.
Definition col_stochastic (M : mat R) : Prop :=
  forall j, (j < nc M)%nat ->
    (forall i, (i < nr M)%nat -> 0 <= ent M i j) /\ Sum (nr M) (fun i => ent M i j) = 1.

(** squared Frobenius norm *)
Definition frob2 (M : mat R) : R := Sum (nr M) (fun i => Sum (nc M) (fun j => ent M i j ^ 2)).
(** Frobenius inner product *)
Definition frob (A B : mat R) : R := Sum (nr A) (fun i => Sum (nc A) (fun j => ent A i j * ent B i j)).

(** ** FurthestSum *)
(** sum of the dissimilarities of point c to the points of a list *)
Definition dsum (D : mat R) (c : Z) (sel : list Z) : R :=
  fold_right (fun s acc => ent D (Z.to_nat c) (Z.to_nat s) + acc) 0 sel.
(** c is a best choice among the allowed points outside [others] *)
Definition furthest (D : mat R) (allowed : Z -> Prop) (others : list Z) (c : Z) : Prop :=
  allowed c /\ ~ In c others /\
  (forall c', allowed c' -> ~ In c' others -> dsum D c' others <= dsum D c others).
(** greedy growth from a start point *)
Inductive grown (D : mat R) (allowed : Z -> Prop) (start : Z) : list Z -> Prop :=
| grown_start : grown D allowed start [start]
| grown_step sel c : grown D allowed start sel -> furthest D allowed sel c ->
    grown D allowed start (sel ++ [c]).
(** one replacement: the point at position [length pre] is exchanged for a best one *)
Definition replaced (D : mat R) (allowed : Z -> Prop) (pos : nat) (sel sel' : list Z) : Prop :=
  exists pre old post c, sel = pre ++ old :: post /\ length pre = pos /\
    sel' = pre ++ c :: post /\ furthest D allowed (pre ++ post) c.
(** m replacements, at positions i mod k, (i+1) mod k, ... *)
Inductive refined (D : mat R) (allowed : Z -> Prop) (k : nat) : nat -> list Z -> list Z -> Prop :=
| refined_0 sel : refined D allowed k 0 sel sel
| refined_S m sel sel' sel'' : refined D allowed k m sel sel' ->
    replaced D allowed (m mod k) sel' sel'' -> refined D allowed k (S m) sel sel''.

(** ** Convex coding *)
(** squared reconstruction error of X by weights W and dictionary D *)
Definition sq_error (X W D : mat R) : R :=
  Sum (nr X) (fun i => Sum (nc X) (fun j =>
    (ent X i j - Sum (nc W) (fun c => ent W i c * ent D c j)) ^ 2)).
(** squared distance between rows a and b of D *)
Definition row_dist2 (D : mat R) (a b : nat) : R :=
  Sum (nc D) (fun j => (ent D a j - ent D b j) ^ 2).
(** mean over ordered pairs of distinct rows, and over features, of the squared row distance;
    0 for a single row *)
Definition spread (D : mat R) : R :=
  if Nat.eqb (nr D) 1 then 0 else
  Sum (nr D) (fun a => Sum (nr D) (fun b => row_dist2 D a b))
  / (INR (nr D) * INR (nc D) * (INR (nr D) - 1)).
(** the regularised cost *)
Definition gpnh_objective (eps : R) (X W D : mat R) : R :=
  sq_error X W D / (INR (nc X) * INR (nr X)) + eps * spread D.
(** the point y (given by its coordinates) lies in the convex hull of the rows of D *)
Definition in_hull (D : mat R) (y : nat -> R) : Prop :=
  exists lam : nat -> R, (forall c, (c < nr D)%nat -> 0 <= lam c) /\ Sum (nr D) lam = 1
    /\ forall j, (j < nc D)%nat -> y j = Sum (nr D) (fun c => lam c * ent D c j).

(** ** Kernel archetypal analysis *)
(** coefficient of sample j in the reconstruction of sample i by weights S and dictionary C *)
Definition coef (S C : mat R) (i j : nat) : R := Sum (nc S) (fun a => ent S i a * ent C a j).
(** sum over the samples of the squared feature-space distance between phi(x_i) and
    sum_j b_ij phi(x_j), where K is the matrix of inner products *)
Definition kernel_error_of (K : mat R) (b : nat -> nat -> R) : R :=
  Sum (nr K) (fun i => ent K i i - 2 * Sum (nr K) (fun j => b i j * ent K j i)
     + Sum (nr K) (fun j => Sum (nr K) (fun l => b i j * ent K j l * b i l))).
Definition kernel_error (K S C : mat R) : R := kernel_error_of K (coef S C).
(** the same in input space: || X - S C X ||_F^2 *)
Definition archetype_error (X S C : mat R) : R :=
  Sum (nr X) (fun i => Sum (nc X) (fun f =>
    (ent X i f - Sum (nr X) (fun j => coef S C i j * ent X j f)) ^ 2)).
Definition symmetric (K : mat R) : Prop :=
  forall i j, (i < nr K)%nat -> (j < nr K)%nat -> ent K i j = ent K j i.
Definition psd (K : mat R) : Prop := forall v : nat -> R,
  0 <= Sum (nr K) (fun j => Sum (nr K) (fun l => v j * ent K j l * v l)).
(** the rows of C multiplied by the entries of v *)
Definition scale_rows (v : list R) (C : mat R) : mat R :=
  mbuild (nr C) (nc C) (fun a j => at_ v a * ent C a j).
(** the dictionary a relaxed model uses: scaled rows if delta > 0 *)
Definition scaled_dictionary (delta : R) (alpha : list R) (C : mat R) : mat R :=
  if Rlt_dec 0 delta then scale_rows alpha C else C.

(** ** Convex coding regularised by a mixture transition distribution (MTD) model *)
Definition max_of (l : list nat) : nat := fold_right Nat.max 0%nat l.
(** probability of state a at time t predicted from the weights W at the lagged times: the mixture,
    with the order weights, of the transition matrices applied to the past weights *)
Definition mtd_forecast (lags : list nat) (ow : list R) (Ts : list (mat R)) (W : mat R) (t a : nat) : R :=
  Sum (length lags) (fun i => at_ ow i * Sum (nc W) (fun b =>
    ent (nth i Ts (mkmat 0 0 [])) a b * ent W (t - nth i lags 0%nat) b)).
(** squared one-step forecast error over the times that have all their lags *)
Definition mtd_misfit (lags : list nat) (ow : list R) (Ts : list (mat R)) (W : mat R) : R :=
  Sum (nr W - max_of lags) (fun s => Sum (nc W) (fun a =>
    (ent W (max_of lags + s) a - mtd_forecast lags ow Ts W (max_of lags + s) a) ^ 2)).
Definition mtd_objective (eps_states eps_weights : R) (lags : list nat) (X W D : mat R)
                         (ow : list R) (Ts : list (mat R)) : R :=
  sq_error X W D / (INR (nc X) * INR (nr X)) + eps_states * spread D
  + (if Nat.eqb (nc W) 1 then 0 else
     eps_weights * (mtd_misfit lags ow Ts W / (INR (nc W) * (INR (nr W) - INR (max_of lags))))).
(** p square matrices of size k *)
Definition is_stack (p k : nat) (Ts : list (mat R)) : Prop :=
  length Ts = p /\ forall i, (i < p)%nat -> is_mat k k (nth i Ts (mkmat 0 0 [])).
(** every matrix has probability vectors as columns *)
Definition stack_stochastic (Ts : list (mat R)) : Prop :=
  forall i, (i < length Ts)%nat -> col_stochastic (nth i Ts (mkmat 0 0 [])).
(** inner products of vectors and of lists of matrices *)
Definition vdot (a b : list R) : R := Sum (length a) (fun i => at_ a i * at_ b i).
Definition stack_dot (A B : list (mat R)) : R :=
  Sum (length A) (fun i => frob (nth i A (mkmat 0 0 [])) (nth i B (mkmat 0 0 []))).
(** weights following the MTD recursion: the given sequence G up to time i, and for the next h
    times the forecast from the already known or forecast weights *)
Fixpoint mtd_path (lags : list nat) (k : nat) (ow : list R) (Ts : list (mat R)) (G : nat -> nat -> R)
         (i h : nat) (t a : nat) : R :=
  match h with
  | O => G t a
  | S h' =>
      if Nat.eqb t (i + h)
      then Sum (length lags) (fun j => at_ ow j * Sum k (fun b =>
             ent (nth j Ts (mkmat 0 0 [])) a b * mtd_path lags k ow Ts G i h' (t - nth j lags 0%nat) b))
      else mtd_path lags k ow Ts G i h' t a
  end.
