(** numpy vectors and matrices.

    A 1-d array is a [list T]; a 2-d array is a [mat T]: its shape and its rows.
    Reading outside the shape gives 0; no code path modelled here does so when shapes are
    consistent (shape errors are modelled explicitly where the code can raise them).
    Summation order is not specified by numpy; the model sums left to right. *)
From Coq Require Import List Arith Lia ZArith.
From Verif Require Import Num.
Import ListNotations.

(** [tab n f] = [f 0; ...; f (n-1)]. *)
Definition tab {A} (n : nat) (f : nat -> A) : list A := map f (seq 0 n).

Record mat (T : Type) : Type := mkmat { nr : nat; nc : nat; dat : list (list T) }.
Arguments mkmat {T}. Arguments nr {T}. Arguments nc {T}. Arguments dat {T}.

Section Mat.
  Context {T : Type} {N : Num T}.
  Local Open Scope num_scope.

  Fixpoint nsum (n : nat) (f : nat -> T) : T :=
    match n with O => n0 | S m => nsum m f + f m end.

  Definition vget (v : list T) (i : nat) : T := nth i v n0.
  Definition vsum (v : list T) : T := nsum (length v) (vget v).         (* v.sum() *)

  Definition mget (M : mat T) (i j : nat) : T := nth j (nth i (dat M) []) n0.   (* M[i, j] *)
  Definition mbuild (r c : nat) (f : nat -> nat -> T) : mat T :=
    mkmat r c (tab r (fun i => tab c (fun j => f i j))).
  Definition shape (M : mat T) : nat * nat := (nr M, nc M).                     (* M.shape *)
  Definition mrow (M : mat T) (i : nat) : list T := tab (nc M) (fun j => mget M i j).  (* M[i] *)
  Definition mcol (M : mat T) (j : nat) : list T := tab (nr M) (fun i => mget M i j).  (* M[:, j] *)

  Definition mtr (M : mat T) : mat T := mbuild (nc M) (nr M) (fun i j => mget M j i).   (* M.T *)
  Definition mmap (f : T -> T) (M : mat T) : mat T :=
    mbuild (nr M) (nc M) (fun i j => f (mget M i j)).
  Definition mmap2 (f : T -> T -> T) (A B : mat T) : mat T :=
    mbuild (nr A) (nc A) (fun i j => f (mget A i j) (mget B i j)).
  Definition madd := mmap2 nadd.                                                (* A + B *)
  Definition msub := mmap2 nsub.                                                (* A - B *)
  Definition mscale (c : T) (M : mat T) : mat T := mmap (fun x => c * x) M.     (* c * M *)
  Definition mmul (A B : mat T) : mat T :=                                      (* A.dot(B) *)
    mbuild (nr A) (nc B) (fun i j => nsum (nc A) (fun k => mget A i k * mget B k j)).
  Definition msum (M : mat T) : T := nsum (nr M) (fun i => nsum (nc M) (fun j => mget M i j)). (* M.sum() *)
  Definition minner (A B : mat T) : T :=                                        (* (A * B).sum() *)
    nsum (nr A) (fun i => nsum (nc A) (fun j => mget A i j * mget B i j)).
  Definition mtrace (M : mat T) : T := nsum (Nat.min (nr M) (nc M)) (fun i => mget M i i). (* M.trace() *)
  Definition mnorm (M : mat T) : T := nsqrt (minner M M).                       (* np.linalg.norm(M) *)
  Definition mzeros (r c : nat) : mat T := mbuild r c (fun _ _ => n0).          (* np.zeros *)
  Definition mdiag (v : list T) : mat T :=                                      (* np.diag(v) *)
    mbuild (length v) (length v) (fun i j => if Nat.eqb i j then vget v i else n0).
  Definition meye (n : nat) : mat T := mbuild n n (fun i j => if Nat.eqb i j then n1 else n0). (* np.eye *)
  Definition mdiagonal (M : mat T) : list T := tab (Nat.min (nr M) (nc M)) (fun i => mget M i i). (* M.diagonal(), np.diag(M) *)
  (** M[lo:hi] for 0 <= lo, hi given as absolute bounds; numpy clips the bounds. *)
  Definition mslice (lo hi : nat) (M : mat T) : mat T :=
    mbuild (Nat.min hi (nr M) - lo) (nc M) (fun i j => mget M (lo + i) j).

  Definition vmap2 (f : T -> T -> T) (a b : list T) : list T :=
    tab (length a) (fun i => f (vget a i) (vget b i)).
  Definition vadd := vmap2 nadd.
  Definition vsub := vmap2 nsub.
  Definition vscale (c : T) (v : list T) : list T := map (fun x => c * x) v.
  Definition vinner (a b : list T) : T := nsum (length a) (fun i => vget a i * vget b i). (* (a * b).sum() *)
  Definition mvmul (M : mat T) (v : list T) : list T :=                         (* M.dot(v) *)
    tab (nr M) (fun i => nsum (nc M) (fun k => mget M i k * vget v k)).

  (** The list of rows agrees with the shape. Every array produced by the operations above is
      well formed. *)
  Definition wf (M : mat T) : Prop :=
    length (dat M) = nr M /\ forall row, In row (dat M) -> length row = nc M.
End Mat.

Lemma length_tab {A} n (f : nat -> A) : length (tab n f) = n.
Proof. unfold tab; rewrite map_length, seq_length; reflexivity. Qed.
Lemma nth_tab {A} n (f : nat -> A) i d : i < n -> nth i (tab n f) d = f i.
Proof.
  intros H; unfold tab.
  rewrite nth_indep with (d' := f 0) by (rewrite map_length, seq_length; exact H).
  rewrite map_nth with (d := 0), seq_nth by exact H; reflexivity.
Qed.
Lemma nth_tab_out {A} n (f : nat -> A) i d : n <= i -> nth i (tab n f) d = d.
Proof. intros H; apply nth_overflow; rewrite length_tab; exact H. Qed.
Lemma tab_ext {A} n (f g : nat -> A) : (forall i, i < n -> f i = g i) -> tab n f = tab n g.
Proof. intros H; apply map_ext_in; intros i Hi; apply in_seq in Hi; apply H; lia. Qed.
Lemma in_tab {A} n (f : nat -> A) x : In x (tab n f) <-> exists i, i < n /\ x = f i.
Proof.
  unfold tab; rewrite in_map_iff; split.
  - intros [i [E Hi]]; exists i; apply in_seq in Hi; split; [lia | congruence].
  - intros [i [Hi E]]; exists i; split; [congruence | apply in_seq; lia].
Qed.
Lemma list_eq_tab {A} (l : list A) d : l = tab (length l) (fun i => nth i l d).
Proof.
  apply nth_ext with (d := d) (d' := d); [rewrite length_tab; reflexivity|].
  intros i Hi; rewrite nth_tab by exact Hi; reflexivity.
Qed.
