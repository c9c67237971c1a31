(** numpy arrays as Python objects: a heap of array buffers, attributes that hold references to
    them, and the three kinds of statements the estimators are made of.

      self.x = <expression making a new array>     New      (also  .copy(), np.zeros_like, a + b)
      self.x += ..., out=self.x, f(self.x)          Inplace  (writes into the buffer of self.x)
      self.x = self.y                               Alias    (both attributes share one buffer)

    Reading is [Look].  A program is run twice: on the heap ([run_h]), which is what Python does,
    and on plain values ([run_e]), where every attribute has a value of its own; the functional
    models of the other files are of the second kind.

    Simplifications: a buffer is written as a whole (a partial write  x[i:] += ...  writes the
    whole new contents); views that are only read (A.T, A[:, j]) are not allocated; local arrays
    of expressions are not allocated (nothing else can refer to them). *)
From Coq Require Import List Arith.
From Verif Require Import Num Mat Py.
Import ListNotations.

(** All arrays of a program: contents by address, first unused address. *)
Section Memory.
  Context {V : Type}.
  Definition hwrite (h : nat -> V) (a : nat) (v : V) : nat -> V :=
    fun b => if Nat.eqb b a then v else h b.
  Record mem := mk_mem { m_heap : nat -> V; m_next : nat }.
  Definition alloc (m : mem) (v : V) : nat * mem :=
    (m_next m, mk_mem (hwrite (m_heap m) (m_next m) v) (S (m_next m))).
End Memory.
Arguments mem : clear implicits.

(** Array contents: two-dimensional, one-dimensional, or a stack of matrices.  [am], [av], [a3]
    read an array of the expected kind (anything else is outside the model). *)
Section Arrays.
  Context {T : Type}.
  Inductive arr := AM (A : mat T) | AV (v : list T) | A3 (A : list (mat T)).
  Definition am (a : arr) : mat T := match a with AM A => A | _ => mkmat 0 0 [] end.
  Definition av (a : arr) : list T := match a with AV v => v | _ => [] end.
  Definition a3 (a : arr) : list (mat T) := match a with A3 A => A | _ => [] end.
End Arrays.
Arguments arr : clear implicits.

Section Heap.
  (** [V] array contents, [nm] attribute names, [R] what expressions read (all the attributes, as
      a record), [sc] the attributes that are not arrays. *)
  Context {V nm R sc : Type} (nm_eq : forall x y : nm, {x = y} + {x <> y}) (rd : (nm -> V) -> R).

  Inductive prog (A : Type) : Type :=
  | Ret (a : A)
  | Throw (e : exn)
  | New (x : nm) (v : R -> sc -> V) (k : prog A)
  | Inplace (x : nm) (v : R -> sc -> V) (k : prog A)
  | Alias (x y : nm) (k : prog A)
  | SetSc (f : R -> sc -> sc) (k : prog A)
  | Look (k : R -> sc -> prog A).
  Arguments Ret {A}. Arguments Throw {A}. Arguments New {A}. Arguments Inplace {A}.
  Arguments Alias {A}. Arguments SetSc {A}. Arguments Look {A}.

  Fixpoint pbind {A B} (p : prog A) (f : A -> prog B) : prog B :=
    match p with
    | Ret a => f a
    | Throw e => Throw e
    | New x v k => New x v (pbind k f)
    | Inplace x v k => Inplace x v (pbind k f)
    | Alias x y k => Alias x y (pbind k f)
    | SetSc g k => SetSc g (pbind k f)
    | Look k => Look (fun r s => pbind (k r s) f)
    end.

  Definition upd {B} (f : nm -> B) (x : nm) (b : B) : nm -> B :=
    fun y => if nm_eq y x then b else f y.

  (** Python's state: the heap and, for one object, the addresses its attributes refer to. *)
  Record hst := mk_hst { h_heap : nat -> V; h_next : nat; h_attr : nm -> nat; h_sc : sc }.

  Definition val (st : hst) (x : nm) : V := h_heap st (h_attr st x).

  (** self.x = <new array with contents v> *)
  Definition h_new (x : nm) (v : V) (st : hst) : hst :=
    mk_hst (hwrite (h_heap st) (h_next st) v) (S (h_next st))
           (upd (h_attr st) x (h_next st)) (h_sc st).
  (** writing v into the buffer of self.x *)
  Definition h_inplace (x : nm) (v : V) (st : hst) : hst :=
    mk_hst (hwrite (h_heap st) (h_attr st x) v) (h_next st) (h_attr st) (h_sc st).
  (** self.x = <the array at address a>, no copy *)
  Definition h_bind (x : nm) (a : nat) (st : hst) : hst :=
    mk_hst (h_heap st) (h_next st) (upd (h_attr st) x a) (h_sc st).
  Definition h_setsc (s : sc) (st : hst) : hst :=
    mk_hst (h_heap st) (h_next st) (h_attr st) s.

  Fixpoint run_h {A} (p : prog A) (st : hst) : res A * hst :=
    match p with
    | Ret a => (Ok a, st)
    | Throw e => (Raise e, st)
    | New x v k => run_h k (h_new x (v (rd (val st)) (h_sc st)) st)
    | Inplace x v k => run_h k (h_inplace x (v (rd (val st)) (h_sc st)) st)
    | Alias x y k => run_h k (h_bind x (h_attr st y) st)
    | SetSc g k => run_h k (h_setsc (g (rd (val st)) (h_sc st)) st)
    | Look k => run_h (k (rd (val st)) (h_sc st)) st
    end.

  (** The same program on values: every attribute has its own. *)
  Fixpoint run_e {A} (p : prog A) (e : nm -> V) (s : sc) : res A * ((nm -> V) * sc) :=
    match p with
    | Ret a => (Ok a, (e, s))
    | Throw x => (Raise x, (e, s))
    | New x v k => run_e k (upd e x (v (rd e) s)) s
    | Inplace x v k => run_e k (upd e x (v (rd e) s)) s
    | Alias x y k => run_e k (upd e x (e y)) s
    | SetSc g k => run_e k e (g (rd e) s)
    | Look k => run_e (k (rd e) s) e s
    end.

  (** A block of assignments of new arrays (_initialize_workspace). *)
  Definition h_news (l : list (nm * (R -> sc -> V))) (st : hst) : hst :=
    fold_left (fun st xv => h_new (fst xv) (snd xv (rd (val st)) (h_sc st)) st) l st.
  Definition e_news (l : list (nm * (R -> sc -> V))) (e : nm -> V) (s : sc) : nm -> V :=
    fold_left (fun e xv => upd e (fst xv) (snd xv (rd e) s)) l e.

  Definition new (x : nm) (v : R -> sc -> V) : prog unit := New x v (Ret tt).
  Definition inplace (x : nm) (v : R -> sc -> V) : prog unit := Inplace x v (Ret tt).
  Definition alias (x y : nm) : prog unit := Alias x y (Ret tt).
  Definition setsc (f : R -> sc -> sc) : prog unit := SetSc f (Ret tt).
  Definition look {A} (f : R -> sc -> A) : prog A := Look (fun r s => Ret (f r s)).
  Definition skip : prog unit := Ret tt.
End Heap.
Arguments Ret {V nm R sc A}. Arguments Throw {V nm R sc A}. Arguments New {V nm R sc A}.
Arguments Inplace {V nm R sc A}. Arguments Alias {V nm R sc A}. Arguments SetSc {V nm R sc A}.
Arguments Look {V nm R sc A}.
Arguments hst : clear implicits.
Arguments prog : clear implicits.

Declare Scope prog_scope.
Delimit Scope prog_scope with prog.
Notation "'do!' x '<-' p ';;' q" := (pbind p (fun x => q))
  (at level 200, x pattern, p at level 100, q at level 200, right associativity) : prog_scope.
Notation "p ';;;' q" := (pbind p (fun _ => q)) (at level 190, right associativity) : prog_scope.
