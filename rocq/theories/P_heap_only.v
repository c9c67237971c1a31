(** Heap programs that assign and write only some of the attributes. *)
From Coq Require Import List Arith Lia.
From Verif Require Import Num Mat Py M_spg M_iter Heap M_heap P_heap.
Import ListNotations.

Section Only.
  Context {V nm R sc : Type} (nm_eq : forall x y : nm, {x = y} + {x <> y}) (rd : (nm -> V) -> R)
          (P : nm -> Prop).
  Notation prog := (prog V nm R sc).

  Fixpoint only {A} (p : prog A) : Prop :=
    match p with
    | Ret _ | Throw _ => True
    | New x _ k | Inplace x _ k => P x /\ only k
    | SetSc _ k => only k
    | Alias _ _ _ => False
    | Look k => forall r s, only (k r s)
    end.
  Lemma only_noalias {A} (p : prog A) : only p -> noalias p.
  Proof using. induction p; cbn; try tauto. intros H' r s. auto. Qed.
  Lemma only_bind {A B} (p : prog A) (f : A -> prog B) : only p -> (forall a, only (f a)) -> only (pbind p f).
  Proof using. intros Hp Hf. induction p; cbn in *; try tauto; auto. Qed.

  (** the other attributes keep referring to the same arrays *)
  Lemma only_attr {A} (p : prog A) : only p -> forall st x, ~ P x ->
    h_attr (snd (run_h nm_eq rd p st)) x = h_attr st x.
  Proof using.
    induction p as [a|e|y v k IH|y v k IH|y z k IH|g k IH|k IH]; cbn [only run_h]; intros H st x Hx.
    - reflexivity.
    - reflexivity.
    - destruct H as [Hy H]. rewrite IH by assumption. cbn. apply upd_other. intros ->. contradiction.
    - destruct H as [Hy H]. rewrite IH by assumption. reflexivity.
    - contradiction.
    - rewrite IH by assumption. reflexivity.
    - apply IH; auto.
  Qed.
  (** and keep their values *)
  Lemma only_val {A} (p : prog A) : only p -> forall e s x, ~ P x ->
    fst (snd (run_e nm_eq rd p e s)) x = e x.
  Proof using.
    induction p as [a|e|y v k IH|y v k IH|y z k IH|g k IH|k IH]; cbn [only run_e]; intros H e1 s x Hx.
    - reflexivity.
    - reflexivity.
    - destruct H as [Hy H]. rewrite IH by assumption. apply upd_other. intros ->. contradiction.
    - destruct H as [Hy H]. rewrite IH by assumption. apply upd_other. intros ->. contradiction.
    - contradiction.
    - rewrite IH by assumption. reflexivity.
    - apply IH; auto.
  Qed.

  Section Loops.
    Context {T : Type} {N : Num T}.
    Lemma only_backtrack fuel p (cost : prog T) retry inorm cc fm fa : only cost -> (forall s, only (retry s)) ->
      forall st nx, only (p_backtrack fuel p cost retry inorm cc fm fa st nx).
    Proof using.
      intros Hc Hr. induction fuel as [|fuel IH]; intros st nx; cbn [p_backtrack];
        destruct (nltb _ _); try exact I.
      apply only_bind; [apply Hr|]. intros _. apply only_bind; [exact Hc|]. intros nx'.
      destruct (nltb _ _); [exact I|apply IH].
    Qed.
    Lemma only_line_search fuel p (cost : prog T) save getmem setmem inorm full retry :
      only cost -> only save -> only full -> (forall s, only (retry s)) ->
      only (p_line_search fuel p cost save getmem setmem inorm full retry).
    Proof using.
      intros Hc Hs Hf Hr. unfold p_line_search. apply only_bind; [exact Hc|]. intros cc.
      apply only_bind; [exact Hs|]. intros _. cbn [look pbind only]. intros r s.
      destruct (getmem s) as [|m0 rest]; [exact I|]. cbn [setsc pbind only].
      destruct (mem_max _); [|exact I]. cbn [pbind only]. intros r2 s2.
      apply only_bind; [exact Hf|]. intros _. apply only_bind; [exact Hc|]. intros nx.
      apply only_backtrack; auto.
    Qed.
    Lemma only_run_updates (cost : prog T) bad us : only cost -> Forall only us ->
      forall nc, only (p_run_updates cost bad us nc).
    Proof using.
      intros Hc Hus. induction Hus as [|u us Hu Hus IH]; intros nc; cbn [p_run_updates]; [exact I|].
      apply only_bind; [exact Hu|]. intros _. apply only_bind; [exact Hc|]. intros nc'.
      destruct (bad nc'); [exact I|apply IH].
    Qed.
    Lemma only_iterate (cost : prog T) bad us tol mx : only cost -> Forall only us ->
      only (p_iterate cost bad us tol mx).
    Proof using.
      intros Hc Hus. unfold p_iterate. apply only_bind; [exact Hc|]. intros nc0.
      generalize 0 at 1 as n. generalize [nc0] as log. revert nc0.
      induction mx as [|mx IH]; intros nc log n; cbn [p_iterate_loop]; [exact I|].
      apply only_bind; [apply only_run_updates; auto|]. intros nc'.
      destruct (nltb _ _); [exact I|apply IH].
    Qed.
  End Loops.
End Only.
