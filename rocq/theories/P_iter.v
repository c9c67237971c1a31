(** Proofs about the shared outer iteration (any arithmetic). *)
From Coq Require Import List Arith Lia ZArith Bool.
From Verif Require Import Num Mat Py M_iter.
Import ListNotations.

Section Iter.
  Context {T : Type} {N : Num T} {St : Type}.
  Variables (cost : St -> T) (P : St -> Prop).

  Lemma run_updates_ok bad us : (forall u s s', In u us -> P s -> u s = Ok s' -> P s') ->
    forall st c st' c', run_updates cost bad us st c = Ok (st', c') -> c = cost st -> P st ->
    P st' /\ c' = cost st' /\ (us <> [] -> bad c' = false) /\ (us = [] -> st' = st /\ c' = c).
  Proof.
    intros Hp. induction us as [|u us IH]; cbn [run_updates]; intros st c st' c' H E HP.
    - injection H as <- <-. repeat split; auto; congruence.
    - apply bind_ok in H. destruct H as (s1 & E1 & H).
      destruct (bad (cost s1)) eqn:B; [discriminate|].
      assert (P1 : P s1) by (eapply Hp; [left; reflexivity | exact HP | exact E1]).
      destruct (IH ltac:(intros; eapply Hp; [right; eassumption | eassumption | eassumption]) _ _ _ _ H eq_refl P1)
        as (Q1 & Q2 & Q3 & Q4).
      repeat split; try assumption; try discriminate. intros _.
      destruct us as [|v us]; [|apply Q3; discriminate]. destruct (Q4 eq_refl) as [-> ->]. exact B.
  Qed.

  Lemma run_updates_raise bad us : (forall u s s', In u us -> P s -> u s = Ok s' -> P s') ->
    forall st c e, run_updates cost bad us st c = Raise e -> P st ->
    (e = RuntimeError /\ exists s, P s /\ bad (cost s) = true) \/ (exists u s, In u us /\ P s /\ u s = Raise e).
  Proof.
    intros Hp. induction us as [|u us IH]; cbn [run_updates]; intros st c e H HP; [discriminate|].
    destruct (u st) as [s1|e1] eqn:E; cbn [bind] in H.
    - assert (P1 : P s1) by (eapply Hp; [left; reflexivity | exact HP | exact E]).
      destruct (bad (cost s1)) eqn:B.
      + injection H as <-. left. eauto.
      + apply IH in H; [| intros; eapply Hp; [right|..]; eassumption | exact P1].
        destruct H as [H | (v & s & I & Hs & Hv)]; [left; exact H | right; exists v, s; split; [right|]; auto].
    - injection H as <-. right. exists u, st. split; [left; reflexivity | auto].
  Qed.

  Lemma run_updates_total bad us : (forall u s, In u us -> P s -> exists s', u s = Ok s' /\ P s') ->
    (forall s, P s -> bad (cost s) = false) -> forall st c, P st -> exists st' c',
    run_updates cost bad us st c = Ok (st', c') /\ P st'.
  Proof.
    intros Hu Hb. induction us as [|u us IH]; cbn [run_updates]; intros st c HP; [eauto|].
    destruct (Hu u st (or_introl eq_refl) HP) as (s1 & E & P1). rewrite E; cbn [bind].
    rewrite (Hb s1 P1). apply IH; [|exact P1]. intros; eapply Hu; [right|]; assumption.
  Qed.

  Variables (bad : nat -> T -> T -> bool) (us : list (St -> res St)) (tol : T).
  Hypothesis Hp : forall u s s', In u us -> P s -> u s = Ok s' -> P s'.

  Definition settled (L : list T) (i : nat) : bool :=
    nltb (nabs (nsub (nth (S i) L n0) (nth i L n0))) tol.

  Lemma iterate_loop_ok left : forall n st c log st' c' n' log', (0 < left)%nat ->
    iterate_loop cost bad us tol left n st c log = Ok (st', c', n', log') -> c = cost st -> P st ->
    P st' /\ c' = cost st' /\ (n <= n' < n + left)%nat /\
    exists cs, log' = log ++ cs /\ length cs = S (n' - n) /\ nth (n' - n) cs n0 = c'
      /\ (forall i, (i < n' - n)%nat -> settled (c :: cs) i = false)
      /\ (n' = n + left - 1 \/ settled (c :: cs) (n' - n) = true)%nat
      /\ (forall i, (i <= n' - n)%nat ->
           (us <> [] -> bad (n + i) (nth i (c :: cs) n0) (nth (S i) (c :: cs) n0) = false)
           /\ (us = [] -> nth (S i) (c :: cs) n0 = nth i (c :: cs) n0)).
  Proof using Hp.
    induction left as [|left IH]; intros n st c log st' c' n' log' Hl H E HP; [lia|].
    cbn [iterate_loop] in H. apply bind_ok in H. destruct H as ((s1 & c1) & E1 & H).
    destruct (run_updates_ok _ _ Hp _ _ _ _ E1 E HP) as (P1 & Ec1 & B1 & N1).
    assert (Z0 : (us <> [] -> bad (n + 0) c c1 = false) /\ (us = [] -> c1 = c)).
    { rewrite Nat.add_0_r. split; [exact B1 | intros; apply N1; assumption]. }
    destruct (nltb (nabs (nsub c1 c)) tol) eqn:Et.
    - injection H as <- <- <- <-. split; [exact P1|]. split; [exact Ec1|]. split; [lia|].
      exists [c1]. rewrite Nat.sub_diag. repeat split; try reflexivity; try (intros; lia).
      + right. exact Et.
      + intros Hus. assert (i = 0)%nat as -> by lia. apply Z0, Hus.
      + intros Hus. assert (i = 0)%nat as -> by lia. apply Z0, Hus.
    - destruct left as [|left].
      + cbn [iterate_loop] in H. injection H as <- <- <- <-. split; [exact P1|]. split; [exact Ec1|]. split; [cbn; lia|].
        exists [c1]. cbn [Nat.pred]. rewrite Nat.sub_diag. repeat split; try reflexivity; try (intros; lia).
        * intros Hus. assert (i = 0)%nat as -> by lia. apply Z0, Hus.
        * intros Hus. assert (i = 0)%nat as -> by lia. apply Z0, Hus.
      + apply IH in H; [|lia | exact Ec1 | exact P1].
        destruct H as (Q1 & Q2 & Q3 & cs & L1 & L2 & L3 & L4 & L5 & L6).
        split; [exact Q1|]. split; [exact Q2|]. split; [lia|].
        replace (n' - n)%nat with (S (n' - S n)) by lia.
        exists (c1 :: cs). rewrite L1, <- app_assoc. split; [reflexivity|].
        split; [cbn [length]; lia|]. split; [exact L3|]. split; [|split].
        * intros [|i] Hi; [exact Et|]. apply (L4 i); lia.
        * destruct L5 as [->|L5]; [left; lia | right; exact L5].
        * intros [|i] Hi; [exact Z0|]. replace (n + S i)%nat with (S n + i)%nat by lia. apply (L6 i); lia.
  Qed.

  Lemma iterate_ok m st st' c' n' L : (0 < m)%nat -> P st ->
    iterate cost bad us tol m st = Ok (st', c', n', L) ->
    P st' /\ c' = cost st' /\ (n' < m)%nat /\ length L = S (S n') /\ nth 0 L n0 = cost st /\ nth (S n') L n0 = c'
    /\ (forall i, (i < n')%nat -> settled L i = false)
    /\ (S n' = m \/ settled L n' = true)
    /\ (forall i, (i <= n')%nat ->
         (us <> [] -> bad i (nth i L n0) (nth (S i) L n0) = false) /\ (us = [] -> nth (S i) L n0 = nth i L n0)).
  Proof using Hp.
    intros Hm HP H. unfold iterate in H. apply iterate_loop_ok in H; auto.
    destruct H as (Q1 & Q2 & Q3 & cs & L1 & L2 & L3 & L4 & L5 & L6). rewrite Nat.sub_0_r in *.
    cbn [app] in L1. subst L. split; [exact Q1|]. split; [exact Q2|]. split; [lia|].
    split; [cbn [length]; lia|]. split; [reflexivity|]. split; [exact L3|]. split; [exact L4|].
    split; [destruct L5; [left; lia | right; assumption]|]. exact L6.
  Qed.

  Lemma iterate_loop_raise left : forall n st c log e,
    iterate_loop cost bad us tol left n st c log = Raise e -> c = cost st -> P st ->
    (e = RuntimeError /\ exists i s0 s, P s0 /\ P s /\ bad i (cost s0) (cost s) = true)
    \/ (exists u s, In u us /\ P s /\ u s = Raise e).
  Proof using Hp.
    induction left as [|left IH]; intros n st c log e H E HP; [discriminate|].
    cbn [iterate_loop] in H.
    destruct (run_updates cost (bad n c) us st c) as [(s1 & c1)|e1] eqn:E1; cbn [bind] in H.
    - destruct (run_updates_ok _ _ Hp _ _ _ _ E1 E HP) as (P1 & Ec1 & _).
      destruct (nltb _ tol); [discriminate|]. eapply IH; eauto.
    - injection H as <-. apply run_updates_raise in E1; [|exact Hp | exact HP].
      destruct E1 as [[-> (s & Hs & B)] | H]; [left; split; [reflexivity|]; exists n, st, s; subst c; auto | right; exact H].
  Qed.

  Lemma iterate_loop_total left : (forall u s, In u us -> P s -> exists s', u s = Ok s' /\ P s') ->
    (forall i s0 s, P s0 -> P s -> bad i (cost s0) (cost s) = false) ->
    forall n st c log, c = cost st -> P st -> exists r, iterate_loop cost bad us tol left n st c log = Ok r.
  Proof using.
    intros Hu Hb. induction left as [|left IH]; intros n st c log E HP; cbn [iterate_loop]; [eauto|].
    destruct (run_updates_total (bad n c) us Hu ltac:(intros s Hs; subst c; auto) st c HP) as (s1 & c1 & E1 & P1).
    assert (c1 = cost s1).
    { assert (Hp' : forall u s s', In u us -> P s -> u s = Ok s' -> P s').
      { intros u s s' I Hs Es. destruct (Hu u s I Hs) as (s2 & E2 & P2). congruence. }
      destruct (run_updates_ok _ _ Hp' _ _ _ _ E1 E HP) as (_ & Q & _). exact Q. }
    rewrite E1; cbn [bind]. destruct (nltb _ tol); [eauto|]. apply IH; assumption.
  Qed.
  Lemma iterate_total m st : (forall u s, In u us -> P s -> exists s', u s = Ok s' /\ P s') ->
    (forall i s0 s, P s0 -> P s -> bad i (cost s0) (cost s) = false) -> P st ->
    exists r, iterate cost bad us tol m st = Ok r.
  Proof using. intros Hu Hb HP. apply iterate_loop_total; auto. Qed.
End Iter.

(** success with an invariant that depends on the iteration *)
Lemma iterate_loop_total_idx {T} {N : Num T} {St} (cost : St -> T) bad us tol (P : nat -> St -> Prop) m :
  (forall n s, (n < m)%nat -> P n s -> exists s' c', run_updates cost (bad n (cost s)) us s (cost s) = Ok (s', c')
      /\ c' = cost s' /\ P (S n) s') ->
  forall left n st log, (n + left <= m)%nat -> P n st ->
  exists r, iterate_loop cost bad us tol left n st (cost st) log = Ok r.
Proof.
  intros H. induction left as [|left IH]; intros n st log Hl HP; cbn [iterate_loop]; [eauto|].
  destruct (H n st ltac:(lia) HP) as (s' & c' & E & -> & P').
  rewrite E; cbn [bind]. destruct (nltb _ tol); [eauto|]. apply IH; [lia | exact P'].
Qed.

Lemma in_enabled {St} flag (u v : St -> res St) : In u (enabled flag v) <-> flag = true /\ u = v.
Proof. unfold enabled; destruct flag; cbn; intuition; congruence. Qed.
