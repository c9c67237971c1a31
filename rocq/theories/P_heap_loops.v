(** The heap programs of M_heap.v compute, on values, what M_spg.v and M_iter.v say. *)
From Coq Require Import List Arith ZArith Bool Lia.
From Verif Require Import Num Mat Py M_spg M_iter Heap M_heap P_heap.
Import ListNotations.

Section Computes.
  Context {V nm R sc : Type} (nm_eq : forall x y : nm, {x = y} + {x <> y}) (rd : (nm -> V) -> R).
  Notation prog := (prog V nm R sc).
  Notation run_e := (run_e nm_eq rd).

  (** [p], from values [e], [s], has the outcome [r], with [post] holding of the results. *)
  Definition computes {A B} (p : prog A) (e : nm -> V) (s : sc) (r : res B)
             (post : A -> (nm -> V) -> sc -> B -> Prop) : Prop :=
    match r with
    | Ok b => exists a e' s', run_e p e s = (Ok a, (e', s')) /\ post a e' s' b
    | Raise x => fst (run_e p e s) = Raise x
    end.

  Lemma computes_bind {A A' B B'} (p : prog A) (f : A -> prog A') e s (r : res B) (g : B -> res B') post post' :
    computes p e s r post ->
    (forall a e' s' b, post a e' s' b -> computes (f a) e' s' (g b) post') ->
    computes (pbind p f) e s (bind r g) post'.
  Proof using.
    intros Hp Hf. destruct r as [b|x]; cbn [bind].
    - destruct Hp as (a & e' & s' & E & Hpost). specialize (Hf _ _ _ _ Hpost).
      unfold computes in *. rewrite run_e_bind, E. exact Hf.
    - unfold computes in *. rewrite run_e_bind.
      destruct (run_e p e s) as [[a|y] [e' s']]; cbn in *; congruence.
  Qed.
  (** the same, when the functional side has nothing to do for [p] *)
  Lemma computes_step {A A' B} (p : prog A) (f : A -> prog A') e s (r : res B) a e' s' post :
    run_e p e s = (Ok a, (e', s')) -> computes (f a) e' s' r post -> computes (pbind p f) e s r post.
  Proof using.
    intros E H. unfold computes in *. rewrite run_e_bind, E. exact H.
  Qed.
  Lemma computes_bind2 {A0 A A' B B'} (p : prog A0) (q : prog A) (f : A -> prog A') e s (r : res B)
        (g : B -> res B') post post' :
    computes (pbind p (fun _ => q)) e s r post ->
    (forall a e' s' b, post a e' s' b -> computes (f a) e' s' (g b) post') ->
    computes (pbind p (fun _ => pbind q f)) e s (bind r g) post'.
  Proof using.
    intros Hp Hf. assert (E : run_e (pbind p (fun _ => pbind q f)) e s = run_e (pbind (pbind p (fun _ => q)) f) e s).
    { rewrite !run_e_bind. destruct (run_e p e s) as [[a|x] [e' s']]; [|reflexivity].
      rewrite run_e_bind. reflexivity. }
    pose proof (computes_bind _ f _ _ _ g post post' Hp Hf) as H. unfold computes in *. rewrite E. exact H.
  Qed.
  (** one statement, with the new values kept abstract *)
  Lemma run_new (x : nm) (v : R -> sc -> V) (e : nm -> V) (s : sc) : exists e', run_e (new x v) e s = (Ok tt, (e', s)) /\ e' x = v (rd e) s /\
    (forall y, y <> x -> e' y = e y).
  Proof using.
    eexists. split; [reflexivity|]. split; [apply upd_same|]. intros y Hy. apply upd_other. exact Hy.
  Qed.
  Lemma run_inplace (x : nm) (v : R -> sc -> V) (e : nm -> V) (s : sc) : exists e', run_e (inplace x v) e s = (Ok tt, (e', s)) /\ e' x = v (rd e) s /\
    (forall y, y <> x -> e' y = e y).
  Proof using.
    eexists. split; [reflexivity|]. split; [apply upd_same|]. intros y Hy. apply upd_other. exact Hy.
  Qed.
  Lemma computes_ret {A B} (a : A) e s (b : B) (post : A -> (nm -> V) -> sc -> B -> Prop) :
    post a e s b -> computes (Ret a) e s (Ok b) post.
  Proof using. intros H. exists a, e, s. split; [reflexivity|exact H]. Qed.
  Lemma computes_weaken {A B} (p : prog A) e s (r : res B) (post post' : A -> (nm -> V) -> sc -> B -> Prop) :
    (forall a e' s' b, post a e' s' b -> post' a e' s' b) -> computes p e s r post -> computes p e s r post'.
  Proof using.
    intros H. destruct r; cbn; auto. intros (a0 & e' & s' & E & Hp). exists a0, e', s'. auto.
  Qed.
End Computes.

Section Loops.
  Context {T : Type} {N : Num T} {V nm R sc : Type} (nm_eq : forall x y : nm, {x = y} + {x <> y})
          (rd : (nm -> V) -> R).
  Notation prog := (prog V nm R sc).
  Notation run_e := (run_e nm_eq rd).
  Notation computes := (computes nm_eq rd).

  Lemma noalias_backtrack fuel p (cost : prog T) retry inorm cc fm fa : noalias cost -> (forall s, noalias (retry s)) ->
    forall st nx, noalias (p_backtrack fuel p cost retry inorm cc fm fa st nx).
  Proof using.
    intros Hc Hr. induction fuel as [|fuel IH]; intros st nx; cbn [p_backtrack];
      destruct (nltb _ _); try exact I.
    apply noalias_bind; [apply Hr|]. intros _. apply noalias_bind; [exact Hc|]. intros nx'.
    destruct (nltb _ _); [exact I|apply IH].
  Qed.
  Lemma noalias_line_search fuel p (cost : prog T) save getmem setmem inorm full retry :
    noalias cost -> noalias save -> noalias full -> (forall s, noalias (retry s)) ->
    noalias (p_line_search fuel p cost save getmem setmem inorm full retry).
  Proof using.
    intros Hc Hs Hf Hr. unfold p_line_search. apply noalias_bind; [exact Hc|]. intros cc.
    apply noalias_bind; [exact Hs|]. intros _. cbn [look pbind noalias]. intros r s.
    destruct (getmem s) as [|m0 rest]; [exact I|]. cbn [setsc pbind noalias].
    destruct (mem_max _); [|exact I]. cbn [pbind noalias]. intros r2 s2.
    apply noalias_bind; [exact Hf|]. intros _. apply noalias_bind; [exact Hc|]. intros nx.
    apply noalias_backtrack; auto.
  Qed.
  Lemma noalias_run_updates (cost : prog T) bad us : noalias cost -> Forall noalias us ->
    forall nc, noalias (p_run_updates cost bad us nc).
  Proof using.
    intros Hc Hus. induction Hus as [|u us Hu Hus IH]; intros nc; cbn [p_run_updates]; [exact I|].
    apply noalias_bind; [exact Hu|]. intros _. apply noalias_bind; [exact Hc|]. intros nc'.
    destruct (bad nc'); [exact I|apply IH].
  Qed.
  Lemma noalias_iterate (cost : prog T) bad us tol mx : noalias cost -> Forall noalias us ->
    noalias (p_iterate cost bad us tol mx).
  Proof using.
    intros Hc Hus. unfold p_iterate. apply noalias_bind; [exact Hc|]. intros nc0.
    generalize 0 at 1 as n. generalize [nc0] as log. revert nc0.
    induction mx as [|mx IH]; intros nc log n; cbn [p_iterate_loop]; [exact I|].
    apply noalias_bind; [apply noalias_run_updates; auto|]. intros nc'.
    destruct (nltb _ _); [exact I|apply IH].
  Qed.
  Lemma noalias_enabled b (u : prog unit) : noalias u -> Forall noalias (p_enabled b u).
  Proof using. intros H. destruct b; cbn; auto. Qed.

  (** Line search.  [Rel e s w]: the values [e], [s] represent the functional state [w]. *)
  Section LineSearch.
    Context {St : Type} (Rel : (nm -> V) -> sc -> St -> Prop).
    Variables (cost : prog T) (fcost : St -> T) (retry : T -> prog unit) (trial : T -> St).
    Hypothesis Hcost : forall e s w, Rel e s w -> run_e cost e s = (Ok (fcost w), (e, s)).
    Hypothesis Hretry : forall step e s w, Rel e s w ->
      exists e' s', run_e (retry step) e s = (Ok tt, (e', s')) /\ Rel e' s' (trial step).

    Lemma computes_backtrack p inorm cc fm fa fuel : forall e s st step nx, Rel e s st ->
      computes (p_backtrack fuel p cost retry inorm cc fm fa step nx) e s
        (backtrack fuel p fcost trial inorm cc fm fa st step nx)
        (fun a e' s' b => a = snd b /\ Rel e' s' (fst b)).
    Proof using Hcost Hretry.
      induction fuel as [|fuel IH]; intros e s st step nx HR; cbn [p_backtrack backtrack];
        destruct (nltb _ _).
      - reflexivity.
      - apply computes_ret. split; [reflexivity|exact HR].
      - set (step' := get_next_spg_step_length _ _ _ _ _ _).
        destruct (Hretry step' e s st HR) as (e1 & s1 & E1 & HR1).
        eapply computes_step; [exact E1|]. eapply computes_step; [apply (Hcost _ _ _ HR1)|].
        destruct (nltb _ _).
        + apply computes_ret. split; [reflexivity|exact HR1].
        + apply IH. exact HR1.
      - apply computes_ret. split; [reflexivity|exact HR].
    Qed.
  End LineSearch.

  (** A whole line search; [Rel m] relates the states while the memory of costs is [m]. *)
  Lemma computes_line_search {St} (Rel : list T -> (nm -> V) -> sc -> St -> Prop)
        (cost : prog T) (fcost : St -> T) (retry : T -> prog unit) (trial : T -> St)
        fuel p save getmem setmem inorm full (fullw : St) e s cc e1 mem inm :
    (forall m e s w, Rel m e s w -> run_e cost e s = (Ok (fcost w), (e, s))) ->
    (forall m step e s w, Rel m e s w ->
       exists e' s', run_e (retry step) e s = (Ok tt, (e', s')) /\ Rel m e' s' (trial step)) ->
    run_e cost e s = (Ok cc, (e, s)) ->
    run_e save e s = (Ok tt, (e1, s)) ->
    getmem s = mem -> inorm (rd e1) = inm ->
    (forall m, exists e2 s2, run_e full e1 (setmem m s) = (Ok tt, (e2, s2)) /\ Rel m e2 s2 fullw) ->
    computes (p_line_search fuel p cost save getmem setmem inorm full retry) e s
      (line_search fuel p fcost trial fullw mem cc inm)
      (fun a e' s' b => a = snd (fst b) /\ Rel (snd b) e' s' (fst (fst b))).
  Proof using.
    intros Hcost Hretry Ec Es Em Ei Hfull. unfold p_line_search, line_search.
    eapply computes_step; [exact Ec|]. eapply computes_step; [exact Es|].
    eapply computes_step; [reflexivity|]. rewrite Em.
    destruct mem as [|m0 rest]; [reflexivity|].
    eapply computes_step; [reflexivity|]. destruct (mem_max _) as [fm|]; [|reflexivity].
    eapply computes_step; [reflexivity|]. rewrite Ei.
    destruct (Hfull (rest ++ [cc])) as (e2 & s2 & E2 & HR2).
    eapply computes_step; [exact E2|]. eapply computes_step; [exact (Hcost _ _ _ _ HR2)|].
    pose proof (computes_backtrack (Rel (rest ++ [cc])) cost fcost retry trial (Hcost _) (Hretry _)
                  p inm cc fm (nmul (ls_gamma p) inm) fuel e2 s2 fullw n1 (fcost fullw) HR2) as HB.
    unfold P_heap_loops.computes in *. destruct (backtrack _ _ _ _ _ _ _ _ _ _ _) as [[w st]|x]; cbn [bind]; exact HB.
  Qed.

  (** Outer iteration. *)
  Section Iterate.
    Context {St : Type} (Rel : (nm -> V) -> sc -> St -> Prop).
    Variables (cost : prog T) (fcost : St -> T).
    Definition update_ok (pu : prog unit) (u : St -> res St) : Prop :=
      forall e s w, Rel e s w ->
      computes (pbind pu (fun _ => cost)) e s (u w) (fun c e' s' w' => c = fcost w' /\ Rel e' s' w').

    Lemma computes_run_updates bad pus us : Forall2 update_ok pus us -> forall e s w nc, Rel e s w ->
      computes (p_run_updates cost bad pus nc) e s (run_updates fcost bad us w nc)
        (fun a e' s' b => a = snd b /\ Rel e' s' (fst b)).
    Proof using.
      induction 1 as [|pu u pus us Hu Hus IH]; intros e s w nc HR; cbn [p_run_updates run_updates].
      - apply computes_ret. split; [reflexivity|exact HR].
      - eapply computes_bind2; [apply (Hu _ _ _ HR)|].
        intros c e' s' w' (-> & HR'). destruct (bad (fcost w')); [reflexivity|]. apply IH. exact HR'.
    Qed.

    Lemma computes_iterate_loop bad pus us tol : Forall2 update_ok pus us -> forall left n e s w nc log, Rel e s w ->
      computes (p_iterate_loop cost bad pus tol left n nc log) e s (iterate_loop fcost bad us tol left n w nc log)
        (fun a e' s' b => let '(c1, n1, l1) := a in
           let '(w2, c2, n2, l2) := b in c1 = c2 /\ n1 = n2 /\ l1 = l2 /\ Rel e' s' w2).
    Proof using.
      intros Hus. induction left as [|left IH]; intros n e s w nc log HR; cbn [p_iterate_loop iterate_loop].
      - apply computes_ret. auto.
      - eapply computes_bind; [apply (computes_run_updates _ _ _ Hus); exact HR|].
        intros a e' s' [w' nc'] (-> & HR'). cbn [fst snd] in *.
        destruct (nltb _ _).
        + apply computes_ret. auto.
        + apply IH. exact HR'.
    Qed.

    Lemma computes_iterate bad pus us tol mx e s w c0 :
      Forall2 update_ok pus us ->
      computes cost e s (Ok tt) (fun c e' s' _ => c = fcost w /\ Rel e' s' w) ->
      c0 = fcost w ->
      computes (p_iterate cost bad pus tol mx) e s (iterate_loop fcost bad us tol mx 0 w c0 [c0])
        (fun a e' s' b => let '(c1, n1, l1) := a in
           let '(w2, c2, n2, l2) := b in c1 = c2 /\ n1 = n2 /\ l1 = l2 /\ Rel e' s' w2).
    Proof using.
      intros Hus (c & e' & s' & E & -> & HR) ->. unfold p_iterate.
      eapply computes_step; [exact E|]. apply computes_iterate_loop; auto.
    Qed.
  End Iterate.
End Loops.
