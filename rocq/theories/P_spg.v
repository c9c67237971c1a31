(** Proofs about spg.py and the shared backtracking line search. *)
From Coq Require Import List Arith Lia ZArith Reals Lra Psatz.
From Verif Require Import Num Mat Py Spec M_spg P_lin.
Import ListNotations.
Local Open Scope R_scope.

Lemma alpha_bounds beta sksk amin amax : amin <= amax ->
  amin <= @get_next_spg_alpha R Num_R beta sksk amin amax <= amax.
Proof.
  intros H. unfold get_next_spg_alpha; numR. destruct (Rleb_spec beta 0); [lra|].
  rewrite pymin_R, pymax_R. split.
  - apply Rmin_glb; [exact H | apply Rmax_l].
  - apply Rmin_l.
Qed.
Lemma alpha_nonpos beta sksk amin amax : beta <= 0 ->
  @get_next_spg_alpha R Num_R beta sksk amin amax = amax.
Proof. intros H. unfold get_next_spg_alpha; numR. destruct (Rleb_spec beta 0); [reflexivity|lra]. Qed.
Lemma alpha_ratio beta sksk amin amax : 0 < beta -> amin <= sksk / beta <= amax ->
  @get_next_spg_alpha R Num_R beta sksk amin amax = sksk / beta.
Proof.
  intros H H1. unfold get_next_spg_alpha; numR. destruct (Rleb_spec beta 0); [lra|].
  rewrite pymin_R, pymax_R. rewrite Rmax_right, Rmin_right; lra.
Qed.
Lemma alpha_clip_lo beta sksk amin amax : 0 < beta -> amin <= amax -> sksk / beta <= amin ->
  @get_next_spg_alpha R Num_R beta sksk amin amax = amin.
Proof.
  intros H Hm H1. unfold get_next_spg_alpha; numR. destruct (Rleb_spec beta 0); [lra|].
  rewrite pymin_R, pymax_R. rewrite Rmax_left, Rmin_right; lra.
Qed.
Lemma alpha_clip_hi beta sksk amin amax : 0 < beta -> amin <= amax -> amax <= sksk / beta ->
  @get_next_spg_alpha R Num_R beta sksk amin amax = amax.
Proof.
  intros H Hm H1. unfold get_next_spg_alpha; numR. destruct (Rleb_spec beta 0); [lra|].
  rewrite pymin_R, pymax_R. rewrite Rmax_right, Rmin_left; lra.
Qed.

Lemma step_shrinks s delta f_old f_new s1 s2 : 0 < s -> 0 < s1 ->
  let s' := @get_next_spg_step_length R Num_R s delta f_old f_new s1 s2 in
  0 < s' /\ s' <= Rmax (1/2) s2 * s.
Proof.
  intros Hs H1; cbv zeta. unfold get_next_spg_step_length; numR.
  match goal with |- context [Rleb s1 ?u] => set (t := u) end. pose proof (Rmax_l (1/2) s2). pose proof (Rmax_r (1/2) s2).
  destruct (Rleb_spec s1 t); destruct (Rleb_spec t (s2 * s)); cbn [andb]; split; try lra; nra.
Qed.
(** the interpolated step is the minimiser of the quadratic through f_old, slope delta, f_new *)
Lemma step_lower s delta f_old f_new s1 s2 : 0 < s ->
  let s' := @get_next_spg_step_length R Num_R s delta f_old f_new s1 s2 in
  Rmin s1 (s / 2) <= s'.
Proof.
  intros Hs; cbv zeta. unfold get_next_spg_step_length; numR.
  match goal with |- context [Rleb s1 ?u] => set (t := u) end. pose proof (Rmin_l s1 (s/2)). pose proof (Rmin_r s1 (s/2)).
  destruct (Rleb_spec s1 t); destruct (Rleb_spec t (s2 * s)); cbn [andb]; lra.
Qed.

(** ** backtracking, any arithmetic *)
Section Gen.
  Context {T : Type} {N : Num T} {St : Type}.
  Variables (p : ls_params T) (cost : St -> T) (trial : T -> St) (inorm ccost fmax factor : T).

  Lemma backtrack_exit fuel : forall st step nc st' step',
    nc = cost st ->
    backtrack fuel p cost trial inorm ccost fmax factor st step nc = Ok (st', step') ->
    (nltb (nadd fmax (nmul factor step')) (cost st') = false \/ nltb (nabs step') (ls_step_tol p) = true)
    /\ ((st' = st /\ step' = step) \/ st' = trial step').
  Proof.
    induction fuel as [|fuel IH]; cbn [backtrack]; intros st step nc st' step' Hnc H.
    - destruct (nltb _ nc) eqn:E; [discriminate|]. injection H as <- <-. subst nc. auto.
    - destruct (nltb _ nc) eqn:E.
      + set (s1 := get_next_spg_step_length _ _ _ _ _ _) in *.
        destruct (nltb (nabs s1) (ls_step_tol p)) eqn:E2.
        * injection H as <- <-. auto.
        * apply IH in H; [|reflexivity]. destruct H as [H1 H2]. split; [exact H1|].
          right. destruct H2 as [[-> ->]|H2]; [reflexivity | exact H2].
      + injection H as <- <-. subst nc. auto.
  Qed.

  Lemma backtrack_fuel_mono fuel fuel' : (fuel <= fuel')%nat -> forall st step nc r,
    backtrack fuel p cost trial inorm ccost fmax factor st step nc = Ok r ->
    backtrack fuel' p cost trial inorm ccost fmax factor st step nc = Ok r.
  Proof.
    revert fuel'. induction fuel as [|fuel IH]; intros fuel' Hle st step nc r; destruct fuel' as [|fuel']; try lia;
      cbn [backtrack]; try (intros H; exact H).
    - destruct (nltb _ nc); [discriminate | intros H; exact H].
    - destruct (nltb _ nc); [|intros H; exact H].
      destruct (nltb (nabs _) _); [intros H; exact H|]. intros H. apply IH; [lia | exact H].
  Qed.
  Lemma backtrack_raise fuel : forall st step nc e,
    backtrack fuel p cost trial inorm ccost fmax factor st step nc = Raise e -> e = OutOfFuel.
  Proof.
    induction fuel as [|fuel IH]; cbn [backtrack]; intros st step nc e.
    - destruct (nltb _ nc); [|discriminate]. congruence.
    - destruct (nltb _ nc); [|discriminate]. destruct (nltb (nabs _) _); [discriminate|]. apply IH.
  Qed.

End Gen.
Section Gen2.
  Context {T : Type} {N : Num T} {St : Type}.
  Variables (p : ls_params T) (cost : St -> T) (trial : T -> St).

  Lemma mem_max_cons (x : T) l : exists m, mem_max (x :: l) = Some m.
  Proof.
    unfold mem_max; cbn [fold_left]. revert x; induction l as [|y l IH]; intros x; cbn [fold_left]; [eauto|].
    destruct (nleb x y); apply IH.
  Qed.

  (** shape of the line search: the only errors are the empty memory and running out of fuel *)
  Lemma line_search_ok fuel full mem cc inm r :
    line_search fuel p cost trial full mem cc inm = Ok r ->
    exists m0 rest fm, mem = m0 :: rest /\ mem_max (rest ++ [cc]) = Some fm /\
      snd r = rest ++ [cc] /\
      backtrack fuel p cost trial inm cc fm (nmul (ls_gamma p) inm) full n1 (cost full) = Ok (fst (fst r), snd (fst r)).
  Proof.
    unfold line_search. destruct mem as [|m0 rest]; [discriminate|].
    destruct (mem_max (rest ++ [cc])) as [fm|] eqn:E; [|discriminate].
    intros H; apply bind_ok in H. destruct H as ((st & s) & H1 & H2). injection H2 as <-.
    exists m0, rest, fm. cbn [fst snd]. auto.
  Qed.
  Lemma line_search_raise fuel full mem cc inm e :
    line_search fuel p cost trial full mem cc inm = Raise e ->
    (e = IndexError /\ mem = []) \/ e = OutOfFuel.
  Proof.
    unfold line_search. destruct mem as [|m0 rest]; [intros [= <-]; auto|].
    destruct (mem_max (rest ++ [cc])) as [fm|] eqn:E.
    - destruct (backtrack _ _ _ _ _ _ _ _ _ _ _) eqn:B; cbn [bind]; [discriminate|].
      intros [= <-]. right. eapply backtrack_raise; exact B.
    - exfalso. destruct (rest ++ [cc]) as [|a l] eqn:E2; [destruct rest; discriminate|].
      destruct (mem_max_cons a l) as [m Hm]. congruence.
  Qed.
  Lemma line_search_fuel_mono fuel fuel' full mem cc inm r : (fuel <= fuel')%nat ->
    line_search fuel p cost trial full mem cc inm = Ok r ->
    line_search fuel' p cost trial full mem cc inm = Ok r.
  Proof.
    unfold line_search. intros Hle. destruct mem as [|m0 rest]; [discriminate|].
    destruct (mem_max (rest ++ [cc])) as [fm|] eqn:E; [|discriminate]. cbn [bind].
    intros H; apply bind_ok in H. destruct H as (x & H1 & H2).
    rewrite (backtrack_fuel_mono _ _ _ _ _ _ _ _ _ Hle _ _ _ _ H1). exact H2.
  Qed.
End Gen2.

(** ** over the reals *)
Lemma mem_max_spec l m : @mem_max R Num_R l = Some m -> In m l /\ (forall f, In f l -> f <= m).
Proof.
  assert (G : forall l a, exists m, fold_left (fun acc f => match acc with
                            | None => Some f
                            | Some m => if nleb m f then Some f else Some m end) l (Some a) = Some m
              /\ (m = a \/ In m l) /\ a <= m /\ (forall f, In f l -> f <= m)).
  { clear. induction l as [|x l IH]; intros a; cbn [fold_left].
    - exists a. repeat split; [auto | lra | intros f []].
    - numR. destruct (Rleb_spec a x) as [H|H].
      + destruct (IH x) as (m & E & H1 & H2 & H3). exists m. rewrite E. repeat split.
        * destruct H1 as [->|H1]; [right; left; reflexivity | right; right; exact H1].
        * lra.
        * intros f [<-|Hf]; [exact H2 | auto].
      + destruct (IH a) as (m & E & H1 & H2 & H3). exists m. rewrite E. repeat split.
        * destruct H1 as [->|H1]; [left; reflexivity | right; right; exact H1].
        * exact H2.
        * intros f [<-|Hf]; [lra | auto]. }
  destruct l as [|x l]; [discriminate|]. unfold mem_max; cbn [fold_left]. intros H.
  destruct (G l x) as (m' & E & H1 & H2 & H3). rewrite E in H. injection H as ->.
  split; [destruct H1 as [->|H1]; [left|right]; auto|]. intros f [<-|Hf]; auto.
Qed.

Section BT.
  Context {St : Type}.
  Variables (p : ls_params R) (cost : St -> R) (trial : R -> St) (inorm ccost fmax factor : R).
  Hypothesis Hs1 : 0 < ls_sigma_one p.
  Hypothesis Hs2 : ls_sigma_two p < 1.
  Hypothesis Htol : 0 < ls_step_tol p.
  Let r := Rmax (1/2) (ls_sigma_two p).

  Lemma r_bounds : 0 < r < 1.
  Proof.
    unfold r. split; [pose proof (Rmax_l (1/2) (ls_sigma_two p)); lra|].
    apply Rmax_lub_lt; lra.
  Qed.

  Lemma backtrack_step_range fuel : forall st step nc st' step', 0 < step ->
    @backtrack R Num_R St fuel p cost trial inorm ccost fmax factor st step nc = Ok (st', step') ->
    0 < step' <= step.
  Proof using Hs1 Hs2.
    induction fuel as [|fuel IH]; cbn [backtrack]; intros st step nc st' step' Hst H.
    - destruct (nltb _ nc); [discriminate|]. injection H as <- <-. lra.
    - destruct (nltb _ nc); [|injection H as <- <-; lra].
      set (s1 := get_next_spg_step_length _ _ _ _ _ _) in *.
      destruct (step_shrinks step inorm ccost nc (ls_sigma_one p) (ls_sigma_two p) Hst Hs1) as [P1 P2].
      fold s1 in P1, P2. pose proof r_bounds as Hr. fold r in P2.
      assert (s1 <= step) by nra.
      destruct (nltb (nabs s1) _).
      + injection H as <- <-. lra.
      + apply IH in H; [lra | exact P1].
  Qed.

  Lemma backtrack_terminates fuel : forall st step nc j M, 0 < step -> step <= r ^ j ->
    ((0 < j)%nat -> ls_step_tol p <= step) -> r ^ M < ls_step_tol p -> (0 < M)%nat -> (M <= fuel + j)%nat ->
    exists q, @backtrack R Num_R St fuel p cost trial inorm ccost fmax factor st step nc = Ok q.
  Proof using Hs1 Hs2 Htol.
    pose proof r_bounds as Hr.
    induction fuel as [|fuel IH]; cbn [backtrack]; intros st step nc j M Hst Hj Htj HM HM0 Hf.
    - destruct (nltb _ nc); [|eauto]. exfalso.
      assert (r ^ j <= r ^ M).
      { replace j with (M + (j - M))%nat by lia. rewrite pow_add.
        assert (0 < r ^ M) by (apply pow_lt; lra).
        assert (r ^ (j - M) <= 1) by (rewrite <- (pow1 (j - M)); apply pow_incr; lra). nra. }
      assert (ls_step_tol p <= step) by (apply Htj; lia). lra.
    - destruct (nltb _ nc); [|eauto].
      set (s1 := get_next_spg_step_length _ _ _ _ _ _) in *.
      destruct (step_shrinks step inorm ccost nc (ls_sigma_one p) (ls_sigma_two p) Hst Hs1) as [P1 P2].
      fold s1 in P1, P2. fold r in P2.
      numR. destruct (Rltb_spec (Rabs s1) (ls_step_tol p)) as [H|H]; [eauto|].
      rewrite Rabs_pos_eq in H by lra.
      apply IH with (j := S j) (M := M); try assumption; try lia; try lra.
      cbn [pow]. nra.
  Qed.
End BT.

(** Spectral-ratio bound: some power of r < 1 falls below any positive tolerance *)
Lemma pow_below r tol : 0 <= r < 1 -> 0 < tol -> exists M, (0 < M)%nat /\ r ^ M < tol.
Proof.
  intros Hr Ht. destruct (pow_lt_1_zero r ltac:(rewrite Rabs_pos_eq; lra) tol Ht) as [M HM].
  exists (S M). split; [lia|]. pose proof (HM (S M) ltac:(lia)). rewrite Rabs_pos_eq in H; [exact H | apply pow_le; lra].
Qed.

(** ** packaged facts about the whole line search *)
Lemma line_search_terminates (p : ls_params R) : 0 < ls_sigma_one p -> ls_sigma_two p < 1 -> 0 < ls_step_tol p ->
  exists M : nat, forall (St : Type) (cost : St -> R) (trial : R -> St) (full : St)
           (mem : list R) (cc sl : R) (fuel : nat), mem <> [] -> (M <= fuel)%nat ->
      exists r, @line_search R Num_R St fuel p cost trial full mem cc sl = Ok r.
Proof.
  intros H1 H2 Ht.
  assert (Hr : 0 < Rmax (1/2) (ls_sigma_two p) < 1) by (apply r_bounds; assumption).
  destruct (pow_below (Rmax (1/2) (ls_sigma_two p)) (ls_step_tol p)) as (M & HM0 & HM); [lra | exact Ht|].
  exists M. intros St cost trial full mem cc sl fuel Hmem Hf.
  destruct mem as [|m0 rest]; [congruence|]. unfold line_search.
  destruct (mem_max (rest ++ [cc])) as [fm|] eqn:Em.
  2:{ destruct (rest ++ [cc]) as [|a l] eqn:E; [destruct rest; discriminate|].
      destruct (mem_max_cons a l) as [m Hm]. congruence. }
  destruct (backtrack_terminates p cost trial sl cc fm (ls_gamma p * sl) H1 H2 Ht fuel full 1 (cost full) 0 M)
    as (q & E); try (cbn; lra); try lia; try assumption.
  numR. rewrite E. cbn [bind]. eauto.
Qed.
Lemma line_search_range {St} fuel (p : ls_params R) (cost : St -> R) trial mem cc sl st step mem' :
  0 < ls_sigma_one p -> ls_sigma_two p < 1 ->
  @line_search R Num_R St fuel p cost trial (trial 1) mem cc sl = Ok (st, step, mem') ->
  st = trial step /\ 0 < step <= 1 /\ mem' = tl mem ++ [cc] /\ mem <> [].
Proof.
  intros H1 H2 H. apply line_search_ok in H. destruct H as (m0 & rest & fm & -> & Em & E1 & E2). cbn [fst snd] in *.
  pose proof (backtrack_exit _ _ _ _ _ _ _ _ _ _ _ _ _ eq_refl E2) as [_ Hs].
  pose proof (backtrack_step_range p cost trial _ _ _ _ H1 H2 _ _ _ _ _ _ Rlt_0_1 E2) as Hr. numR.
  split; [destruct Hs as [[-> ->]|Hs]; [reflexivity | exact Hs]|]. split; [lra|]. split; [exact E1 | discriminate].
Qed.

Section Descent.
  Context {St : Type}.
  Variables (p : ls_params R) (cost : St -> R) (trial : R -> St) (cc slope q fmax : R).
  Hypothesis Hs1 : 0 < ls_sigma_one p.
  Hypothesis Hg : 0 <= ls_gamma p <= 1.
  Hypothesis Hquad : forall s, 0 <= s <= 1 -> cost (trial s) <= cc + s * slope + s * s * q.
  Hypothesis Hslope : slope <= 0.
  Hypothesis Hfmax : cc <= fmax.
  Hypothesis Ht1 : ls_step_tol p <= ls_sigma_one p.
  Hypothesis Ht2 : ls_step_tol p * (2 * q) <= (1 - ls_gamma p) * (- slope).
  Hypothesis Hs2 : ls_sigma_two p < 1.

  (** the step-size tolerance is never what stops the search *)
  Lemma backtrack_armijo fuel : forall step st' step', 0 < step <= 1 ->
    @backtrack R Num_R St fuel p cost trial slope cc fmax (ls_gamma p * slope) (trial step) step (cost (trial step))
      = Ok (st', step') -> cost st' <= fmax + ls_gamma p * slope * step'.
  Proof using Hs1 Hg Hquad Hslope Hfmax Ht1 Ht2 Hs2.
    induction fuel as [|fuel IH]; cbn [backtrack]; intros step st' step' Hst H.
    - numR. destruct (Rltb_spec (fmax + ls_gamma p * slope * step) (cost (trial step))); [discriminate|].
      injection H as <- <-. lra.
    - numR. destruct (Rltb_spec (fmax + ls_gamma p * slope * step) (cost (trial step))) as [B|B];
        [|injection H as <- <-; lra].
      set (s1 := get_next_spg_step_length _ _ _ _ _ _) in *.
      destruct (step_shrinks step slope cc (cost (trial step)) (ls_sigma_one p) (ls_sigma_two p) (proj1 Hst) Hs1) as [P1 P2].
      pose proof (step_lower step slope cc (cost (trial step)) (ls_sigma_one p) (ls_sigma_two p) (proj1 Hst)) as P3.
      cbv zeta in P3. fold s1 in P1, P2, P3.
      assert (Hr : Rmax (1/2) (ls_sigma_two p) < 1) by (apply Rmax_lub_lt; lra).
      assert (Hle : s1 <= 1) by nra.
      assert (Hlow : ls_step_tol p <= s1).
      { pose proof (Hquad step ltac:(lra)) as Q.
        assert (Hsq : (1 - ls_gamma p) * (- slope) < step * q) by nra.
        assert (0 <= (1 - ls_gamma p) * (- slope)) by nra.
        assert (0 < q) by nra.
        assert (ls_step_tol p * 2 < step) by nra.
        eapply Rle_trans; [|exact P3]. apply Rmin_glb; lra. }
      destruct (Rltb_spec (Rabs s1) (ls_step_tol p)) as [C|C].
      + rewrite Rabs_pos_eq in C by lra. lra.
      + apply IH in H; [exact H | lra].
  Qed.
End Descent.

(** one line search, quadratic upper bound along the direction, memory of length one *)
Lemma line_search_descent {St} fuel (p : ls_params R) (cost : St -> R) trial m0 cc slope q st step mem' :
  0 < ls_sigma_one p -> ls_sigma_two p < 1 -> 0 <= ls_gamma p <= 1 ->
  (forall s, 0 <= s <= 1 -> cost (trial s) <= cc + s * slope + s * s * q) -> slope <= 0 ->
  ls_step_tol p <= ls_sigma_one p -> ls_step_tol p * (2 * q) <= (1 - ls_gamma p) * (- slope) ->
  @line_search R Num_R St fuel p cost trial (trial 1) [m0] cc slope = Ok (st, step, mem') ->
  cost st <= cc + ls_gamma p * slope * step /\ cost st <= cc.
Proof.
  intros H1 H2 Hg Hq Hs Ht1 Ht2 H.
  destruct (line_search_range _ _ _ _ _ _ _ _ _ _ H1 H2 H) as (_ & Hstep & _ & _).
  apply line_search_ok in H. destruct H as (m & rest & fm & E & Em & E1 & E2). injection E as <- <-. cbn [fst snd app] in *.
  apply mem_max_spec in Em. destruct Em as [[<-|[]] _].
  numR. apply (backtrack_armijo p cost trial cc slope q cc) in E2; auto; try lra.
  split; [exact E2|].
  assert (0 <= ls_gamma p * (- slope) * step) by (apply Rmult_le_pos; [apply Rmult_le_pos|]; lra).
  replace (ls_gamma p * (- slope) * step) with (- (ls_gamma p * slope * step)) in H by ring. lra.
Qed.

(** descent along a projected direction: slope at most -F/alpha, curvature at most L*F *)
Lemma spg_descent {St} fuel (p : ls_params R) (cost : St -> R) tr m0 cc sl F L alpha a st step mem' :
  0 < ls_sigma_one p -> ls_sigma_two p < 1 -> 0 <= ls_gamma p <= 1 ->
  (forall s, 0 <= s <= 1 -> cost (tr s) <= cc + s * sl + s * s * (L * F)) ->
  0 <= F -> 0 <= L -> 0 < alpha <= a -> sl <= - (F / alpha) ->
  0 < ls_step_tol p <= ls_sigma_one p -> ls_step_tol p * (2 * a * L) <= 1 - ls_gamma p ->
  @line_search R Num_R St fuel p cost tr (tr 1) [m0] cc sl = Ok (st, step, mem') ->
  cost st <= cc + ls_gamma p * sl * step /\ cost st <= cc.
Proof.
  intros H1 H2 Hg Hq HF HL Ha Hsl Ht1 Ht2 E.
  assert (Ia : 0 < / alpha) by (apply Rinv_0_lt_compat; lra).
  assert (Fa : 0 <= F / alpha) by (unfold Rdiv; apply Rmult_le_pos; lra).
  apply (line_search_descent fuel p cost tr m0 cc sl (L * F)) in E; try assumption; try lra.
  assert (Ht3 : ls_step_tol p * (2 * L) * alpha <= 1 - ls_gamma p).
  { eapply Rle_trans; [|exact Ht2].
    replace (ls_step_tol p * (2 * a * L)) with (ls_step_tol p * (2 * L) * a) by ring.
    apply Rmult_le_compat_l; [|lra]. apply Rmult_le_pos; lra. }
  assert (Ht4 : ls_step_tol p * (2 * L) <= (1 - ls_gamma p) * / alpha).
  { apply Rmult_le_reg_r with alpha; [lra|].
    replace ((1 - ls_gamma p) * / alpha * alpha) with (1 - ls_gamma p) by (field; lra). lra. }
  replace (ls_step_tol p * (2 * (L * F))) with (ls_step_tol p * (2 * L) * F) by ring.
  apply Rle_trans with ((1 - ls_gamma p) * / alpha * F).
  - apply Rmult_le_compat_r; assumption.
  - rewrite Rmult_assoc. apply Rmult_le_compat_l; [lra|]. unfold Rdiv in *. lra.
Qed.

(** two searches whose trial states have the same costs take the same steps *)
Definition res_rel {A B} (Q : A -> B -> Prop) (x : res A) (y : res B) : Prop :=
  match x, y with Ok a, Ok b => Q a b | Raise e, Raise e' => e = e' | _, _ => False end.
Lemma backtrack_sim {T} {N : Num T} {S1 S2} (Q : S1 -> S2 -> Prop) p (cost1 : S1 -> T) cost2 (tr1 : T -> S1) tr2 inn cc fm fa :
  (forall s, Q (tr1 s) (tr2 s)) -> (forall a b, Q a b -> cost1 a = cost2 b) ->
  forall fuel st1 st2 s nx, Q st1 st2 ->
  res_rel (fun x y => Q (fst x) (fst y) /\ snd x = snd y)
    (backtrack fuel p cost1 tr1 inn cc fm fa st1 s nx) (backtrack fuel p cost2 tr2 inn cc fm fa st2 s nx).
Proof.
  intros HT HC. induction fuel as [|fuel IH]; intros st1 st2 s nx HQ; cbn [backtrack];
    destruct (nltb _ nx); cbn; auto.
  destruct (nltb (nabs _) _); [cbn; auto|]. rewrite (HC _ _ (HT _)). apply IH, HT.
Qed.
Lemma line_search_sim {T} {N : Num T} {S1 S2} (Q : S1 -> S2 -> Prop) p (cost1 : S1 -> T) cost2 (tr1 : T -> S1) tr2 f1 f2 mem cc inn fuel :
  (forall s, Q (tr1 s) (tr2 s)) -> Q f1 f2 -> (forall a b, Q a b -> cost1 a = cost2 b) ->
  res_rel (fun x y => Q (fst (fst x)) (fst (fst y)) /\ snd (fst x) = snd (fst y) /\ snd x = snd y)
    (line_search fuel p cost1 tr1 f1 mem cc inn) (line_search fuel p cost2 tr2 f2 mem cc inn).
Proof.
  intros HT Hf HC. unfold line_search. destruct mem as [|m0 rest]; [reflexivity|]. destruct (mem_max _) as [fm|]; [|reflexivity].
  rewrite (HC _ _ Hf).
  pose proof (backtrack_sim Q p cost1 cost2 tr1 tr2 inn cc fm (nmul (ls_gamma p) inn) HT HC fuel f1 f2 n1 (cost2 f2) Hf) as G.
  unfold res_rel in G. destruct (backtrack _ _ cost1 _ _ _ _ _ _ _ _) as [[a s]|e], (backtrack _ _ cost2 _ _ _ _ _ _ _ _) as [[b s']|e'];
    cbn [bind res_rel fst snd] in *; try contradiction; auto. destruct G; auto.
Qed.
