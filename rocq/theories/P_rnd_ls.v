(** Line searches in rounded arithmetic *)
From Coq Require Import List Arith ZArith Reals Lra Lia.
From Verif Require Import Num Mat Py M_simplex M_spg M_random M_mtd Num_rnd Spec Spec_rnd Spec_rnd_run P_lin P_mat P_simplex P_spg P_rnd P_rnd_draw.
Import ListNotations.
Local Open Scope R_scope.

Section LS.
  Variables (u eta : R) (rnd : R -> R).
  Hypothesis HR : rounding u eta rnd.
  Notation NR := (Num_rnd rnd).

  Lemma nhalf_rnd : @nhalf R NR = 1 / 2.
  Proof using HR. unfold nhalf, n2. cbn [ndiv n1 nofZ Num_rnd]. rewrite (rnd_two _ _ _ HR). apply (rnd_half _ _ _ HR). Qed.

  (** one reduction of the step *)
  Lemma step_rnd s delta f_old f_new s1 s2 : 0 <= s -> rnd s = s -> 0 <= s1 -> s2 <= 1 ->
    let s' := @get_next_spg_step_length R NR s delta f_old f_new s1 s2 in
    0 <= s' <= s /\ rnd s' = s' /\ s' <= Rmax (1/2) s2 * (1 + u) * s + eta.
  Proof using HR.
    intros Hs Es H1 H2. cbv zeta. unfold get_next_spg_step_length. rewrite nhalf_rnd. cbn [nleb nmul nsub ndiv nopp Num_rnd].
    pose proof (rnd_u _ _ _ HR) as Hu. pose proof (rnd_eta _ _ _ HR) as He. match goal with |- context [Rleb s1 ?v] => set (t := v) end.
    assert (Et : rnd t = t) by (unfold t; apply (rnd_idem _ _ _ HR)). clearbody t. pose proof (Rmax_l (1/2) s2) as M1. pose proof (Rmax_r (1/2) s2) as M2.
    assert (UP : forall a, 0 <= a -> a <= Rmax (1/2) s2 -> rnd (a * s) <= Rmax (1/2) s2 * (1 + u) * s + eta).
    { intros a A0 A1. pose proof (rnd_err _ _ _ HR (a * s)) as E. assert (P : 0 <= a * s) by (apply Rmult_le_pos; assumption). rewrite (Rabs_pos_eq _ P) in E. apply Rabs_le_iff in E.
      assert (a * s <= Rmax (1/2) s2 * s) by (apply Rmult_le_compat_r; assumption). assert (u * (a * s) <= u * (Rmax (1/2) s2 * s)) by (apply Rmult_le_compat_l; assumption). lra. }
    assert (HALF : 0 <= rnd (1 / 2 * s) <= s /\ rnd (rnd (1 / 2 * s)) = rnd (1 / 2 * s) /\ rnd (1 / 2 * s) <= Rmax (1 / 2) s2 * (1 + u) * s + eta).
    { split; [split; [apply (rnd_pos _ _ _ HR); lra|]|split; [apply (rnd_idem _ _ _ HR)|apply UP; lra]]. rewrite <- Es at 2. apply (rnd_mono _ _ _ HR). lra. }
    destruct (Rleb_spec s1 t); destruct (Rleb_spec t (rnd (s2 * s))) as [L|L]; cbn [andb]; try exact HALF.
    assert (B : rnd (s2 * s) <= s) by (rewrite <- Es at 2; apply (rnd_mono _ _ _ HR); nra).
    split; [split; lra|]. split; [exact Et|]. destruct (Rle_lt_dec 0 s2) as [S2|S2]; [eapply Rle_trans; [exact L|apply UP; lra]|].
    assert (rnd (s2 * s) <= 0) by (apply (rnd_neg _ _ _ HR); nra). assert (0 <= Rmax (1/2) s2 * (1 + u) * s) by (apply Rmult_le_pos; [apply Rmult_le_pos; lra|exact Hs]). lra.
  Qed.

  Lemma backtrack_rnd_range {St} (p : ls_params R) (cost : St -> R) trial inm cc fm fac fuel : 0 <= ls_sigma_one p -> ls_sigma_two p <= 1 ->
    forall st step nc st' step', 0 <= step <= 1 -> rnd step = step ->
    @backtrack R NR St fuel p cost trial inm cc fm fac st step nc = Ok (st', step') -> 0 <= step' <= 1 /\ rnd step' = step'.
  Proof using HR.
    intros H1 H2. induction fuel as [|fuel IH]; cbn [backtrack]; intros st step nc st' step' Hs Es H.
    - destruct (nltb _ nc); [discriminate|]. injection H as <- <-. auto.
    - destruct (nltb _ nc); [|injection H as <- <-; auto].
      destruct (step_rnd step inm cc nc _ _ (proj1 Hs) Es H1 H2) as (A & B & _).
      destruct (nltb (nabs _) _); [injection H as <- <-|]; [split; [lra|exact B]|]. eapply IH; [|exact B|exact H]. lra.
  Qed.
  Lemma line_search_rnd {St} (p : ls_params R) (cost : St -> R) trial full mem cc inm fuel st s mem' : 0 <= ls_sigma_one p -> ls_sigma_two p <= 1 ->
    @line_search R NR St fuel p cost trial full mem cc inm = Ok (st, s, mem') ->
    0 <= s <= 1 /\ rnd s = s /\ (st = full \/ st = trial s).
  Proof using HR.
    intros H1 H2 H. apply line_search_ok in H. destruct H as (m0 & rest & fm & _ & _ & _ & B). cbn [fst snd] in B.
    destruct (backtrack_rnd_range _ _ _ _ _ _ _ _ H1 H2 _ _ _ _ _ (conj Rle_0_1 (Rle_refl 1)) (rnd_one _ _ _ HR) B) as [A1 A2].
    apply backtrack_exit in B; [|reflexivity]. destruct B as [_ [[-> _]|E]]; auto.
  Qed.

  (** ** termination *)
  Lemma backtrack_rnd_ends {St} (p : ls_params R) (cost : St -> R) trial inm cc fm fac kappa : step_resolution u eta p ->
    contraction u p + eta / ls_step_tol p = kappa ->
    forall n st step nc, 0 <= step -> rnd step = step -> step * kappa ^ n < ls_step_tol p ->
    exists r, @backtrack R NR St (S n) p cost trial inm cc fm fac st step nc = Ok r.
  Proof using HR.
    intros (H1 & H2 & H3 & H4 & H5) EK. pose proof (rnd_u _ _ _ HR) as Hu. pose proof (rnd_eta _ _ _ HR) as He.
    assert (C0 : 0 <= contraction u p) by (unfold contraction; pose proof (Rmax_l (1/2) (ls_sigma_two p)); apply Rmult_le_pos; lra).
    assert (D0 : 0 <= eta / ls_step_tol p) by (apply Rmult_le_pos; [exact He|left; apply Rinv_0_lt_compat; exact H3]).
    induction n as [|n IH]; intros st step nc Hs Es HT.
    - cbn [backtrack]. destruct (nltb _ nc); [|eauto]. destruct (step_rnd step inm cc nc _ _ Hs Es H1 H2) as (A & _ & _).
      set (s' := get_next_spg_step_length _ _ _ _ _ _) in *. cbn [nltb nabs Num_rnd]. rewrite (Rabs_pos_eq s') by lra. cbn [pow] in HT. destruct (Rltb_spec s' (ls_step_tol p)); [eauto|lra].
    - cbn [backtrack]. destruct (nltb _ nc); [|eauto]. destruct (step_rnd step inm cc nc _ _ Hs Es H1 H2) as (A & B & C).
      set (s' := get_next_spg_step_length _ _ _ _ _ _) in *. cbn [nltb nabs Num_rnd]. rewrite (Rabs_pos_eq s') by lra. destruct (Rltb_spec s' (ls_step_tol p)) as [L|L]; [eauto|].
      apply (IH (trial s') s' (cost (trial s'))); [lra|exact B|]. eapply Rle_lt_trans; [|exact HT]. cbn [pow]. rewrite <- Rmult_assoc. apply Rmult_le_compat_r; [apply pow_le; lra|].
      fold (contraction u p) in C. assert (eta <= eta / ls_step_tol p * step).
      { replace eta with (eta / ls_step_tol p * ls_step_tol p) at 1 by (field; lra). apply Rmult_le_compat_l; [exact D0|lra]. }
      rewrite <- EK. lra.
  Qed.
  Lemma line_search_rnd_ends (p : ls_params R) : step_resolution u eta p -> exists M, forall St fuel (cost : St -> R) trial full mem cc inm,
    (M <= fuel)%nat -> @line_search R NR St fuel p cost trial full mem cc inm <> Raise OutOfFuel.
  Proof using HR.
    intros HP. pose proof HP as (H1 & H2 & H3 & H4 & H5). pose proof (rnd_u _ _ _ HR) as Hu. pose proof (rnd_eta _ _ _ HR) as He. set (kappa := contraction u p + eta / ls_step_tol p).
    assert (D0 : 0 <= eta / ls_step_tol p) by (apply Rmult_le_pos; [exact He|left; apply Rinv_0_lt_compat; exact H3]).
    assert (K1 : kappa < 1).
    { unfold kappa. assert (eta / ls_step_tol p < 1 - contraction u p); [|lra]. apply Rmult_lt_reg_r with (ls_step_tol p); [exact H3|]. unfold Rdiv. rewrite Rmult_assoc, Rinv_l by lra. lra. }
    assert (K0 : 0 <= kappa) by (unfold kappa, contraction in *; pose proof (Rmax_l (1/2) (ls_sigma_two p)); assert (0 <= Rmax (1 / 2) (ls_sigma_two p) * (1 + u)) by (apply Rmult_le_pos; lra); lra).
    destruct (pow_below kappa _ (conj K0 K1) H3) as (n & _ & Hn). exists (S n). intros St fuel cost trial full mem cc inm Hf E. unfold line_search in E.
    destruct mem as [|m0 rest]; [discriminate|]. destruct (mem_max _) as [fm|]; [|discriminate].
    destruct (backtrack_rnd_ends p cost trial inm cc fm (@nmul R NR (ls_gamma p) inm) kappa HP eq_refl n full 1 (cost full) Rle_0_1 (rnd_one _ _ _ HR)) as [r Er]; [lra|].
    apply (backtrack_fuel_mono _ _ _ _ _ _ _ (S n) fuel Hf) in Er. change (@n1 R NR) with 1 in E.
    match type of E with bind ?b _ = _ => assert (E' : b = Ok r) by exact Er; rewrite E' in E end. discriminate E.
  Qed.

  (** ** nonnegative representable arrays *)
  Notation nnf := (nonneg_float rnd).
  Notation mnn := (nonneg_mat rnd).
  Notation vnn := (nonneg_vec rnd).
  Notation tnn := (nonneg_stack rnd).
  Lemma nnf0 : nnf 0.
  Proof using HR. split; [lra|apply (rnd0 _ _ _ HR)]. Qed.
  Lemma nnf_add g d : nnf g -> - g <= d -> nnf (rnd (g + d)).
  Proof using HR. intros [G1 G2] H. split; [apply (rnd_pos _ _ _ HR); lra|apply (rnd_idem _ _ _ HR)]. Qed.
  Lemma incr_ge g p : nnf g -> 0 <= p -> - g <= rnd (p - g).
  Proof using HR. intros [G1 G2] H. rewrite <- G2 at 1. rewrite <- (rnd_odd _ _ _ HR). apply (rnd_mono _ _ _ HR). lra. Qed.
  Lemma scaled_ge g d s : nnf g -> - g <= d -> 0 <= s <= 1 -> - g <= rnd (s * d).
  Proof using HR. intros [G1 G2] H Hs. rewrite <- G2 at 1. rewrite <- (rnd_odd _ _ _ HR). apply (rnd_mono _ _ _ HR). destruct (Rle_lt_dec 0 d); nra. Qed.

  Lemma ent_mbuild_cases r c f i j : ent (mbuild r c f) i j = f i j /\ (i < r)%nat /\ (j < c)%nat \/ ent (mbuild r c f) i j = 0.
  Proof using rnd.
    destruct (Nat.lt_ge_cases i r) as [Hi|Hi]; [destruct (Nat.lt_ge_cases j c) as [Hj|Hj]|].
    - left. split; [apply ent_mbuild; assumption|auto].
    - right. change (@mget R NR (mbuild r c f) i j = 0). apply (@mget_mbuild_out R NR). auto.
    - right. change (@mget R NR (mbuild r c f) i j = 0). apply (@mget_mbuild_out R NR). auto.
  Qed.
  Lemma incr_mat_ge G P i j : mnn G -> (forall i j, 0 <= ent P i j) -> - ent G i j <= ent (@msub R NR P G) i j.
  Proof using HR.
    intros HG HP. unfold msub, mmap2. match goal with |- context [ent (mbuild ?r ?c ?f) i j] => destruct (ent_mbuild_cases r c f i j) as [[-> _]| ->] end.
    - apply incr_ge; [apply HG|apply HP].
    - destruct (HG i j). lra.
  Qed.
  Lemma step_mat' G D s : mnn G -> (forall i j, - ent G i j <= ent D i j) -> 0 <= s <= 1 ->
    mnn (@madd R NR G D) /\ mnn (@madd R NR G (@mscale R NR s D)).
  Proof using HR.
    intros HG HD Hs. split; intros i j; unfold madd at 1, mmap2.
    - match goal with |- context [ent (mbuild ?r ?c ?f) i j] => destruct (ent_mbuild_cases r c f i j) as [[-> _]| ->] end; [|apply nnf0].
      apply nnf_add; [apply HG|]. apply HD.
    - match goal with |- context [ent (mbuild ?r ?c ?f) i j] => destruct (ent_mbuild_cases r c f i j) as [[-> _]| ->] end; [|apply nnf0].
      apply nnf_add; [apply HG|]. change (- ent G i j <= ent (@mscale R NR s D) i j). unfold mscale, mmap.
      match goal with |- _ <= ent (mbuild ?r ?c ?f) i j => destruct (ent_mbuild_cases r c f i j) as [[-> _]| ->] end; [|destruct (HG i j); lra].
      cbn [nmul Num_rnd]. apply scaled_ge; [apply HG| |exact Hs]. apply HD.
  Qed.
  Lemma step_mat G P s : mnn G -> (forall i j, 0 <= ent P i j) -> 0 <= s <= 1 ->
    mnn (@madd R NR G (@msub R NR P G)) /\ mnn (@madd R NR G (@mscale R NR s (@msub R NR P G))).
  Proof using HR. intros HG HP Hs. apply step_mat'; [exact HG| |exact Hs]. intros i j. apply incr_mat_ge; assumption. Qed.
  Lemma vget_map2 (f : R -> R -> R) a b i : at_ (@vmap2 R NR f a b) i = f (at_ a i) (at_ b i) /\ (i < length a)%nat \/ at_ (@vmap2 R NR f a b) i = 0.
  Proof using.
    unfold vmap2. destruct (Nat.lt_ge_cases i (length a)) as [L|L].
    - left. split; [|exact L]. change (@vget R NR (tab (length a) (fun i => f (vget a i) (vget b i))) i = f (at_ a i) (at_ b i)). rewrite vget_tab by exact L. reflexivity.
    - right. unfold at_. apply nth_overflow. unfold tab. rewrite map_length, seq_length. exact L.
  Qed.
  Lemma at_scale s (v : list R) i : at_ (@vscale R NR s v) i = rnd (s * at_ v i).
  Proof using HR.
    unfold vscale. destruct (Nat.lt_ge_cases i (length v)) as [L|L]; [apply at_map; exact L|].
    unfold at_. rewrite !nth_overflow by (rewrite ?map_length; exact L). rewrite Rmult_0_r, (rnd0 _ _ _ HR). reflexivity.
  Qed.
  Lemma incr_vec_ge v p i : vnn v -> (forall i, 0 <= at_ p i) -> - at_ v i <= at_ (@vsub R NR p v) i.
  Proof using HR.
    intros HV HP. unfold vsub. destruct (vget_map2 (@nsub R NR) p v i) as [[-> _]| ->]; [apply incr_ge; [apply HV|apply HP]|destruct (HV i); lra].
  Qed.
  Lemma step_vec v p s : vnn v -> (forall i, 0 <= at_ p i) -> 0 <= s <= 1 ->
    vnn (@vadd R NR v (@vsub R NR p v)) /\ vnn (@vadd R NR v (@vscale R NR s (@vsub R NR p v))).
  Proof using HR.
    intros HV HP Hs. split; intros i; unfold vadd.
    - destruct (vget_map2 (@nadd R NR) v (@vsub R NR p v) i) as [[-> _]| ->]; [|apply nnf0]. apply nnf_add; [apply HV|apply incr_vec_ge; assumption].
    - destruct (vget_map2 (@nadd R NR) v (@vscale R NR s (@vsub R NR p v)) i) as [[-> _]| ->]; [|apply nnf0]. apply nnf_add; [apply HV|]. rewrite at_scale. apply scaled_ge; [apply HV|apply incr_vec_ge; assumption|exact Hs].
  Qed.
  Lemma mnn_0 : mnn (mkmat 0 0 []).
  Proof using HR. intros i j. unfold ent. cbn [dat]. destruct i, j; cbn; apply nnf0. Qed.
  Lemma nth_tab_mat n (f : nat -> mat R) i : nth i (tab n f) (mkmat 0 0 []) = f i /\ (i < n)%nat \/ nth i (tab n f) (mkmat 0 0 []) = mkmat 0 0 [].
  Proof using.
    destruct (Nat.lt_ge_cases i n) as [L|L]; [left|right].
    - split; [|exact L]. unfold tab. rewrite (nth_indep _ (mkmat 0 0 []) (f 0%nat)) by (rewrite map_length, seq_length; exact L). rewrite map_nth, seq_nth by exact L. reflexivity.
    - apply nth_overflow. unfold tab. rewrite map_length, seq_length. exact L.
  Qed.
  Lemma nth_map_mat (g : mat R -> mat R) l i : nth i (map g l) (mkmat 0 0 []) = g (nth i l (mkmat 0 0 [])) /\ (i < length l)%nat \/ nth i (map g l) (mkmat 0 0 []) = mkmat 0 0 [].
  Proof using.
    destruct (Nat.lt_ge_cases i (length l)) as [L|L]; [left|right].
    - split; [|exact L]. rewrite (nth_indep _ (mkmat 0 0 []) (g (mkmat 0 0 []))) by (rewrite map_length; exact L). apply map_nth.
    - apply nth_overflow. rewrite map_length. exact L.
  Qed.
  Lemma incr_stack_ge A P q i j : tnn A -> (forall q i j, 0 <= ent (nth q P (mkmat 0 0 [])) i j) ->
    - ent (nth q A (mkmat 0 0 [])) i j <= ent (nth q (@tsub R NR P A) (mkmat 0 0 [])) i j.
  Proof using HR.
    intros HA HP. unfold tsub. match goal with |- _ <= ent (nth q (tab ?n ?f) _) i j => destruct (nth_tab_mat n f q) as [[-> _]| ->] end.
    - apply incr_mat_ge; [apply HA|apply HP].
    - destruct (HA q i j) as [H _]. destruct (mnn_0 i j) as [K _]. lra.
  Qed.
  Lemma step_stack A P s : tnn A -> (forall q i j, 0 <= ent (nth q P (mkmat 0 0 [])) i j) -> 0 <= s <= 1 ->
    tnn (@tadd R NR A (@tsub R NR P A)) /\ tnn (@tadd R NR A (@tscale R NR s (@tsub R NR P A))).
  Proof using HR.
    intros HA HP Hs. split; intros q; unfold tadd; match goal with |- mnn (nth q (tab ?n ?f) _) => destruct (nth_tab_mat n f q) as [[-> Hq]| ->] end; try apply mnn_0.
    - apply (step_mat' _ _ 0); [apply HA| |lra]. intros i j. apply (incr_stack_ge A P q); assumption.
    - unfold tscale. unfold tmat at 2. match goal with |- context [nth q (map ?g ?l) mat0] => destruct (nth_map_mat g l q) as [[E _]|E]; unfold mat0 in *; rewrite E end.
      + apply (step_mat' _ _ s); [apply HA| |exact Hs]. intros i j. apply (incr_stack_ge A P q); assumption.
      + apply (step_mat' _ _ 0); [apply HA| |lra]. intros i j. destruct (HA q i j) as [H _]. destruct (mnn_0 i j) as [K1 _]. unfold tmat, mat0. lra.
  Qed.
End LS.
