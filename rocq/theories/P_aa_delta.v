(** Two kernel archetypal analysis runs that differ in delta only make the same steps. *)
From Coq Require Import List Arith Lia ZArith Reals Lra Psatz Bool.
From Verif Require Import Num Mat Py Spec M_simplex M_spg M_iter M_random M_furthest M_gpnh M_aa.
From Verif Require Import P_lin P_simplex P_spg P_furthest P_random P_mat P_iter P_gpnh P_gpnh_run P_aa P_aa_run.
Import ListNotations.
Local Open Scope R_scope.

(** ** simulation of the outer iteration *)
Section Sim.
  Context {T : Type} {N : Num T} {S1 S2 : Type}.
  Variables (Q : S1 -> S2 -> Prop) (cost1 : S1 -> T) (cost2 : S2 -> T).
  Hypothesis HC : forall a b, Q a b -> cost1 a = cost2 b.

  Lemma run_updates_sim bad us1 us2 : Forall2 (fun u v => forall a b, Q a b -> res_rel Q (u a) (v b)) us1 us2 ->
    forall a b c, Q a b -> res_rel (fun x y => Q (fst x) (fst y) /\ snd x = snd y)
      (run_updates cost1 bad us1 a c) (run_updates cost2 bad us2 b c).
  Proof using HC.
    induction 1 as [|u v us1 us2 Huv _ IH]; intros a b c HQ; cbn [run_updates]; [cbn; auto|].
    specialize (Huv a b HQ). unfold res_rel in Huv. destruct (u a) as [a'|e], (v b) as [b'|e']; cbn [bind res_rel]; try contradiction; auto.
    rewrite (HC _ _ Huv). destruct (bad (cost2 b')); [reflexivity|]. apply IH, Huv.
  Qed.
  Lemma iterate_loop_sim bad us1 us2 tol : Forall2 (fun u v => forall a b, Q a b -> res_rel Q (u a) (v b)) us1 us2 ->
    forall left n a b c log, Q a b ->
    res_rel (fun x y => Q (fst (fst (fst x))) (fst (fst (fst y))) /\ snd (fst (fst x)) = snd (fst (fst y))
                        /\ snd (fst x) = snd (fst y) /\ snd x = snd y)
      (iterate_loop cost1 bad us1 tol left n a c log) (iterate_loop cost2 bad us2 tol left n b c log).
  Proof using HC.
    intros HF. induction left as [|left IH]; intros n a b c log HQ; cbn [iterate_loop]; [cbn; auto|].
    pose proof (run_updates_sim (bad n c) us1 us2 HF a b c HQ) as G. unfold res_rel in G.
    destruct (run_updates cost1 _ _ _ _) as [[a' ca]|e], (run_updates cost2 _ _ _ _) as [[b' cb]|e']; cbn [bind res_rel fst snd] in *;
      try contradiction; auto. destruct G as [G1 ->].
    destruct (nltb _ _); [cbn; auto|]. apply IH, G1.
  Qed.
End Sim.

(** everything but the scale-factor bookkeeping *)
Definition erase (w : aws R) : aws R :=
  mk_aws (a_K w) (a_S w) (a_C w) (a_alpha w) (a_trace_K w) (a_CK w) (a_CKCt w) (mkmat 0 0 []) (a_StS w)
    (a_alpha_C w) (a_alpha_S w) 0 (a_f_S_mem w) (a_f_C_mem w) [].
Definition same_but_delta (c c' : aa_cfg R) : Prop :=
  ac_init c = ac_init c' /\ ac_tolerance c = ac_tolerance c' /\ ac_max_iterations c = ac_max_iterations c'
  /\ ac_ls c = ac_ls c' /\ ac_memory c = ac_memory c' /\ ac_monotone c = ac_monotone c'.

Lemma mul_ones_r n k A : is_mat n k A -> @mmul R Num_R A (mdiag (repeat 1 k)) = A.
Proof.
  intros HA. apply mat_ext_R with n k; [|exact HA|].
  - destruct HA as (a1 & _). unfold mmul, mdiag. mdim. rewrite repeat_length, a1. apply is_mat_mbuild.
  - destruct HA as (a1 & a2 & _). intros i j Hi Hj. rewrite ent_mdiag_r by (rewrite ?repeat_length; lia).
    rewrite at_repeat by exact Hj. ring.
Qed.
Lemma mul_ones_l n k A : is_mat k n A -> @mmul R Num_R (mdiag (repeat 1 k)) A = A.
Proof.
  intros HA. apply mat_ext_R with k n; [|exact HA|].
  - destruct HA as (_ & a2 & _). unfold mmul, mdiag. mdim. rewrite repeat_length, a2. apply is_mat_mbuild.
  - destruct HA as (a1 & a2 & _). intros i j Hi Hj. rewrite ent_mdiag_l by (rewrite ?repeat_length; lia).
    rewrite at_repeat by exact Hi. ring.
Qed.
Lemma weights_gradient_ones n k c w : shapes n k w -> a_alpha w = repeat 1 k ->
  @aa_weights_gradient R Num_R c w = madd (mmul (mtr (a_K w)) (mscale (nofZ (-2)) (mtr (a_C w)))) (mmul (a_S w) (mscale n2 (a_CKCt w))).
Proof.
  intros (HK & HS & HC & _) E. unfold aa_weights_gradient. rewrite E. cbv zeta. f_equal.
  destruct (nltb _ _); [|reflexivity]. apply (mul_ones_r n). destruct HK as (k1 & k2 & _), HC as (c1 & c2 & _).
  unfold mmul, mscale, mmap, mtr. mdim. rewrite k2, c1. apply is_mat_mbuild.
Qed.
Lemma dictionary_gradient_ones n k c w : shapes n k w -> a_alpha w = repeat 1 k ->
  @aa_dictionary_gradient R Num_R c w = madd (mmul (mtr (a_S w)) (mscale (nofZ (-2)) (mtr (a_K w)))) (mscale n2 (mmul (a_StS w) (a_CK w))).
Proof.
  intros (HK & HS & HC & _) E. unfold aa_dictionary_gradient. rewrite E. cbv zeta.
  destruct (nltb _ _); [|reflexivity]. apply (mul_ones_l n). destruct HK as (k1 & k2 & _), HS as (c1 & c2 & _).
  unfold madd, mmap2, mmul, mscale, mmap, mtr. mdim. rewrite k1, c2. apply is_mat_mbuild.
Qed.

Lemma erase_fields w w' : erase w = erase w' ->
  a_K w = a_K w' /\ a_S w = a_S w' /\ a_C w = a_C w' /\ a_alpha w = a_alpha w' /\ a_trace_K w = a_trace_K w'
  /\ a_CK w = a_CK w' /\ a_CKCt w = a_CKCt w' /\ a_StS w = a_StS w' /\ a_alpha_C w = a_alpha_C w' /\ a_alpha_S w = a_alpha_S w'
  /\ a_f_S_mem w = a_f_S_mem w' /\ a_f_C_mem w = a_f_C_mem w'.
Proof. unfold erase. intros H. injection H. intros. repeat split; assumption. Qed.
Lemma erase_cost w w' : erase w = erase w' -> @aa_cached_cost R Num_R w = aa_cached_cost w'.
Proof.
  intros H. apply erase_fields in H. destruct H as (_ & e1 & _ & _ & e2 & e3 & e4 & e5 & _).
  unfold aa_cached_cost. rewrite e1, e2, e3, e4, e5. reflexivity.
Qed.

Definition aQ n k K c c' (a b : aws R) : Prop :=
  sinv n k K c False False a /\ sinv n k K c' False False b /\ erase a = erase b.

Section Two.
  Variables (n k : nat) (K : mat R) (c c' : aa_cfg R).
  Hypotheses (Hn : (0 < n)%nat) (Hk : (0 < k)%nat) (Hcc : same_but_delta c c') (Hls : ls_valid (ac_ls c)) (Hmem : (0 < ac_memory c)%nat).

  Lemma aQ_cost a b : aQ n k K c c' a b -> @aa_evaluate_cost R Num_R c a = aa_evaluate_cost c' b.
  Proof using.
    intros ((I & _) & (I' & _) & E). rewrite (proj1 (ainv_cost n k K c a I)), (proj1 (ainv_cost n k K c' b I')).
    apply erase_fields in E. destruct E as (_ & -> & -> & _). reflexivity.
  Qed.
  Lemma ainv_gradients a b : ainv n k K c a -> ainv n k K c' b -> erase a = erase b ->
    @aa_weights_gradient R Num_R c a = aa_weights_gradient c' b /\ @aa_dictionary_gradient R Num_R c a = aa_dictionary_gradient c' b.
  Proof using.
    intros (_ & Ha & Aa & _) (_ & Hb & Ab & _) E. apply erase_fields in E.
    destruct E as (e1 & e2 & e3 & e4 & e5 & e6 & e7 & e8 & _).
    rewrite (weights_gradient_ones n k c a), (weights_gradient_ones n k c' b) by assumption.
    rewrite (dictionary_gradient_ones n k c a), (dictionary_gradient_ones n k c' b) by assumption.
    rewrite e1, e2, e3, e6, e7, e8. split; reflexivity.
  Qed.

  Lemma update_weights_sim fuel a b : ainv n k K c a -> ainv n k K c' b -> erase a = erase b ->
    res_rel (fun x y => erase x = erase y) (aa_update_weights fuel c a) (aa_update_weights fuel c' b).
  Proof using Hcc.
    intros Ia Ib E. destruct (ainv_gradients a b Ia Ib E) as [G1 _].
    pose proof Ia as (_ & Sa & Aa & Ca & _). pose proof Ib as (_ & Sb & Ab & Cb & _).
    destruct Hcc as (_ & _ & _ & El & _).
    unfold aa_update_weights, aa_weights_line_search. cbv zeta. rewrite (caches_CK c a Ca), (caches_CK c' b Cb).
    pose proof (erase_fields a b E) as (e1 & e2 & e3 & e4 & e5 & e6 & e7 & e8 & e9 & e10 & e11 & e12).
    pose proof (erase_cost a b E) as EC. rewrite G1, e2, e10, e11, EC, El.
    assert (HQ : forall X, erase (set_S_StS X a) = erase (set_S_StS X b)).
    { intros X. unfold erase, set_S_StS; cbn [a_K a_S a_C a_alpha a_trace_K a_CK a_CKCt a_StS a_alpha_C a_alpha_S a_f_S_mem a_f_C_mem].
      rewrite e1, e3, e4, e5, e6, e7, e9, e10, e11, e12. reflexivity. }
    match goal with |- context [line_search fuel ?p ?co ?t1 (set_S_StS ?X a) ?me ?cc ?sl] =>
      pose proof (line_search_sim (fun x y => erase x = erase y /\ (exists Z, x = set_S_StS Z a) /\ (exists Z, y = set_S_StS Z b))
        p co co t1 (fun s => set_S_StS (madd (a_S b) (mscale s (msub (simplex_project_rows (msub (a_S b) (mscale (a_alpha_S b) (aa_weights_gradient c' b)))) (a_S b)))) b)
        (set_S_StS X a) (set_S_StS X b) me cc sl fuel) as G
    end.
    specialize (G ltac:(intros s; split; [apply HQ | eauto]) ltac:(split; [apply HQ | eauto]) ltac:(intros x y [Exy _]; apply erase_cost, Exy)).
    unfold res_rel in G.
    match type of G with match ?A with _ => _ end => destruct A as [[[x s] mem]|ex] end;
    match type of G with match ?A with _ => _ end => destruct A as [[[y s'] mem']|ey] end; cbn [bind res_rel fst snd] in *; try contradiction; auto.
    destruct G as ((G & (X & Ex) & (Y & Ey)) & <- & <-).
    assert (E2 : aa_weights_gradient c x = aa_weights_gradient c' y).
    { pose proof (erase_fields x y G) as (f1 & f2 & f3 & f4 & f5 & f6 & f7 & f8 & _).
      assert (EX : X = Y) by (rewrite Ex, Ey in f2; exact f2).
      unfold aa_weights_gradient. rewrite <- f1, <- f2, <- f3, <- f4, <- f7. f_equal.
      assert (Ax : a_alpha x = repeat 1 k) by (rewrite Ex; exact Aa). rewrite Ax.
      assert (HM : is_mat n k (mmul (mtr (a_K x)) (mscale (nofZ (-2)) (mtr (a_C x))))).
      { rewrite Ex. cbn [a_K a_C set_S_StS]. destruct Sa as ((k1 & k2 & _) & _ & (c1 & c2 & _) & _).
        unfold mmul, mscale, mmap, mtr. mdim. rewrite k2, c1. apply is_mat_mbuild. }
      rewrite (mul_ones_r n k _ HM). destruct (nltb _ _), (nltb _ _); reflexivity. }
    rewrite E2. pose proof (erase_fields x y G) as (f1 & f2 & f3 & f4 & f5 & f6 & f7 & f8 & f9 & f10 & f11 & f12).
    unfold erase; cbn [a_K a_S a_C a_alpha a_trace_K a_CK a_CKCt a_StS a_alpha_C a_alpha_S a_f_S_mem a_f_C_mem].
    rewrite f1, f2, f3, f4, f5, f6, f7, f8, f9, f12. reflexivity.
  Qed.

  (** the scale-factor step succeeds and changes nothing that is read elsewhere *)
  Lemma update_scale_erase : exists M, forall fuel, (M <= fuel)%nat -> forall w, ainv n k K c w ->
    exists w', aa_update_scale fuel c w = Ok w' /\ erase w' = erase w.
  Proof using Hls Hmem.
    clear Hn Hk.
    destruct (aa_update_scale_total c Hls) as [M HM]. exists M. intros fuel Hf w (E1 & (HK & HS & HC & Hal) & E3 & (C1 & C2 & C3 & C4) & E5 & E6 & E7).
    destruct (HM fuel w Hf) as [w' E]; [intros E; rewrite E in E7; cbn in E7; lia|].
    exists w'. split; [exact E|]. apply aa_update_scale_ok in E. destruct E as (_ & aa & ma & _ & ->).
    unfold erase; cbn [a_K a_S a_C a_alpha a_trace_K a_CK a_CKCt a_StS a_alpha_C a_alpha_S a_f_S_mem a_f_C_mem].
    rewrite C4, C3, E3. rewrite (scaled_CK_ones k n), (scaled_CKCt_ones k n) by assumption. reflexivity.
  Qed.
End Two.

Lemma ainv_post n k K c fuel w0 x s a : ainv n k K c w0 ->
  0 < ls_sigma_one (ac_ls c) -> ls_sigma_two (ac_ls c) < 1 ->
  line_search fuel (ac_ls c) aa_cached_cost (trC c w0) (trC c w0 1)
         (a_f_C_mem w0) (aa_cached_cost w0) (minner (dirC c w0) (aa_dictionary_gradient c w0)) = Ok (x, s, a) ->
  x = trC c w0 s /\ (forall b, ainv n k K c (set_spg b (a_alpha_S w0) (a_alpha_alpha w0) (a_f_S_mem w0) a (a_f_alpha_mem w0) x)) /\ shapes n k x /\ a_alpha x = repeat 1 k.
Proof.
  intros (I1 & I2 & I3 & I4 & I5 & I6 & I7) H1 H2 EL.
  pose proof (line_search_range fuel (ac_ls c) aa_cached_cost (trC c w0) _ _ _ _ _ _ H1 H2 EL) as (E1 & Hs & Em & Hne).
  split; [exact E1|]. split; [|rewrite E1; split; [apply trC_shapes, I2 | exact I3]].
  intros b. rewrite E1. split; [exact I1|]. split; [apply (trC_shapes n k c w0 s I2)|]. split; [exact I3|].
  split; [apply set_spg_caches, trC_caches, I4|]. cbn [set_spg a_f_S_mem a_f_C_mem a_f_alpha_mem]. split; [exact I5|].
  rewrite Em, tl_app_length by exact Hne. auto.
Qed.

Section Three.
  Variables (n k : nat) (K : mat R) (c c' : aa_cfg R).
  Hypotheses (Hn : (0 < n)%nat) (Hk : (0 < k)%nat) (Hcc : same_but_delta c c') (Hls : ls_valid (ac_ls c)) (Hmem : (0 < ac_memory c)%nat).

  Lemma update_dictionary_sim : exists M, forall fuel, (M <= fuel)%nat -> forall a b,
    ainv n k K c a -> ainv n k K c' b -> erase a = erase b ->
    res_rel (fun x y => erase x = erase y) (aa_update_dictionary fuel c a) (aa_update_dictionary fuel c' b).
  Proof using Hcc Hls Hmem.
    clear Hn Hk.
    pose proof Hcc as (_ & _ & _ & El & Em & _).
    destruct (update_scale_erase n k K c Hls Hmem) as [M1 HM1].
    destruct (update_scale_erase n k K c') as [M2 HM2]; [rewrite <- El; exact Hls | rewrite <- Em; exact Hmem|].
    exists (max M1 M2). intros fuel Hf a b Ia Ib E. destruct (ainv_gradients n k K c c' a b Ia Ib E) as [_ G1].
    pose proof Ia as (_ & Sa & Aa & Ca & _). pose proof Ib as (_ & Sb & Ab & Cb & _).
    unfold aa_update_dictionary, aa_dictionary_line_search. cbv zeta.
    rewrite <- (proj1 (proj2 Ca)), <- (proj1 (proj2 Cb)).
    rewrite (caches_CK c a Ca), (caches_CK c' b Cb). fold (dirC c a) (dirC c' b).
    rewrite <- (madd_mscale_1 (a_C a) (dirC c a)), <- (madd_mscale_1 (a_C b) (dirC c' b)) by apply wf_msub.
    fold (trC c a) (trC c' b). fold (trC c a 1) (trC c' b 1).
    pose proof (erase_fields a b E) as (e1 & e2 & e3 & e4 & e5 & e6 & e7 & e8 & e9 & e10 & e11 & e12).
    pose proof (erase_cost a b E) as EC.
    assert (ED : dirC c a = dirC c' b) by (unfold dirC; rewrite G1, e3, e9; reflexivity).
    assert (HQ : forall s, erase (trC c a s) = erase (trC c' b s)).
    { intros s. pose proof (trC_shapes n k c a s Sa) as Ta. pose proof (trC_shapes n k c' b s Sb) as Tb.
      unfold erase, trC, set_C_CK; cbn [a_K a_S a_C a_alpha a_trace_K a_CK a_CKCt a_StS a_alpha_C a_alpha_S a_f_S_mem a_f_C_mem].
      destruct Ta as (ka & _ & ca & _), Tb as (kb & _ & cb & _). cbn [trC set_C_CK a_C a_K] in *.
      rewrite Aa, Ab. rewrite !(scaled_CK_ones k n), !(scaled_CKCt_ones k n) by assumption.
      rewrite e1, e2, e3, e5, e8, e9, e10, e11, e12, ED. reflexivity. }
    assert (G : res_rel (fun x y => erase (fst (fst x)) = erase (fst (fst y)) /\ snd (fst x) = snd (fst y) /\ snd x = snd y)
      (line_search fuel (ac_ls c) aa_cached_cost (trC c a) (trC c a 1) (a_f_C_mem a) (aa_cached_cost a) (minner (dirC c a) (aa_dictionary_gradient c a)))
      (line_search fuel (ac_ls c') aa_cached_cost (trC c' b) (trC c' b 1) (a_f_C_mem b) (aa_cached_cost b) (minner (dirC c' b) (aa_dictionary_gradient c' b)))).
    { rewrite <- El, <- e12, <- EC, <- ED, <- G1.
      apply (line_search_sim (fun x y => erase x = erase y)); [exact HQ | apply HQ | intros x y Exy; apply erase_cost, Exy]. }
    unfold res_rel in G.
    destruct (line_search fuel (ac_ls c) aa_cached_cost (trC c a) _ _ _ _) as [[[x s] mem]|ex] eqn:L1;
    destruct (line_search fuel (ac_ls c') aa_cached_cost (trC c' b) _ _ _ _) as [[[y s'] mem']|ey] eqn:L2;
      cbn [bind res_rel fst snd] in *; try contradiction; auto.
    destruct G as (G & <- & <-). destruct Hls as (H1 & H2 & H3).
    pose proof (ainv_post n k K c fuel a x s mem Ia H1 H2 L1) as (X1 & X2 & X3 & X4).
    pose proof (ainv_post n k K c' fuel b y s mem Ib ltac:(rewrite <- El; exact H1) ltac:(rewrite <- El; exact H2) L2) as (Y1 & Y2 & Y3 & Y4).
    pose proof (erase_fields x y G) as (f1 & f2 & f3 & f4 & f5 & f6 & f7 & f8 & f9 & f10 & f11 & f12).
    assert (E2 : aa_dictionary_gradient c x = aa_dictionary_gradient c' y).
    { rewrite (dictionary_gradient_ones n k c x), (dictionary_gradient_ones n k c' y) by assumption. rewrite f1, f2, f6, f8. reflexivity. }
    rewrite E2, G1, ED, El.
    match goal with |- res_rel _ ?A ?A2 =>
      assert (HA : exists wa, A = Ok wa /\ erase wa = mk_aws (a_K x) (a_S x) (a_C x) (a_alpha x) (a_trace_K x) (a_CK x) (a_CKCt x) (mkmat 0 0 []) (a_StS x)
         (get_next_spg_alpha (nmul s (minner (dirC c' b) (msub (aa_dictionary_gradient c' y) (aa_dictionary_gradient c' b))))
             (nmul (nsq s) (minner (dirC c' b) (dirC c' b))) (ls_alpha_min (ac_ls c')) (ls_alpha_max (ac_ls c')))
         (a_alpha_S x) 0 (a_f_S_mem x) mem []) end.
    { destruct (nltb _ _); [|eexists; split; reflexivity].
      destruct (HM1 fuel ltac:(lia) (set_spg (get_next_spg_alpha (nmul s (minner (dirC c' b) (msub (aa_dictionary_gradient c' y) (aa_dictionary_gradient c' b))))
             (nmul (nsq s) (minner (dirC c' b) (dirC c' b))) (ls_alpha_min (ac_ls c')) (ls_alpha_max (ac_ls c'))) (a_alpha_S a) (a_alpha_alpha a) (a_f_S_mem a) mem (a_f_alpha_mem a) x) (X2 _)) as (wa & Ea & Er).
      exists wa. split; [rewrite X1 in Ea |- *; exact Ea|]. rewrite Er. rewrite X1. reflexivity. }
    destruct HA as (wa & -> & Ea).
    match goal with |- res_rel _ ?A ?A2 =>
      assert (HB : exists wb, A2 = Ok wb /\ erase wb = mk_aws (a_K y) (a_S y) (a_C y) (a_alpha y) (a_trace_K y) (a_CK y) (a_CKCt y) (mkmat 0 0 []) (a_StS y)
         (get_next_spg_alpha (nmul s (minner (dirC c' b) (msub (aa_dictionary_gradient c' y) (aa_dictionary_gradient c' b))))
             (nmul (nsq s) (minner (dirC c' b) (dirC c' b))) (ls_alpha_min (ac_ls c')) (ls_alpha_max (ac_ls c')))
         (a_alpha_S y) 0 (a_f_S_mem y) mem []) end.
    { destruct (nltb _ _); [|eexists; split; reflexivity].
      destruct (HM2 fuel ltac:(lia) (set_spg (get_next_spg_alpha (nmul s (minner (dirC c' b) (msub (aa_dictionary_gradient c' y) (aa_dictionary_gradient c' b))))
             (nmul (nsq s) (minner (dirC c' b) (dirC c' b))) (ls_alpha_min (ac_ls c')) (ls_alpha_max (ac_ls c'))) (a_alpha_S b) (a_alpha_alpha b) (a_f_S_mem b) mem (a_f_alpha_mem b) y) (Y2 _)) as (wb & Eb & Er).
      exists wb. split; [rewrite Y1 in Eb |- *; exact Eb|]. rewrite Er. rewrite Y1. reflexivity. }
    destruct HB as (wb & -> & Eb). cbn [res_rel]. rewrite Ea, Eb, f1, f2, f3, f4, f5, f6, f7, f8, f10, f11. reflexivity.
  Qed.

  Lemma aa_iterate_sim : exists M, forall fuel, (M <= fuel)%nat -> forall ud uw t m a b, aQ n k K c c' a b ->
    res_rel (fun x y => aQ n k K c c' (fst (fst (fst x))) (fst (fst (fst y))) /\ snd (fst (fst x)) = snd (fst (fst y))
                        /\ snd (fst x) = snd (fst y) /\ snd x = snd y)
      (aa_iterate fuel c ud uw t m a) (aa_iterate fuel c' ud uw t m b).
  Proof using Hn Hk Hcc Hls Hmem.
    destruct update_dictionary_sim as [M HM]. exists M. intros fuel Hf ud uw t m a b HQ.
    pose proof HQ as ((Ia & _) & (Ib & _) & E). unfold aa_iterate, iterate.
    rewrite (ainv_refresh n k K c a Ia), (ainv_refresh n k K c' b Ib). rewrite (aQ_cost n k K c c' a b HQ).
    pose proof Hcc as (_ & _ & _ & El & Em & Emo). rewrite Emo. pose proof Hls as (H1 & H2 & H3).
    apply (iterate_loop_sim (aQ n k K c c')); [apply aQ_cost | | exact HQ].
    assert (HD : forall x y, aQ n k K c c' x y -> res_rel (aQ n k K c c') (and_refresh c (aa_update_dictionary fuel c) x) (and_refresh c' (aa_update_dictionary fuel c') y)).
    { intros x y (Ix & Iy & Exy). pose proof (HM fuel Hf x y (proj1 Ix) (proj1 Iy) Exy) as G. unfold and_refresh.
      unfold res_rel in G. destruct (aa_update_dictionary fuel c x) as [x'|] eqn:E1, (aa_update_dictionary fuel c' y) as [y'|] eqn:E2; cbn [bind res_rel]; try contradiction; auto.
      apply (aa_update_dictionary_inv n k K) in E1; try assumption; [|apply Ix]. apply (aa_update_dictionary_inv n k K) in E2; try assumption; try (rewrite <- El; assumption); [|apply Iy].
      destruct E1 as (J1 & _), E2 as (J2 & _). rewrite (ainv_refresh n k K c x' J1), (ainv_refresh n k K c' y' J2).
      split; [split; [exact J1 | split; tauto]|]. split; [split; [exact J2 | split; tauto] | exact G]. }
    assert (HW : forall x y, aQ n k K c c' x y -> res_rel (aQ n k K c c') (and_refresh c (aa_update_weights fuel c) x) (and_refresh c' (aa_update_weights fuel c') y)).
    { intros x y (Ix & Iy & Exy). pose proof (update_weights_sim n k K c c' Hcc fuel x y (proj1 Ix) (proj1 Iy) Exy) as G. unfold and_refresh.
      unfold res_rel in G. destruct (aa_update_weights fuel c x) as [x'|] eqn:E1, (aa_update_weights fuel c' y) as [y'|] eqn:E2; cbn [bind res_rel]; try contradiction; auto.
      apply (aa_update_weights_inv n k K) in E1; try assumption; [|apply Ix]. apply (aa_update_weights_inv n k K) in E2; try assumption; try (rewrite <- El; assumption); [|apply Iy].
      destruct E1 as (J1 & _), E2 as (J2 & _). rewrite (ainv_refresh n k K c x' J1), (ainv_refresh n k K c' y' J2).
      split; [split; [exact J1 | split; tauto]|]. split; [split; [exact J2 | split; tauto] | exact G]. }
    destruct ud, uw; cbn [enabled app]; repeat constructor; assumption.
  Qed.
End Three.

(** ** fits of two objects that differ only in delta *)
Lemma aa_choose_initial_cfg {T} {N : Num T} (c c' : aa_cfg T) k K Din Win ud uw kw g : ac_init c = ac_init c' ->
  aa_choose_initial c k K Din Win ud uw kw g = aa_choose_initial c' k K Din Win ud uw kw g.
Proof. intros E. unfold aa_choose_initial. rewrite E. reflexivity. Qed.

Lemma aa_fit_sim (o o' : aa R) K : same_but_delta (ao_cfg o) (ao_cfg o') -> ao_n_components o = ao_n_components o' ->
  ao_seeded o = ao_seeded o' -> ao_rng o = ao_rng o' -> ls_valid (ac_ls (ao_cfg o)) -> (0 < ac_memory (ao_cfg o))%nat ->
  wf K -> (0 < nr K)%nat ->
  exists M, forall fuel, (M <= fuel)%nat -> forall Din Win ud uw kw, wf_opt Din -> wf_opt Win ->
    res_rel (fun x y => snd x = snd y /\ ar_cost (fst x) = ar_cost (fst y) /\ ar_n_iter (fst x) = ar_n_iter (fst y)
       /\ ar_log (fst x) = ar_log (fst y) /\ ar_warned (fst x) = ar_warned (fst y)
       /\ ao_dictionary_ (ar_obj (fst x)) = ao_dictionary_ (ar_obj (fst y))
       /\ ao_cost_ (ar_obj (fst x)) = ao_cost_ (ar_obj (fst y)) /\ ao_n_iter_ (ar_obj (fst x)) = ao_n_iter_ (ar_obj (fst y))
       /\ ao_n_components_ (ar_obj (fst x)) = ao_n_components_ (ar_obj (fst y))
       /\ ao_n_components (ar_obj (fst x)) = ao_n_components (ar_obj (fst y)) /\ ao_rng (ar_obj (fst x)) = ao_rng (ar_obj (fst y))
       /\ option_map a_alpha (ao_ws (ar_obj (fst x))) = option_map a_alpha (ao_ws (ar_obj (fst y))))
      (aa_fit_transform fuel o K Din Win ud uw kw) (aa_fit_transform fuel o' K Din Win ud uw kw).
Proof.
  intros Hcc Ek Es Eg Hls Hmem WK Hn. pose proof Hcc as (E1 & E2 & E3 & E4 & E5 & E6).
  destruct (Nat.eq_dec (nc K) (nr K)) as [Hsq|Hsq].
  2:{ exists 0%nat. intros fuel _ Din Win ud uw kw _ _. unfold aa_fit_transform, kernel_aa.
      rewrite (proj2 (Nat.eqb_neq _ _) Hsq). reflexivity. }
  destruct (check_params (resolve_components (ao_n_components o) (nr K)) (ac_max_iterations (ao_cfg o)) (ac_tolerance (ao_cfg o))) as [[[k m] t]|e] eqn:Ec.
  2:{ exists 0%nat. intros fuel _ Din Win ud uw kw _ _. unfold aa_fit_transform, kernel_aa.
      rewrite <- Ek, <- E3, <- E2, Hsq, Nat.eqb_refl. cbn [negb]. rewrite Ec. reflexivity. }
  pose proof (check_params_ok _ _ _ _ _ _ Ec) as (_ & Hk & _).
  destruct (aa_iterate_sim (nr K) k K (ao_cfg o) (ao_cfg o') Hn Hk Hcc Hls Hmem) as [M HM].
  exists M. intros fuel Hf Din Win ud uw kw WD WW. unfold aa_fit_transform, kernel_aa.
  rewrite <- Ek, <- E3, <- E2, <- Es, <- Eg, Hsq, Nat.eqb_refl. cbn [negb]. rewrite Ec. cbn [bind].
  rewrite <- (aa_choose_initial_cfg (ao_cfg o) (ao_cfg o') k K Din Win ud uw kw (ao_rng o) E1).
  destruct (aa_choose_initial (ao_cfg o) k K Din Win ud uw kw (ao_rng o)) as [[[D W] g']|e] eqn:Ei; cbn [bind]; [|reflexivity].
  apply aa_choose_initial_ok in Ei; try assumption. destruct Ei as (HD & HW & _).
  assert (HK : is_mat (nr K) (nr K) K) by (destruct WK as (w1 & w2); repeat split; [exact Hsq | exact w1 | rewrite <- Hsq; exact w2]).
  assert (HQ : aQ (nr K) k K (ao_cfg o) (ao_cfg o') (aa_initialize_workspace (ao_cfg o) k K W D) (aa_initialize_workspace (ao_cfg o') k K W D)).
  { split; [split; [apply start_ainv; assumption | split; tauto]|]. split; [split; [apply start_ainv; assumption | split; tauto]|].
    unfold aa_initialize_workspace, erase. cbn. rewrite E5. reflexivity. }
  pose proof (HM fuel Hf ud uw t m _ _ HQ) as G.
  destruct (aa_iterate fuel (ao_cfg o) _ _ _ _ _) as [[[[w2 c2] n2] l2]|e2], (aa_iterate fuel (ao_cfg o') _ _ _ _ _) as [[[[w3 c3] n3] l3]|e3];
    unfold res_rel in G; cbn [bind]; try contradiction; [|exact G].
  cbn [fst snd] in G. destruct G as ((_ & _ & Ee) & -> & -> & ->).
  apply erase_fields in Ee. destruct Ee as (_ & F1 & F2 & F3 & _). unfold aa_set_fitted.
  cbn [ar_obj ao_ws ar_cost ar_n_iter ar_log ar_warned res_rel fst snd ao_dictionary_ ao_cost_ ao_n_iter_ ao_n_components_ ao_n_components ao_rng option_map].
  rewrite F1, F2, F3. do 11 (split; [reflexivity|]). reflexivity.
Qed.
