(** The calls of KernelAA and ArchetypalAnalysis on the heap. *)
From Coq Require Import List Arith ZArith Bool Lia.
From Verif Require Import Num Mat Py M_simplex M_spg M_iter M_random M_furthest M_gpnh M_aa
  Heap M_heap M_heap_aa Spec_heap Spec_heap_obj P_heap P_heap_loops P_heap_aa P_heap_call.
Import ListNotations.

Section PAC.
  Context {T : Type} {N : Num T}.
  Notation run_e := (run_e aname_eq a_rd).
  Notation run_h := (run_h aname_eq a_rd).
  Notation vals m := (option_map (fun a => am (m_heap m a))).
  Notation mem := (mem (arr T)).

  Lemma ha_choose_unchanged (c : aa_cfg T) k (m : mem) data dict wts ud uw kw g d w g' m1 :
    ha_choose c k m data dict wts ud uw kw g = Ok (d, w, g', m1) -> unchanged m m1.
  Proof using.
    unfold ha_choose. intros H. destruct (ac_init c);
      [ | | | apply bind_ok in H as (? & _ & H); apply bind_ok in H as (? & _ & H);
              apply bind_ok in H as (? & _ & H); apply bind_ok in H as (? & _ & H);
              injection H as _ _ _ <-; apply unchanged_refl | ].
    all: destruct (negb ud && uw);
      [ apply bind_ok in H as (? & _ & H); apply bind_ok in H as (? & _ & H); destruct kw; [discriminate|];
        apply bind_ok in H as (r & _ & H); injection H as _ _ _ <-; apply unchanged_alloc | ].
    all: destruct (ud && negb uw);
      [ apply bind_ok in H as (? & _ & H); apply bind_ok in H as (? & _ & H);
        apply bind_ok in H as (r & _ & H); injection H as _ _ _ <-; apply unchanged_alloc | ].
    all: apply bind_ok in H as (r & _ & H); cbn [alloc] in H; destruct kw; [discriminate|];
      apply bind_ok in H as (r2 & _ & H); injection H as _ _ _ <-;
      eapply unchanged_trans; [apply (unchanged_alloc m (AM (fst r)))|];
      apply (unchanged_alloc (snd (alloc m (AM (fst r)))) (AM (fst r2))).
  Qed.

  Definition choose_post (m : mem) (a : nat * nat * rng T * mem) (b : mat T * mat T * rng T) : Prop :=
    let '(d, w, g, m1) := a in let '(D, W, g') := b in
    unchanged m m1 /\ am (m_heap m1 d) = D /\ am (m_heap m1 w) = W /\ g = g' /\ exists_in m1 d /\ exists_in m1 w.

  Lemma ha_choose_sim (c : aa_cfg T) k (m : mem) data dict wts ud uw kw g :
    arg_in m dict -> arg_in m wts ->
    match aa_choose_initial c k (am (m_heap m data)) (vals m dict) (vals m wts) ud uw kw g with
    | Ok b => exists a, ha_choose c k m data dict wts ud uw kw g = Ok a /\ choose_post m a b
    | Raise e => ha_choose c k m data dict wts ud uw kw g = Raise e
    end.
  Proof using.
    intros Hd Hw. unfold aa_choose_initial, ha_choose. cbv zeta. destruct (ac_init c);
      [ | | | destruct (check_init_weights _ _ _) as [W|e] eqn:EW; cbn [bind]; [|reflexivity];
              apply given_W in EW as (aw & -> & <-);
              destruct (check_init_aa_dictionary _ _ _) as [D|e] eqn:ED; cbn [bind]; [|reflexivity];
              apply given_aaD in ED as (ad & -> & <-); cbn [bind];
              eexists; split; [reflexivity|]; split; [apply unchanged_refl|]; auto 6 | ].
    all: destruct (negb ud && uw);
      [ destruct (check_init_aa_dictionary _ _ _) as [D|e] eqn:ED; cbn [bind]; [|reflexivity];
        apply given_aaD in ED as (a & -> & <-); cbn [bind]; destruct kw; [reflexivity|];
        destruct (aa_initialize_weights _ _ _ _) as [r|e]; cbn [bind]; [|reflexivity];
        eexists; split; [reflexivity|];
        pose proof (unchanged_alloc m (AM (fst r))) as HU; pose proof (Hd _ eq_refl) as Ha;
        split; [exact HU|]; split; [exact (f_equal am (unchanged_val _ _ _ HU Ha))|];
        split; [exact (f_equal am (alloc_val m (AM (fst r))))|]; split; [reflexivity|];
        split; [exact (unchanged_in _ _ _ HU Ha)|unfold exists_in; cbn; lia] | ].
    all: destruct (ud && negb uw);
      [ destruct (check_init_weights _ _ _) as [W|e] eqn:EW; cbn [bind]; [|reflexivity];
        apply given_W in EW as (a & -> & <-); cbn [bind];
        destruct (aa_initialize_dictionary _ _ _ _ _) as [r|e]; cbn [bind]; [|reflexivity];
        eexists; split; [reflexivity|];
        pose proof (unchanged_alloc m (AM (fst r))) as HU; pose proof (Hw _ eq_refl) as Ha;
        split; [exact HU|]; split; [exact (f_equal am (alloc_val m (AM (fst r))))|];
        split; [exact (f_equal am (unchanged_val _ _ _ HU Ha))|]; split; [reflexivity|];
        split; [unfold exists_in; cbn; lia|exact (unchanged_in _ _ _ HU Ha)] | ].
    all: destruct (aa_initialize_dictionary _ _ _ _ _) as [r|e]; cbn [bind alloc]; [|reflexivity];
      destruct kw; [reflexivity|];
      destruct (aa_initialize_weights _ _ _ _) as [r2|e]; cbn [bind]; [|reflexivity];
      eexists; split; [reflexivity|];
      pose proof (unchanged_alloc m (AM (fst r))) as HU;
      set (m1 := snd (alloc m (AM (fst r)))) in *;
      pose proof (unchanged_alloc m1 (AM (fst r2))) as HU2;
      assert (Hin : exists_in m1 (m_next m)) by (unfold exists_in; cbn; lia);
      split; [exact (unchanged_trans _ _ _ HU HU2)|];
      split; [exact (eq_trans (f_equal am (unchanged_val _ _ _ HU2 Hin)) (f_equal am (alloc_val m (AM (fst r)))))|];
      split; [exact (f_equal am (alloc_val m1 (AM (fst r2))))|]; split; [reflexivity|];
      split; [exact (unchanged_in _ _ _ HU2 Hin)|unfold exists_in; cbn; lia].
  Qed.

  (** the state in which the iteration starts *)
  Lemma ha_setup_sim (c : aa_cfg T) k junk (m : mem) attr data d w :
    exists e, models (m_next m) (ha_setup c k junk m attr data d w) e (a_sc0 c (am (m_heap m data))) /\
      (exists_in m data -> exists_in m d -> exists_in m w ->
       a_ws (a_rd e) (a_sc0 c (am (m_heap m data))) =
         aa_initialize_workspace c k (am (m_heap m data)) (am (m_heap m w)) (am (m_heap m d))) /\
      (forall a, a < m_next m -> h_heap (ha_setup c k junk m attr data d w) a = m_heap m a).
  Proof using.
    unfold ha_setup. cbv zeta.
    set (s0 := mk_hst (m_heap m) (m_next m) attr (a_sc0 c (am (m_heap m data)))).
    set (X := h_heap s0 data). set (s1 := h_new aname_eq aK X s0).
    set (W := h_heap s1 w). set (s2 := h_new aname_eq aS W s1).
    set (D := h_heap s2 d). set (s3 := h_new aname_eq aC D s2).
    assert (G0 : good (fun _ => False) (m_next m) s0) by (split; [cbn; lia|split; intros; contradiction]).
    pose proof (good_new aname_eq _ _ _ aK X G0) as G1. fold s1 in G1.
    pose proof (good_new aname_eq _ _ _ aS W G1) as G2. fold s2 in G2.
    pose proof (good_new aname_eq _ _ _ aC D G2) as G3. fold s3 in G3.
    set (P := fun y => y = aC \/ y = aS \/ y = aK \/ False) in *.
    set (e0 := fun y : aname => match y with aK => X | aS => W | aC => D | _ => AM (mkmat 0 0 []) end).
    assert (HV : forall x, P x -> val s3 x = e0 x).
    { intros x [-> | [-> | [-> | []]]].
      - unfold s3. rewrite (val_new aname_eq _ _ _ _ _ _ G2) by auto. apply upd_same.
      - unfold s3. rewrite (val_new aname_eq _ _ _ _ _ _ G2) by auto. rewrite upd_other by discriminate.
        unfold s2. rewrite (val_new aname_eq _ _ _ _ _ _ G1) by auto. apply upd_same.
      - unfold s3. rewrite (val_new aname_eq _ _ _ _ _ _ G2) by auto. rewrite upd_other by discriminate.
        unfold s2. rewrite (val_new aname_eq _ _ _ _ _ _ G1) by auto. rewrite upd_other by discriminate.
        unfold s1. rewrite (val_new aname_eq _ _ _ _ _ _ G0) by auto. apply upd_same. }
    assert (F3 : frame (m_next m) s0 s3).
    { eapply frame_trans; [exact (frame_new aname_eq _ _ _ aK X G0)|].
      eapply frame_trans; [exact (frame_new aname_eq _ _ _ aS W G1)|].
      exact (frame_new aname_eq _ _ _ aC D G2). }
    assert (HN : news_ok a_rd P (a_workspace k junk)).
    { unfold a_workspace, news_ok, reads, a_rd; cbn [fst snd t_K t_S t_C t_CK t_alpha].
      repeat (split; [intros ? ? ? HE; rewrite ?(HE aS), ?(HE aK), ?(HE aC), ?(HE aCK), ?(HE aalpha) by (unfold P; tauto); reflexivity|]).
      exact I. }
    destruct (news_sim aname_eq a_rd (a_workspace k junk) P (m_next m) s3 e0 (a_sc0 c (am (m_heap m data))) HN G3 HV eq_refl)
      as (A1 & A2 & A3 & A4).
    assert (HA : forall x, adds P (a_workspace k junk) x) by (intros x; cbn; unfold P; destruct x; tauto).
    eexists. split; [|split].
    - split; [|split; [|exact A3]].
      + eapply good_weaken; [|exact A1]. intros x _. apply HA.
      + intros x. apply A2. apply HA.
    - intros Hx Hd Hw. unfold exists_in in *.
      assert (EW : W = m_heap m w).
      { unfold W, s1. cbn. unfold hwrite. destruct (Nat.eqb_spec w (m_next m)); [lia|reflexivity]. }
      assert (ED : D = m_heap m d).
      { unfold D, s2, s1. cbn. unfold hwrite. destruct (Nat.eqb_spec d (S (m_next m))); [lia|].
        destruct (Nat.eqb_spec d (m_next m)); [lia|reflexivity]. }
      rewrite <- EW, <- ED. reflexivity.
    - intros a Ha. destruct A4 as [_ A4]. rewrite A4 by exact Ha. destruct F3 as [_ F3].
      rewrite F3 by exact Ha. reflexivity.
  Qed.
  (** The run on the heap, started from the set-up state. *)
  Lemma ha_iterate_sim fuel (c : aa_cfg T) k junk (m : mem) attr data d w ud uw tol mx r s1 :
    run_h (pa_iterate fuel c ud uw tol mx) (ha_setup c k junk m attr data d w) = (r, s1) ->
    (m_next m <= h_next s1 /\ forall a, a < m_next m -> h_heap s1 a = m_heap m a) /\
    (forall x, m_next m <= h_attr s1 x < h_next s1) /\
    (exists_in m data -> exists_in m d -> exists_in m w ->
      match aa_iterate fuel c ud uw tol mx
              (aa_initialize_workspace c k (am (m_heap m data)) (am (m_heap m w)) (am (m_heap m d))) with
      | Ok (w2, cost, n, log) => r = Ok (cost, n, log) /\ a_ws (a_rd (val s1)) (h_sc s1) = w2
      | Raise e => r = Raise e
      end).
  Proof using.
    intros HR. destruct (ha_setup_sim c k junk m attr data d w) as (e & HM & HW & HF).
    destruct (run_sim aname_eq a_rd a_rd_ext _ (noalias_pa_iterate fuel c ud uw tol mx) _ _ _ _ HM)
      as (A1 & A2 & A3).
    rewrite HR in A1, A2, A3. cbn [fst snd] in *. split; [|split].
    - destruct A3 as [A3 A4]. destruct HM as ((HN & _) & _). split; [lia|].
      intros a Ha. rewrite A4 by exact Ha. apply HF. exact Ha.
    - destruct A2 as ((_ & A2 & _) & _). intros x. apply A2. exact I.
    - intros Hx Hd Hw. specialize (HW Hx Hd Hw).
      pose proof (sim_aa_iterate fuel c ud uw tol mx e _ _ HW) as HS.
      unfold computes in HS.
      destruct (aa_iterate _ _ _ _ _ _ _) as [[[[w2 cost] n] log]|x].
      + destruct HS as ([[c1 n1] l1] & e' & s' & E & -> & -> & -> & HR').
        rewrite E in A1, A2. cbn [fst snd] in *. split; [exact A1|].
        destruct A2 as (_ & HV & HSC). rewrite HSC, <- HR'. f_equal. apply a_rd_ext. exact HV.
      + rewrite A1. exact HS.
  Qed.

  Notation coding := ha_kernel_aa.
  Lemma coding_unchanged fuel junk o (m : mem) data dict wts ud uw kw r o1 m1 :
    coding fuel junk o m data dict wts ud uw kw = (r, o1, m1) ->
    unchanged m m1 /\
    (forall x, r = Ok x -> exists a, hk_attr o1 = Some a /\ forall y, fresh_for m (a y) /\ exists_in m1 (a y)) /\
    (a_valid m o -> a_valid m1 o1).
  Proof using.
    unfold ha_kernel_aa. intros H.
    destruct (negb _); [injection H as <- <- <-; split; [apply unchanged_refl|]; split; [discriminate|]; intros HV; exact HV|].
    destruct (check_params _ _ _) as [[[k mx] tol]|e];
      [|injection H as <- <- <-; split; [apply unchanged_refl|]; split; [discriminate|]; intros HV; exact HV].
    destruct (ha_choose _ _ _ _ _ _ _ _ _ _) as [[[[d w] g] m2]|e] eqn:EC;
      [|injection H as <- <- <-; split; [apply unchanged_refl|]; split; [discriminate|]; intros HV; exact HV].
    apply ha_choose_unchanged in EC.
    destruct (run_h _ _) as [r' s1] eqn:ER. apply ha_iterate_sim in ER as (A1 & A2 & _).
    injection H as <- <- <-.
    assert (HU : unchanged m (mk_mem (h_heap s1) (h_next s1))) by (eapply unchanged_trans; [exact EC|exact A1]).
    split; [exact HU|]. split.
    - intros x _. exists (h_attr s1). split; [reflexivity|]. intros y. specialize (A2 y). destruct EC as [EC _].
      unfold fresh_for, exists_in; cbn. lia.
    - intros [_ HV]. split; cbn.
      + intros a x E. injection E as <-. unfold exists_in. cbn. apply A2.
      + intros x Hx. eapply unchanged_in; [exact HU|]. apply HV. exact Hx.
  Qed.

  Lemma coding_sim fuel junk o (m : mem) data dict wts ud uw kw r o1 m1 :
    exists_in m data -> arg_in m dict -> arg_in m wts -> a_valid m o ->
    coding fuel junk o m data dict wts ud uw kw = (r, o1, m1) ->
    match kernel_aa fuel (a_abs m o) (am (m_heap m data)) (vals m dict) (vals m wts) ud uw kw with
    | Ok run => r = Ok (ar_cost run, ar_n_iter run, ar_log run, ar_warned run) /\ a_abs m1 o1 = ar_obj run
    | Raise e => r = Raise e
    end.
  Proof using.
    intros Hx Hd Hw HV H. pose proof (coding_unchanged _ _ _ _ _ _ _ _ _ _ _ _ _ H) as (HU & _ & _).
    unfold ha_kernel_aa in H. unfold kernel_aa.
    destruct (negb _); [injection H as <- <- <-; reflexivity|].
    cbn [ao_cfg ao_n_components ao_rng ao_seeded a_abs] in *.
    destruct (check_params _ _ _) as [[[k mx] tol]|e]; cbn [bind]; [|injection H as <- <- <-; reflexivity].
    pose proof (ha_choose_sim (hk_cfg o) k m data dict wts ud uw kw (hk_rng o) Hd Hw) as HC.
    destruct (aa_choose_initial _ _ _ _ _ _ _ _ _) as [[[D W] g]|e]; cbn [bind].
    2:{ rewrite HC in H. injection H as <- <- <-. reflexivity. }
    destruct HC as ([[[d w] g'] m2] & HC & HU2 & <- & <- & -> & Hd2 & Hw2). rewrite HC in H.
    destruct (run_h _ _) as [r' s1] eqn:ER. apply ha_iterate_sim in ER as (_ & _ & HS).
    specialize (HS (unchanged_in _ _ _ HU2 Hx) Hd2 Hw2).
    rewrite (unchanged_val _ _ _ HU2 Hx) in HS.
    injection H as <- <- <-.
    destruct (aa_iterate _ _ _ _ _ _ _) as [[[[w2 cost] n] log]|x]; cbn [bind].
    - destruct HS as (-> & HS). cbn [bind ar_cost ar_n_iter ar_log ar_warned ar_obj]. split; [reflexivity|].
      unfold a_abs. cbn [hk_cfg hk_n_components hk_rng hk_seeded hk_attr hk_sc hk_dictionary_ hk_cost_ hk_n_iter_
        hk_n_components_ option_map ao_seeded ao_dictionary_ ao_cost_ ao_n_iter_ ao_n_components_].
      rewrite <- HS. destruct HV as [_ HV].
      f_equal. destruct (hk_dictionary_ o) as [x|]; [|reflexivity]. cbn. f_equal. f_equal.
      apply (unchanged_val _ _ _ HU). apply HV. reflexivity.
    - rewrite HS. reflexivity.
  Qed.

  Lemma fit_unchanged fuel junk o (m : mem) data dict wts ud uw kw r o1 m1 :
    ha_fit_transform fuel junk o m data dict wts ud uw kw = (r, o1, m1) ->
    unchanged m m1 /\ (a_valid m o -> a_valid m1 o1) /\
    (forall a, r = Ok a -> fresh_for m a /\ exists_in m1 a /\
       exists d, hk_dictionary_ o1 = Some d /\ fresh_for m d /\ exists_in m1 d).
  Proof using.
    unfold ha_fit_transform. destruct (coding fuel junk o m data dict wts ud uw kw) as [[r0 o0] m0] eqn:E.
    apply coding_unchanged in E as (A1 & A2 & A3). intros H.
    destruct r0 as [[[[cost n] log] wn]|e].
    - destruct (A2 _ eq_refl) as (a & Ea & Ha). rewrite Ea in H. injection H as <- <- <-.
      split; [exact A1|]. split.
      + intros HV. destruct (A3 HV) as [B1 B2]. split; cbn.
        * intros b x Eb. apply (B1 b x). congruence.
        * intros x Hx. injection Hx as <-. apply Ha.
      + intros x Hx. injection Hx as <-. split; [apply Ha|]. split; [apply Ha|].
        exists (a aC). split; [reflexivity|]. apply Ha.
    - injection H as <- <- <-. split; [exact A1|]. split; [exact A3|]. discriminate.
  Qed.

  Lemma transform_unchanged fuel junk o (m : mem) data r o1 m1 :
    ha_transform fuel junk o m data = (r, o1, m1) ->
    unchanged m m1 /\ (a_valid m o -> a_valid m1 o1) /\
    (forall a, r = Ok a -> fresh_for m a /\ exists_in m1 a).
  Proof using.
    unfold ha_transform. destruct (coding _ _ _ _ _ _ _ _ _ _) as [[r0 o0] m0] eqn:E.
    apply coding_unchanged in E as (A1 & A2 & A3). intros H. destruct r0 as [x|e].
    - destruct (A2 _ eq_refl) as (a & Ea & Ha). rewrite Ea in H. injection H as <- <- <-.
      split; [exact A1|]. split; [exact A3|]. intros y Hy. injection Hy as <-. apply Ha.
    - injection H as <- <- <-. split; [exact A1|]. split; [exact A3|]. discriminate.
  Qed.

  Lemma fit_sim fuel junk o (m : mem) data dict wts ud uw kw r o1 m1 :
    exists_in m data -> arg_in m dict -> arg_in m wts -> a_valid m o ->
    ha_fit_transform fuel junk o m data dict wts ud uw kw = (r, o1, m1) ->
    match aa_fit_transform fuel (a_abs m o) (am (m_heap m data)) (vals m dict) (vals m wts) ud uw kw with
    | Ok (run, W) => exists a, r = Ok a /\ am (m_heap m1 a) = W /\ a_abs m1 o1 = ar_obj run
    | Raise e => r = Raise e
    end.
  Proof using.
    intros Hx Hd Hw HV. unfold ha_fit_transform, aa_fit_transform, aa_set_fitted.
    destruct (coding fuel junk o m data dict wts ud uw kw) as [[r0 o0] m0] eqn:E.
    pose proof (coding_unchanged _ _ _ _ _ _ _ _ _ _ _ _ _ E) as (_ & A2 & _).
    pose proof (coding_sim _ _ _ _ _ _ _ _ _ _ _ _ _ Hx Hd Hw HV E) as HS. intros H.
    destruct (kernel_aa _ _ _ _ _ _ _ _) as [run|e]; cbn [bind].
    - destruct HS as (-> & HS). destruct (A2 _ eq_refl) as (a & Ea & _). rewrite Ea in H.
      injection H as <- <- <-. rewrite <- HS. unfold a_abs. cbn [ao_ws]. rewrite Ea. cbn [option_map].
      exists (a aS). split; [reflexivity|]. split; [reflexivity|]. cbn; try rewrite Ea; reflexivity.
    - subst r0. injection H as <- <- <-. reflexivity.
  Qed.

  Lemma transform_sim fuel junk o (m : mem) data r o1 m1 :
    exists_in m data -> a_valid m o ->
    ha_transform fuel junk o m data = (r, o1, m1) ->
    match aa_transform fuel (a_abs m o) (am (m_heap m data)) with
    | Ok (run, W) => exists a, r = Ok a /\ am (m_heap m1 a) = W /\ a_abs m1 o1 = ar_obj run
    | Raise e => r = Raise e
    end.
  Proof using.
    intros Hx HV. unfold ha_transform, aa_transform.
    set (Sd := match hk_attr o with Some a => Some (a aC) | None => None end).
    assert (ES : match ao_ws (a_abs m o) with Some w => Some (a_C w) | None => None end = vals m Sd).
    { unfold Sd. cbn. destruct (hk_attr o); reflexivity. }
    rewrite ES.
    assert (HSd : arg_in m Sd).
    { intros x. unfold Sd. destruct (hk_attr o) as [a|] eqn:Ea; [|discriminate]. intros Hx'. injection Hx' as <-.
      apply (proj1 HV). exact Ea. }
    destruct (coding fuel junk o m data Sd None false true None) as [[r0 o0] m0] eqn:E.
    pose proof (coding_unchanged _ _ _ _ _ _ _ _ _ _ _ _ _ E) as (_ & A2 & _).
    assert (HN : arg_in m None) by (intros ? ?; discriminate).
    pose proof (coding_sim _ _ _ _ _ _ _ _ _ _ _ _ _ Hx HSd HN HV E) as HS. intros H.
    cbn [option_map] in HS.
    destruct (kernel_aa _ _ _ _ _ _ _ _) as [run|e]; cbn [bind].
    - destruct HS as (-> & HS). destruct (A2 _ eq_refl) as (a & Ea & _). rewrite Ea in H.
      injection H as <- <- <-. rewrite <- HS. unfold a_abs at 1. cbn [ao_ws]. rewrite Ea. cbn [option_map].
      exists (a aS). split; [reflexivity|]. split; [reflexivity|exact HS].
    - subst r0. injection H as <- <- <-. reflexivity.
  Qed.

  (** ArchetypalAnalysis: the kernel is made first.  [kernel_pure]: kernel_func writes to no
      existing array and returns an array. *)
  Lemma arch_kernel_ok kf (m : mem) data kernel m0 : kernel_pure kf ->
    ha_arch_kernel kf m data = (kernel, m0) -> exists_in m data -> unchanged m m0 /\ exists_in m0 kernel.
  Proof using.
    intros HK E Hx. unfold ha_arch_kernel in E. destruct kf as [f|].
    - specialize (HK m data Hx). rewrite E in HK. exact HK.
    - cbn [alloc] in E. injection E as <- <-. split; [|unfold exists_in; cbn; lia].
      apply (unchanged_alloc m (AM (mmul (am (m_heap m data)) (mtr (am (m_heap m data)))))).
  Qed.

  Lemma a_abs_unchanged (m m' : mem) o : unchanged m m' -> a_valid m o -> a_abs m' o = a_abs m o.
  Proof using.
    intros HU [HV HD]. unfold a_abs. f_equal.
    - destruct (hk_attr o) as [a|]; [|reflexivity]. cbn. f_equal. f_equal. apply a_rd_ext.
      intros x. apply (unchanged_val _ _ _ HU). apply HV. reflexivity.
    - destruct (hk_dictionary_ o) as [d|]; [|reflexivity]. cbn. f_equal. f_equal.
      apply (unchanged_val _ _ _ HU). apply HD. reflexivity.
  Qed.
  Lemma a_valid_unchanged (m m' : mem) o : unchanged m m' -> a_valid m o -> a_valid m' o.
  Proof using.
    intros HU [HV HD]. split; [intros a x E|intros x E]; eapply unchanged_in; eauto.
  Qed.
  Lemma arg_in_unchanged (m m' : mem) a : unchanged m m' -> arg_in m a -> arg_in m' a.
  Proof using. intros HU H x E. eapply unchanged_in; eauto. Qed.
  Lemma vals_unchanged (m m' : mem) a : unchanged m m' -> arg_in m a -> vals m' a = vals m a.
  Proof using.
    intros HU H. destruct a as [x|]; [|reflexivity]. cbn. do 2 f_equal.
    apply (unchanged_val _ _ _ HU). apply H. reflexivity.
  Qed.
  Lemma arch_kernel_val kf g (m : mem) data kernel m0 : kernel_gives kf g ->
    ha_arch_kernel kf m data = (kernel, m0) -> exists_in m data ->
    am (m_heap m0 kernel) = arch_kernel g (am (m_heap m data)).
  Proof using.
    intros HK E Hx. unfold ha_arch_kernel in E. destruct kf as [f|], g as [g|]; try contradiction.
    - specialize (HK m data Hx). rewrite E in HK. exact HK.
    - injection E as <- <-. cbn. unfold hwrite. rewrite Nat.eqb_refl. reflexivity.
  Qed.

  Lemma arch_fit_unchanged fuel junk kf o (m : mem) data dict wts ud uw kw r o1 m1 :
    kernel_pure kf -> exists_in m data ->
    ha_arch_fit_transform fuel junk kf o m data dict wts ud uw kw = (r, o1, m1) ->
    unchanged m m1 /\ (a_valid m o -> a_valid m1 o1) /\
    (forall a, r = Ok a -> fresh_for m a /\ exists_in m1 a /\
       exists d, hk_dictionary_ o1 = Some d /\ fresh_for m d /\ exists_in m1 d).
  Proof using.
    intros HK Hx. unfold ha_arch_fit_transform. destruct (ha_arch_kernel kf m data) as [kernel m0] eqn:E.
    destruct (arch_kernel_ok _ _ _ _ _ HK E Hx) as [HU Hk]. intros H.
    apply fit_unchanged in H as (A1 & A2 & A3).
    split; [eapply unchanged_trans; eassumption|]. split.
    - intros HV. apply A2. eapply a_valid_unchanged; eassumption.
    - intros a Ha. destruct (A3 a Ha) as (B1 & B2 & d & B3 & B4 & B5). destruct HU as [HU _].
      unfold fresh_for in *. split; [lia|]. split; [exact B2|]. exists d. split; [exact B3|]. split; [lia|exact B5].
  Qed.
  Lemma arch_transform_unchanged fuel junk kf o (m : mem) data r o1 m1 :
    kernel_pure kf -> exists_in m data ->
    ha_arch_transform fuel junk kf o m data = (r, o1, m1) ->
    unchanged m m1 /\ (a_valid m o -> a_valid m1 o1) /\
    (forall a, r = Ok a -> fresh_for m a /\ exists_in m1 a).
  Proof using.
    intros HK Hx. unfold ha_arch_transform. destruct (ha_arch_kernel kf m data) as [kernel m0] eqn:E.
    destruct (arch_kernel_ok _ _ _ _ _ HK E Hx) as [HU Hk]. intros H.
    apply transform_unchanged in H as (A1 & A2 & A3).
    split; [eapply unchanged_trans; eassumption|]. split.
    - intros HV. apply A2. eapply a_valid_unchanged; eassumption.
    - intros a Ha. destruct (A3 a Ha) as (B1 & B2). destruct HU as [HU _].
      unfold fresh_for in *. split; [lia|]. exact B2.
  Qed.
  Lemma arch_fit_sim fuel junk kf g o (m : mem) data dict wts ud uw kw r o1 m1 :
    kernel_pure kf -> kernel_gives kf g ->
    exists_in m data -> arg_in m dict -> arg_in m wts -> a_valid m o ->
    ha_arch_fit_transform fuel junk kf o m data dict wts ud uw kw = (r, o1, m1) ->
    match arch_fit_transform fuel g (a_abs m o) (am (m_heap m data)) (vals m dict) (vals m wts) ud uw kw with
    | Ok (run, W) => exists a, r = Ok a /\ am (m_heap m1 a) = W /\ a_abs m1 o1 = ar_obj run
    | Raise e => r = Raise e
    end.
  Proof using.
    intros HK HG Hx Hd Hw HV. unfold ha_arch_fit_transform. destruct (ha_arch_kernel kf m data) as [kernel m0] eqn:E.
    destruct (arch_kernel_ok _ _ _ _ _ HK E Hx) as [HU Hk].
    pose proof (arch_kernel_val _ _ _ _ _ _ HG E Hx) as Ek. intros H.
    pose proof (fit_sim _ _ _ _ _ _ _ _ _ _ _ _ _ Hk (arg_in_unchanged _ _ _ HU Hd) (arg_in_unchanged _ _ _ HU Hw)
                  (a_valid_unchanged _ _ _ HU HV) H) as HS.
    rewrite Ek, (a_abs_unchanged _ _ _ HU HV), !(vals_unchanged _ _ _ HU) in HS by assumption. exact HS.
  Qed.
  Lemma arch_transform_sim fuel junk kf g o (m : mem) data r o1 m1 :
    kernel_pure kf -> kernel_gives kf g -> exists_in m data -> a_valid m o ->
    ha_arch_transform fuel junk kf o m data = (r, o1, m1) ->
    match arch_transform fuel g (a_abs m o) (am (m_heap m data)) with
    | Ok (run, W) => exists a, r = Ok a /\ am (m_heap m1 a) = W /\ a_abs m1 o1 = ar_obj run
    | Raise e => r = Raise e
    end.
  Proof using.
    intros HK HG Hx HV. unfold ha_arch_transform. destruct (ha_arch_kernel kf m data) as [kernel m0] eqn:E.
    destruct (arch_kernel_ok _ _ _ _ _ HK E Hx) as [HU Hk].
    pose proof (arch_kernel_val _ _ _ _ _ _ HG E Hx) as Ek. intros H.
    pose proof (transform_sim _ _ _ _ _ _ _ _ Hk (a_valid_unchanged _ _ _ HU HV) H) as HS.
    rewrite Ek, (a_abs_unchanged _ _ _ HU HV) in HS. exact HS.
  Qed.
End PAC.
