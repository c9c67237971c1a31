(** The calls of GPNHConvexCodingCROM on the heap. *)
From Coq Require Import List Arith ZArith Bool Lia.
From Verif Require Import Num Mat Py M_simplex M_spg M_iter M_random M_furthest M_gpnh M_mtd M_crom
  Heap M_heap M_heap_gpnh M_heap_crom Spec_heap Spec_heap_obj P_heap P_heap_loops P_heap_only
  P_heap_gpnh P_heap_crom P_heap_call P_heap_gpnh_call.
Import ListNotations.

Section PCC.
  Context {T : Type} {N : Num T}.
  Notation vals m := (option_map (fun a => am (m_heap m a))).
  Notation mem := (mem (arr T)).

  (** ** more about the GPNH fit: distinct arrays, and X is the data *)
  Lemma only_pg_iterate fuel (c : gpnh_cfg T) k ud uw tol mx :
    only (fun x => x <> gX) (pg_iterate fuel c k ud uw tol mx).
  Proof using.
    assert (E : forall b u, only (fun x : gname => x <> gX) u ->
                Forall (only (fun x => x <> gX)) (p_enabled (V := arr T) (R := gat T) (sc := gsc T) b u))
      by (intros [] u Hu; cbn; auto).
    apply only_iterate; [cbn; auto|]. apply Forall_app. split; apply E.
    - unfold pg_update_dictionary. repeat (apply only_bind; [cbn; repeat split; auto; discriminate|intros _]).
      apply only_bind.
      + apply only_line_search; cbn; repeat split; auto; discriminate.
      + intros step. cbn. repeat split; discriminate.
    - unfold pg_update_weights. repeat (apply only_bind; [cbn; repeat split; auto; discriminate|intros _]).
      apply only_bind.
      + apply only_line_search; cbn; repeat split; auto; discriminate.
      + intros step. cbn. repeat split; discriminate.
  Qed.

  Lemma coding_more fuel junk o (m : mem) data dict wts ud uw kw x o1 m1 :
    hg_convex_coding fuel junk o m data dict wts ud uw kw = (Ok x, o1, m1) ->
    exists a, ho_attr o1 = Some a /\ (forall y z, a y = a z -> y = z) /\
      (exists_in m data -> arg_in m dict -> arg_in m wts -> am (m_heap m1 (a gX)) = am (m_heap m data)).
  Proof using.
    unfold hg_convex_coding. intros H.
    destruct (check_params _ _ _) as [[[k mx] tol]|e]; [|discriminate].
    destruct (hg_choose _ _ _ _ _ _ _ _ _ _) as [[[[d w] g] m2]|e] eqn:EC; [|discriminate].
    set (attr := match ho_attr o with Some a => a | None => fun _ => 0 end) in H.
    destruct (hg_setup_sim (ho_cfg o) junk m2 attr data d w) as (e & HM & HW & HF).
    pose proof (run_sim gname_eq g_rd g_rd_ext _ (noalias_pg_iterate fuel (ho_cfg o) k ud uw tol mx) _ _ _ _ HM) as (A1 & A2 & A3).
    pose proof (only_val gname_eq g_rd (fun y => y <> gX) _ (only_pg_iterate fuel (ho_cfg o) k ud uw tol mx) e (g_sc0 (ho_cfg o)) gX) as HX.
    destruct (run_h _ _) as [r s1]. injection H as _ <- <-. cbn [fst snd] in *.
    exists (h_attr s1). split; [reflexivity|]. destruct A2 as ((_ & _ & G) & HV & _). split.
    - intros y z. apply G; exact I.
    - intros Hx Hd Hw. cbn [m_heap]. fold (val s1 gX). rewrite HV, HX by tauto.
      pose proof (hg_choose_sim (ho_cfg o) k m data dict wts ud uw kw (ho_rng o) Hd Hw) as HC.
      destruct (choose_initial _ _ _ _ _ _ _ _ _) as [[[D W] g']|y]; [|congruence].
      destruct HC as ([[[d2 w2] g2] m2'] & HC & HU & _ & _ & _ & Hd2 & Hw2).
      rewrite EC in HC. injection HC as <- <- <- <-.
      pose proof (HW (unchanged_in _ _ _ HU Hx) Hd2 Hw2) as HE.
      specialize (HE (mk_gws (mkmat 0 0 []) (mkmat 0 0 []) (mkmat 0 0 []) (mkmat 0 0 []) (mkmat 0 0 []) (mkmat 0 0 []) (mkmat 0 0 []) n1 n1 [] [])).
      apply (f_equal w_X) in HE. cbn in HE. rewrite HE. apply f_equal. apply (unchanged_val _ _ _ HU Hx).
  Qed.
  Lemma fit_more fuel junk o (m : mem) data dict wts ud uw kw x o1 m1 :
    hg_fit_transform fuel junk o m data dict wts ud uw kw = (Ok x, o1, m1) ->
    exists a, ho_attr o1 = Some a /\ x = a gGamma /\ ho_dictionary_ o1 = Some (a gS) /\ (forall y z, a y = a z -> y = z) /\
      (forall y, fresh_for m (a y) /\ exists_in m1 (a y)) /\
      (exists_in m data -> arg_in m dict -> arg_in m wts -> am (m_heap m1 (a gX)) = am (m_heap m data)).
  Proof using.
    unfold hg_fit_transform. destruct (hg_convex_coding _ _ _ _ _ _ _ _ _ _) as [[r0 o0] m0] eqn:E.
    intros H. destruct r0 as [[[[cost n] log] wn]|e]; [|discriminate].
    pose proof (coding_unchanged _ _ _ _ _ _ _ _ _ _ _ _ _ E) as (_ & A & _).
    destruct (A _ eq_refl) as (a' & Ea' & Ha').
    apply coding_more in E as (a & Ea & HI & HX). assert (a' = a) by congruence. subst a'.
    rewrite Ea in H. injection H as <- <- <-.
    exists a. repeat (split; [first [exact Ea|reflexivity|exact HI|exact Ha']|]). exact HX.
  Qed.

  (** ** the state in which the parameter fit starts *)
  Lemma hc_setup_sim (c : mtd_cfg T) junk base (m : mem) ga pa ow Ts :
    base <= m_next m -> (forall x, base <= ga x < m_next m) -> (forall x y, ga x = ga y -> x = y) ->
    exists e, models base (hc_setup c junk m ga pa ow Ts) e (c_sc0 c) /\
      (forall x, e (CG x) = m_heap m (ga x)) /\
      c_ws (c_rd e) (c_sc0 c) = crom_initialize_workspace c (am (m_heap m (ga gGamma))) ow Ts /\
      (forall x, h_attr (hc_setup c junk m ga pa ow Ts) (CG x) = ga x) /\
      m_next m <= h_next (hc_setup c junk m ga pa ow Ts) /\
      (forall a, a < base -> h_heap (hc_setup c junk m ga pa ow Ts) a = m_heap m a).
  Proof using.
    intros HB HA HI. unfold hc_setup. cbv zeta.
    set (s0 := mk_hst _ _ _ (c_sc0 c)).
    set (s1 := h_new cname_eq (CP yow) (AV ow) s0). set (s2 := h_new cname_eq (CP yT) (A3 Ts) s1).
    set (P0 := fun x => match x with CG _ => True | CP _ => False end).
    assert (G0 : good P0 base s0).
    { split; [exact HB|]. split.
      - intros [x|x] Hx; [apply HA|contradiction].
      - intros [x|x] [y|y] Hx Hy; try contradiction. cbn. intros E. f_equal. apply HI. exact E. }
    pose proof (good_new cname_eq _ _ _ (CP yow) (AV ow) G0) as G1. fold s1 in G1.
    pose proof (good_new cname_eq _ _ _ (CP yT) (A3 Ts) G1) as G2. fold s2 in G2.
    set (P := fun y => y = CP yT \/ y = CP yow \/ P0 y) in *.
    set (e0 := fun y : cname => match y with CG x => m_heap m (ga x) | CP yow => AV ow | CP yT => A3 Ts | _ => AM (mkmat 0 0 []) end).
    assert (HV : forall x, P x -> val s2 x = e0 x).
    { intros x [-> | [-> | Hx]].
      - unfold s2. rewrite (val_new cname_eq _ _ _ _ _ _ G1) by auto. apply upd_same.
      - unfold s2. rewrite (val_new cname_eq _ _ _ _ _ _ G1) by auto. rewrite upd_other by discriminate.
        unfold s1. rewrite (val_new cname_eq _ _ _ _ _ _ G0) by auto. apply upd_same.
      - destruct x as [x|x]; [|contradiction].
        unfold s2. rewrite (val_new cname_eq _ _ _ _ _ _ G1) by (right; right; exact I). rewrite upd_other by discriminate.
        unfold s1. rewrite (val_new cname_eq _ _ _ _ _ _ G0) by (right; exact I). rewrite upd_other by discriminate.
        reflexivity. }
    assert (F2 : frame base s0 s2).
    { eapply frame_trans; [exact (frame_new cname_eq _ _ _ (CP yow) (AV ow) G0)|].
      exact (frame_new cname_eq _ _ _ (CP yT) (A3 Ts) G1). }
    assert (HN : news_ok c_rd P (c_workspace c junk)).
    { unfold c_workspace, news_ok, reads, c_rd, c_Gamma, g_rd; cbn [fst snd k_ow k_T k_g f_Gamma].
      repeat (split; [intros ? ? ? HE; rewrite ?(HE (CG gGamma)), ?(HE (CP yow)), ?(HE (CP yT)) by (unfold P, P0; tauto); reflexivity|]).
      exact I. }
    destruct (news_sim cname_eq c_rd (c_workspace c junk) P base s2 e0 (c_sc0 c) HN G2 HV eq_refl)
      as (A1 & A2 & A3 & A4).
    assert (HD : forall x, adds P (c_workspace c junk) x) by (intros [x|x]; cbn; unfold P, P0; [tauto|destruct x; tauto]).
    eexists. split; [|split; [|split; [|split; [|split]]]].
    - split; [|split; [|exact A3]].
      + eapply good_weaken; [|exact A1]. intros x _. apply HD.
      + intros x. apply A2. apply HD.
    - intros x. reflexivity.
    - reflexivity.
    - intros x. reflexivity.
    - destruct A4 as [A4 _]. destruct F2 as [F2 _]. change (h_next s0) with (m_next m) in F2. lia.
    - intros a Ha. destruct A4 as [_ A4]. rewrite A4 by exact Ha. destruct F2 as [_ F2].
      rewrite F2 by exact Ha. reflexivity.
  Qed.

  (** ** the parameter fit *)
  Lemma hc_iterate_sim fuel (c : mtd_cfg T) junk base (m : mem) ga pa ow Ts k tol mx r s1 :
    base <= m_next m -> (forall x, base <= ga x < m_next m) -> (forall x y, ga x = ga y -> x = y) ->
    run_h cname_eq c_rd (pc_iterate fuel c k tol mx) (hc_setup c junk m ga pa ow Ts) = (r, s1) ->
    (m_next m <= h_next s1 /\ forall a, a < base -> h_heap s1 a = m_heap m a) /\
    (forall x, base <= h_attr s1 x < h_next s1) /\
    (forall x, h_attr s1 (CG x) = ga x /\ h_heap s1 (ga x) = m_heap m (ga x)) /\
    match bind (check_max_lag c) (fun _ =>
            iterate (crom_fit_residual c k (nr (am (m_heap m (ga gX)))) (am (m_heap m (ga gGamma))))
              (cost_increased (mc_monotone c))
              [crom_update_parameters fuel c k (nr (am (m_heap m (ga gX)))) (am (m_heap m (ga gGamma)))] tol mx
              (crom_initialize_workspace c (am (m_heap m (ga gGamma))) ow Ts)) with
    | Ok (w2, cost, n, log) => r = Ok (cost, n, log) /\ c_ws (c_rd (val s1)) (h_sc s1) = w2
    | Raise e => r = Raise e
    end.
  Proof using.
    intros HB HA HI HR. destruct (hc_setup_sim c junk base m ga pa ow Ts HB HA HI) as (e & HM & HG & HW & HT & HN & HF).
    pose proof (only_pc_iterate fuel c k tol mx) as HO.
    destruct (run_sim cname_eq c_rd c_rd_ext _ (only_noalias _ _ HO) _ _ _ _ HM) as (A1 & A2 & A3).
    pose proof (only_attr cname_eq c_rd _ _ HO (hc_setup c junk m ga pa ow Ts)) as HAT.
    pose proof (only_val cname_eq c_rd _ _ HO e (c_sc0 c)) as HVA.
    rewrite HR in A1, A2, A3, HAT. cbn [fst snd] in *.
    assert (HATT : forall x, h_attr s1 (CG x) = ga x) by (intros x; rewrite HAT by (intros []); apply HT).
    split; [|split; [|split]].
    - destruct A3 as [A3 A4]. split; [lia|]. intros a Ha. rewrite A4 by exact Ha. apply HF. exact Ha.
    - destruct A2 as ((_ & A2 & _) & _). intros x. apply A2. exact I.
    - intros x. split; [apply HATT|]. destruct A2 as (_ & HV & _). specialize (HV (CG x)).
      unfold val in HV. rewrite HATT, HVA, HG in HV by (intros []). exact HV.
    - assert (HREL : c_rel (am (m_heap m (ga gGamma))) (nr (am (m_heap m (ga gX)))) e (c_sc0 c)
                      (crom_initialize_workspace c (am (m_heap m (ga gGamma))) ow Ts)).
      { split; [exact HW|]. split.
        - unfold c_Gamma, c_rd, g_rd. cbn. rewrite HG. reflexivity.
        - unfold c_samples, c_rd, g_rd. cbn. rewrite HG. reflexivity. }
      pose proof (sim_crom_iterate fuel c k _ _ tol mx e (c_sc0 c) _ HREL) as HS.
      unfold computes in HS.
      destruct (bind _ _) as [[[[w2 cost] n] log]|x].
      + destruct HS as ([[c1 n1] l1] & e' & s' & E & -> & -> & -> & HR').
        rewrite E in A1, A2. cbn [fst snd] in *. split; [exact A1|].
        destruct A2 as (_ & HV & HSC). destruct HR' as (HR' & _). rewrite HSC, <- HR'. f_equal. apply c_rd_ext. exact HV.
      + rewrite A1. exact HS.
  Qed.

  Lemma c_valid_unchanged (m m' : mem) o : unchanged m m' -> c_valid m o -> c_valid m' o.
  Proof using.
    intros HU [HV HD]. split; [eapply g_valid_unchanged; eassumption|].
    intros a x E. eapply unchanged_in; eauto.
  Qed.
  Lemma c_abs_unchanged (m m' : mem) o : unchanged m m' -> c_valid m o -> c_abs m' o = c_abs m o.
  Proof using.
    intros HU [HV HD]. unfold c_abs. rewrite (g_abs_unchanged _ _ _ HU HV). f_equal.
    destruct (hc_attr o) as [a|]; [|reflexivity]. cbn.
    rewrite !(unchanged_val _ _ _ HU) by (apply HD; reflexivity). reflexivity.
  Qed.

  Lemma fit_unchanged fuel gj junk o (m : mem) data dict wts ud uw kw r o1 m1 :
    hc_fit_transform fuel gj junk o m data dict wts ud uw kw = (r, o1, m1) ->
    unchanged m m1 /\ (c_valid m o -> c_valid m1 o1) /\
    (forall a, r = Ok a -> fresh_for m a /\ exists_in m1 a).
  Proof using.
    unfold hc_fit_transform. destruct (hg_fit_transform _ _ _ _ _ _ _ _ _ _) as [[r0 g1] m0] eqn:E.
    pose proof (P_heap_gpnh_call.fit_unchanged _ _ _ _ _ _ _ _ _ _ _ _ _ E) as (A1 & A2 & A3).
    intros H.
    assert (H0 : unchanged m m0 /\ (c_valid m o -> c_valid m0 (mk_hcrom g1 (hc_lags o) (hc_attr o) (hc_sc o)))).
    { split; [exact A1|]. intros [V1 V2]. split; [apply A2; exact V1|]. intros a x Ea. eapply unchanged_in; [exact A1|]. apply (V2 a x Ea). }
    destruct r0 as [W|e]; [|injection H as <- <- <-; destruct H0; split; [assumption|]; split; [assumption|discriminate]].
    destruct (fit_more _ _ _ _ _ _ _ _ _ _ _ _ _ E) as (ga & Ea & EW & ED & HI & HF & _).
    rewrite Ea in H.
    destruct (check_params _ _ _) as [[[k mx] tol]|e];
      [|injection H as <- <- <-; destruct H0; split; [assumption|]; split; [assumption|discriminate]].
    destruct (initialize_parameters_random _ _ _) as [[ow Ts] g'].
    match type of H with context [run_h _ _ ?p ?s] => destruct (run_h cname_eq c_rd p s) as [x s1] eqn:ER end.
    apply (hc_iterate_sim _ _ _ (m_next m)) in ER as (B1 & B2 & B3 & _);
      [|apply A1|intros y; destruct (HF y); unfold fresh_for, exists_in in *; lia|exact HI].
    injection H as <- <- <-. destruct B1 as [B0 B1].
    assert (HU : unchanged m (mk_mem (h_heap s1) (h_next s1))).
    { destruct A1 as [A0 A1]. split; cbn; [lia|]. intros a Ha. rewrite B1 by exact Ha. apply A1. exact Ha. }
    split; [exact HU|]. split.
    - intros [V1 V2]. split; [split|]; cbn.
      + intros a y Hy. injection Hy as <-. unfold exists_in. cbn. apply B2.
      + intros y Hy. destruct (A2 V1) as [_ D]. specialize (D y Hy). unfold exists_in in *. cbn. lia.
      + intros a y Hy. injection Hy as <-. unfold exists_in. cbn. apply B2.
    - intros a Ha. destruct x as [y|e]; [|discriminate]. injection Ha as <-.
      specialize (B2 (CG gGamma)). unfold fresh_for, exists_in. cbn. lia.
  Qed.

  Lemma transform_unchanged fuel gj o (m : mem) data r o1 m1 :
    hc_transform fuel gj o m data = (r, o1, m1) ->
    unchanged m m1 /\ (c_valid m o -> c_valid m1 o1) /\ (forall a, r = Ok a -> fresh_for m a /\ exists_in m1 a).
  Proof using.
    unfold hc_transform. destruct (hg_transform _ _ _ _ _) as [[r0 g1] m0] eqn:E.
    apply P_heap_gpnh_call.transform_unchanged in E as (A1 & A2 & A3). intros H. injection H as <- <- <-.
    split; [exact A1|]. split; [|exact A3]. intros [V1 V2]. split; [apply A2; exact V1|].
    intros a x Ea. eapply unchanged_in; [exact A1|]. apply (V2 a x Ea).
  Qed.

  Lemma predict_unchanged fuel gj o (m : mem) data horizon r o1 m1 :
    hc_predict fuel gj o m data horizon = (r, o1, m1) ->
    unchanged m m1 /\ (c_valid m o -> c_valid m1 o1) /\ (forall a, r = Ok a -> fresh_for m a /\ exists_in m1 a).
  Proof using.
    unfold hc_predict. destruct (hc_transform fuel gj o m data) as [[r0 o0] m0] eqn:E.
    apply transform_unchanged in E as (A1 & A2 & A3). intros H. destruct r0 as [W|e].
    2:{ injection H as <- <- <-. split; [exact A1|]. split; [exact A2|]. discriminate. }
    destruct (ho_attr (hc_gpnh o0)) as [a|].
    2:{ injection H as <- <- <-. split; [exact A1|]. split; [exact A2|]. discriminate. }
    match type of H with (match ?x with Ok _ => _ | Raise _ => _ end) = _ => destruct x as [[PW m2]|e] eqn:EP end.
    2:{ injection H as <- <- <-. split; [exact A1|]. split; [exact A2|]. discriminate. }
    assert (HU : unchanged m0 m2).
    { destruct (horizon =? 0)%Z; [injection EP as _ <-; apply unchanged_refl|].
      destruct (hc_attr o0) as [pa|]; [|discriminate]. apply bind_ok in EP as (u & _ & EP).
      injection EP as _ <-. apply unchanged_alloc. }
    cbv zeta in H. destruct (Nat.eqb _ _).
    - injection H as <- <- <-.
      match goal with |- unchanged m ?M /\ _ =>
        assert (HU2 : unchanged m0 M) by (eapply unchanged_trans; [exact HU|apply (unchanged_alloc m2)]) end.
      split; [eapply unchanged_trans; [exact A1|exact HU2]|]. split.
      + intros HV. eapply c_valid_unchanged; [exact HU2|]. apply A2. exact HV.
      + intros x Hx. injection Hx as <-. destruct A1 as [A1 _]. destruct HU as [HU _].
        unfold fresh_for, exists_in. cbn. lia.
    - injection H as <- <- <-. split; [eapply unchanged_trans; [exact A1|exact HU]|]. split.
      + intros HV. eapply c_valid_unchanged; [exact HU|]. apply A2. exact HV.
      + discriminate.
  Qed.

  (** ** values *)
  Lemma fit_sim fuel gj junk o (m : mem) data dict wts ud uw kw r o1 m1 :
    exists_in m data -> arg_in m dict -> arg_in m wts -> c_valid m o ->
    hc_fit_transform fuel gj junk o m data dict wts ud uw kw = (r, o1, m1) ->
    match crom_fit_transform fuel (c_abs m o) (am (m_heap m data)) (vals m dict) (vals m wts) ud uw kw with
    | Ok (run, W) => exists a, r = Ok a /\ am (m_heap m1 a) = W /\ c_abs m1 o1 = cr_obj run
    | Raise e => r = Raise e
    end.
  Proof using.
    intros Hx Hd Hw [HV HV2]. unfold hc_fit_transform, crom_fit_transform. cbn [co_gpnh c_abs co_lags].
    destruct (hg_fit_transform _ _ _ _ _ _ _ _ _ _) as [[r0 g1] m0] eqn:E.
    pose proof (P_heap_gpnh_call.fit_sim _ _ _ _ _ _ _ _ _ _ _ _ _ Hx Hd Hw HV E) as HS. intros H.
    destruct (fit_transform _ _ _ _ _ _ _ _) as [[run W]|e]; cbn [bind].
    2:{ subst r0. injection H as <- <- <-. reflexivity. }
    destruct HS as (aW & -> & HW & HO).
    pose proof (P_heap_gpnh_call.fit_unchanged _ _ _ _ _ _ _ _ _ _ _ _ _ E) as (A1 & _ & _).
    destruct (fit_more _ _ _ _ _ _ _ _ _ _ _ _ _ E) as (ga & Ea & EW & ED & HI & HF & HX).
    specialize (HX Hx Hd Hw). rewrite Ea in H. rewrite <- HO. cbn [go_cfg go_n_components go_rng g_abs].
    destruct (check_params _ _ _) as [[[k mx] tol]|e]; cbn [bind]; [|injection H as <- <- <-; reflexivity].
    unfold crom_fit_parameters.
    destruct (initialize_parameters_random _ _ _) as [[ow Ts] g'].
    match type of H with context [run_h _ _ ?p ?s] => destruct (run_h cname_eq c_rd p s) as [x s1] eqn:ER end.
    apply (hc_iterate_sim _ _ _ (m_next m)) in ER as (B1 & B2 & B3 & BS);
      [|apply A1|intros y; destruct (HF y); unfold fresh_for, exists_in in *; lia|exact HI].
    subst aW. rewrite HX, HW in BS.
    destruct (check_max_lag _) as [u|e]; cbn [bind] in *; [|subst x; injection H as <- <- <-; reflexivity].
    destruct (iterate _ _ _ _ _ _) as [[[[w2 cost] n] log]|e]; cbn [bind]; [|subst x; injection H as <- <- <-; reflexivity].
    destruct BS as (-> & BS). injection H as <- <- <-.
    eexists. split; [reflexivity|]. cbn [m_heap]. destruct (B3 gGamma) as [B3a B3b].
    split; [rewrite B3a, B3b; exact HW|]. cbn [cr_obj]. rewrite <- BS.
    unfold c_abs, g_abs, set_rng. cbn. f_equal. f_equal.
    - rewrite Ea. cbn. f_equal. f_equal. apply g_rd_ext. intros y. destruct (B3 y) as [-> ->]. reflexivity.
    - rewrite ED. cbn. destruct (B3 gS) as [_ ->]. reflexivity.
  Qed.

  Lemma transform_sim fuel gj o (m : mem) data r o1 m1 :
    exists_in m data -> c_valid m o ->
    hc_transform fuel gj o m data = (r, o1, m1) ->
    match crom_transform fuel (c_abs m o) (am (m_heap m data)) with
    | Ok (o2, run, W) => exists a, r = Ok a /\ am (m_heap m1 a) = W /\ c_abs m1 o1 = o2
    | Raise e => r = Raise e
    end.
  Proof using.
    intros Hx [HV HV2]. unfold hc_transform, crom_transform. cbn [co_gpnh co_lags co_parameters c_abs].
    destruct (hg_transform _ _ _ _ _) as [[r0 g1] m0] eqn:E.
    pose proof (P_heap_gpnh_call.transform_unchanged _ _ _ _ _ _ _ _ E) as (HU & _ & _).
    pose proof (P_heap_gpnh_call.transform_sim _ _ _ _ _ _ _ _ Hx HV E) as HS. intros H. injection H as <- <- <-.
    destruct (transform _ _ _) as [[run W]|e]; cbn [bind]; [|exact HS].
    destruct HS as (a & -> & HW & HO). exists a. split; [reflexivity|]. split; [exact HW|].
    unfold c_abs. cbn. rewrite HO. f_equal. destruct (hc_attr o) as [pa|]; [|reflexivity]. cbn.
    rewrite !(unchanged_val _ _ _ HU) by (apply HV2; reflexivity). reflexivity.
  Qed.

  Lemma predict_sim fuel gj o (m : mem) data horizon r o1 m1 :
    exists_in m data -> c_valid m o ->
    hc_predict fuel gj o m data horizon = (r, o1, m1) ->
    match crom_predict fuel (c_abs m o) (am (m_heap m data)) horizon with
    | Ok (o2, run, Y) => exists a, r = Ok a /\ am (m_heap m1 a) = Y /\ c_abs m1 o1 = o2
    | Raise e => r = Raise e
    end.
  Proof using.
    intros Hx HV. unfold hc_predict, crom_predict.
    destruct (hc_transform fuel gj o m data) as [[r0 o0] m0] eqn:E.
    pose proof (transform_unchanged _ _ _ _ _ _ _ _ E) as (A1 & A2 & A3).
    pose proof (transform_sim _ _ _ _ _ _ _ _ Hx HV E) as HS. specialize (A2 HV). intros H.
    destruct (crom_transform _ _ _) as [[[o2 run] W]|e] eqn:ET; cbn [bind].
    2:{ subst r0. injection H as <- <- <-. reflexivity. }
    destruct HS as (aW & -> & HW & HO). specialize (A3 _ eq_refl) as (_ & IW).
    assert (Eo : hc_attr o0 = hc_attr o).
    { unfold hc_transform in E. destruct (hg_transform _ _ _ _ _) as [[? ?] ?]. injection E as _ <- _. reflexivity. }
    assert (EP0 : forall pa, hc_attr o = Some pa -> m_heap m0 (pa yow) = m_heap m (pa yow) /\ m_heap m0 (pa yT) = m_heap m (pa yT)).
    { intros pa Hpa. split; apply (unchanged_val _ _ _ A1); apply (proj2 HV); exact Hpa. }
    rewrite <- HO. unfold inverse_transform. cbn [co_gpnh c_abs co_parameters co_lags].
    destruct (ho_attr (hc_gpnh o0)) as [a|] eqn:Ea.
    2:{ exfalso. unfold crom_transform in ET. apply bind_ok in ET as ([run' W'] & ET & ET2). injection ET2 as <- <- <-.
        unfold transform in ET. apply bind_ok in ET as (g & _ & ET). destruct (go_ws (gr_obj g)) eqn:Eg; [|discriminate].
        injection ET as <- _. apply (f_equal co_gpnh) in HO. cbn in HO. rewrite <- HO in Eg. unfold g_abs in Eg. cbn in Eg.
        rewrite Ea in Eg. discriminate. }
    assert (EW : go_ws (g_abs m0 (hc_gpnh o0)) = Some (g_ws (g_rd (fun x => m_heap m0 (a x))) (ho_sc (hc_gpnh o0))))
      by (unfold g_abs; cbn [go_ws]; rewrite Ea; reflexivity).
    rewrite EW. cbn [w_S g_ws g_rd f_S].
    assert (IS : exists_in m0 (a gS)) by (apply (proj1 (proj1 A2)); exact Ea).
    rewrite Eo in H.
    match goal with |- match bind ?F _ with _ => _ end =>
      match type of H with (match ?h with _ => _ end) = _ =>
        assert (HP : match F with Ok P => exists PW m2, h = Ok (PW, m2) /\ unchanged m0 m2 /\ am (m_heap m2 PW) = P
                            | Raise e => h = Raise e end) end end.
    { destruct (horizon =? 0)%Z.
      - eexists. eexists. split; [reflexivity|]. split; [apply unchanged_refl|exact HW].
      - destruct (hc_attr o) as [pa|]; cbn [option_map]; [|reflexivity].
        cbn [go_cfg g_abs]. destruct (check_max_lag _); cbn [bind]; [|reflexivity].
        destruct (EP0 pa eq_refl) as [-> ->]. rewrite HW.
        eexists. eexists. split; [unfold alloc; reflexivity|]. split; [apply unchanged_alloc|].
        cbn. unfold hwrite. rewrite Nat.eqb_refl. reflexivity. }
    match goal with |- match bind ?F _ with _ => _ end => destruct F as [P|e] end; cbn [bind].
    2:{ rewrite HP in H. injection H as <- <- <-. reflexivity. }
    destruct HP as (PW & m2 & EP & HU & HPV). rewrite EP in H. cbv zeta in H.
    rewrite HPV, (unchanged_val _ _ _ HU IS) in H.
    destruct (Nat.eqb _ _); cbn [bind]; injection H as <- <- <-; [|reflexivity].
    eexists. split; [reflexivity|]. split.
    - cbn. unfold hwrite. rewrite Nat.eqb_refl. reflexivity.
    - rewrite HO. rewrite <- HO. apply c_abs_unchanged; [|exact A2]. eapply unchanged_trans; [exact HU|apply (unchanged_alloc m2)].
  Qed.
End PCC.
