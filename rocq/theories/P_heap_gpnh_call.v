(** The calls of GPNHConvexCoding on the heap. *)
From Coq Require Import List Arith ZArith Bool Lia.
From Verif Require Import Num Mat Py M_simplex M_spg M_iter M_random M_furthest M_gpnh
  Heap M_heap M_heap_gpnh Spec_heap Spec_heap_obj P_heap P_heap_loops P_heap_gpnh P_heap_call.
Import ListNotations.

Section PGC.
  Context {T : Type} {N : Num T}.
  Notation run_e := (run_e gname_eq g_rd).
  Notation run_h := (run_h gname_eq g_rd).
  Notation vals m := (option_map (fun a => am (m_heap m a))).
  Notation mem := (mem (arr T)).

  Lemma hg_choose_unchanged (c : gpnh_cfg T) k (m : mem) data dict wts ud uw kw g d w g' m1 :
    hg_choose c k m data dict wts ud uw kw g = Ok (d, w, g', m1) -> unchanged m m1.
  Proof using.
    unfold hg_choose. intros H. destruct (gc_init c);
      [ | | | apply bind_ok in H as (? & _ & H); apply bind_ok in H as (? & _ & H);
              apply bind_ok in H as (? & _ & H); apply bind_ok in H as (? & _ & H);
              injection H as _ _ _ <-; apply unchanged_refl | ].
    all: destruct (negb ud && uw);
      [ apply bind_ok in H as (? & _ & H); apply bind_ok in H as (? & _ & H); destruct kw; [discriminate|];
        apply bind_ok in H as (r & _ & H); injection H as _ _ _ <-; apply unchanged_alloc | ].
    all: destruct (ud && negb uw);
      [ apply bind_ok in H as (? & _ & H); apply bind_ok in H as (? & _ & H);
        apply bind_ok in H as (r & _ & H); injection H as _ _ _ <-; apply unchanged_alloc | ].
    all: apply bind_ok in H as (r & _ & H); cbn [alloc] in H;
      apply bind_ok in H as (r2 & _ & H); injection H as _ _ _ <-;
      eapply unchanged_trans; [apply (unchanged_alloc m (AM (fst r)))|];
      apply (unchanged_alloc (snd (alloc m (AM (fst r)))) (AM (fst r2))).
  Qed.

  Definition choose_post (m : mem) (a : nat * nat * rng T * mem) (b : mat T * mat T * rng T) : Prop :=
    let '(d, w, g, m1) := a in let '(D, W, g') := b in
    unchanged m m1 /\ am (m_heap m1 d) = D /\ am (m_heap m1 w) = W /\ g = g' /\ exists_in m1 d /\ exists_in m1 w.

  Lemma hg_choose_sim (c : gpnh_cfg T) k (m : mem) data dict wts ud uw kw g :
    arg_in m dict -> arg_in m wts ->
    match choose_initial c k (am (m_heap m data)) (vals m dict) (vals m wts) ud uw kw g with
    | Ok b => exists a, hg_choose c k m data dict wts ud uw kw g = Ok a /\ choose_post m a b
    | Raise e => hg_choose c k m data dict wts ud uw kw g = Raise e
    end.
  Proof using.
    intros Hd Hw. unfold choose_initial, hg_choose. cbv zeta. destruct (gc_init c);
      [ | | | destruct (check_init_weights _ _ _) as [W|e] eqn:EW; cbn [bind]; [|reflexivity];
              apply given_W in EW as (aw & -> & <-);
              destruct (check_init_dictionary _ _ _) as [D|e] eqn:ED; cbn [bind]; [|reflexivity];
              apply given_D in ED as (ad & -> & <-); cbn [bind];
              eexists; split; [reflexivity|]; split; [apply unchanged_refl|]; auto 6 | ].
    all: destruct (negb ud && uw);
      [ destruct (check_init_dictionary _ _ _) as [D|e] eqn:ED; cbn [bind]; [|reflexivity];
        apply given_D in ED as (a & -> & <-); cbn [bind]; destruct kw; [reflexivity|];
        destruct (initialize_weights _ _ _ _) as [r|e]; cbn [bind]; [|reflexivity];
        eexists; split; [reflexivity|];
        pose proof (unchanged_alloc m (AM (fst r))) as HU; pose proof (Hd _ eq_refl) as Ha;
        split; [exact HU|]; split; [exact (f_equal am (unchanged_val _ _ _ HU Ha))|];
        split; [exact (f_equal am (alloc_val m (AM (fst r))))|]; split; [reflexivity|];
        split; [exact (unchanged_in _ _ _ HU Ha)|unfold exists_in; cbn; lia] | ].
    all: destruct (ud && negb uw);
      [ destruct (check_init_weights _ _ _) as [W|e] eqn:EW; cbn [bind]; [|reflexivity];
        apply given_W in EW as (a & -> & <-); cbn [bind];
        destruct (initialize_dictionary _ _ _ _ _) as [r|e]; cbn [bind]; [|reflexivity];
        eexists; split; [reflexivity|];
        pose proof (unchanged_alloc m (AM (fst r))) as HU; pose proof (Hw _ eq_refl) as Ha;
        split; [exact HU|]; split; [exact (f_equal am (alloc_val m (AM (fst r))))|];
        split; [exact (f_equal am (unchanged_val _ _ _ HU Ha))|]; split; [reflexivity|];
        split; [unfold exists_in; cbn; lia|exact (unchanged_in _ _ _ HU Ha)] | ].
    all: destruct (initialize_dictionary _ _ _ _ _) as [r|e]; cbn [bind alloc]; [|reflexivity];
      destruct (initialize_weights _ _ _ _) as [r2|e]; cbn [bind]; [|reflexivity];
      eexists; split; [reflexivity|];
      pose proof (unchanged_alloc m (AM (fst r))) as HU;
      set (m1 := snd (alloc m (AM (fst r)))) in *;
      pose proof (unchanged_alloc m1 (AM (fst r2))) as HU2;
      assert (Hin : exists_in m1 (m_next m)) by (unfold exists_in; cbn; lia);
      split; [exact (unchanged_trans _ _ _ HU HU2)|];
      split; [exact (eq_trans (f_equal am (unchanged_val _ _ _ HU2 Hin)) (f_equal am (alloc_val m (AM (fst r)))))|];
      split; [exact (f_equal am (alloc_val m1 (AM (fst r2))))|]; split; [reflexivity|];
      split; [exact (unchanged_in _ _ _ HU2 Hin)|unfold exists_in; cbn; lia].
  Qed.

  (** the state in which the iteration starts *)
  Lemma hg_setup_sim (c : gpnh_cfg T) junk (m : mem) attr data d w :
    exists e, models (m_next m) (hg_setup c junk m attr data d w) e (g_sc0 c) /\
      (exists_in m data -> exists_in m d -> exists_in m w ->
       forall old, g_ws (g_rd e) (g_sc0 c) =
         initialize_workspace c (mk_gws (am (m_heap m data)) (am (m_heap m w)) (am (m_heap m d))
           (w_GtG old) (w_GtX old) (w_XSt old) (w_SSt old) (w_alpha_Gamma old) (w_alpha_S old)
           (w_f_S_mem old) (w_f_Gamma_mem old))) /\
      (forall a, a < m_next m -> h_heap (hg_setup c junk m attr data d w) a = m_heap m a).
  Proof using.
    unfold hg_setup. cbv zeta.
    set (s0 := mk_hst (m_heap m) (m_next m) attr (g_sc0 c)).
    set (X := h_heap s0 data). set (s1 := h_new gname_eq gX X s0).
    set (W := h_heap s1 w). set (s2 := h_new gname_eq gGamma W s1).
    set (D := h_heap s2 d). set (s3 := h_new gname_eq gS D s2).
    assert (G0 : good (fun _ => False) (m_next m) s0) by (split; [cbn; lia|split; intros; contradiction]).
    pose proof (good_new gname_eq _ _ _ gX X G0) as G1. fold s1 in G1.
    pose proof (good_new gname_eq _ _ _ gGamma W G1) as G2. fold s2 in G2.
    pose proof (good_new gname_eq _ _ _ gS D G2) as G3. fold s3 in G3.
    set (P := fun y => y = gS \/ y = gGamma \/ y = gX \/ False) in *.
    set (e0 := fun y : gname => match y with gX => X | gGamma => W | gS => D | _ => AM (mkmat 0 0 []) end).
    assert (HV : forall x, P x -> val s3 x = e0 x).
    { intros x [-> | [-> | [-> | []]]].
      - unfold s3. rewrite (val_new gname_eq _ _ _ _ _ _ G2) by auto. apply upd_same.
      - unfold s3. rewrite (val_new gname_eq _ _ _ _ _ _ G2) by auto. rewrite upd_other by discriminate.
        unfold s2. rewrite (val_new gname_eq _ _ _ _ _ _ G1) by auto. apply upd_same.
      - unfold s3. rewrite (val_new gname_eq _ _ _ _ _ _ G2) by auto. rewrite upd_other by discriminate.
        unfold s2. rewrite (val_new gname_eq _ _ _ _ _ _ G1) by auto. rewrite upd_other by discriminate.
        unfold s1. rewrite (val_new gname_eq _ _ _ _ _ _ G0) by auto. apply upd_same. }
    assert (F3 : frame (m_next m) s0 s3).
    { eapply frame_trans; [exact (frame_new gname_eq _ _ _ gX X G0)|].
      eapply frame_trans; [exact (frame_new gname_eq _ _ _ gGamma W G1)|].
      exact (frame_new gname_eq _ _ _ gS D G2). }
    assert (HN : news_ok g_rd P (g_workspace junk)).
    { unfold g_workspace, news_ok, reads, g_rd; cbn [fst snd f_X f_Gamma f_S].
      repeat (split; [intros ? ? ? HE; rewrite ?(HE gGamma), ?(HE gX), ?(HE gS) by (unfold P; tauto); reflexivity|]).
      exact I. }
    destruct (news_sim gname_eq g_rd (g_workspace junk) P (m_next m) s3 e0 (g_sc0 c) HN G3 HV eq_refl)
      as (A1 & A2 & A3 & A4).
    assert (HA : forall x, adds P (g_workspace junk) x) by (intros x; cbn; unfold P; destruct x; tauto).
    eexists. split; [|split].
    - split; [|split; [|exact A3]].
      + eapply good_weaken; [|exact A1]. intros x _. apply HA.
      + intros x. apply A2. apply HA.
    - intros Hx Hd Hw old. unfold exists_in in *.
      assert (EW : W = m_heap m w).
      { unfold W, s1. cbn. unfold hwrite. destruct (Nat.eqb_spec w (m_next m)); [lia|reflexivity]. }
      assert (ED : D = m_heap m d).
      { unfold D, s2, s1. cbn. unfold hwrite. destruct (Nat.eqb_spec d (S (m_next m))); [lia|].
        destruct (Nat.eqb_spec d (m_next m)); [lia|reflexivity]. }
      rewrite <- EW, <- ED. reflexivity.
    - intros a Ha. destruct A4 as [_ A4]. rewrite A4 by exact Ha. destruct F3 as [_ F3].
      rewrite F3 by exact Ha. reflexivity.
  Qed.
  (** The run on the heap, started from the set-up state. *)
  Lemma hg_iterate_sim fuel (c : gpnh_cfg T) junk (m : mem) attr data d w k ud uw tol mx r s1 :
    run_h (pg_iterate fuel c k ud uw tol mx) (hg_setup c junk m attr data d w) = (r, s1) ->
    (m_next m <= h_next s1 /\ forall a, a < m_next m -> h_heap s1 a = m_heap m a) /\
    (forall x, m_next m <= h_attr s1 x < h_next s1) /\
    (exists_in m data -> exists_in m d -> exists_in m w -> forall old,
      match gpnh_iterate fuel c k ud uw tol mx
              (initialize_workspace c (mk_gws (am (m_heap m data)) (am (m_heap m w)) (am (m_heap m d))
                 (w_GtG old) (w_GtX old) (w_XSt old) (w_SSt old) (w_alpha_Gamma old) (w_alpha_S old)
                 (w_f_S_mem old) (w_f_Gamma_mem old))) with
      | Ok (w2, cost, n, log) => r = Ok (cost, n, log) /\ g_ws (g_rd (val s1)) (h_sc s1) = w2
      | Raise e => r = Raise e
      end).
  Proof using.
    intros HR. destruct (hg_setup_sim c junk m attr data d w) as (e & HM & HW & HF).
    destruct (run_sim gname_eq g_rd g_rd_ext _ (noalias_pg_iterate fuel c k ud uw tol mx) _ _ _ _ HM)
      as (A1 & A2 & A3).
    rewrite HR in A1, A2, A3. cbn [fst snd] in *. split; [|split].
    - destruct A3 as [A3 A4]. destruct HM as ((HN & _) & _). split; [lia|].
      intros a Ha. rewrite A4 by exact Ha. apply HF. exact Ha.
    - destruct A2 as ((_ & A2 & _) & _). intros x. apply A2. exact I.
    - intros Hx Hd Hw old. specialize (HW Hx Hd Hw old).
      pose proof (sim_iterate fuel c k ud uw tol mx e (g_sc0 c) _ HW) as HS.
      unfold computes in HS.
      destruct (gpnh_iterate _ _ _ _ _ _ _ _) as [[[[w2 cost] n] log]|x].
      + destruct HS as ([[c1 n1] l1] & e' & s' & E & -> & -> & -> & HR').
        rewrite E in A1, A2. cbn [fst snd] in *. split; [exact A1|].
        destruct A2 as (_ & HV & HSC). rewrite HSC, <- HR'. f_equal. apply g_rd_ext. exact HV.
      + rewrite A1. exact HS.
  Qed.

  Notation coding := hg_convex_coding.
  Lemma coding_unchanged fuel junk o (m : mem) data dict wts ud uw kw r o1 m1 :
    coding fuel junk o m data dict wts ud uw kw = (r, o1, m1) ->
    unchanged m m1 /\
    (forall x, r = Ok x -> exists a, ho_attr o1 = Some a /\ forall y, fresh_for m (a y) /\ exists_in m1 (a y)) /\
    (g_valid m o -> g_valid m1 o1).
  Proof using.
    unfold hg_convex_coding. intros H.
    destruct (check_params _ _ _) as [[[k mx] tol]|e];
      [|injection H as <- <- <-; split; [apply unchanged_refl|]; split; [discriminate|]; intros HV; exact HV].
    destruct (hg_choose _ _ _ _ _ _ _ _ _ _) as [[[[d w] g] m2]|e] eqn:EC;
      [|injection H as <- <- <-; split; [apply unchanged_refl|]; split; [discriminate|]; intros HV; exact HV].
    apply hg_choose_unchanged in EC.
    destruct (run_h _ _) as [r' s1] eqn:ER. apply hg_iterate_sim in ER as (A1 & A2 & _).
    injection H as <- <- <-.
    assert (HU : unchanged m (mk_mem (h_heap s1) (h_next s1))) by (eapply unchanged_trans; [exact EC|exact A1]).
    split; [exact HU|]. split.
    - intros x _. exists (h_attr s1). split; [reflexivity|]. intros y. specialize (A2 y). destruct EC as [EC _].
      unfold fresh_for, exists_in; cbn. lia.
    - intros [_ HV]. split; cbn.
      + intros a x E. injection E as <-. unfold exists_in. cbn. apply A2.
      + intros x Hx. eapply unchanged_in; [exact HU|]. apply HV. exact Hx.
  Qed.

  Lemma coding_sim fuel junk o (m : mem) data dict wts ud uw kw r o1 m1 :
    exists_in m data -> arg_in m dict -> arg_in m wts -> g_valid m o ->
    coding fuel junk o m data dict wts ud uw kw = (r, o1, m1) ->
    match gpnh_convex_coding fuel (g_abs m o) (am (m_heap m data)) (vals m dict) (vals m wts) ud uw kw with
    | Ok run => r = Ok (gr_cost run, gr_n_iter run, gr_log run, gr_warned run) /\ g_abs m1 o1 = gr_obj run
    | Raise e => r = Raise e
    end.
  Proof using.
    intros Hx Hd Hw HV H. pose proof (coding_unchanged _ _ _ _ _ _ _ _ _ _ _ _ _ H) as (HU & _ & _).
    unfold hg_convex_coding in H. unfold gpnh_convex_coding.
    cbn [go_cfg go_n_components go_rng g_abs] in *.
    destruct (check_params _ _ _) as [[[k mx] tol]|e]; cbn [bind]; [|injection H as <- <- <-; reflexivity].
    pose proof (hg_choose_sim (ho_cfg o) k m data dict wts ud uw kw (ho_rng o) Hd Hw) as HC.
    destruct (choose_initial _ _ _ _ _ _ _ _ _) as [[[D W] g]|e]; cbn [bind].
    2:{ rewrite HC in H. injection H as <- <- <-. reflexivity. }
    destruct HC as ([[[d w] g'] m2] & HC & HU2 & <- & <- & -> & Hd2 & Hw2). rewrite HC in H.
    destruct (run_h _ _) as [r' s1] eqn:ER. apply hg_iterate_sim in ER as (_ & _ & HS).
    specialize (HS (unchanged_in _ _ _ HU2 Hx) Hd2 Hw2).
    rewrite (unchanged_val _ _ _ HU2 Hx) in HS.
    match goal with |- context [initialize_workspace _ (mk_gws _ _ _ (w_GtG ?w) _ _ _ _ _ _ _)] => specialize (HS w) end.
    injection H as <- <- <-.
    destruct (gpnh_iterate _ _ _ _ _ _ _ _) as [[[[w2 cost] n] log]|x]; cbn [bind].
    - destruct HS as (-> & HS). cbn [bind gr_cost gr_n_iter gr_log gr_warned gr_obj]. split; [reflexivity|].
      unfold g_abs. cbn [ho_cfg ho_n_components ho_rng ho_attr ho_sc ho_dictionary_ ho_cost_ ho_n_iter_
        ho_n_components_ option_map go_dictionary_ go_cost_ go_n_iter_ go_n_components_].
      rewrite <- HS. destruct HV as [_ HV].
      f_equal. destruct (ho_dictionary_ o) as [x|]; [|reflexivity]. cbn. f_equal. f_equal.
      apply (unchanged_val _ _ _ HU). apply HV. reflexivity.
    - rewrite HS. reflexivity.
  Qed.

  Lemma fit_unchanged fuel junk o (m : mem) data dict wts ud uw kw r o1 m1 :
    hg_fit_transform fuel junk o m data dict wts ud uw kw = (r, o1, m1) ->
    unchanged m m1 /\ (g_valid m o -> g_valid m1 o1) /\
    (forall a, r = Ok a -> fresh_for m a /\ exists_in m1 a /\
       exists d, ho_dictionary_ o1 = Some d /\ fresh_for m d /\ exists_in m1 d).
  Proof using.
    unfold hg_fit_transform. destruct (coding fuel junk o m data dict wts ud uw kw) as [[r0 o0] m0] eqn:E.
    apply coding_unchanged in E as (A1 & A2 & A3). intros H.
    destruct r0 as [[[[cost n] log] wn]|e].
    - destruct (A2 _ eq_refl) as (a & Ea & Ha). rewrite Ea in H. injection H as <- <- <-.
      split; [exact A1|]. split.
      + intros HV. destruct (A3 HV) as [B1 B2]. split; cbn.
        * intros b x Eb. apply (B1 b x). congruence.
        * intros x Hx. injection Hx as <-. apply Ha.
      + intros x Hx. injection Hx as <-. split; [apply Ha|]. split; [apply Ha|].
        exists (a gS). split; [reflexivity|]. apply Ha.
    - injection H as <- <- <-. split; [exact A1|]. split; [exact A3|]. discriminate.
  Qed.

  Lemma transform_unchanged fuel junk o (m : mem) data r o1 m1 :
    hg_transform fuel junk o m data = (r, o1, m1) ->
    unchanged m m1 /\ (g_valid m o -> g_valid m1 o1) /\
    (forall a, r = Ok a -> fresh_for m a /\ exists_in m1 a).
  Proof using.
    unfold hg_transform. destruct (coding _ _ _ _ _ _ _ _ _ _) as [[r0 o0] m0] eqn:E.
    apply coding_unchanged in E as (A1 & A2 & A3). intros H. destruct r0 as [x|e].
    - destruct (A2 _ eq_refl) as (a & Ea & Ha). rewrite Ea in H. injection H as <- <- <-.
      split; [exact A1|]. split; [exact A3|]. intros y Hy. injection Hy as <-. apply Ha.
    - injection H as <- <- <-. split; [exact A1|]. split; [exact A3|]. discriminate.
  Qed.

  Lemma fit_sim fuel junk o (m : mem) data dict wts ud uw kw r o1 m1 :
    exists_in m data -> arg_in m dict -> arg_in m wts -> g_valid m o ->
    hg_fit_transform fuel junk o m data dict wts ud uw kw = (r, o1, m1) ->
    match fit_transform fuel (g_abs m o) (am (m_heap m data)) (vals m dict) (vals m wts) ud uw kw with
    | Ok (run, W) => exists a, r = Ok a /\ am (m_heap m1 a) = W /\ g_abs m1 o1 = gr_obj run
    | Raise e => r = Raise e
    end.
  Proof using.
    intros Hx Hd Hw HV. unfold hg_fit_transform, fit_transform.
    destruct (coding fuel junk o m data dict wts ud uw kw) as [[r0 o0] m0] eqn:E.
    pose proof (coding_unchanged _ _ _ _ _ _ _ _ _ _ _ _ _ E) as (_ & A2 & _).
    pose proof (coding_sim _ _ _ _ _ _ _ _ _ _ _ _ _ Hx Hd Hw HV E) as HS. intros H.
    destruct (gpnh_convex_coding _ _ _ _ _ _ _ _) as [run|e]; cbn [bind].
    - destruct HS as (-> & HS). destruct (A2 _ eq_refl) as (a & Ea & _). rewrite Ea in H.
      injection H as <- <- <-. rewrite <- HS. unfold g_abs. cbn [go_ws]. rewrite Ea. cbn [option_map].
      exists (a gGamma). split; [reflexivity|]. split; [reflexivity|]. cbn; try rewrite Ea; reflexivity.
    - subst r0. injection H as <- <- <-. reflexivity.
  Qed.

  Lemma transform_sim fuel junk o (m : mem) data r o1 m1 :
    exists_in m data -> g_valid m o ->
    hg_transform fuel junk o m data = (r, o1, m1) ->
    match transform fuel (g_abs m o) (am (m_heap m data)) with
    | Ok (run, W) => exists a, r = Ok a /\ am (m_heap m1 a) = W /\ g_abs m1 o1 = gr_obj run
    | Raise e => r = Raise e
    end.
  Proof using.
    intros Hx HV. unfold hg_transform, transform.
    set (Sd := match ho_attr o with Some a => Some (a gS) | None => None end).
    assert (ES : match go_ws (g_abs m o) with Some w => Some (w_S w) | None => None end = vals m Sd).
    { unfold Sd. cbn. destruct (ho_attr o); reflexivity. }
    rewrite ES.
    assert (HSd : arg_in m Sd).
    { intros x. unfold Sd. destruct (ho_attr o) as [a|] eqn:Ea; [|discriminate]. intros Hx'. injection Hx' as <-.
      apply (proj1 HV). exact Ea. }
    destruct (coding fuel junk o m data Sd None false true None) as [[r0 o0] m0] eqn:E.
    pose proof (coding_unchanged _ _ _ _ _ _ _ _ _ _ _ _ _ E) as (_ & A2 & _).
    assert (HN : arg_in m None) by (intros ? ?; discriminate).
    pose proof (coding_sim _ _ _ _ _ _ _ _ _ _ _ _ _ Hx HSd HN HV E) as HS. intros H.
    cbn [option_map] in HS.
    destruct (gpnh_convex_coding _ _ _ _ _ _ _ _) as [run|e]; cbn [bind].
    - destruct HS as (-> & HS). destruct (A2 _ eq_refl) as (a & Ea & _). rewrite Ea in H.
      injection H as <- <- <-. rewrite <- HS. unfold g_abs at 1. cbn [go_ws]. rewrite Ea. cbn [option_map].
      exists (a gGamma). split; [reflexivity|]. split; [reflexivity|exact HS].
    - subst r0. injection H as <- <- <-. reflexivity.
  Qed.

  Lemma g_abs_unchanged (m m' : mem) o : unchanged m m' -> g_valid m o -> g_abs m' o = g_abs m o.
  Proof using.
    intros HU [HV HD]. unfold g_abs. f_equal.
    - destruct (ho_attr o) as [a|]; [|reflexivity]. cbn. f_equal. f_equal. apply g_rd_ext.
      intros x. apply (unchanged_val _ _ _ HU). apply HV. reflexivity.
    - destruct (ho_dictionary_ o) as [d|]; [|reflexivity]. cbn. f_equal. f_equal.
      apply (unchanged_val _ _ _ HU). apply HD. reflexivity.
  Qed.
  Lemma g_valid_unchanged (m m' : mem) o : unchanged m m' -> g_valid m o -> g_valid m' o.
  Proof using.
    intros HU [HV HD]. split; [intros a x E|intros x E]; eapply unchanged_in; eauto.
  Qed.
End PGC.
