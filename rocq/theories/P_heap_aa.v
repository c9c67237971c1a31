(** KernelAA on the heap: no array is shared between attributes, and the values are those of M_aa.v. *)
From Coq Require Import List Arith ZArith Bool Lia.
From Verif Require Import Num Mat Py M_simplex M_spg M_iter M_random M_furthest M_gpnh M_aa
  Heap M_heap M_heap_aa Spec_heap P_heap P_heap_loops.
Import ListNotations.

Section PA.
  Context {T : Type} {N : Num T}.
  Notation run_e := (run_e aname_eq a_rd).
  Notation computes := (computes aname_eq a_rd).
  Notation upd := (upd aname_eq).

  Lemma a_rd_ext (e e' : aname -> arr T) : (forall x, e x = e' x) -> a_rd e = a_rd e'.
  Proof using. intros H. unfold a_rd. rewrite !H. reflexivity. Qed.

  (** ** no aliasing statements *)
  Lemma noalias_products (c : aa_cfg T) st :
    (forall x f, noalias (st x f)) -> noalias (pa_products st c).
  Proof using.
    intros H. unfold pa_products, when_scaled.
    destruct (nltb _ _); do 3 (apply noalias_bind; [first [apply H|exact I]|intros _]); first [apply H|exact I].
  Qed.
  Lemma noalias_newm x (f : aat T -> asc T -> mat T) : noalias (anewm x f).
  Proof using. exact I. Qed.
  Lemma noalias_inplacem x (f : aat T -> asc T -> mat T) : noalias (ainplacem x f).
  Proof using. exact I. Qed.
  Ltac na := repeat first
    [ exact I
    | match goal with |- noalias (pa_dictionary_line_search _ _) => apply noalias_line_search; intros end
    | match goal with |- noalias (pa_weights_line_search _ _) => apply noalias_line_search; intros end
    | match goal with |- noalias (pa_products _ _) => apply noalias_products; intros end
    | apply noalias_bind; [|intros]
    | apply noalias_newm | apply noalias_inplacem
    | match goal with |- noalias (when_scaled _ _) => unfold when_scaled end
    | match goal with |- noalias (if ?b then _ else _) => destruct b end
    | match goal with |- noalias (pa_weights_gradient _) => unfold pa_weights_gradient end
    | match goal with |- noalias (pa_dictionary_gradient _) => unfold pa_dictionary_gradient end
    | match goal with |- noalias pa_cached_cost => exact (fun _ _ => I) end
    | match goal with |- noalias (pa_cost _) => unfold pa_cost end
    | match goal with |- noalias (look _) => exact (fun _ _ => I) end
    | match goal with |- noalias (match ?r with Ok _ => _ | Raise _ => _ end) => destruct r as [[? ?]|?] end
    | match goal with |- noalias (pa_update_scale _ _) => unfold pa_update_scale end ].
  Lemma noalias_pa_iterate fuel (c : aa_cfg T) ud uw tol mx : noalias (pa_iterate fuel c ud uw tol mx).
  Proof using.
    apply noalias_iterate; [na|]. apply Forall_app. split; apply noalias_enabled.
    - unfold pa_update_dictionary. na.
    - unfold pa_update_weights. na.
  Qed.

  (** ** values *)
  Definition a_rel (e : aname -> arr T) (s : asc T) (w : aws T) : Prop := a_ws (a_rd e) s = w.

  Lemma cached_fields (w w' : aws T) :
    a_trace_K w = a_trace_K w' -> a_S w = a_S w' -> a_CK w = a_CK w' -> a_StS w = a_StS w' -> a_CKCt w = a_CKCt w' ->
    aa_cached_cost w = aa_cached_cost w'.
  Proof using. intros E1 E2 E3 E4 E5. unfold aa_cached_cost. rewrite E1, E2, E3, E4, E5. reflexivity. Qed.
  Lemma awgrad_fields (c : aa_cfg T) (w w' : aws T) :
    a_K w = a_K w' -> a_C w = a_C w' -> a_alpha w = a_alpha w' -> a_S w = a_S w' -> a_CKCt w = a_CKCt w' ->
    aa_weights_gradient c w = aa_weights_gradient c w'.
  Proof using. intros E1 E2 E3 E4 E5. unfold aa_weights_gradient. rewrite E1, E2, E3, E4, E5. reflexivity. Qed.
  Lemma adgrad_fields (c : aa_cfg T) (w w' : aws T) :
    a_K w = a_K w' -> a_S w = a_S w' -> a_alpha w = a_alpha w' -> a_StS w = a_StS w' -> a_CK w = a_CK w' ->
    aa_dictionary_gradient c w = aa_dictionary_gradient c w'.
  Proof using. intros E1 E2 E3 E4 E5. unfold aa_dictionary_gradient. rewrite E1, E2, E3, E4, E5. reflexivity. Qed.

  Lemma run_products (c : aa_cfg T) st :
    (forall x f e s, run_e (st x f) e s = (Ok tt, (upd e x (AM (f (a_rd e) s)), s))) -> forall e s,
    exists e', run_e (pa_products st c) e s = (Ok tt, (e', s)) /\
      e' aCK = AM (scaled_CK c (av (e aalpha)) (am (e aC)) (am (e aK))) /\
      e' aCKCt = AM (scaled_CKCt c (av (e aalpha)) (scaled_CK c (av (e aalpha)) (am (e aC)) (am (e aK))) (am (e aC))) /\
      (forall x, x <> aCK -> x <> aCKCt -> e' x = e x).
  Proof using.
    intros H e s. unfold pa_products, when_scaled, scaled_CK, scaled_CKCt.
    destruct (nltb _ _); eexists.
    - split; [repeat (rewrite run_e_bind, H; cbn [fst snd]); rewrite H; reflexivity|].
      split; [reflexivity|]. split; [reflexivity|]. intros x H1 H2. rewrite !upd_other by assumption. reflexivity.
    - split; [rewrite run_e_bind, H; cbn [skip pbind]; rewrite run_e_bind, H; cbn; reflexivity|].
      split; [reflexivity|]. split; [reflexivity|]. intros x H1 H2. rewrite !upd_other by assumption. reflexivity.
  Qed.
  Definition run_products_new c := run_products c anewm (fun _ _ _ _ => eq_refl).
  Definition run_products_inplace c := run_products c ainplacem (fun _ _ _ _ => eq_refl).

  Lemma run_awgrad (c : aa_cfg T) e s : exists e', run_e (pa_weights_gradient c) e s = (Ok tt, (e', s)) /\
    e' agrad_S = AM (aa_weights_gradient c (a_ws (a_rd e) s)) /\ (forall x, x <> agrad_S -> e' x = e x).
  Proof using.
    unfold pa_weights_gradient, when_scaled, aa_weights_gradient.
    destruct (nltb _ _); eexists; (split; [reflexivity|]); (split; [reflexivity|]);
      intros x Hx; rewrite !upd_other by exact Hx; reflexivity.
  Qed.
  Lemma run_adgrad (c : aa_cfg T) e s : exists e', run_e (pa_dictionary_gradient c) e s = (Ok tt, (e', s)) /\
    e' agrad_C = AM (aa_dictionary_gradient c (a_ws (a_rd e) s)) /\ (forall x, x <> agrad_C -> e' x = e x).
  Proof using.
    unfold pa_dictionary_gradient, when_scaled, aa_dictionary_gradient.
    destruct (nltb _ _); eexists; (split; [reflexivity|]); (split; [reflexivity|]);
      intros x Hx; rewrite !upd_other by exact Hx; reflexivity.
  Qed.
  Lemma sgrad_fields (w w' : aws T) :
    a_StS w = a_StS w' -> a_alpha w = a_alpha w' -> a_CKCt w = a_CKCt w' -> a_CKS w = a_CKS w' ->
    aa_scale_gradient w = aa_scale_gradient w'.
  Proof using. intros E1 E2 E3 E4. unfold aa_scale_gradient. rewrite E1, E2, E3, E4. reflexivity. Qed.
  Lemma run_sgrad (e : aname -> arr T) s : exists e', run_e pa_scale_gradient e s = (Ok tt, (e', s)) /\
    e' agrad_alpha = AV (aa_scale_gradient (a_ws (a_rd e) s)) /\ (forall x, x <> agrad_alpha -> e' x = e x).
  Proof using.
    eexists. split; [reflexivity|]. split; [reflexivity|]. intros x Hx. rewrite !upd_other by exact Hx. reflexivity.
  Qed.
  Lemma run_cost (c : aa_cfg T) e s : exists e',
    run_e (pa_cost c) e s = (Ok (aa_evaluate_cost c (a_ws (a_rd e) s)), (e', s)) /\
    a_ws (a_rd e') s = aa_refresh c (a_ws (a_rd e) s).
  Proof using.
    unfold pa_cost. rewrite run_e_bind. cbn [ainplacem inplace Heap.run_e].
    match goal with |- context [Heap.run_e _ _ _ ?E s] => set (e1 := E) end.
    destruct (run_products_inplace c e1 s) as (e2 & E2 & H1 & H2 & H3).
    exists e2. rewrite run_e_bind, E2. cbn [Heap.run_e look]. split.
    - unfold aa_evaluate_cost, aa_refresh, a_rd. f_equal. f_equal.
      cbn [t_StS t_CKCt t_S t_CK t_K a_StS a_CKCt a_S a_CK a_K a_alpha a_C a_ws t_C t_alpha].
      rewrite H1, H2, !H3 by discriminate. reflexivity.
    - unfold aa_refresh, a_rd, a_ws. cbn. rewrite H1, H2, !H3 by discriminate. reflexivity.
  Qed.

  Ltac simp_in H := cbn [a_rd t_K t_S t_C t_alpha t_CK t_CKCt t_CKS t_StS t_grad_C t_delta_grad_C t_incr_C
        t_grad_alpha t_delta_grad_alpha t_delta_grad_alpha_v t_incr_alpha
        t_grad_S t_delta_grad_S t_incr_S t_C_old t_S_old
        c_trace_K c_alpha_C c_alpha_S c_alpha_alpha c_f_S_mem c_f_C_mem c_f_alpha_mem am av] in H.
  Ltac simp := cbn [a_rd t_K t_S t_C t_alpha t_CK t_CKCt t_CKS t_StS t_grad_C t_delta_grad_C t_incr_C
        t_grad_alpha t_delta_grad_alpha t_delta_grad_alpha_v t_incr_alpha
        t_grad_S t_delta_grad_S t_incr_S t_C_old t_S_old
        c_trace_K c_alpha_C c_alpha_S c_alpha_alpha c_f_S_mem c_f_C_mem c_f_alpha_mem am av].
  Ltac step e H O := let Hrun := fresh "Hrun" in
    match goal with
    | |- P_heap_loops.computes _ _ (pbind (anewm ?x ?f) _) ?E ?S _ _ =>
        destruct (run_new aname_eq a_rd x (fun r s => AM (f r s)) E S) as (e & Hrun & H & O)
    | |- P_heap_loops.computes _ _ (pbind (new ?x ?f) _) ?E ?S _ _ =>
        destruct (run_new aname_eq a_rd x f E S) as (e & Hrun & H & O)
    | |- P_heap_loops.computes _ _ (pbind (ainplacem ?x ?f) _) ?E ?S _ _ =>
        destruct (run_inplace aname_eq a_rd x (fun r s => AM (f r s)) E S) as (e & Hrun & H & O)
    end; eapply computes_step; [exact Hrun|]; clear Hrun; simp_in H.

  Lemma sim_aa_update_weights fuel (c : aa_cfg T) e s w : a_rel e s w ->
    computes (pa_update_weights fuel c) e s (aa_update_weights fuel c w) (fun _ e' s' w' => a_rel e' s' w').
  Proof using.
    intros <-. unfold pa_update_weights.
    destruct (run_products_new c e s) as (e0 & E0 & K1 & K2 & K3).
    eapply computes_step; [exact E0|]. clear E0.
    destruct (run_awgrad c e0 s) as (e0' & E0 & G1 & G2). eapply computes_step; [exact E0|]. clear E0.
    step ea I1 J1. step eb I2 J2. step e1 I3 J3.
    unfold aa_update_weights. cbv zeta.
    set (w1 := mk_aws _ _ _ _ _ _ _ _ _ _ _ _ _ _ _).
    assert (J : forall x, x <> aincr_S -> e1 x = e0' x) by (intros; rewrite J3, J2, J1 by assumption; reflexivity).
    assert (Ew0 : a_ws (a_rd e0) s = w1).
    { unfold w1, a_ws, a_rd. cbn. rewrite K1, K2, !K3 by discriminate. reflexivity. }
    assert (Ew1 : a_ws (a_rd e1) s = w1).
    { rewrite <- Ew0. unfold a_ws, a_rd. rewrite !J, !G2 by discriminate. reflexivity. }
    assert (Eg : aa_weights_gradient c w1 = am (e1 agrad_S)) by (rewrite J by discriminate; rewrite G1, Ew0; reflexivity).
    assert (Ei : msub (simplex_project_rows (msub (a_S w1) (mscale (a_alpha_S w1) (am (e1 agrad_S)))))
                      (a_S w1) = am (e1 aincr_S)).
    { rewrite I3, I2, I1. rewrite <- Ew1. cbn [am a_S a_alpha_S a_ws]. simp. rewrite !J2, !J1, !J by discriminate. reflexivity. }
    rewrite Eg, Ei. clearbody w1. clear Eg Ei Ew0 K1 K2 K3 G1 G2 I1 J1 I2 J2 I3 J3 J ea eb e0 e0' e. subst w1.
    eapply computes_bind.
    - unfold pa_weights_line_search, aa_weights_line_search.
      eapply (computes_line_search aname_eq a_rd
        (fun m e' s' w' => s' = mk_asc (c_trace_K s) (c_alpha_C s) (c_alpha_S s) (c_alpha_alpha s) m (c_f_C_mem s) (c_f_alpha_mem s) /\
           w' = set_S_StS (am (e' aS)) (a_ws (a_rd e1) s) /\ am (e' aStS) = mmul (mtr (am (e' aS))) (am (e' aS)) /\
           am (e' aS_old) = am (e1 aS) /\
           (forall x, x <> aS -> x <> aStS -> x <> aS_old -> e' x = e1 x))).
      + intros m e' s' w' (-> & -> & ESS & EO & EX). unfold pa_cached_cost, look. cbn [Heap.run_e].
        f_equal. f_equal. apply cached_fields; cbn; auto; rewrite EX by discriminate; reflexivity.
      + intros m step e' s' w' (-> & -> & ESS & EO & EX). eexists. eexists. split; [reflexivity|].
        split; [reflexivity|]. split; [|split; [reflexivity|split; [exact EO|]]].
        * cbn. rewrite EO, (EX aincr_S) by discriminate. reflexivity.
        * intros x H1 H2 H3. rewrite !upd_other by assumption. auto.
      + reflexivity.
      + reflexivity.
      + reflexivity.
      + reflexivity.
      + intros m. eexists. eexists. split; [reflexivity|].
        split; [reflexivity|]. split; [reflexivity|]. split; [reflexivity|]. split; [reflexivity|].
        intros x H1 H2 H3. rewrite !upd_other by assumption. reflexivity.
    - intros step e2 s2 [[w2 step'] m] (Est & -> & Ew2 & ESS & EO & EX). cbn [fst snd] in *. subst w2 step'.
      eapply computes_step; [reflexivity|].
      match goal with |- computes _ ?E ?S0 _ _ => destruct (run_awgrad c E S0) as (e3 & E3 & G3 & O3) end.
      eapply computes_step; [exact E3|]. clear E3.
      eapply computes_step; [reflexivity|].
      exists tt. eexists. eexists. split; [reflexivity|]. unfold a_rel.
      assert (F : forall x, x <> aS -> x <> aStS -> x <> aS_old -> x <> adelta_grad_S -> x <> agrad_S -> e3 x = e1 x)
        by (intros; rewrite O3, upd_other by assumption; auto).
      assert (FS : e3 aS = e2 aS) by (rewrite O3 by discriminate; reflexivity).
      assert (FSS : e3 aStS = e2 aStS) by (rewrite O3 by discriminate; reflexivity).
      assert (FD : am (e3 adelta_grad_S) = am (e1 agrad_S)) by (rewrite O3 by discriminate; cbn; rewrite EX by discriminate; reflexivity).
      assert (FG : am (e3 agrad_S) = aa_weights_gradient c (set_S_StS (am (e2 aS)) (a_ws (a_rd e1) s))).
      { rewrite G3. cbn [am]. apply awgrad_fields; cbn; auto; rewrite EX by discriminate; reflexivity. }
      cbn [a_rd t_K t_S t_C t_alpha t_CK t_CKCt t_CKS t_StS t_grad_S t_delta_grad_S t_incr_S
        c_trace_K c_alpha_C c_alpha_S c_alpha_alpha c_f_S_mem c_f_C_mem c_f_alpha_mem
        Heap.upd aname_eq aname_rec aname_rect sumbool_rec sumbool_rect].
      rewrite FD, FG, (F aincr_S) by discriminate.
      set (A := get_next_spg_alpha _ _ _ _). set (D := msub _ _).
      unfold set_S_StS, a_ws, a_rd. cbn. rewrite FS, FSS, ESS, !F by discriminate. reflexivity.
  Qed.

  Lemma sim_aa_update_scale fuel (c : aa_cfg T) e s w : a_rel e s w ->
    computes (pa_update_scale fuel c) e s (aa_update_scale fuel c w) (fun _ e' s' w' => a_rel e' s' w').
  Proof using.
    intros <-. unfold pa_update_scale.
    step x1 V1 O1. step x2 V2 O2. step x3 V3 O3.
    destruct (run_sgrad x3 s) as (x4 & E4 & V4 & O4). eapply computes_step; [exact E4|]. clear E4.
    step x5 V5 O5. step x6 V6 O6. step x7 V7 O7. step e1 V8 O8.
    assert (J : forall x, x <> aCK -> x <> aCKS -> x <> aCKCt -> x <> agrad_alpha -> x <> aincr_alpha -> e1 x = e x)
      by (intros; rewrite O8, O7, O6, O5, O4, O3, O2, O1 by assumption; reflexivity).
    assert (J4 : forall x, x <> aincr_alpha -> e1 x = x4 x)
      by (intros; rewrite O8, O7, O6, O5 by assumption; reflexivity).
    unfold aa_update_scale. cbv zeta.
    set (w1 := mk_aws _ _ _ _ _ _ _ _ _ _ _ _ _ _ _).
    assert (Ew3 : a_ws (a_rd x3) s = w1).
    { unfold w1, a_ws, a_rd. simp. rewrite V3. rewrite !O3 by discriminate. rewrite V2. rewrite !O2 by discriminate.
      rewrite V1. rewrite !O1 by discriminate. reflexivity. }
    assert (Ew1 : a_ws (a_rd e1) s = w1).
    { rewrite <- Ew3. unfold a_ws, a_rd. simp. rewrite !J4, !O4 by discriminate. reflexivity. }
    assert (Eg : aa_scale_gradient w1 = av (e1 agrad_alpha)).
    { rewrite J4 by discriminate. rewrite V4, Ew3. reflexivity. }
    rewrite Eg.
    set (inc := msub (mmap _ (mmap _ _)) _).
    assert (Ei : inc = am (e1 aincr_alpha)).
    { rewrite V8, V7, V6, V5. unfold inc. rewrite <- Ew1. cbn [am a_alpha a_alpha_alpha a_ws]. simp.
      rewrite O7, O6, O5 by discriminate. rewrite !J4 by discriminate. reflexivity. }
    rewrite Ei. clearbody w1. clear inc Ei Ew3 J J4 V1 V2 V3 V4 V5 V6 V7 V8 O1 O2 O3 O4 O5 O6 O7 O8. subst w1.
    eapply computes_step; [reflexivity|].
    change (t_grad_alpha (a_rd e1)) with (av (e1 agrad_alpha)).
    change (t_incr_alpha (a_rd e1)) with (am (e1 aincr_alpha)).
    destruct (aa_scale_line_search _ _ _ _ _) as [[step m]|x]; cbn [bind]; [|reflexivity].
    eapply computes_step; [reflexivity|]. eapply computes_step; [reflexivity|].
    match goal with |- computes _ ?E ?S0 _ _ => destruct (run_sgrad E S0) as (e3 & E3 & G3 & O3) end.
    eapply computes_step; [exact E3|]. clear E3.
    eapply computes_step; [reflexivity|].
    exists tt. eexists. eexists. split; [reflexivity|]. unfold a_rel.
    assert (F : forall x, x <> agrad_alpha -> x <> adelta_grad_alpha -> e3 x = e1 x)
      by (intros; rewrite O3, upd_other by assumption; reflexivity).
    assert (FD : av (e3 adelta_grad_alpha) = av (e1 agrad_alpha)) by (rewrite O3 by discriminate; reflexivity).
    assert (FG : av (e3 agrad_alpha) = av (e1 agrad_alpha)).
    { rewrite G3, <- Eg. cbn [av]. apply sgrad_fields; reflexivity. }
    cbn [a_rd t_K t_S t_C t_alpha t_CK t_CKCt t_CKS t_StS t_grad_alpha t_delta_grad_alpha t_delta_grad_alpha_v t_incr_alpha
      c_trace_K c_alpha_C c_alpha_S c_alpha_alpha c_f_S_mem c_f_C_mem c_f_alpha_mem
      Heap.upd aname_eq aname_rec aname_rect sumbool_rec sumbool_rect am av].
    rewrite FD, FG, (F aincr_alpha) by discriminate.
    set (A := get_next_spg_alpha _ _ _ _). set (D := mbuild _ _ _).
    unfold a_ws, a_rd. cbn. rewrite !F by discriminate. reflexivity.
  Qed.

  Lemma sim_aa_update_dictionary fuel (c : aa_cfg T) e s w : a_rel e s w ->
    computes (pa_update_dictionary fuel c) e s (aa_update_dictionary fuel c w) (fun _ e' s' w' => a_rel e' s' w').
  Proof using.
    intros <-. unfold pa_update_dictionary.
    step ez I0 J0.
    match goal with |- computes _ ?E _ _ _ => destruct (run_products_new c E s) as (e0 & E0 & K1 & K2 & K3) end.
    eapply computes_step; [exact E0|]. clear E0.
    destruct (run_adgrad c e0 s) as (e0' & E0 & G1 & G2). eapply computes_step; [exact E0|]. clear E0.
    step ea I1 J1. step eb I2 J2. step e1 I3 J3.
    unfold aa_update_dictionary. cbv zeta.
    assert (J : forall x, x <> aincr_C -> e1 x = e0' x) by (intros; rewrite J3, J2, J1 by assumption; reflexivity).
    match goal with |- context [aa_dictionary_gradient c ?W] => set (w1 := W) end.
    assert (Ew0 : a_ws (a_rd e0) s = w1).
    { unfold w1, a_ws, a_rd. cbn. rewrite K1, K2, !K3 by discriminate. rewrite I0, !J0 by discriminate. reflexivity. }
    assert (Ew1 : a_ws (a_rd e1) s = w1).
    { rewrite <- Ew0. unfold a_ws, a_rd. rewrite !J, !G2 by discriminate. reflexivity. }
    assert (Eg : aa_dictionary_gradient c w1 = am (e1 agrad_C)) by (rewrite J by discriminate; rewrite G1, Ew0; reflexivity).
    assert (Ei : msub (simplex_project_rows (msub (a_C w1) (mscale (a_alpha_C w1) (am (e1 agrad_C)))))
                      (a_C w1) = am (e1 aincr_C)).
    { rewrite I3, I2, I1. rewrite <- Ew1. cbn [am a_C a_alpha_C a_ws]. simp. rewrite !J2, !J1, !J by discriminate. reflexivity. }
    rewrite Eg, Ei. clearbody w1. clear Eg Ei Ew0 K1 K2 K3 G1 G2 I0 J0 I1 J1 I2 J2 I3 J3 J ea eb ez e0 e0' e. subst w1.
    eapply computes_bind.
    - unfold pa_dictionary_line_search, aa_dictionary_line_search.
      eapply (computes_line_search aname_eq a_rd
        (fun m e' s' w' => s' = mk_asc (c_trace_K s) (c_alpha_C s) (c_alpha_S s) (c_alpha_alpha s) (c_f_S_mem s) m (c_f_alpha_mem s) /\
           w' = set_C_CK c (am (e' aC)) (a_ws (a_rd e1) s) /\
           am (e' aCK) = scaled_CK c (av (e1 aalpha)) (am (e' aC)) (am (e1 aK)) /\
           am (e' aCKCt) = scaled_CKCt c (av (e1 aalpha)) (scaled_CK c (av (e1 aalpha)) (am (e' aC)) (am (e1 aK))) (am (e' aC)) /\
           am (e' aC_old) = am (e1 aC) /\
           (forall x, x <> aC -> x <> aCK -> x <> aCKCt -> x <> aC_old -> e' x = e1 x))).
      + intros m e' s' w' (-> & -> & ECK & ECT & EO & EX). unfold pa_cached_cost, look. cbn [Heap.run_e].
        f_equal. f_equal. apply cached_fields; cbn; auto; rewrite EX by discriminate; reflexivity.
      + intros m step e' s' w' (-> & -> & ECK & ECT & EO & EX).
        match goal with |- context [pbind (anewm aC ?f) _] =>
          set (e2 := upd e' aC (AM (madd (am (e' aC_old)) (mscale step (am (e' aincr_C)))))) end.
        match goal with |- context [Heap.run_e _ _ _ _ ?S0] =>
          destruct (run_products_new c e2 S0) as (e3 & E3 & K1 & K2 & K3) end.
        exists e3. eexists. split; [rewrite run_e_bind; cbn [anewm new Heap.run_e]; exact E3|].
        assert (Q : am (e3 aC) = madd (am (e1 aC)) (mscale step (am (e1 aincr_C)))).
        { rewrite K3 by discriminate. unfold e2. cbn. rewrite EO, EX by discriminate. reflexivity. }
        assert (Qa : e2 aalpha = e1 aalpha) by (unfold e2; cbn; apply EX; discriminate).
        assert (Qk : e2 aK = e1 aK) by (unfold e2; cbn; apply EX; discriminate).
        assert (QC : e2 aC = e3 aC) by (symmetry; apply K3; discriminate).
        split; [reflexivity|]. split; [rewrite Q; reflexivity|].
        rewrite Qa, Qk, QC in *. split; [rewrite K1; reflexivity|]. split; [rewrite K2; reflexivity|].
        split; [rewrite K3 by discriminate; exact EO|].
        intros x H1 H2 H3 H4. rewrite K3 by assumption. unfold e2. rewrite upd_other by assumption. auto.
      + reflexivity.
      + reflexivity.
      + reflexivity.
      + reflexivity.
      + intros m.
        match goal with |- context [Heap.run_e _ _ _ ?E0 ?S0] =>
          set (e2 := upd E0 aC (AM (madd (am (e1 aC)) (am (e1 aincr_C)))));
          destruct (run_products_new c e2 S0) as (e3 & E3 & K1 & K2 & K3) end.
        exists e3. eexists. split; [rewrite run_e_bind; cbn [ainplacem inplace Heap.run_e]; exact E3|].
        assert (QC : e2 aC = e3 aC) by (symmetry; apply K3; discriminate).
        assert (Q : am (e3 aC) = madd (am (e1 aC)) (am (e1 aincr_C))) by (rewrite <- QC; reflexivity).
        split; [reflexivity|]. split; [rewrite Q; reflexivity|].
        rewrite QC in *. split; [rewrite K1; reflexivity|]. split; [rewrite K2; reflexivity|].
        split; [rewrite K3 by discriminate; reflexivity|].
        intros x H1 H2 H3 H4. rewrite K3 by assumption. unfold e2. rewrite !upd_other by assumption. reflexivity.
    - intros step e2 s2 [[w2 step'] m] (Est & -> & Ew2 & ECK & ECT & EO & EX). cbn [fst snd] in *. subst w2 step'.
      eapply computes_step; [reflexivity|].
      match goal with |- computes _ ?E ?S0 _ _ => destruct (run_adgrad c E S0) as (e3 & E3 & G3 & O3) end.
      eapply computes_step; [exact E3|]. clear E3.
      eapply computes_step; [reflexivity|].
      eapply computes_step; [reflexivity|].
      assert (F : forall x, x <> aC -> x <> aCK -> x <> aCKCt -> x <> aC_old -> x <> adelta_grad_C -> x <> agrad_C -> e3 x = e1 x)
        by (intros; rewrite O3, upd_other by assumption; auto).
      assert (FC : e3 aC = e2 aC) by (rewrite O3 by discriminate; reflexivity).
      assert (FCK : e3 aCK = e2 aCK) by (rewrite O3 by discriminate; reflexivity).
      assert (FCT : e3 aCKCt = e2 aCKCt) by (rewrite O3 by discriminate; reflexivity).
      assert (FD : am (e3 adelta_grad_C) = am (e1 agrad_C)) by (rewrite O3 by discriminate; cbn; rewrite EX by discriminate; reflexivity).
      assert (FG : am (e3 agrad_C) = aa_dictionary_gradient c (set_C_CK c (am (e2 aC)) (a_ws (a_rd e1) s))).
      { rewrite G3. cbn [am]. apply adgrad_fields; cbn; auto; rewrite EX by discriminate; reflexivity. }
      cbn [a_rd t_K t_S t_C t_alpha t_CK t_CKCt t_CKS t_StS t_grad_C t_delta_grad_C t_incr_C
        c_trace_K c_alpha_C c_alpha_S c_alpha_alpha c_f_S_mem c_f_C_mem c_f_alpha_mem
        Heap.upd aname_eq aname_rec aname_rect sumbool_rec sumbool_rect].
      rewrite FD, FG, (F aincr_C) by discriminate.
      set (A := get_next_spg_alpha _ _ _ _). set (D := msub _ _).
      match goal with |- computes _ ?E ?S0 (if _ then aa_update_scale _ _ ?W else _) _ =>
        assert (HR : a_rel E S0 W) end.
      { unfold a_rel, set_C_CK, a_ws, a_rd. cbn. rewrite FC, FCK, FCT, ECK, ECT, !F by discriminate. reflexivity. }
      unfold when_scaled. destruct (nltb _ _).
      + apply sim_aa_update_scale. exact HR.
      + apply computes_ret. exact HR.
  Qed.

  Lemma sim_aa_iterate fuel (c : aa_cfg T) ud uw tol mx e s w : a_rel e s w ->
    computes (pa_iterate fuel c ud uw tol mx) e s (aa_iterate fuel c ud uw tol mx w)
      (fun a e' s' b => let '(c1, n1, l1) := a in
         let '(w2, c2, n2, l2) := b in c1 = c2 /\ n1 = n2 /\ l1 = l2 /\ a_rel e' s' w2).
  Proof using.
    intros HR. unfold pa_iterate, aa_iterate, iterate.
    apply (computes_iterate aname_eq a_rd a_rel (pa_cost c) (aa_evaluate_cost c)); [| |reflexivity].
    - assert (Hc : forall pu u,
        (forall e s w, a_rel e s w -> computes pu e s (u w) (fun _ e' s' w' => a_rel e' s' w')) ->
        update_ok aname_eq a_rd a_rel (pa_cost c) (aa_evaluate_cost c) pu (and_refresh c u)).
      { intros pu u Hu e0 s0 w0 HR0. specialize (Hu e0 s0 w0 HR0). unfold and_refresh.
        eapply computes_bind; [exact Hu|]. intros _ e' s' w' <-.
        destruct (run_cost c e' s') as (e2 & E2 & HW). exists (aa_evaluate_cost c (a_ws (a_rd e') s')), e2, s'.
        split; [exact E2|]. split; [reflexivity|exact HW]. }
      apply Forall2_app; [destruct ud|destruct uw]; cbn; constructor; try constructor; apply Hc; intros.
      + apply sim_aa_update_dictionary; assumption.
      + apply sim_aa_update_weights; assumption.
    - rewrite <- HR. destruct (run_cost c e s) as (e2 & E2 & HW).
      exists (aa_evaluate_cost c (a_ws (a_rd e) s)), e2, s. split; [exact E2|]. split; [reflexivity|exact HW].
  Qed.
End PA.
