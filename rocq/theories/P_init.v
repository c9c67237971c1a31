(** Acceptance of custom initial arrays. *)
From Coq Require Import List Arith Lia ZArith Reals Lra Bool.
From Verif Require Import Num Mat Py Spec Spec_init M_simplex M_spg M_iter M_random M_furthest M_gpnh M_aa M_mtd.
From Verif Require Import P_lin P_simplex P_spg P_random P_mat P_iter P_gpnh P_gpnh_run P_aa_run P_mtd P_mtd_run.
Import ListNotations.
Local Open Scope R_scope.

Lemma rows_ok_dec r c a : (rows_ok r c a /\ exists M, a = Some M /\ check_init_weights a r c = Ok M)
  \/ (~ rows_ok r c a /\ check_init_weights a r c = Raise ValueError).
Proof.
  destruct (check_init_weights_cases a r c) as [E|(M & -> & E)].
  - right. split; [|exact E]. intros (M & -> & H). pose proof (proj2 (check_init_weights_iff M r c) H). congruence.
  - left. split; [|eauto]. exists M. split; [reflexivity|]. apply check_init_weights_iff. exact E.
Qed.
Lemma rows_ok_aa_dec r c a : (rows_ok r c a /\ exists M, a = Some M /\ check_init_aa_dictionary a r c = Ok M)
  \/ (~ rows_ok r c a /\ check_init_aa_dictionary a r c = Raise ValueError).
Proof. exact (rows_ok_dec r c a). Qed.
Lemma shape_ok_dec r c (a : option (mat R)) : (shape_ok r c a /\ exists M, a = Some M /\ check_init_dictionary a r c = Ok M)
  \/ (~ shape_ok r c a /\ check_init_dictionary a r c = Raise ValueError).
Proof.
  destruct a as [M|]; [|right; split; [intros (M & [=] & _) | reflexivity]].
  destruct (check_init_dictionary (Some M) r c) as [M'|e] eqn:E.
  - left. assert (M' = M) as ->.
    { unfold check_init_dictionary in E. rewrite check_array_R in E. cbn [bind] in E. destruct (check_array_shape M r c); cbn [bind] in E; congruence. }
    split; [exists M; split; [reflexivity|]; apply (check_init_dictionary_iff Num_R); [apply all_finite_R | exact E] | eauto].
  - right. pose proof (check_init_dictionary_raise _ _ _ _ E) as ->. split; [|reflexivity].
    intros (M' & [= <-] & H). pose proof (proj2 (check_init_dictionary_iff Num_R M r c (all_finite_R M)) H). congruence.
Qed.
Lemma vector_ok_dec p (a : option (list R)) : (vector_ok p a /\ exists v, a = Some v /\ check_init_order_weights a p = Ok v)
  \/ (~ vector_ok p a /\ check_init_order_weights a p = Raise (match a with Some _ => ValueError | None => AttributeError end)).
Proof.
  destruct a as [v|]; [|right; split; [intros (v & [=] & _) | reflexivity]].
  cbn [check_init_order_weights]. destruct (Nat.eqb_spec (length v) p) as [<-|L].
  2:{ right. split; [|reflexivity]. intros (v' & [= <-] & E & _). congruence. }
  unfold check_unit_vec_sum. destruct (isclose_one (vsum v)) eqn:E; cbn [bind].
  - left. split; [|eauto]. exists v. repeat split. apply isclose_one_R in E. unfold vsum in E. rewrite nsum_Sum in E. exact E.
  - right. split; [|reflexivity]. intros (v' & [= <-] & _ & H).
    assert (isclose_one (vsum v) = true); [|congruence]. apply isclose_one_R. unfold vsum. rewrite nsum_Sum. exact H.
Qed.
Lemma columns_ok_dec p k (a : option (list (mat R))) : (columns_ok p k a /\ exists v, a = Some v /\ check_init_transition_matrices a p k = Ok v)
  \/ (~ columns_ok p k a /\ check_init_transition_matrices a p k = Raise (match a with Some _ => ValueError | None => AttributeError end)).
Proof.
  destruct a as [Ts|]; [|right; split; [intros (v & [=] & _) | reflexivity]].
  cbn [check_init_transition_matrices].
  assert (Q : columns_ok p k (Some Ts) <->
     andb (Nat.eqb (length Ts) p) (forallb (fun M : mat R => andb (Nat.eqb (nr M) k) (Nat.eqb (nc M) k)) Ts) = true
     /\ forallb (fun M => match check_unit_col_sums M with Ok _ => true | Raise _ => false end) Ts = true).
  { rewrite andb_true_iff, Nat.eqb_eq, !forallb_forall. split.
    - intros (Ts' & [= <-] & L & H). split; [split; [exact L|]|].
      + intros M I. destruct (H M I) as (-> & -> & _). rewrite !Nat.eqb_refl. reflexivity.
      + intros M I. destruct (H M I) as (e1 & e2 & H'). rewrite (proj2 (check_unit_col_sums_ok M)); [reflexivity|].
        rewrite e1, e2. exact H'.
    - intros [[L H1] H2]. exists Ts. split; [reflexivity|]. split; [exact L|]. intros M I.
      specialize (H1 M I). specialize (H2 M I). apply andb_true_iff in H1. destruct H1 as [e1 e2].
      apply Nat.eqb_eq in e1, e2. split; [exact e1|]. split; [exact e2|].
      destruct (check_unit_col_sums M) as [[]|] eqn:E; [|discriminate].
      pose proof (proj1 (check_unit_col_sums_ok M) E) as E'. rewrite e1, e2 in E'. exact E'. }
  destruct (andb _ _) eqn:B1.
  - destruct (forallb (fun M => match check_unit_col_sums M with Ok _ => true | Raise _ => false end) Ts) eqn:B2.
    + left. split; [apply Q; auto | eauto].
    + right. split; [|reflexivity]. intros H. apply Q in H. destruct H; discriminate.
  - right. split; [|reflexivity]. intros H. apply Q in H. destruct H; discriminate.
Qed.

(** no iteration raises ValueError or AttributeError *)
Section NoValueError.
  Context {T : Type} {N : Num T}.
  Lemma in_enabled {St} b (u v : St -> res St) : In v (enabled b u) -> b = true /\ v = u.
  Proof. destruct b; cbn; intros H; [destruct H as [<-|[]]; auto | contradiction]. Qed.
  Definition checks (e : exn) : Prop := e = ValueError \/ e = AttributeError.
  Lemma iterate_no {St} (cost : St -> T) bad us t m w e : iterate cost bad us t m w = Raise e ->
    (forall u s e', In u us -> u s = Raise e' -> ~ checks e') -> ~ checks e.
  Proof.
    unfold iterate. intros H Hu C. apply (iterate_loop_raise cost (fun _ => True)) in H; auto.
    destruct H as [[-> _]|(u & s & I & _ & E)]; [destruct C; discriminate | exact (Hu u s e I E C)].
  Qed.
  Lemma gpnh_iterate_no fuel c k ud uw t m (w : gws T) e : gpnh_iterate fuel c k ud uw t m w = Raise e -> ~ checks e.
  Proof.
    intros H. eapply iterate_no; [exact H|]. intros u s e' I E C. apply in_app_iff in I.
    destruct I as [I|I]; apply in_enabled in I; destruct I as [_ ->];
      [apply update_dictionary_raise in E | apply update_weights_raise in E];
      destruct C; destruct E as [[? ?]|?]; congruence.
  Qed.
  Lemma aa_iterate_no fuel c ud uw t m (w : aws T) e : aa_iterate fuel c ud uw t m w = Raise e -> ~ checks e.
  Proof.
    intros H. eapply iterate_no; [exact H|]. intros u s e' I E C. apply in_app_iff in I.
    destruct I as [I|I]; apply in_enabled in I; destruct I as [_ ->].
    all: unfold and_refresh in E; match type of E with bind ?x _ = _ => destruct x as [?|e0] eqn:E0 end; cbn [bind] in E; [discriminate|];
      injection E as ->; rename E0 into E.
    all: first [apply aa_update_dictionary_raise in E | apply aa_update_weights_raise in E]; destruct C, E; congruence.
  Qed.
  Lemma mtd_iterate_no fuel c k ud uw up t m (w : mws T) e : mtd_iterate fuel c k ud uw up t m w = Raise e -> ~ checks e.
  Proof.
    intros H. eapply iterate_no; [exact H|]. intros u s e' I E C. apply in_app_iff in I. rewrite in_app_iff in I.
    assert (e' = IndexError \/ e' = OutOfFuel); [|destruct C; destruct H0; congruence].
    destruct I as [I|[I|I]]; apply in_enabled in I; destruct I as [_ ->].
    - unfold mtd_update_dictionary, mtd_dictionary_line_search in E. cbv zeta in E.
      destruct (line_search _ _ _ _ _ _ _ _) as [[[? ?] ?]|e0] eqn:E0; cbn [bind] in E; [discriminate|].
      injection E as ->. apply line_search_raise in E0. tauto.
    - unfold mtd_update_weights, mtd_weights_line_search in E. cbv zeta in E.
      destruct (line_search _ _ _ _ _ _ _ _) as [[[? ?] ?]|e0] eqn:E0; cbn [bind] in E; [discriminate|].
      injection E as ->. apply line_search_raise in E0. tauto.
    - unfold mtd_update_parameters, mtd_parameters_line_search in E. cbv zeta in E.
      destruct (line_search _ _ _ _ _ _ _ _) as [[[? ?] ?]|e0] eqn:E0; cbn [bind] in E; [discriminate|].
      injection E as ->. apply line_search_raise in E0. tauto.
  Qed.
End NoValueError.

(** ** fits *)
Lemma gpnh_custom_fit fuel (o : gpnh R) k m t data D W ud uw kw : gc_init (go_cfg o) = InitCustom ->
  check_params (resolve_components (go_n_components o) (nc data)) (gc_max_iterations (go_cfg o)) (gc_tolerance (go_cfg o)) = Ok (k, m, t) ->
  fit_transform fuel o data D W ud uw kw = Raise ValueError <-> ~ (rows_ok (nr data) k W /\ shape_ok k (nc data) D).
Proof.
  intros Hi Hp. unfold fit_transform, gpnh_convex_coding. rewrite Hp. cbn [bind]. unfold choose_initial. rewrite Hi. cbv zeta.
  destruct (rows_ok_dec (nr data) k W) as [(HW & W0 & eW & EW)|[HW EW]]; rewrite EW; cbn [bind]; [|tauto].
  destruct (shape_ok_dec k (nc data) D) as [(HD & D0 & eD & ED)|[HD ED]]; rewrite ED; cbn [bind]; [|tauto].
  split; [|tauto]. intros H. exfalso. destruct (gpnh_iterate _ _ _ _ _ _ _ _) as [[[[w2 c] n] l]|e] eqn:E; cbn in H; [discriminate|].
  injection H as ->. apply gpnh_iterate_no in E. apply E. left. reflexivity.
Qed.
Lemma aa_custom_fit fuel (o : aa R) k m t K D W ud uw kw : nc K = nr K -> ac_init (ao_cfg o) = InitCustom ->
  check_params (resolve_components (ao_n_components o) (nr K)) (ac_max_iterations (ao_cfg o)) (ac_tolerance (ao_cfg o)) = Ok (k, m, t) ->
  aa_fit_transform fuel o K D W ud uw kw = Raise ValueError <-> ~ (rows_ok (nr K) k W /\ rows_ok k (nr K) D).
Proof.
  intros Hs Hi Hp. unfold aa_fit_transform, kernel_aa. rewrite Hs, Nat.eqb_refl, Hp. cbn [bind negb]. unfold aa_choose_initial. rewrite Hi. cbv zeta.
  destruct (rows_ok_dec (nr K) k W) as [(HW & W0 & eW & EW)|[HW EW]]; rewrite EW; cbn [bind]; [|tauto].
  destruct (rows_ok_aa_dec k (nr K) D) as [(HD & D0 & eD & ED)|[HD ED]]; rewrite ED; cbn [bind]; [|tauto].
  split; [|tauto]. intros H. exfalso. destruct (aa_iterate _ _ _ _ _ _ _) as [[[[w2 c] n] l]|e] eqn:E; cbn in H; [discriminate|].
  injection H as ->. apply aa_iterate_no in E. apply E. left. reflexivity.
Qed.
Lemma mtd_custom_fit fuel (o : mtd R) k m t data D W ow Ts ud uw up kw : mc_init (mo_cfg o) = InitCustom -> mc_lags (mo_cfg o) <> [] ->
  check_params (resolve_components (mo_n_components o) (nc data)) (mc_max_iterations (mo_cfg o)) (mc_tolerance (mo_cfg o)) = Ok (k, m, t) ->
  let p := length (mc_lags (mo_cfg o)) in
  let fit := mtd_fit_transform fuel o data D W ow Ts ud uw up kw in
  (fit = Raise ValueError \/ fit = Raise AttributeError
    <-> ~ (rows_ok (nr data) k W /\ shape_ok k (nc data) D /\ vector_ok p ow /\ columns_ok p k Ts))
  /\ (fit = Raise AttributeError <-> rows_ok (nr data) k W /\ shape_ok k (nc data) D /\ (ow = None \/ vector_ok p ow /\ Ts = None)).
Proof.
  intros Hi Hl Hp p fit. unfold fit, mtd_fit_transform, mtd_convex_coding. rewrite Hp. cbn [bind]. unfold mtd_choose_initial. rewrite Hi. cbv zeta.
  change (n_lags (mo_cfg o)) with p.
  assert (NV : ~ vector_ok p None) by (intros (v & [=] & _)). assert (NC : ~ columns_ok p k None) by (intros (v & [=] & _)).
  destruct (rows_ok_dec (nr data) k W) as [(HW & W0 & eW & EW)|[HW EW]]; rewrite EW; cbn [bind];
    [|split; [tauto|]; split; [discriminate | tauto]].
  destruct (shape_ok_dec k (nc data) D) as [(HD & D0 & eD & ED)|[HD ED]]; rewrite ED; cbn [bind];
    [|split; [tauto|]; split; [discriminate | tauto]].
  destruct (vector_ok_dec p ow) as [(HO & o0 & eO & EO)|[HO EO]]; rewrite EO; cbn [bind];
    [|destruct ow as [v|]; (split; [tauto|]);
      [split; [intros [=] | intros (_ & _ & [[=]|[? _]]); contradiction] | split; [auto | reflexivity]]].
  destruct (columns_ok_dec p k Ts) as [(HT & T0 & eT & ET)|[HT ET]]; rewrite ET; cbn [bind];
    [|destruct Ts as [v|]; (split; [tauto|]);
      [split; [intros [=] | intros (_ & _ & [->|[_ [=]]]); contradiction] | split; [auto | reflexivity]]].
  unfold check_max_lag. destruct (mc_lags (mo_cfg o)) as [|lag0 lags] eqn:EL; [contradiction|]. cbn [bind].
  destruct (mtd_iterate _ _ _ _ _ _ _ _ _) as [[[[w2 c] n] l']|e] eqn:E; cbn [bind mo_ws mr_obj].
  - split; split.
    + intros [H|H]; discriminate.
    + tauto.
    + discriminate.
    + intros (_ & _ & [->|[_ ->]]); contradiction.
  - apply mtd_iterate_no in E. unfold checks in E. split; split.
    + intros [H|H]; injection H as ->; tauto.
    + tauto.
    + intros H; injection H as ->; tauto.
    + intros (_ & _ & [->|[_ ->]]); contradiction.
Qed.
