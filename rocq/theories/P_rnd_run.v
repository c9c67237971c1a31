(** Runs in rounded arithmetic: they end, and weights never become negative *)
From Coq Require Import List Arith ZArith Reals Lra Lia Bool.
From Verif Require Import Num Mat Py M_iter M_simplex M_spg M_random M_gpnh M_aa M_mtd M_crom Num_rnd Spec Spec_rnd Spec_rnd_run
  P_lin P_mat P_simplex P_spg P_iter P_random P_rnd P_rnd_draw P_rnd_ls P_furthest P_gpnh_run P_aa_run P_mtd_run P_crom.
Import ListNotations.

(** ** any arithmetic in which line searches end *)
Section Fuel.
  Context {T : Type} {N : Num T}.
  Definition ls_ends (p : ls_params T) (fuel : nat) : Prop := forall St (cost : St -> T) trial full mem cc inm,
    line_search fuel p cost trial full mem cc inm <> Raise OutOfFuel.
  Definition run_exn (mono : bool) (e : exn) : Prop := e = ValueError \/ e = IndexError \/ e = TypeError \/ (e = RuntimeError /\ mono = true).

  Lemma guard_exn mono {St} (cost : St -> T) us tol m st e :
    iterate cost (cost_increased mono) us tol m st = Raise e ->
    (forall u s e, In u us -> u s = Raise e -> e = IndexError) -> run_exn mono e.
  Proof.
    intros H Hu. unfold iterate in H. apply (iterate_loop_raise cost (fun _ => True)) in H; [|auto|reflexivity|exact I].
    destruct H as [[-> (i & s0 & s & _ & _ & B)] | (v & s & Iu & _ & Eu)].
    - unfold cost_increased in B. apply andb_prop in B. unfold run_exn. right. right. right. split; [reflexivity|apply B].
    - unfold run_exn. right. left. eapply Hu; eassumption.
  Qed.

  Lemma gpnh_dict_exn fuel c k (w : gws T) e : ls_ends (gc_ls c) fuel -> update_dictionary fuel c k w = Raise e -> e = IndexError.
  Proof.
    intros F H. unfold update_dictionary, dictionary_line_search in H. cbv zeta in H.
    match type of H with bind ?l _ = _ => destruct l as [[[? ?] ?]|e'] eqn:E end; cbn [bind] in H; [discriminate|]. injection H as ->.
    pose proof E as E'. apply line_search_raise in E'. destruct E' as [[-> _]| ->]; [reflexivity|]. exfalso. eapply F, E.
  Qed.
  Lemma gpnh_weights_exn fuel c k (w : gws T) e : ls_ends (gc_ls c) fuel -> update_weights fuel c k w = Raise e -> e = IndexError.
  Proof.
    intros F H. unfold update_weights, weights_line_search in H. cbv zeta in H.
    match type of H with bind ?l _ = _ => destruct l as [[[? ?] ?]|e'] eqn:E end; cbn [bind] in H; [discriminate|]. injection H as ->.
    pose proof E as E'. apply line_search_raise in E'. destruct E' as [[-> _]| ->]; [reflexivity|]. exfalso. eapply F, E.
  Qed.
  Lemma gpnh_exn fuel (o : gpnh T) data Din Win ud uw kw e : ls_ends (gc_ls (go_cfg o)) fuel ->
    gpnh_convex_coding fuel o data Din Win ud uw kw = Raise e -> run_exn (gc_monotone (go_cfg o)) e.
  Proof.
    intros F H. unfold gpnh_convex_coding in H. unfold run_exn.
    destruct (check_params _ _ _) as [[[k m] t]|e1] eqn:E1; cbn [bind] in H; [|injection H as <-; apply check_params_raise in E1; auto].
    destruct (choose_initial _ _ _ _ _ _ _ _ _) as [[[D W] g']|e2] eqn:E2; cbn [bind] in H; [|injection H as <-; apply choose_initial_raise in E2; unfold fs_exn in E2; tauto].
    destruct (gpnh_iterate _ _ _ _ _ _ _ _) as [[[[? ?] ?] ?]|e3] eqn:E3; cbn [bind] in H; [discriminate|]. injection H as <-.
    unfold gpnh_iterate in E3. apply guard_exn in E3; [exact E3|]. intros v s e Iv Ev. apply in_app_or in Iv. destruct Iv as [Iv|Iv]; apply in_enabled in Iv; destruct Iv as [_ ->].
    - eapply gpnh_dict_exn; eassumption.
    - eapply gpnh_weights_exn; eassumption.
  Qed.
  Lemma fit_transform_exn fuel (o : gpnh T) data Din Win ud uw kw e : ls_ends (gc_ls (go_cfg o)) fuel ->
    fit_transform fuel o data Din Win ud uw kw = Raise e -> run_exn (gc_monotone (go_cfg o)) e.
  Proof.
    intros F H. unfold fit_transform in H. destruct (gpnh_convex_coding _ _ _ _ _ _ _ _) as [r|e1] eqn:E; cbn [bind] in H.
    - apply gpnh_run_inv in E. destruct E as (k & m & t & D & W & g' & w2 & A1 & A2 & A3 & A4 & A5 & A6 & A7 & A8 & A9). rewrite A8 in H. discriminate H.
    - injection H as <-. eapply gpnh_exn; eassumption.
  Qed.
  Lemma transform_exn fuel (o : gpnh T) data e : ls_ends (gc_ls (go_cfg o)) fuel ->
    transform fuel o data = Raise e -> run_exn (gc_monotone (go_cfg o)) e.
  Proof.
    intros F H. unfold transform in H. destruct (gpnh_convex_coding _ _ _ _ _ _ _ _) as [r|e1] eqn:E; cbn [bind] in H.
    - apply gpnh_run_inv in E. destruct E as (k & m & t & D & W & g' & w2 & A1 & A2 & A3 & A4 & A5 & A6 & A7 & A8 & A9). rewrite A8 in H. discriminate H.
    - injection H as <-. eapply gpnh_exn; eassumption.
  Qed.

  Lemma aa_weights_exn fuel c (w : aws T) e : ls_ends (ac_ls c) fuel -> aa_update_weights fuel c w = Raise e -> e = IndexError.
  Proof.
    intros F H. unfold aa_update_weights, aa_weights_line_search in H. cbv zeta in H.
    match type of H with bind ?l _ = _ => destruct l as [[[? ?] ?]|e'] eqn:E end; cbn [bind] in H; [discriminate|]. injection H as ->.
    pose proof E as E'. apply line_search_raise in E'. destruct E' as [[-> _]| ->]; [reflexivity|]. exfalso. eapply F, E.
  Qed.
  Lemma aa_scale_exn fuel c (w : aws T) e : ls_ends (ac_ls c) fuel -> aa_update_scale fuel c w = Raise e -> e = IndexError.
  Proof.
    intros F H. unfold aa_update_scale, aa_scale_line_search in H. cbv zeta in H.
    match type of H with context [line_search ?a ?b ?c ?d ?e ?f ?g ?h] => destruct (line_search a b c d e f g h) as [[[? ?] ?]|e'] eqn:E end; cbn [bind] in H; [discriminate|]. injection H as ->.
    pose proof E as E'. apply line_search_raise in E'. destruct E' as [[-> _]| ->]; [reflexivity|]. exfalso. eapply F, E.
  Qed.
  Lemma aa_dict_exn fuel c (w : aws T) e : ls_ends (ac_ls c) fuel -> aa_update_dictionary fuel c w = Raise e -> e = IndexError.
  Proof.
    intros F H. unfold aa_update_dictionary, aa_dictionary_line_search in H. cbv zeta in H.
    match type of H with bind ?l _ = _ => destruct l as [[[? ?] ?]|e'] eqn:E end; cbn [bind] in H.
    - destruct (nltb _ _); [|discriminate]. eapply aa_scale_exn; eassumption.
    - injection H as ->. pose proof E as E'. apply line_search_raise in E'. destruct E' as [[-> _]| ->]; [reflexivity|]. exfalso. eapply F, E.
  Qed.
  Lemma aa_exn fuel (o : aa T) K Din Win ud uw kw e : ls_ends (ac_ls (ao_cfg o)) fuel ->
    kernel_aa fuel o K Din Win ud uw kw = Raise e -> run_exn (ac_monotone (ao_cfg o)) e.
  Proof.
    intros F H. unfold kernel_aa in H. unfold run_exn. destruct (negb _); [injection H as <-; auto|].
    destruct (check_params _ _ _) as [[[k m] t]|e1] eqn:E1; cbn [bind] in H; [|injection H as <-; apply check_params_raise in E1; auto].
    destruct (aa_choose_initial _ _ _ _ _ _ _ _ _) as [[[D W] g']|e2] eqn:E2; cbn [bind] in H; [|injection H as <-; apply aa_choose_initial_raise in E2; unfold fs_exn in E2; tauto].
    destruct (aa_iterate _ _ _ _ _ _ _) as [[[[? ?] ?] ?]|e3] eqn:E3; cbn [bind] in H; [discriminate|]. injection H as <-.
    unfold aa_iterate in E3. apply guard_exn in E3; [exact E3|]. intros v s e Iv Ev. apply in_app_or in Iv. destruct Iv as [Iv|Iv]; apply in_enabled in Iv; destruct Iv as [_ ->]; unfold and_refresh in Ev.
    - destruct (aa_update_dictionary _ _ _) eqn:E; cbn [bind] in Ev; [discriminate|]. injection Ev as <-. eapply aa_dict_exn; eassumption.
    - destruct (aa_update_weights _ _ _) eqn:E; cbn [bind] in Ev; [discriminate|]. injection Ev as <-. eapply aa_weights_exn; eassumption.
  Qed.
  Lemma aa_fit_exn fuel (o : aa T) K Din Win ud uw kw e : ls_ends (ac_ls (ao_cfg o)) fuel ->
    aa_fit_transform fuel o K Din Win ud uw kw = Raise e -> run_exn (ac_monotone (ao_cfg o)) e.
  Proof.
    intros F H. unfold aa_fit_transform in H. destruct (kernel_aa _ _ _ _ _ _ _ _) as [r|e1] eqn:E; cbn [bind] in H.
    - apply kernel_aa_inv in E. destruct E as (k & m & t & D & W0 & g' & w2 & A0 & A1 & A2 & A3 & A4 & A5 & A6 & A7 & A8 & A9). unfold aa_set_fitted in H. rewrite A8 in H. discriminate H.
    - injection H as <-. eapply aa_exn; eassumption.
  Qed.
  Lemma aa_transform_exn fuel (o : aa T) K e : ls_ends (ac_ls (ao_cfg o)) fuel ->
    aa_transform fuel o K = Raise e -> run_exn (ac_monotone (ao_cfg o)) e.
  Proof.
    intros F H. unfold aa_transform in H. destruct (kernel_aa _ _ _ _ _ _ _ _) as [r|e1] eqn:E; cbn [bind] in H.
    - apply kernel_aa_inv in E. destruct E as (k & m & t & D & W0 & g' & w2 & A0 & A1 & A2 & A3 & A4 & A5 & A6 & A7 & A8 & A9). rewrite A8 in H. discriminate H.
    - injection H as <-. eapply aa_exn; eassumption.
  Qed.

  Lemma mtd_exn fuel (o : mtd T) data Din Win ow Ts ud uw up kw e : ls_ends (mc_ls (mo_cfg o)) fuel ->
    mtd_convex_coding fuel o data Din Win ow Ts ud uw up kw = Raise e -> run_exn (mc_monotone (mo_cfg o)) e \/ e = AttributeError.
  Proof.
    intros F H. unfold mtd_convex_coding in H. unfold run_exn.
    destruct (check_params _ _ _) as [[[k m] t]|e1] eqn:E1; cbn [bind] in H; [|injection H as <-; apply check_params_raise in E1; auto].
    destruct (mtd_choose_initial _ _ _ _ _ _ _ _ _ _ _ _) as [[[[[D W] o0] M0] g']|e2] eqn:E2; cbn [bind] in H; [|injection H as <-; apply mtd_choose_initial_raise in E2; unfold mtd_init_exn in E2; tauto].
    unfold check_max_lag in H. destruct (mc_lags _); cbn [bind] in H; [injection H as <-; auto|].
    destruct (mtd_iterate _ _ _ _ _ _ _ _ _) as [[[[? ?] ?] ?]|e3] eqn:E3; cbn [bind] in H; [discriminate|]. injection H as <-.
    unfold mtd_iterate in E3. left. apply guard_exn in E3; [exact E3|]. intros v s e Iv Ev. apply in_app_or in Iv.
    destruct Iv as [Iv|Iv]; [|apply in_app_or in Iv; destruct Iv as [Iv|Iv]]; apply in_enabled in Iv; destruct Iv as [_ ->];
      [unfold mtd_update_dictionary, mtd_dictionary_line_search in Ev|unfold mtd_update_weights, mtd_weights_line_search in Ev|unfold mtd_update_parameters, mtd_parameters_line_search in Ev];
      cbv zeta in Ev; (match type of Ev with bind ?l _ = _ => destruct l as [[[? ?] ?]|e'] eqn:E end; cbn [bind] in Ev; [discriminate|]; injection Ev as ->;
      pose proof E as E'; apply line_search_raise in E'; destruct E' as [[-> _]| ->]; [reflexivity|]; exfalso; eapply F, E).
  Qed.
  Lemma mtd_fit_exn fuel (o : mtd T) data Din Win ow Ts ud uw up kw e : ls_ends (mc_ls (mo_cfg o)) fuel ->
    mtd_fit_transform fuel o data Din Win ow Ts ud uw up kw = Raise e -> run_exn (mc_monotone (mo_cfg o)) e \/ e = AttributeError.
  Proof.
    intros F H. unfold mtd_fit_transform in H. destruct (mtd_convex_coding _ _ _ _ _ _ _ _ _ _ _) as [r|e1] eqn:E; cbn [bind] in H.
    - cbv zeta in H. destruct (mo_ws (mr_obj r)); [discriminate H|]. injection H as <-. auto.
    - injection H as <-. eapply mtd_exn; eassumption.
  Qed.
  Lemma mtd_transform_exn fuel (o : mtd T) data e : ls_ends (mc_ls (mo_cfg o)) fuel ->
    mtd_transform fuel o data = Raise e -> run_exn (mc_monotone (mo_cfg o)) e \/ e = AttributeError.
  Proof.
    intros F H. unfold mtd_transform in H. destruct (mtd_convex_coding _ _ _ _ _ _ _ _ _ _ _) as [r|e1] eqn:E; cbn [bind] in H.
    - cbv zeta in H. destruct (mo_ws (mr_obj r)); [discriminate H|]. injection H as <-. auto.
    - injection H as <-. eapply mtd_exn; eassumption.
  Qed.
  Lemma mtd_predict_exn fuel (o : mtd T) data h e : ls_ends (mc_ls (mo_cfg o)) fuel ->
    mtd_predict fuel o data h = Raise e -> run_exn (mc_monotone (mo_cfg o)) e \/ e = AttributeError.
  Proof.
    intros F H. unfold mtd_predict in H. destruct (mtd_transform _ _ _) as [[r W]|e1] eqn:E; cbn [bind] in H; [|injection H as <-; eapply mtd_transform_exn; eassumption].
    destruct (mo_ws _) eqn:Ew; [|injection H as <-; auto]. unfold mtd_inverse_transform in H. rewrite Ew in H. destruct (Nat.eqb _ _); cbn [bind] in H; [discriminate|]. injection H as <-. unfold run_exn. auto.
  Qed.

  Lemma crom_parameters_exn fuel c k n G t m (g : rng T) e : ls_ends (mc_ls c) fuel ->
    crom_fit_parameters fuel c k n G t m g = Raise e -> run_exn (mc_monotone c) e.
  Proof.
    intros F H. unfold crom_fit_parameters in H. destruct (initialize_parameters_random _ _ _) as [[ow Ts] g'].
    unfold check_max_lag in H. destruct (mc_lags c); cbn [bind] in H; [injection H as <-; unfold run_exn; auto|].
    destruct (iterate _ _ _ _ _ _) as [[[[? ?] ?] ?]|e3] eqn:E3; cbn [bind] in H; [discriminate|]. injection H as <-. apply guard_exn in E3; [exact E3|].
    intros v s e [<-|[]] Ev. unfold crom_update_parameters, crom_line_search in Ev. cbv zeta in Ev.
    match type of Ev with bind ?l _ = _ => destruct l as [[[? ?] ?]|e'] eqn:E end; cbn [bind] in Ev; [discriminate|]. injection Ev as ->.
    pose proof E as E'. apply line_search_raise in E'. destruct E' as [[-> _]| ->]; [reflexivity|]. exfalso. eapply F, E.
  Qed.
  Lemma crom_fit_exn fuel (o : crom T) data Din Win ud uw kw e : ls_ends (gc_ls (go_cfg (co_gpnh o))) fuel ->
    crom_fit_transform fuel o data Din Win ud uw kw = Raise e -> run_exn (gc_monotone (go_cfg (co_gpnh o))) e.
  Proof.
    intros F H. unfold crom_fit_transform in H. destruct (fit_transform _ _ _ _ _ _ _ _) as [[r G]|e1] eqn:E; cbn [bind] in H; [|injection H as <-; eapply fit_transform_exn; eassumption].
    apply fit_transform_inv in E. destruct E as (k & m & t & D & W0 & g0 & w2 & A1 & A2 & A3 & A4 & A5 & A6 & A7 & A8 & _ & A9). rewrite A8 in H. cbn [go_cfg go_n_components go_rng] in H.
    destruct (check_params _ _ _) as [[[k' m'] t']|e1] eqn:E1; cbn [bind] in H; [|injection H as <-; apply check_params_raise in E1; unfold run_exn; auto].
    destruct (crom_fit_parameters _ _ _ _ _ _ _ _) as [[[[? ?] ?] ?]|e2] eqn:E2; cbn [bind] in H; [discriminate|]. injection H as <-.
    eapply (crom_parameters_exn fuel (crom_cfg (go_cfg (co_gpnh o)) (co_lags o))); [exact F|exact E2].
  Qed.
  Lemma crom_predict_exn fuel (o : crom T) data h e : ls_ends (gc_ls (go_cfg (co_gpnh o))) fuel ->
    crom_predict fuel o data h = Raise e -> run_exn (gc_monotone (go_cfg (co_gpnh o))) e \/ (co_parameters o = None /\ e = AttributeError).
  Proof.
    intros F H. unfold crom_predict, crom_transform in H. destruct (transform _ _ _) as [[r W]|e1] eqn:E; cbn [bind] in H; [|injection H as <-; left; eapply transform_exn; eassumption].
    apply transform_inv in E. destruct E as (k & m & t & D & W0 & g0 & w2 & A1 & A2 & A3 & A4 & A5 & A6 & A7 & A8 & _ & A9).
    unfold run_exn, inverse_transform in *. cbn [co_gpnh] in H. rewrite A8 in H. cbn [go_ws] in H.
    destruct (Z.eqb h 0).
    - cbn [bind] in H. destruct (Nat.eqb _ _); cbn [bind] in H; [discriminate|]. injection H as <-. auto.
    - destruct (co_parameters o) as [[ow Ts]|]; cbn [bind] in H; [|injection H as <-; auto].
      unfold check_max_lag in H. destruct (mc_lags _); cbn [bind] in H; [injection H as <-; auto|]. destruct (Nat.eqb _ _); cbn [bind] in H; [discriminate|]. injection H as <-. auto.
  Qed.
  (** a random start without the guard returns *)
  Lemma gpnh_random_returns fuel (o : gpnh T) data D W kw k m t : ls_ends (gc_ls (go_cfg o)) fuel ->
    comp_count (go_n_components o) (nc data) k -> (0 < k)%nat -> gc_max_iterations (go_cfg o) = PInt (Z.of_nat m) -> (0 < m)%nat -> tol_value (gc_tolerance (go_cfg o)) t ->
    gc_init (go_cfg o) = InitRandom \/ gc_init (go_cfg o) = InitNone -> (0 < gc_memory (go_cfg o))%nat -> gc_monotone (go_cfg o) = false ->
    exists r, fit_transform fuel o data D W true true kw = Ok r.
  Proof.
    intros F Hc Hk Hm1 Hm Ht Hi HM HG. destruct (fit_transform fuel o data D W true true kw) as [r|e] eqn:E; [eauto|exfalso].
    unfold fit_transform in E. destruct (gpnh_convex_coding _ _ _ _ _ _ _ _) as [r|e1] eqn:E1; cbn [bind] in E.
    - apply gpnh_run_inv in E1. destruct E1 as (k' & m' & t' & D' & W' & g' & w2 & A1 & A2 & A3 & A4 & A5 & A6 & A7 & A8 & A9). rewrite A8 in E. discriminate E.
    - clear E. unfold gpnh_convex_coding in E1. apply comp_count_resolve in Hc. rewrite Hc, Hm1, (check_params_total k m _ t) in E1 by assumption. cbn [bind] in E1.
      destruct (choose_initial _ _ _ _ _ _ _ _ _) as [[[D' W'] g']|e2] eqn:E2; cbn [bind] in E1.
      2:{ unfold choose_initial in E2. destruct Hi as [Hi|Hi]; rewrite Hi in E2; cbn [andb negb initialize_dictionary initialize_weights bind] in E2; discriminate E2. }
      destruct (gpnh_iterate _ _ _ _ _ _ _ _) as [[[[? ?] ?] ?]|e3] eqn:E3; cbn [bind] in E1; [discriminate|]. clear E1.
      unfold gpnh_iterate, iterate in E3. apply (iterate_loop_raise _ (fun w => w_f_S_mem w <> [] /\ w_f_Gamma_mem w <> [])) in E3.
      + destruct E3 as [[-> (i & s0 & s & _ & _ & B)] | (v & s & Iv & [P1 P2] & Ev)].
        * unfold cost_increased in B. rewrite HG, andb_false_r in B. discriminate.
        * apply in_app_or in Iv. destruct Iv as [Iv|Iv]; apply in_enabled in Iv; destruct Iv as [_ ->].
          -- unfold update_dictionary, dictionary_line_search in Ev. cbv zeta in Ev. match type of Ev with bind ?l _ = _ => destruct l as [[[? ?] ?]|e'] eqn:E4 end; cbn [bind] in Ev; [discriminate|].
             pose proof E4 as E5. apply line_search_raise in E5. destruct E5 as [[_ E5]| ->]; [contradiction|eapply F, E4].
          -- unfold update_weights, weights_line_search in Ev. cbv zeta in Ev. match type of Ev with bind ?l _ = _ => destruct l as [[[? ?] ?]|e'] eqn:E4 end; cbn [bind] in Ev; [discriminate|].
             pose proof E4 as E5. apply line_search_raise in E5. destruct E5 as [[_ E5]| ->]; [contradiction|eapply F, E4].
      + assert (NE : forall (l : list T) x, l ++ [x] <> []) by (intros l x; destruct l; discriminate).
        intros v s s' Iv [P1 P2] Ev. apply in_app_or in Iv. destruct Iv as [Iv|Iv]; apply in_enabled in Iv; destruct Iv as [_ ->].
        * unfold update_dictionary, dictionary_line_search in Ev. cbv zeta in Ev. apply bind_ok in Ev. destruct Ev as (((w1 & st) & mem) & E4 & Ev). injection Ev as <-.
          apply line_search_ok in E4. destruct E4 as (m0 & rest & fm & _ & _ & Em & B). cbn [fst snd] in *. apply backtrack_exit in B; [|reflexivity].
          assert (Q : w_f_Gamma_mem w1 = w_f_Gamma_mem s) by (destruct B as [_ [[B _]|B]]; cbn [fst snd] in B; rewrite B; reflexivity).
          split; [cbn; rewrite Em; apply NE|cbn; rewrite Q; exact P2].
        * unfold update_weights, weights_line_search in Ev. cbv zeta in Ev. apply bind_ok in Ev. destruct Ev as (((w1 & st) & mem) & E4 & Ev). injection Ev as <-.
          apply line_search_ok in E4. destruct E4 as (m0 & rest & fm & _ & _ & Em & B). cbn [fst snd] in *. apply backtrack_exit in B; [|reflexivity].
          assert (Q : w_f_S_mem w1 = w_f_S_mem s) by (destruct B as [_ [[B _]|B]]; cbn [fst snd] in B; rewrite ?B; reflexivity).
          split; [cbn; rewrite ?Q; exact P1|cbn; rewrite Em; apply NE].
      + reflexivity.
      + cbn. destruct (gc_memory (go_cfg o)); [lia|]. cbn. split; discriminate.
  Qed.
End Fuel.

(** ** the starting arrays: given or drawn *)
Section Start.
  Context {T : Type} {N : Num T}.
  Definition drawn_right (r c : nat) (g : rng T) (W : mat T) : Prop := exists g1, r_uniform g1 = r_uniform g /\ W = fst (right_stochastic_matrix r c g1).
  Lemma weights_start data k init (g : rng T) r : initialize_weights data k init g = Ok r -> fst r = fst (right_stochastic_matrix (nr data) k g).
  Proof. unfold initialize_weights. destruct init; try discriminate; intros [= <-]; reflexivity. Qed.
  Lemma dictionary_stream data k init kw (g : rng T) r : initialize_dictionary data k init kw g = Ok r -> r_uniform (snd r) = r_uniform g.
  Proof.
    destruct r as [D g']. intros H.
    unfold initialize_dictionary in H. destruct init; try discriminate; try (injection H as _ <-; reflexivity).
    unfold initialize_dictionary_furthest_sum in H. apply bind_ok in H. destruct H as ((s & g1) & E1 & H).
    apply bind_ok in H. destruct H as (sel & E2 & H). apply bind_ok in H. destruct H as (_ & _ & H). injection H as _ <-. cbn [snd].
    destruct (fk_start_index kw); [injection E1 as <- <-; auto|].
    apply bind_ok in E1. destruct E1 as ((z & g2) & E1 & E3). injection E3 as <- <-. cbn [snd].
    unfold draw_randint in E1. destruct (Nat.eqb _ 0); [discriminate|]. injection E1 as _ <-. auto.
  Qed.
  Lemma check_weights_given w r k M : check_init_weights (T := T) w r k = Ok M -> w = Some M.
  Proof.
    unfold check_init_weights. destruct w as [A|]; cbn [check_array bind]; [|discriminate]. destruct (all_finite A); cbn [bind]; [|discriminate]. destruct (check_array_shape _ _ _); cbn [bind]; [|discriminate].
    destruct (check_unit_row_sums _); cbn [bind]; [|discriminate]. congruence.
  Qed.
  Lemma check_aa_given w r k M : check_init_aa_dictionary (T := T) w r k = Ok M -> w = Some M.
  Proof.
    unfold check_init_aa_dictionary. destruct w as [A|]; cbn [check_array bind]; [|discriminate]. destruct (all_finite A); cbn [bind]; [|discriminate]. destruct (check_array_shape _ _ _); cbn [bind]; [|discriminate].
    destruct (check_unit_row_sums _); cbn [bind]; [|discriminate]. congruence.
  Qed.
  Lemma gpnh_start c k data Din Win ud uw kw (g g' : rng T) D W :
    choose_initial c k data Din Win ud uw kw g = Ok (D, W, g') -> Win = Some W \/ drawn_right (nr data) k g W.
  Proof.
    intros H. unfold choose_initial in H. cbv zeta in H. unfold drawn_right.
    destruct (gc_init c);
      try (destruct (andb (negb ud) uw);
        [ apply bind_ok in H; destruct H as (D0 & E1 & H); destruct kw; [discriminate|];
          apply bind_ok in H; destruct H as (r & E2 & H); injection H as <- <- <-; right; exists g; split; [reflexivity|]; apply weights_start in E2; exact E2
        | destruct (andb ud (negb uw));
          [ apply bind_ok in H; destruct H as (W0 & E1 & H); apply bind_ok in H; destruct H as (r & E2 & H);
            injection H as <- <- <-; left; eapply check_weights_given, E1
          | apply bind_ok in H; destruct H as (r1 & E1 & H); apply bind_ok in H; destruct H as (r2 & E2 & H); injection H as <- <- <-;
            right; exists (snd r1); split; [eapply dictionary_stream, E1|]; apply weights_start in E2; exact E2 ] ]).
    apply bind_ok in H. destruct H as (W0 & E1 & H). apply bind_ok in H. destruct H as (D0 & E2 & H). injection H as <- <- <-. left. eapply check_weights_given, E1.
  Qed.
  Definition unit_rows (k n : nat) (D : mat T) : Prop := exists sel, D = mbuild k n (fun i j => if Nat.eqb j (sel i) then n1 else n0).
  Lemma aa_dictionary_start K k init kw (g : rng T) r : aa_initialize_dictionary K k init kw g = Ok r ->
    r_uniform (snd r) = r_uniform g /\ (drawn_right k (nr K) g (fst r) \/ unit_rows k (nr K) (fst r)).
  Proof.
    destruct r as [D g']. cbn [fst snd]. intros H. unfold aa_initialize_dictionary in H.
    assert (F : aa_dictionary_furthest_sum K k kw g = Ok (D, g') -> r_uniform g' = r_uniform g /\ (drawn_right k (nr K) g D \/ unit_rows k (nr K) D)).
    { clear H. unfold aa_dictionary_furthest_sum. intros H. apply bind_ok in H. destruct H as ((s & g1) & E1 & H).
      apply bind_ok in H. destruct H as (sel & E2 & H). apply bind_ok in H. destruct H as (_ & _ & H). injection H as <- <-. cbn [snd]. split; [|right; eexists; reflexivity].
      destruct (fk_start_index kw); [injection E1 as <- <-; auto|].
      apply bind_ok in E1. destruct E1 as ((z & g2) & E1 & E3). injection E3 as <- <-. cbn [snd].
      unfold draw_randint in E1. destruct (Nat.eqb _ 0); [discriminate|]. injection E1 as _ <-. auto. }
    destruct init; try exact (F H); try discriminate. injection H as <- <-. split; [reflexivity|left]. exists g. split; reflexivity.
  Qed.
  Lemma aa_weights_start K k init (g : rng T) r : aa_initialize_weights K k init g = Ok r -> fst r = fst (right_stochastic_matrix (nr K) k g).
  Proof. unfold aa_initialize_weights. destruct init; try discriminate; intros [= <-]; reflexivity. Qed.
  Lemma aa_start c k K Din Win ud uw kw (g g' : rng T) D W :
    aa_choose_initial c k K Din Win ud uw kw g = Ok (D, W, g') ->
    (Win = Some W \/ drawn_right (nr K) k g W) /\ (Din = Some D \/ drawn_right k (nr K) g D \/ unit_rows k (nr K) D).
  Proof.
    intros H. unfold aa_choose_initial in H. cbv zeta in H.
    destruct (ac_init c);
      try (destruct (andb (negb ud) uw);
        [ apply bind_ok in H; destruct H as (D0 & E1 & H); destruct kw; [discriminate|];
          apply bind_ok in H; destruct H as (r & E2 & H); injection H as <- <- <-; split; [right; exists g; split; [reflexivity|]; apply aa_weights_start in E2; exact E2|left; eapply check_aa_given, E1]
        | destruct (andb ud (negb uw));
          [ apply bind_ok in H; destruct H as (W0 & E1 & H); apply bind_ok in H; destruct H as (r & E2 & H);
            injection H as <- <- <-; split; [left; eapply check_weights_given, E1|right; eapply aa_dictionary_start, E2]
          | apply bind_ok in H; destruct H as (r1 & E1 & H); destruct kw; [discriminate|]; apply bind_ok in H; destruct H as (r2 & E2 & H); injection H as <- <- <-;
            apply aa_dictionary_start in E1; destruct E1 as [G1 G2]; split; [|right; exact G2];
            right; exists (snd r1); split; [exact G1|]; apply aa_weights_start in E2; exact E2 ] ]).
    apply bind_ok in H. destruct H as (W0 & E1 & H). apply bind_ok in H. destruct H as (D0 & E2 & H). injection H as <- <- <-. split; left; [eapply check_weights_given, E1|eapply check_aa_given, E2].
  Qed.
  Definition drawn_parameters (k p : nat) (g : rng T) (ow : list T) (Ts : list (mat T)) : Prop :=
    exists g1 g2, r_uniform g1 = r_uniform g /\ initialize_parameters_random k p g1 = (ow, Ts, g2).
  Lemma mtd_start c k data Din Win ow Ts ud uw up kw (g g' : rng T) D W ow0 Ts0 :
    mtd_choose_initial c k data Din Win ow Ts ud uw up kw g = Ok (D, W, ow0, Ts0, g') ->
    (Win = Some W \/ drawn_right (nr data) k g W) /\ ((ow = Some ow0 /\ Ts = Some Ts0) \/ drawn_parameters k (n_lags c) g ow0 Ts0).
  Proof.
    intros H. unfold mtd_choose_initial in H. cbv zeta in H.
    assert (CT : forall M, check_init_transition_matrices Ts (n_lags c) k = Ok M -> Ts = Some M).
    { intros M E. unfold check_init_transition_matrices in E. destruct Ts as [l|]; [|discriminate].
      repeat match type of E with (if ?b then _ else _) = _ => destruct b; [|discriminate] end. congruence. }
    assert (CO : forall o, check_init_order_weights ow (n_lags c) = Ok o -> ow = Some o) by (intros o E; apply check_init_order_weights_inv in E; apply E).
    destruct (mc_init c).
    4:{ apply bind_ok in H. destruct H as (W0 & E1 & H). apply bind_ok in H. destruct H as (D0 & E2 & H).
        apply bind_ok in H. destruct H as (o & E3 & H). apply bind_ok in H. destruct H as (M & E4 & H).
        injection H as <- <- <- <- <-. split; [left; eapply check_weights_given, E1|]. left. auto. }
    all: (apply bind_ok in H; destruct H as (r1 & E1 & H); apply bind_ok in H; destruct H as (r2 & E2 & H);
      apply bind_ok in H; destruct H as (((o & M) & g3) & E3 & H); injection H as <- <- <- <- <-;
      assert (A1 : r_uniform (snd r1) = r_uniform g)
        by (destruct ud; [eapply dictionary_stream, E1 | apply bind_ok in E1; destruct E1 as (D1 & F1 & F2); injection F2 as <-; reflexivity]);
      assert (A2 : r_uniform (snd r2) = r_uniform (snd r1) /\ (Win = Some (fst r2) \/ drawn_right (nr data) k (snd r1) (fst r2)))
        by (destruct uw; [destruct kw; [discriminate E2|]; split; [|right; exists (snd r1); split; [reflexivity|]; eapply weights_start, E2];
                          unfold initialize_weights in E2; try discriminate E2; injection E2 as <-; reflexivity
          | apply bind_ok in E2; destruct E2 as (W1 & F1 & F2); injection F2 as <-; split; [reflexivity|left; eapply check_weights_given, F1]]);
      destruct A2 as [A2 A3]; split;
      [ destruct A3 as [A3|(g1 & G1 & G2)]; [left; exact A3|right; exists g1; split; [congruence|exact G2]]
      | destruct up;
        [ destruct kw; [discriminate E3|]; right; unfold initialize_parameters in E3; try discriminate E3;
          (exists (snd r2), g3; split; [congruence|]; congruence)
        | left; apply bind_ok in E3; destruct E3 as (o1 & F1 & F2); apply bind_ok in F2; destruct F2 as (M1 & F2 & F3); injection F3 as <- <- <-; auto ] ]).
  Qed.
End Start.

Local Open Scope R_scope.
Section NonNeg.
  Variables (u eta : R) (rnd : R -> R).
  Hypothesis HR : rounding u eta rnd.
  Notation NR := (Num_rnd rnd).
  Notation nnf := (nonneg_float rnd).
  Notation mnn := (nonneg_mat rnd).
  Notation vnn := (nonneg_vec rnd).
  Notation tnn := (nonneg_stack rnd).

  Lemma nnf1 : nnf 1.
  Proof using HR. split; [lra|apply (rnd_one _ _ _ HR)]. Qed.
  Lemma right_mnn r c (g : rng R) W : float_draws rnd g -> (forall p, Sum c (fun j => r_uniform g (p + j)) <> 0) -> @drawn_right R NR r c g W -> mnn W.
  Proof using HR.
    intros Hg HS (g1 & Eg & ->) i j. pose proof (right_entry rnd r c g1 i j) as LE. unfold right_stochastic_matrix, draw_uniform_mat in *. cbn [fst] in *.
    match goal with |- nnf (ent (mbuild ?r ?c ?f) i j) => destruct (ent_mbuild_cases rnd r c f i j) as [(_ & Hi & Hj)|A] end; [|rewrite A; apply (nnf0 _ _ _ HR)].
    rewrite LE by assumption. rewrite Eg. split; [|apply (rnd_idem _ _ _ HR)].
    apply (norm_entry u eta rnd HR c (fun j => r_uniform g (r_pos g1 + i * c + j))); [intros; apply Hg|apply HS|exact Hj].
  Qed.
  Lemma left_mnn k (g : rng R) : float_draws rnd g -> (forall q j, (j < k)%nat -> Sum k (fun i => r_uniform g (q + i * k + j)) <> 0) ->
    mnn (fst (@left_stochastic_matrix R NR k k g)).
  Proof using HR.
    intros Hg HS i j. pose proof (left_entry rnd k k g i j) as LE. unfold left_stochastic_matrix, draw_uniform_mat in *. cbn [fst] in *.
    match goal with |- nnf (ent (mbuild ?r ?c ?f) i j) => destruct (ent_mbuild_cases rnd r c f i j) as [(_ & Hi & Hj)|A] end; [|rewrite A; apply (nnf0 _ _ _ HR)].
    rewrite LE by assumption. split; [|apply (rnd_idem _ _ _ HR)].
    apply (norm_entry u eta rnd HR k (fun i => r_uniform g (r_pos g + i * k + j))); [intros; apply Hg|apply HS; exact Hj|exact Hi].
  Qed.
  Lemma unit_mnn k n D : @unit_rows R NR k n D -> mnn D.
  Proof using HR.
    intros (sel & ->) i j. match goal with |- nnf (ent (mbuild ?r ?c ?f) i j) => destruct (ent_mbuild_cases rnd r c f i j) as [(A & _)|A]; rewrite A end; [|apply (nnf0 _ _ _ HR)].
    destruct (Nat.eqb _ _); [apply nnf1|apply (nnf0 _ _ _ HR)].
  Qed.
  Lemma stack_cons_nn M l : mnn M -> tnn l -> tnn (M :: l).
  Proof using. intros HM Hl [|q]; [exact HM|apply Hl]. Qed.
  Lemma transition_tnn p k : forall g : rng R, float_draws rnd g -> (forall q j, (j < k)%nat -> Sum k (fun i => r_uniform g (q + i * k + j)) <> 0) ->
    tnn (fst (@draw_transition_matrices R NR p k g)).
  Proof using HR.
    induction p as [|p IH]; intros g Hg HS; cbn [draw_transition_matrices].
    - intros q. cbn [fst]. replace (nth q [] (mkmat 0 0 [])) with (mkmat (T := R) 0 0 []) by (destruct q; reflexivity). apply (mnn_0 _ _ _ HR).
    - pose proof (left_mnn k g Hg HS) as L. assert (U : r_uniform (snd (@left_stochastic_matrix R NR k k g)) = r_uniform g) by reflexivity.
      destruct (left_stochastic_matrix k k g) as [M g1]. cbn [fst snd] in *.
      assert (I : tnn (fst (@draw_transition_matrices R NR p k g1))) by (apply IH; unfold float_draws; rewrite U; assumption).
      destruct (draw_transition_matrices p k g1) as [r g2]. cbn [fst] in *. apply stack_cons_nn; assumption.
  Qed.
  Lemma parameters_nn k p (g : rng R) ow Ts : float_draws rnd g -> (forall q, Sum p (fun j => r_uniform g (q + j)) <> 0) ->
    (forall q j, (j < k)%nat -> Sum k (fun i => r_uniform g (q + i * k + j)) <> 0) -> @drawn_parameters R NR k p g ow Ts -> vnn ow /\ tnn Ts.
  Proof using HR.
    intros Hg H1 H2 (g1 & g2 & U & E). unfold initialize_parameters_random, draw_uniform_vec in E.
    match type of E with context [draw_transition_matrices p k ?gg] => assert (I : tnn (fst (@draw_transition_matrices R NR p k gg))) by (apply transition_tnn; unfold float_draws; cbn [advance r_uniform]; rewrite U; assumption); destruct (draw_transition_matrices p k gg) as [r g3] end.
    injection E as <- <- <-. split; [|exact I]. clear I. rewrite U. intros i. destruct (Nat.lt_ge_cases i p) as [Hi|Hi].
    - rewrite at_map by (rewrite length_tab; exact Hi). cbn [ndiv Num_rnd]. unfold vsum. rewrite length_tab. unfold at_ at 1. split; [|apply (rnd_idem _ _ _ HR)].
      match goal with |- context [@nsum R NR p ?f] => rewrite (@nsum_ext R NR p f (fun j => r_uniform g (r_pos g1 + j))) by (intros j Hj; rewrite (@vget_tab R NR) by exact Hj; reflexivity) end.
      change (nth i (tab p (fun i => r_uniform g (r_pos g1 + i))) 0) with (@vget R NR (tab p (fun i => r_uniform g (r_pos g1 + i))) i). rewrite vget_tab by exact Hi.
      apply (norm_entry u eta rnd HR p (fun j => r_uniform g (r_pos g1 + j))); [intros; apply Hg|apply H1|exact Hi].
    - unfold at_. rewrite nth_overflow by (rewrite map_length, length_tab; exact Hi). apply (nnf0 _ _ _ HR).
  Qed.

  (** projections *)
  Lemma rows_proj_nonneg A i j : wf A -> 0 <= ent (@simplex_project_rows R NR A) i j.
  Proof using HR.
    intros W. rewrite project_rows_eq by exact W. match goal with |- _ <= ent (mbuild ?r ?c ?f) i j => destruct (ent_mbuild_cases rnd r c f i j) as [(-> & _)| ->] end; [|lra].
    apply (proj_rnd_nonneg rnd).
  Qed.
  Lemma cols_proj_nonneg A i j : wf A -> 0 <= ent (@simplex_project_columns R NR A) i j.
  Proof using HR.
    intros W. rewrite project_cols_eq by exact W. match goal with |- _ <= ent (mbuild ?r ?c ?f) i j => destruct (ent_mbuild_cases rnd r c f i j) as [(-> & _)| ->] end; [|lra].
    apply (proj_rnd_nonneg rnd).
  Qed.
  Lemma stack_proj_nonneg A B q i j : 0 <= ent (nth q (map (@simplex_project_columns R NR) (@tsub R NR A B)) (mkmat 0 0 [])) i j.
  Proof using HR.
    destruct (nth_map_mat (@simplex_project_columns R NR) (@tsub R NR A B) q) as [[-> Hq]| ->]; [|destruct (mnn_0 _ _ _ HR i j); assumption].
    apply cols_proj_nonneg. unfold tsub in *. rewrite length_tab in Hq. match goal with |- wf (nth q (tab ?n ?f) _) => destruct (nth_tab_mat n f q) as [[E _]|E]; rewrite E end; [apply wf_mbuild|].
    repeat split; cbn; try reflexivity. intros r [].
  Qed.

  (** updates *)
  Definition ls_range (p : ls_params R) : Prop := 0 <= ls_sigma_one p /\ ls_sigma_two p <= 1.

  Lemma gpnh_weights_nn fuel c k w w' : ls_range (gc_ls c) -> mnn (w_Gamma w) -> @update_weights R NR fuel c k w = Ok w' -> mnn (w_Gamma w').
  Proof using HR.
    intros [L1 L2] HG H. unfold update_weights, weights_line_search in H. cbv zeta in H. apply bind_ok in H. destruct H as (((w1 & s) & mem) & E & H). injection H as <-.
    apply (line_search_rnd u eta rnd HR) in E; [|assumption|assumption]. destruct E as (Hs & _ & E). cbn [w_Gamma set_Gamma_mem].
    match type of E with context [@msub R NR (simplex_project_rows ?A) ?G] => destruct (step_mat u eta rnd HR G (@simplex_project_rows R NR A) s HG (fun i j => rows_proj_nonneg A i j (wf_mbuild _ _ _)) Hs) as [Q1 Q2] end.
    destruct E as [->| ->]; [exact Q1|exact Q2].
  Qed.
  Lemma gpnh_dict_nn fuel c k w w' : mnn (w_Gamma w) -> @update_dictionary R NR fuel c k w = Ok w' -> mnn (w_Gamma w').
  Proof using HR.
    intros HG H. unfold update_dictionary, dictionary_line_search in H. cbv zeta in H. apply bind_ok in H. destruct H as (((w1 & s) & mem) & E & H). injection H as <-.
    apply line_search_ok in E. destruct E as (m0 & rest & fm & _ & _ & _ & B). apply backtrack_exit in B; [|reflexivity]. destruct B as [_ [[E _]|E]]; cbn [fst snd] in E; subst w1; exact HG.
  Qed.
  Lemma gpnh_iterate_nn fuel c k ud uw t m w w' cost n_iter log : ls_range (gc_ls c) -> (0 < m)%nat -> mnn (w_Gamma w) ->
    @gpnh_iterate R NR fuel c k ud uw t m w = Ok (w', cost, n_iter, log) -> mnn (w_Gamma w').
  Proof using HR.
    intros HL Hm HG H. unfold gpnh_iterate in H. apply (iterate_ok _ (fun w => mnn (w_Gamma w))) in H; [apply H| |exact Hm|exact HG].
    intros v s s' Iv HP Ev. apply in_app_or in Iv. destruct Iv as [Iv|Iv]; apply in_enabled in Iv; destruct Iv as [_ ->]; [eapply gpnh_dict_nn; eassumption|eapply gpnh_weights_nn; eassumption].
  Qed.

  Definition aa_nn (w : aws R) : Prop := mnn (a_S w) /\ mnn (a_C w).
  Lemma aa_weights_nn fuel c w w' : ls_range (ac_ls c) -> aa_nn w -> @aa_update_weights R NR fuel c w = Ok w' -> aa_nn w'.
  Proof using HR.
    intros [L1 L2] [HS HC] H. unfold aa_update_weights, aa_weights_line_search in H. cbv zeta in H. apply bind_ok in H. destruct H as (((w1 & s) & mem) & E & H). injection H as <-.
    apply (line_search_rnd u eta rnd HR) in E; [|assumption|assumption]. destruct E as (Hs & _ & E). cbn [a_S] in E. unfold aa_nn. cbn [a_S a_C].
    match type of E with context [@msub R NR (simplex_project_rows ?A) ?G] => destruct (step_mat u eta rnd HR G (@simplex_project_rows R NR A) s HS (fun i j => rows_proj_nonneg A i j (wf_mbuild _ _ _)) Hs) as [Q1 Q2] end.
    destruct E as [->| ->]; (split; [assumption|exact HC]).
  Qed.
  Lemma aa_scale_nn fuel c w w' : aa_nn w -> @aa_update_scale R NR fuel c w = Ok w' -> aa_nn w'.
  Proof using.
    intros HN H. unfold aa_update_scale in H. cbv zeta in H. apply bind_ok in H. destruct H as ((s & mem) & _ & H). injection H as <-. exact HN.
  Qed.
  Lemma aa_dict_nn fuel c w w' : ls_range (ac_ls c) -> aa_nn w -> @aa_update_dictionary R NR fuel c w = Ok w' -> aa_nn w'.
  Proof using HR.
    intros [L1 L2] [HS HC] H. unfold aa_update_dictionary, aa_dictionary_line_search in H. cbv zeta in H. apply bind_ok in H. destruct H as (((w1 & s) & mem) & E & H).
    apply (line_search_rnd u eta rnd HR) in E; [|assumption|assumption]. destruct E as (Hs & _ & E). cbn [a_C] in E.
    assert (Q : aa_nn w1).
    { match type of E with context [@msub R NR (simplex_project_rows ?A) ?G] => destruct (step_mat u eta rnd HR G (@simplex_project_rows R NR A) s HC (fun i j => rows_proj_nonneg A i j (wf_mbuild _ _ _)) Hs) as [Q1 Q2] end.
      destruct E as [->| ->]; (split; [exact HS|assumption]). }
    destruct (nltb _ _); [eapply aa_scale_nn; [|exact H]; exact Q|injection H as <-; exact Q].
  Qed.
  Lemma aa_iterate_nn fuel c ud uw t m w w' cost n_iter log : ls_range (ac_ls c) -> (0 < m)%nat -> aa_nn w ->
    @aa_iterate R NR fuel c ud uw t m w = Ok (w', cost, n_iter, log) -> aa_nn w'.
  Proof using HR.
    intros HL Hm HG H. unfold aa_iterate in H. apply (iterate_ok _ aa_nn) in H; [apply H| |exact Hm|exact HG].
    intros v s s' Iv HP Ev. apply in_app_or in Iv. destruct Iv as [Iv|Iv]; apply in_enabled in Iv; destruct Iv as [_ ->]; unfold and_refresh in Ev; apply bind_ok in Ev; destruct Ev as (s1 & E & Ev); injection Ev as <-;
      [assert (Q : aa_nn s1) by (eapply aa_dict_nn; eassumption)|assert (Q : aa_nn s1) by (eapply aa_weights_nn; eassumption)]; exact Q.
  Qed.

  Definition mtd_nn (w : mws R) : Prop := mnn (m_Gamma w) /\ vnn (m_order_weights w) /\ tnn (m_transition_matrices w).
  Lemma mtd_dict_nn fuel c k w w' : mtd_nn w -> @mtd_update_dictionary R NR fuel c k w = Ok w' -> mtd_nn w'.
  Proof using.
    intros HN H. unfold mtd_update_dictionary, mtd_dictionary_line_search in H. cbv zeta in H. apply bind_ok in H. destruct H as (((w1 & s) & mem) & E & H). injection H as <-.
    apply line_search_ok in E. destruct E as (m0 & rest & fm & _ & _ & _ & B). apply backtrack_exit in B; [|reflexivity]. destruct B as [_ [[E _]|E]]; cbn [fst snd] in E; subst w1; exact HN.
  Qed.
  Lemma mtd_weights_nn fuel c k w w' : ls_range (mc_ls c) -> mtd_nn w -> @mtd_update_weights R NR fuel c k w = Ok w' -> mtd_nn w'.
  Proof using HR.
    intros [L1 L2] (HG & HO & HT) H. unfold mtd_update_weights, mtd_weights_line_search in H. cbv zeta in H. apply bind_ok in H. destruct H as (((w1 & s) & mem) & E & H). injection H as <-.
    apply (line_search_rnd u eta rnd HR) in E; [|assumption|assumption]. destruct E as (Hs & _ & E). cbn [m_Gamma] in E.
    match type of E with context [@msub R NR (simplex_project_rows ?A) ?G] => destruct (step_mat u eta rnd HR G (@simplex_project_rows R NR A) s HG (fun i j => rows_proj_nonneg A i j (wf_mbuild _ _ _)) Hs) as [Q1 Q2] end.
    destruct E as [->| ->]; (split; [assumption|split; assumption]).
  Qed.
  Lemma mtd_parameters_nn fuel c k w w' : ls_range (mc_ls c) -> mtd_nn w -> @mtd_update_parameters R NR fuel c k w = Ok w' -> mtd_nn w'.
  Proof using HR.
    intros [L1 L2] (HG & HO & HT) H. unfold mtd_update_parameters, mtd_parameters_line_search in H. cbv zeta in H. apply bind_ok in H. destruct H as (((w1 & s) & mem) & E & H). injection H as <-.
    apply (line_search_rnd u eta rnd HR) in E; [|assumption|assumption]. destruct E as (Hs & _ & E). cbn [mtd_set_parameters m_order_weights m_transition_matrices] in E.
    match type of E with context [@vsub R NR (simplex_project_vector ?A) ?G] => destruct (step_vec u eta rnd HR G (@simplex_project_vector R NR A) s HO (proj_rnd_nonneg rnd A) Hs) as [Q1 Q2] end.
    match type of E with context [@tsub R NR (map simplex_project_columns (tsub ?A ?B)) ?G] => destruct (step_stack u eta rnd HR G (map (@simplex_project_columns R NR) (@tsub R NR A B)) s HT (stack_proj_nonneg A B) Hs) as [Q3 Q4] end.
    destruct E as [->| ->]; (split; [exact HG|split; assumption]).
  Qed.
  Lemma mtd_iterate_nn fuel c k ud uw up t m w w' cost n_iter log : ls_range (mc_ls c) -> (0 < m)%nat -> mtd_nn w ->
    @mtd_iterate R NR fuel c k ud uw up t m w = Ok (w', cost, n_iter, log) -> mtd_nn w'.
  Proof using HR.
    intros HL Hm HG H. unfold mtd_iterate in H. apply (iterate_ok _ mtd_nn) in H; [apply H| |exact Hm|exact HG].
    intros v s s' Iv HP Ev. apply in_app_or in Iv.
    destruct Iv as [Iv|Iv]; [|apply in_app_or in Iv; destruct Iv as [Iv|Iv]]; apply in_enabled in Iv; destruct Iv as [_ ->];
      [eapply mtd_dict_nn; eassumption|eapply mtd_weights_nn; eassumption|eapply mtd_parameters_nn; eassumption].
  Qed.

  Definition crom_nn (w : cws R) : Prop := vnn (cw_order_weights w) /\ tnn (cw_transition_matrices w).
  Lemma crom_update_nn fuel c k n G w w' : ls_range (mc_ls c) -> crom_nn w -> @crom_update_parameters R NR fuel c k n G w = Ok w' -> crom_nn w'.
  Proof using HR.
    intros [L1 L2] (HO & HT) H. unfold crom_update_parameters, crom_line_search in H. cbv zeta in H. apply bind_ok in H. destruct H as (((w1 & s) & mem) & E & H). injection H as <-.
    apply (line_search_rnd u eta rnd HR) in E; [|assumption|assumption]. destruct E as (Hs & _ & E). cbn [crom_set_parameters cw_order_weights cw_transition_matrices] in E. unfold crom_nn. cbn [cw_order_weights cw_transition_matrices].
    match type of E with context [@vsub R NR (simplex_project_vector ?A) ?G] => destruct (step_vec u eta rnd HR G (@simplex_project_vector R NR A) s HO (proj_rnd_nonneg rnd A) Hs) as [Q1 Q2] end.
    match type of E with context [@tsub R NR (map simplex_project_columns (tsub ?A ?B)) ?G] => destruct (step_stack u eta rnd HR G (map (@simplex_project_columns R NR) (@tsub R NR A B)) s HT (stack_proj_nonneg A B) Hs) as [Q3 Q4] end.
    destruct E as [->| ->]; (split; assumption).
  Qed.

  (** runs *)
  Lemma gpnh_fit_nn fuel (o : gpnh R) data Din Win ud uw kw r W k : ls_range (gc_ls (go_cfg o)) ->
    resolve_components (T := R) (go_n_components o) (nc data) = PInt (Z.of_nat k) ->
    (forall W0, Win = Some W0 -> mnn W0) -> float_draws rnd (go_rng o) -> (forall p, Sum k (fun j => r_uniform (go_rng o) (p + j)) <> 0) ->
    @fit_transform R NR fuel o data Din Win ud uw kw = Ok (r, W) -> mnn W /\ r_uniform (go_rng (gr_obj r)) = r_uniform (go_rng o).
  Proof using HR.
    intros HL HK HW Hg HS H. apply fit_transform_inv in H. destruct H as (k' & m & t & D & W0 & g' & w2 & A1 & A2 & A3 & A4 & A5 & A6 & A7 & A8 & A9 & ->).
    assert (k' = k) as -> by (rewrite HK in A1; injection A1; lia). rewrite A8. cbn [go_rng]. split; [|apply choose_initial_streams in A6; apply A6].
    eapply gpnh_iterate_nn; [exact HL|exact A4| |exact A7]. cbn [start_ws w_Gamma].
    apply gpnh_start in A6. destruct A6 as [E|E]; [apply HW; exact E|eapply right_mnn; [ | |exact E]; eassumption].
  Qed.
  Lemma gpnh_transform_nn fuel (o : gpnh R) data r W k : ls_range (gc_ls (go_cfg o)) ->
    resolve_components (T := R) (go_n_components o) (nc data) = PInt (Z.of_nat k) ->
    float_draws rnd (go_rng o) -> (forall p, Sum k (fun j => r_uniform (go_rng o) (p + j)) <> 0) ->
    @transform R NR fuel o data = Ok (r, W) -> mnn W.
  Proof using HR.
    intros HL HK Hg HS H. apply transform_inv in H. destruct H as (k' & m & t & D & W0 & g' & w2 & A1 & A2 & A3 & A4 & A5 & A6 & A7 & A8 & A9 & ->).
    assert (k' = k) as -> by (rewrite HK in A1; injection A1; lia).
    eapply gpnh_iterate_nn; [exact HL|exact A4| |exact A7]. cbn [start_ws w_Gamma].
    apply gpnh_start in A6. destruct A6 as [E|E]; [discriminate|eapply right_mnn; [ | |exact E]; eassumption].
  Qed.
  Lemma aa_fit_nn fuel (o : aa R) K Din Win ud uw kw r W k : ls_range (ac_ls (ao_cfg o)) ->
    resolve_components (T := R) (ao_n_components o) (nr K) = PInt (Z.of_nat k) ->
    (forall D0, Din = Some D0 -> mnn D0) -> (forall W0, Win = Some W0 -> mnn W0) ->
    float_draws rnd (ao_rng o) -> (forall p, Sum k (fun j => r_uniform (ao_rng o) (p + j)) <> 0) -> (forall p, Sum (nr K) (fun j => r_uniform (ao_rng o) (p + j)) <> 0) ->
    @aa_fit_transform R NR fuel o K Din Win ud uw kw = Ok (r, W) -> mnn W /\ exists C, ao_dictionary_ (ar_obj r) = Some C /\ mnn C.
  Proof using HR.
    intros HL HK HD HW Hg HS HS2 H. apply aa_fit_transform_inv in H. destruct H as (k' & m & t & D & W0 & g' & w2 & A0 & A1 & A2 & A3 & A4 & A5 & A6 & A7 & A8 & A9 & ->).
    assert (k' = k) as -> by (rewrite HK in A1; injection A1; lia). apply aa_start in A6. destruct A6 as [S1 S2].
    assert (Q : aa_nn w2).
    { eapply aa_iterate_nn; [exact HL|exact A4| |exact A7]. split; cbn [aa_initialize_workspace a_S a_C].
      - destruct S1 as [E|E]; [apply HW; exact E|eapply right_mnn; [ | |exact E]; eassumption].
      - destruct S2 as [E|[E|E]]; [apply HD; exact E|eapply right_mnn; [ | |exact E]; eassumption|eapply unit_mnn; exact E]. }
    destruct Q as [Q1 Q2]. split; [exact Q1|]. exists (a_C w2). rewrite A8. split; [reflexivity|exact Q2].
  Qed.
  Lemma aa_transform_nn fuel (o : aa R) K r W k : ls_range (ac_ls (ao_cfg o)) ->
    resolve_components (T := R) (ao_n_components o) (nr K) = PInt (Z.of_nat k) ->
    (forall w, ao_ws o = Some w -> mnn (a_C w)) ->
    float_draws rnd (ao_rng o) -> (forall p, Sum k (fun j => r_uniform (ao_rng o) (p + j)) <> 0) -> (forall p, Sum (nr K) (fun j => r_uniform (ao_rng o) (p + j)) <> 0) ->
    @aa_transform R NR fuel o K = Ok (r, W) -> mnn W.
  Proof using HR.
    intros HL HK HC Hg HS HS2 H. apply aa_transform_inv in H. destruct H as (k' & m & t & D & W0 & g' & w2 & A0 & A1 & A2 & A3 & A4 & A5 & A6 & A7 & A8 & A9 & ->).
    assert (k' = k) as -> by (rewrite HK in A1; injection A1; lia). apply aa_start in A6. destruct A6 as [S1 S2].
    assert (Q : aa_nn w2); [|apply Q].
    eapply aa_iterate_nn; [exact HL|exact A4| |exact A7]. split; cbn [aa_initialize_workspace a_S a_C].
    - destruct S1 as [E|E]; [discriminate|eapply right_mnn; [ | |exact E]; eassumption].
    - destruct S2 as [E|[E|E]]; [|eapply right_mnn; [ | |exact E]; eassumption|eapply unit_mnn; exact E]. destruct (ao_ws o) as [w|] eqn:Ew; [|discriminate]. injection E as <-. apply HC. reflexivity.
  Qed.
  Definition mtd_draws (p k : nat) (g : rng R) : Prop :=
    float_draws rnd g /\ (forall q, Sum k (fun j => r_uniform g (q + j)) <> 0) /\ (forall q, Sum p (fun j => r_uniform g (q + j)) <> 0)
    /\ (forall q j, (j < k)%nat -> Sum k (fun i => r_uniform g (q + i * k + j)) <> 0).
  Lemma mtd_fit_nn fuel (o : mtd R) data Din Win ow Ts ud uw up kw r W k : ls_range (mc_ls (mo_cfg o)) ->
    resolve_components (T := R) (mo_n_components o) (nc data) = PInt (Z.of_nat k) ->
    (forall W0, Win = Some W0 -> mnn W0) -> (forall v, ow = Some v -> vnn v) -> (forall l, Ts = Some l -> tnn l) ->
    mtd_draws (length (mc_lags (mo_cfg o))) k (mo_rng o) ->
    @mtd_fit_transform R NR fuel o data Din Win ow Ts ud uw up kw = Ok (r, W) ->
    mnn W /\ exists w, mo_ws (mr_obj r) = Some w /\ vnn (m_order_weights w) /\ tnn (m_transition_matrices w).
  Proof using HR.
    intros HL HK HW HO HT (Hg & HS & HP & HM) H. apply mtd_fit_transform_inv in H. destruct H as (k' & m & t & D & W0 & ow0 & Ts0 & g' & w2 & A1 & A2 & A3 & A4 & A5 & A6 & AL & A7 & A8 & A9 & ->).
    assert (k' = k) as -> by (rewrite HK in A1; injection A1; lia). apply mtd_start in A6. destruct A6 as [S1 S2].
    assert (Q : mtd_nn w2).
    { eapply mtd_iterate_nn; [exact HL|exact A4| |exact A7]. unfold mtd_nn. cbn [mtd_initialize_workspace m_Gamma m_order_weights m_transition_matrices].
      split; [destruct S1 as [E|E]; [apply HW; exact E|eapply right_mnn; [ | |exact E]; eassumption]|].
      destruct S2 as [[E1 E2]|E]; [split; [apply HO; exact E1|apply HT; exact E2]|eapply parameters_nn; [exact Hg| | |exact E]; [exact HP|exact HM]]. }
    destruct Q as [Q1 Q2]. split; [exact Q1|]. exists w2. rewrite A8. split; [reflexivity|exact Q2].
  Qed.
  Lemma mtd_transform_nn fuel (o : mtd R) data r W k : ls_range (mc_ls (mo_cfg o)) ->
    resolve_components (T := R) (mo_n_components o) (nc data) = PInt (Z.of_nat k) ->
    (forall w, mo_ws o = Some w -> vnn (m_order_weights w) /\ tnn (m_transition_matrices w)) ->
    float_draws rnd (mo_rng o) -> (forall p, Sum k (fun j => r_uniform (mo_rng o) (p + j)) <> 0) ->
    @mtd_transform R NR fuel o data = Ok (r, W) -> mnn W.
  Proof using HR.
    intros HL HK HP Hg HS H. apply mtd_transform_inv in H. destruct H as (k' & m & t & D & W0 & ow0 & Ts0 & g' & w2 & A1 & A2 & A3 & A4 & A5 & A6 & AL & A7 & A8 & A9 & ->).
    assert (k' = k) as -> by (rewrite HK in A1; injection A1; lia). pose proof A6 as A6'. apply mtd_start in A6. destruct A6 as [S1 _].
    apply mtd_choose_transform_inv in A6'. destruct A6' as (_ & E1 & (l & E2 & ->) & _).
    assert (Q : mtd_nn w2); [|apply Q].
    eapply mtd_iterate_nn; [exact HL|exact A4| |exact A7]. unfold mtd_nn. cbn [mtd_initialize_workspace m_Gamma m_order_weights m_transition_matrices].
    split; [destruct S1 as [E|E]; [discriminate|eapply right_mnn; [ | |exact E]; eassumption]|].
    destruct (mo_ws o) as [w|]; [|discriminate]. injection E1 as <-. injection E2 as <-. apply HP. reflexivity.
  Qed.
  Lemma crom_fit_nn fuel (o : crom R) data Din Win ud uw kw r W k : ls_range (gc_ls (go_cfg (co_gpnh o))) ->
    resolve_components (T := R) (go_n_components (co_gpnh o)) (nc data) = PInt (Z.of_nat k) ->
    (forall W0, Win = Some W0 -> mnn W0) -> mtd_draws (length (co_lags o)) k (go_rng (co_gpnh o)) ->
    @crom_fit_transform R NR fuel o data Din Win ud uw kw = Ok (r, W) ->
    mnn W /\ exists ow Ts, co_parameters (cr_obj r) = Some (ow, Ts) /\ vnn ow /\ tnn Ts.
  Proof using HR.
    intros HL HK HW (Hg & HS & HP & HM) H. apply crom_fit_inv in H. destruct H as (k' & m & t & w & g' & A1 & A2 & A3 & A4 & A5 & A6 & A7 & A8).
    assert (k' = k) as -> by (rewrite HK in A2; injection A2; lia). eapply gpnh_fit_nn in A1; try eassumption. destruct A1 as [Q U]. split; [exact Q|].
    exists (cw_order_weights w), (cw_transition_matrices w). rewrite A8. split; [reflexivity|].
    apply crom_fit_parameters_inv in A7. destruct A7 as (_ & ow & Ts & cost & E0 & E).
    apply (iterate_ok _ crom_nn) in E; [apply E| |exact A5|].
    - intros v s s' [<-|[]] HN Ev. eapply crom_update_nn; [|exact HN|exact Ev]; exact HL.
    - unfold crom_nn. cbn [crom_initialize_workspace cw_order_weights cw_transition_matrices].
      apply (parameters_nn k (n_lags (crom_cfg (go_cfg (co_gpnh o)) (co_lags o))) (go_rng (co_gpnh o))); [exact Hg| |exact HM|exists (go_rng (gr_obj (cr_gpnh r))), g'; split; [exact U|exact E0]].
      unfold n_lags. cbn [crom_cfg mc_lags]. rewrite map_length. exact HP.
  Qed.

  (** predicted weights *)
  Lemma nsum_nn n f : (forall i, (i < n)%nat -> nnf (f i)) -> nnf (@nsum R NR n f).
  Proof using HR.
    induction n as [|n IH]; intros H; [apply (nnf0 _ _ _ HR)|]. cbn [nsum nadd Num_rnd].
    destruct (IH (fun i Hi => H i (Nat.lt_lt_succ_r _ _ Hi))) as [A _]. destruct (H n (Nat.lt_succ_diag_r n)) as [B _].
    split; [apply (rnd_pos _ _ _ HR); lra|apply (rnd_idem _ _ _ HR)].
  Qed.
  Lemma nnf_mul a b : 0 <= a -> 0 <= b -> nnf (rnd (a * b)).
  Proof using HR. intros A B. split; [apply (rnd_pos _ _ _ HR), Rmult_le_pos; assumption|apply (rnd_idem _ _ _ HR)]. Qed.
  Lemma tab_nn n f : (forall i, (i < n)%nat -> nnf (f i)) -> vnn (tab n f).
  Proof using HR.
    intros H i. destruct (Nat.lt_ge_cases i n) as [Hi|Hi].
    - change (at_ (tab n f) i) with (@vget R NR (tab n f) i). rewrite vget_tab by exact Hi. apply H, Hi.
    - unfold at_. rewrite nth_overflow by (rewrite length_tab; exact Hi). apply (nnf0 _ _ _ HR).
  Qed.
  Lemma mbuild_nn r c f : (forall i j, nnf (f i j)) -> mnn (@mbuild R r c f).
  Proof using HR. intros H i j. destruct (ent_mbuild_cases rnd r c f i j) as [(-> & _)|A]; [apply H|rewrite A; apply (nnf0 _ _ _ HR)]. Qed.
  Lemma next_nn c ow Ts cur : vnn ow -> tnn Ts -> mnn cur -> vnn (@mtd_next_weights R NR c ow Ts cur).
  Proof using HR.
    intros HO HT HC. unfold mtd_next_weights. destruct (Nat.ltb _ _).
    - intros i. unfold at_. cbn [nnan Num_rnd]. rewrite nth_repeat. apply (nnf0 _ _ _ HR).
    - apply tab_nn. intros a _. apply nsum_nn. intros i _. cbn [nmul Num_rnd]. apply nnf_mul; [apply HO|].
      assert (Q : vnn (@mvmul R NR (tmat Ts i) (@mrow R NR cur (nr cur - lag c i)))); [|apply Q].
      unfold mvmul. apply tab_nn. intros x _. apply nsum_nn. intros y _. cbn [nmul Num_rnd]. apply nnf_mul; [apply HT|].
      assert (Q : vnn (@mrow R NR cur (nr cur - lag c i))); [|apply Q]. unfold mrow. apply tab_nn. intros z _. apply HC.
  Qed.
  Lemma lead_nn c ow Ts : vnn ow -> tnn Ts -> forall h cur, mnn cur -> mnn (@mtd_lead R NR c ow Ts h cur).
  Proof using HR.
    intros HO HT. induction h as [|h IH]; intros cur HC; [exact HC|]. cbn [mtd_lead]. apply IH. unfold mtd_shift. apply mbuild_nn.
    intros s a. destruct (Nat.eqb _ _); [|apply HC]. apply next_nn; assumption.
  Qed.
  Lemma predict_weights_nn c ow Ts W h : vnn ow -> tnn Ts -> mnn W -> mnn (@mtd_predict_weights R NR c ow Ts W h).
  Proof using HR.
    intros HO HT HW. unfold mtd_predict_weights. apply mbuild_nn. intros i a. destruct (Nat.ltb _ _); [apply (nnf0 _ _ _ HR)|]. apply lead_nn; try assumption.
    unfold mslice. apply mbuild_nn. intros; apply HW.
  Qed.
End NonNeg.
