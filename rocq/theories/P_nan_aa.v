(** Archetypal analysis of a kernel containing NaN. *)
From Coq Require Import List Arith Lia ZArith Reals Bool.
From Verif Require Import Num NumExt Mat Py Spec_nan M_simplex M_spg M_iter M_random M_furthest M_gpnh M_aa.
From Verif Require Import P_lin P_simplex P_spg P_random P_mat P_iter P_gpnh P_gpnh_run P_aa_run P_nan.
Import ListNotations.

Lemma mdiag_shape (v : list ext) : nr (mdiag v) = length v /\ nc (mdiag v) = length v.
Proof. split; reflexivity. Qed.

Section A.
  Variables (K : mat ext) (n k : nat) (c : aa_cfg ext) (fuel : nat) (i0 j0 : nat).
  Hypothesis K1 : nr K = n.
  Hypothesis K2 : nc K = n.
  Hypothesis Hk : (0 < k)%nat.
  Hypothesis HK : nan_at K i0 j0.

  Lemma ij_lt : (i0 < n /\ j0 < n)%nat.
  Proof using K1 K2 HK Hk. destruct HK as (A & B & _). lia. Qed.
  Lemma CK_nan al C a : nr C = k -> nc C = n -> length al = k -> (a < k)%nat ->
    nr (scaled_CK c al C K) = k /\ nc (scaled_CK c al C K) = n /\ cell (scaled_CK c al C K) a j0 = NaN.
  Proof using K1 K2 HK Hk.
    intros C1 C2 La Ha. destruct ij_lt as [Li Lj]. destruct HK as (_ & _ & EN). unfold scaled_CK.
    assert (Q : forall b, (b < k)%nat -> cell (mmul C K) b j0 = NaN) by (intros b Hb; apply mmul_nan_r with (l := i0); try lia; exact EN).
    destruct (ac_delta c >? n0)%num; cbn [nr nc mmul mbuild mdiag].
    - split; [exact La|]. split; [exact K2|]. apply mmul_nan_r with (l := a); try (cbn; lia). apply Q, Ha.
    - split; [exact C1|]. split; [exact K2|]. apply Q, Ha.
  Qed.
  Lemma CKCt_nan al CK C a b : nr C = k -> nc C = n -> length al = k -> nr CK = k -> nc CK = n -> (forall a, (a < k)%nat -> cell CK a j0 = NaN) -> (a < k)%nat -> (b < k)%nat ->
    nr (scaled_CKCt c al CK C) = k /\ nc (scaled_CKCt c al CK C) = k /\ cell (scaled_CKCt c al CK C) a b = NaN.
  Proof using K1 K2 HK Hk.
    intros C1 C2 La k1 k2 E Ha Hb. destruct ij_lt as [Li Lj]. unfold scaled_CKCt.
    assert (Q : forall b, (b < k)%nat -> cell (mmul CK (mtr C)) a b = NaN) by (intros b0 Hb0; apply mmul_nan_l with (l := j0); try (cbn; lia); apply E, Ha).
    destruct (ac_delta c >? n0)%num; cbn [nr nc mmul mbuild mdiag mtr].
    - split; [exact k1|]. split; [exact La|]. apply mmul_nan_l with (l := b); try (cbn; lia). apply Q, Hb.
    - split; [exact k1|]. split; [exact C1|]. apply Q, Hb.
  Qed.
  (** what is kept between the updates *)
  Record anv (w : aws ext) : Prop := {
    av_K : a_K w = K;
    av_S1 : nr (a_S w) = n; av_S2 : nc (a_S w) = k;
    av_C1 : nr (a_C w) = k; av_C2 : nc (a_C w) = n;
    av_al : length (a_alpha w) = k;
    av_m1 : a_f_S_mem w <> []; av_m2 : a_f_C_mem w <> []; av_m3 : a_f_alpha_mem w <> [];
    av_S : forall i a, (i < n)%nat -> (a < k)%nat -> exists x, cell (a_S w) i a = Fin x;
    av_C : forall a i, (a < k)%nat -> (i < n)%nat -> exists x, cell (a_C w) a i = Fin x }.
  Definition zero_S (w : aws ext) : Prop := forall i a, (i < n)%nat -> (a < k)%nat -> cell (a_S w) i a = Fin 0.
  Definition zero_C (w : aws ext) : Prop := forall a i, (a < k)%nat -> (i < n)%nat -> cell (a_C w) a i = Fin 0.

  Lemma gram_nan (S M : mat ext) : nc S = k -> nr M = k -> nc M = k -> (forall a b, (a < k)%nat -> (b < k)%nat -> cell M a b = NaN) ->
    mtrace (mmul (mmul (mtr S) S) M) = NaN.
  Proof using K1 K2 HK Hk. 
    intros S2 m1 m2 H. apply mtrace_nan with (i := 0%nat); try (cbn; lia). apply mmul_nan_r with (l := 0%nat); try (cbn; lia). apply H; lia.
  Qed.
  Lemma aa_cost_nan w : anv w -> aa_evaluate_cost c w = NaN.
  Proof using K1 K2 HK Hk.
    intros []. unfold aa_evaluate_cost. cbn [aa_refresh a_StS a_CKCt a_S a_CK a_K]. rewrite av_K0 in *.
    rewrite gram_nan; [reflexivity|assumption|..].
    - eapply CKCt_nan with (a := 0%nat) (b := 0%nat); try assumption; try (eapply CK_nan with (a := 0%nat); assumption). intros a Ha. apply CK_nan; assumption.
    - eapply CKCt_nan with (a := 0%nat) (b := 0%nat); try assumption; try (eapply CK_nan with (a := 0%nat); assumption). intros a Ha. apply CK_nan; assumption.
    - intros a b Ha Hb. eapply CKCt_nan; try assumption; try (eapply CK_nan with (a := 0%nat); assumption). intros a' Ha'. apply CK_nan; assumption.
  Qed.
  Lemma refresh_anv w : anv w -> anv (aa_refresh c w).
  Proof using K1 K2 HK Hk. intros []. split; cbn [aa_refresh a_K a_S a_C a_alpha a_f_S_mem a_f_C_mem a_f_alpha_mem]; assumption. Qed.
  Lemma cached_nan w : nc (a_S w) = k -> a_StS w = mmul (mtr (a_S w)) (a_S w) -> nr (a_CKCt w) = k -> nc (a_CKCt w) = k ->
    (forall a b, (a < k)%nat -> (b < k)%nat -> cell (a_CKCt w) a b = NaN) -> aa_cached_cost w = NaN.
  Proof using K1 K2 HK Hk. intros S2 E m1 m2 H. unfold aa_cached_cost. rewrite E, gram_nan by assumption. apply add_nan_r. Qed.

  Lemma aa_upd_weights w : anv w -> exists w', aa_update_weights fuel c w = Ok w' /\ anv w' /\ zero_S w' /\ a_C w' = a_C w.
  Proof using K1 K2 HK Hk.
    intros []. unfold aa_update_weights, aa_weights_line_search. cbv zeta. rewrite av_K0.
    set (CK := scaled_CK c (a_alpha w) (a_C w) K). set (CKCt := scaled_CKCt c (a_alpha w) CK (a_C w)).
    assert (P : forall a, (a < k)%nat -> nr CK = k /\ nc CK = n /\ cell CK a j0 = NaN) by (intros; apply CK_nan; assumption).
    destruct (P 0%nat Hk) as (p1 & p2 & _).
    assert (Q : forall a b, (a < k)%nat -> (b < k)%nat -> nr CKCt = k /\ nc CKCt = k /\ cell CKCt a b = NaN) by (intros; apply CKCt_nan; try assumption; intros a' Ha'; apply P, Ha').
    destruct (Q 0%nat 0%nat Hk Hk) as (q1 & q2 & _).
    match goal with |- context [line_search ?f ?p ?co ?tr ?fu ?m ?cc ?i] => destruct (ls_nan f p co tr fu m cc i) as (mem' & E & Hm'); [exact av_m4| |rewrite E] end.
    { apply cached_nan; cbn [set_S_StS a_S a_StS a_CKCt]; try assumption; try reflexivity. intros a b Ha Hb. apply Q; assumption. }
    cbn [bind]. eexists. split; [reflexivity|].
    match goal with |- context [aa_weights_gradient c ?w0] => set (w1 := w0) end.
    assert (G : nr (aa_weights_gradient c w1) = n /\ nc (aa_weights_gradient c w1) = k).
    { unfold aa_weights_gradient. destruct (ac_delta c >? n0)%num; cbn; rewrite ?K2, ?av_al0, ?av_C3; auto. }
    destruct G as [g1 g2].
    assert (Z : forall i a, (i < n)%nat -> (a < k)%nat -> cell (madd (a_S w) (msub (simplex_project_rows (msub (a_S w) (mscale (a_alpha_S w1) (aa_weights_gradient c w1)))) (a_S w))) i a = Fin 0).
    { intros i a Hi Ha. destruct (av_S0 i a Hi Ha) as (x & Ex). eapply projected_step_zero; try eassumption; try lia.
      exists a. split; [lia|]. unfold aa_weights_gradient. rewrite madd_entry.
      - rewrite (mmul_nan_r _ _ i a a); [apply add_nan_r|cbn; lia|cbn; lia|cbn; lia|]. cbn [w1 a_CKCt]. apply mscale_nan; [lia|lia|]. apply Q; assumption.
      - destruct (ac_delta c >? n0)%num; cbn; lia.
      - destruct (ac_delta c >? n0)%num; cbn; lia. }
    split; [|split; [exact Z|reflexivity]]. split; cbn [a_K a_S a_C a_alpha a_f_S_mem a_f_C_mem a_f_alpha_mem set_S_StS]; try assumption; try reflexivity.
    intros i a Hi Ha. exists 0%R. apply Z; assumption.
  Qed.

  Lemma aa_upd_scale w : anv w -> a_StS w = mmul (mtr (a_S w)) (a_S w) -> exists w', aa_update_scale fuel c w = Ok w' /\ anv w' /\ a_C w' = a_C w /\ a_S w' = a_S w.
  Proof using K1 K2 HK Hk.
    intros HI0 HS. destruct HI0. unfold aa_update_scale, aa_scale_line_search. cbv zeta. rewrite av_K0.
    assert (Q : forall a b, (a < k)%nat -> (b < k)%nat -> cell (mmul (mmul (a_C w) K) (mtr (a_C w))) a b = NaN).
    { destruct ij_lt as [Li Lj]. intros a b Ha Hb. apply mmul_nan_l with (l := j0); try (cbn; lia). apply mmul_nan_r with (l := i0); try lia. apply HK. }
    match goal with |- context [line_search ?f ?p ?co ?tr ?fu ?m ?cc ?i] => destruct (ls_nan f p co tr fu m cc i) as (mem' & E & Hm'); [exact av_m6| |rewrite E] end.
    { unfold aa_scale_cost. cbn [a_StS a_CKCt a_CKS a_trace_K a_alpha]. rewrite HS, gram_nan; [apply add_nan_r|assumption|cbn; assumption|cbn; assumption|].
      intros a b Ha Hb. apply mmul_nan_r with (l := 0%nat); try (cbn; lia). apply mmul_nan_l with (l := 0%nat); try (cbn; lia). apply Q; lia. }
    cbn [bind]. eexists. split; [reflexivity|]. split; [|split; reflexivity]. split; cbn [a_K a_S a_C a_alpha a_f_S_mem a_f_C_mem a_f_alpha_mem]; try assumption; reflexivity.
  Qed.

  Lemma aa_upd_dict w : anv w -> exists w', aa_update_dictionary fuel c w = Ok w' /\ anv w' /\ zero_C w' /\ a_S w' = a_S w.
  Proof using K1 K2 HK Hk.
    intros []. unfold aa_update_dictionary, aa_dictionary_line_search. cbv zeta. rewrite av_K0.
    set (CK := scaled_CK c (a_alpha w) (a_C w) K).
    assert (P : forall a, (a < k)%nat -> nr CK = k /\ nc CK = n /\ cell CK a j0 = NaN) by (intros; apply CK_nan; assumption).
    destruct (P 0%nat Hk) as (p1 & p2 & _). destruct ij_lt as [Li Lj].
    match goal with |- context [aa_dictionary_gradient c ?w0] => set (w1 := w0) end.
    assert (G : nr (aa_dictionary_gradient c w1) = k /\ nc (aa_dictionary_gradient c w1) = n /\ forall a, (a < k)%nat -> cell (aa_dictionary_gradient c w1) a j0 = NaN).
    { unfold aa_dictionary_gradient.
      match goal with |- context [madd ?A ?B] => set (g1 := madd A B) end.
      assert (G1 : nr g1 = k /\ nc g1 = n) by (cbn; rewrite K1; auto). destruct G1 as [e1 e2].
      assert (G2 : forall a, (a < k)%nat -> cell g1 a j0 = NaN).
      { intros a Ha. unfold g1. rewrite madd_entry by (cbn; lia). rewrite mscale_nan; [apply add_nan_r|cbn; lia|cbn; lia|].
        apply mmul_nan_r with (l := a); try (cbn; lia). apply P, Ha. }
      destruct (ac_delta c >? n0)%num; [|auto]. split; [exact av_al0|]. split; [exact e2|]. intros a Ha. apply mmul_nan_r with (l := a); try (cbn; lia). apply G2, Ha. }
    destruct G as (g1 & g2 & g3).
    assert (Z : forall a i, (a < k)%nat -> (i < n)%nat -> cell (madd (a_C w) (msub (simplex_project_rows (msub (a_C w) (mscale (a_alpha_C w1) (aa_dictionary_gradient c w1)))) (a_C w))) a i = Fin 0).
    { intros a i Ha Hi. destruct (av_C0 a i Ha Hi) as (x & Ex). eapply projected_step_zero; try eassumption; try lia. exists j0. split; [lia|]. apply g3, Ha. }
    match goal with |- context [line_search ?f ?p ?co ?tr ?fu ?m ?cc ?i] => destruct (ls_nan f p co tr fu m cc i) as (mem' & E & Hm'); [exact av_m5| |rewrite E] end.
    { assert (P' : forall C', nr C' = k -> nc C' = n -> forall a b, (a < k)%nat -> (b < k)%nat -> nr (scaled_CKCt c (a_alpha w) (scaled_CK c (a_alpha w) C' K) C') = k
          /\ nc (scaled_CKCt c (a_alpha w) (scaled_CK c (a_alpha w) C' K) C') = k /\ cell (scaled_CKCt c (a_alpha w) (scaled_CK c (a_alpha w) C' K) C') a b = NaN).
      { intros C' c1 c2 a b Ha Hb. apply CKCt_nan; try assumption; try (eapply CK_nan with (a := 0%nat); assumption). intros a' Ha'. apply CK_nan; assumption. }
      apply cached_nan; cbn [set_C_CK a_S a_StS a_CKCt a_K a_alpha w1]; try assumption; try reflexivity.
      - apply P' with (a := 0%nat) (b := 0%nat); cbn; assumption.
      - apply P' with (a := 0%nat) (b := 0%nat); cbn; assumption.
      - intros a b Ha Hb. apply P'; cbn; assumption. }
    cbn [bind].
    match goal with |- context [aa_update_scale fuel c ?ww] => set (w2 := ww) end.
    assert (I2 : anv w2).
    { split; cbn [w2 w1 a_K a_S a_C a_alpha a_f_S_mem a_f_C_mem a_f_alpha_mem set_C_CK]; try assumption; try reflexivity. intros a i Ha Hi. exists 0%R. apply Z; assumption. }
    destruct (ac_delta c >? n0)%num.
    - destruct (aa_upd_scale w2 I2 eq_refl) as (w' & E' & I' & EC & ES). exists w'. split; [exact E'|]. split; [exact I'|]. split; [|exact ES]. unfold zero_C. rewrite EC. exact Z.
    - exists w2. split; [reflexivity|]. split; [exact I2|]. split; [exact Z|reflexivity].
  Qed.

  Lemma aa_iterate_nan ud uw tol m w : anv w -> (0 < m)%nat -> exists w', aa_iterate fuel c ud uw tol m w = Ok (w', NaN, (m - 1)%nat, repeat NaN (S m))
      /\ anv w' /\ (ud = true -> zero_C w') /\ (uw = true -> zero_S w') /\ (ud = false -> a_C w' = a_C w) /\ (uw = false -> a_S w' = a_S w).
  Proof using K1 K2 HK Hk.
    intros HI Hm. unfold aa_iterate.
    pose (Pv := fun w' => anv w' /\ (ud = false -> a_C w' = a_C w) /\ (uw = false -> a_S w' = a_S w)).
    pose (Qv := fun w' => anv w' /\ (ud = true -> zero_C w') /\ (uw = true -> zero_S w') /\ (ud = false -> a_C w' = a_C w) /\ (uw = false -> a_S w' = a_S w)).
    change (exists w', iterate (aa_evaluate_cost c) (cost_increased (ac_monotone c)) (enabled ud (and_refresh c (aa_update_dictionary fuel c)) ++ enabled uw (and_refresh c (aa_update_weights fuel c))) tol m (aa_refresh c w)
      = Ok (w', NaN, (m - 1)%nat, repeat NaN (S m)) /\ Qv w').
    apply (iterate_nan (aa_evaluate_cost c) (ac_monotone c) _ tol Pv Qv m (aa_refresh c w)).
    - intros s [Hs _]. apply aa_cost_nan, Hs.
    - intros s (H1 & _ & _ & H2 & H3). split; auto.
    - intros s (Hs & sC & sS).
      assert (D : exists s1, (ud = true -> and_refresh c (aa_update_dictionary fuel c) s = Ok s1) /\ (ud = false -> s1 = s) /\ anv s1 /\ (ud = true -> zero_C s1) /\ a_S s1 = a_S s).
      { destruct ud.
        - destruct (aa_upd_dict s Hs) as (s1 & E1 & I1 & Z1 & ES). exists (aa_refresh c s1). unfold and_refresh. rewrite E1. cbn [bind].
          split; [reflexivity|]. split; [discriminate|]. split; [apply refresh_anv, I1|]. split; [intros _; exact Z1|exact ES].
        - exists s. split; [discriminate|]. split; [reflexivity|]. split; [exact Hs|]. split; [discriminate|reflexivity]. }
      destruct D as (s1 & D1 & D2 & D3 & D4 & D5). rewrite (enabled_run _ ud _ _ s s1 D1 D2) by (apply aa_cost_nan, D3).
      assert (V : exists s2, (uw = true -> and_refresh c (aa_update_weights fuel c) s1 = Ok s2) /\ (uw = false -> s2 = s1) /\ anv s2 /\ (uw = true -> zero_S s2) /\ a_C s2 = a_C s1).
      { destruct uw.
        - destruct (aa_upd_weights s1 D3) as (s2 & E1 & I1 & Z1 & EC). exists (aa_refresh c s2). unfold and_refresh. rewrite E1. cbn [bind].
          split; [reflexivity|]. split; [discriminate|]. split; [apply refresh_anv, I1|]. split; [intros _; exact Z1|exact EC].
        - exists s1. split; [discriminate|]. split; [reflexivity|]. split; [exact D3|]. split; [discriminate|reflexivity]. }
      destruct V as (s2 & V1 & V2 & V3 & V4 & V5). rewrite <- (app_nil_r (enabled uw _)), (enabled_run _ uw _ _ s1 s2 V1 V2) by (apply aa_cost_nan, V3).
      exists s2. split; [reflexivity|]. split; [exact V3|]. split.
      { intros Hu. unfold zero_C. rewrite V5. exact (D4 Hu). }
      split; [exact V4|]. split.
      + intros Hu. rewrite V5, (D2 Hu). exact (sC Hu).
      + intros Hu. rewrite (V2 Hu), D5. exact (sS Hu).
    - split; [apply refresh_anv, HI|]. split; reflexivity.
    - exact Hm.
  Qed.
End A.

(** ** starting values *)
Lemma aa_dictionary_check_real a r c M i j : @check_init_aa_dictionary ext Num_E a r c = Ok M -> (i < r)%nat -> (j < c)%nat -> exists x, cell M i j = Fin x.
Proof.
  unfold check_init_aa_dictionary, check_array. destruct a as [A|]; cbn [bind]; [|discriminate]. destruct (all_finite A) eqn:F; cbn [bind]; [|discriminate].
  unfold check_array_shape. destruct (andb _ _) eqn:E; cbn [bind]; [|discriminate]. destruct (check_unit_row_sums A); cbn [bind]; [|discriminate]. intros [= <-].
  apply andb_prop in E. destruct E as [E1 E2]. apply Nat.eqb_eq in E1, E2. subst. apply all_finite_entry, F.
Qed.
Definition start_real (n k : nat) (D W : mat ext) : Prop :=
  nr W = n /\ nc W = k /\ nr D = k /\ nc D = n
  /\ (forall i a, (i < n)%nat -> (a < k)%nat -> exists x, cell W i a = Fin x) /\ (forall a i, (a < k)%nat -> (i < n)%nat -> exists x, cell D a i = Fin x).
Lemma aa_choose_real c k K Din Win ud uw kw (g g' : rng ext) D W : aa_choose_initial c k K Din Win ud uw kw g = Ok (D, W, g') -> good_draws g -> start_real (nr K) k D W.
Proof.
  intros H HG. unfold start_real.
  assert (GG : forall g1 : rng ext, r_uniform g1 = r_uniform g -> good_draws g1) by (intros g1 E i; rewrite E; apply HG).
  assert (IW : forall init g1 W g2, r_uniform g1 = r_uniform g -> aa_initialize_weights K k init g1 = Ok (W, g2) ->
      nr W = nr K /\ nc W = k /\ (forall i a, (i < nr K)%nat -> (a < k)%nat -> exists x, cell W i a = Fin x)).
  { intros init g1 W1 g2 E H1. unfold aa_initialize_weights in H1. assert (Q : right_stochastic_matrix (nr K) k g1 = (W1, g2)) by (destruct init; congruence).
    change W1 with (fst (W1, g2)). rewrite <- Q. split; [reflexivity|]. split; [reflexivity|]. intros i a Hi Ha. apply drawn_real; auto. }
  assert (ID : forall init kwv g1 D g2, r_uniform g1 = r_uniform g -> aa_initialize_dictionary K k init kwv g1 = Ok (D, g2) ->
      nr D = k /\ nc D = nr K /\ (forall a i, (a < k)%nat -> (i < nr K)%nat -> exists x, cell D a i = Fin x) /\ r_uniform g2 = r_uniform g).
  { intros init kwv g1 D1 g2 E H1. unfold aa_initialize_dictionary in H1.
    assert (Q : right_stochastic_matrix k (nr K) g1 = (D1, g2) \/ aa_dictionary_furthest_sum K k kwv g1 = Ok (D1, g2)) by (destruct init; try discriminate; [right|left|right]; congruence).
    destruct Q as [Q|Q].
    - assert (e1 : D1 = fst (right_stochastic_matrix k (nr K) g1)) by (rewrite Q; reflexivity). assert (e2 : g2 = snd (right_stochastic_matrix k (nr K) g1)) by (rewrite Q; reflexivity).
      rewrite e1, e2. split; [reflexivity|]. split; [reflexivity|]. split; [intros i a Hi Ha; apply drawn_real; auto|exact E].
    - unfold aa_dictionary_furthest_sum in Q. apply bind_ok in Q. destruct Q as ((s & g3) & E1 & Q).
      apply bind_ok in Q. destruct Q as (sel & E2 & Q). apply bind_ok in Q. destruct Q as (_ & _ & Q). injection Q as <- <-. cbn [snd]. split; [reflexivity|]. split; [reflexivity|]. split.
      + intros a i Ha Hi. rewrite <- mget_entry, mget_mbuild by assumption. destruct (Nat.eqb _ _); [exists 1%R|exists 0%R]; reflexivity.
      + destruct (fk_start_index kwv); [injection E1 as _ <-; exact E|].
        apply bind_ok in E1. destruct E1 as ((z & g4) & E1 & E3). injection E3 as _ <-. unfold draw_randint in E1. destruct (Nat.eqb _ 0); [discriminate|]. injection E1 as _ <-. exact E. }
  assert (CW : forall W1, check_init_weights Win (nr K) k = Ok W1 -> nr W1 = nr K /\ nc W1 = k /\ (forall i a, (i < nr K)%nat -> (a < k)%nat -> exists x, cell W1 i a = Fin x)).
  { intros W1 E1. pose proof E1 as E3. apply check_init_weights_ok_inv in E3. destruct E3 as (_ & e1 & e2). repeat split; try assumption. intros i a Hi Ha. eapply check_weights_real; eassumption. }
  assert (CD : forall D1, check_init_aa_dictionary Din k (nr K) = Ok D1 -> nr D1 = k /\ nc D1 = nr K /\ (forall a i, (a < k)%nat -> (i < nr K)%nat -> exists x, cell D1 a i = Fin x)).
  { intros D1 E1. pose proof E1 as E3. apply check_init_aa_dictionary_inv in E3. destruct E3 as (_ & e1 & e2). repeat split; try assumption. intros i a Hi Ha. eapply aa_dictionary_check_real; eassumption. }
  unfold aa_choose_initial in H. cbv zeta in H.
  destruct (ac_init c).
  all: try (destruct (andb (negb ud) uw); [|destruct (andb ud (negb uw))];
    [ apply bind_ok in H; destruct H as (D0 & E1 & H); destruct kw; [discriminate|]; apply bind_ok in H; destruct H as ((W0 & g0) & E2 & H); injection H as <- <- <-; cbn [fst snd] in *;
      apply CD in E1; apply IW in E2; [tauto|reflexivity]
    | apply bind_ok in H; destruct H as (W0 & E1 & H); apply bind_ok in H; destruct H as ((D0 & g0) & E2 & H); injection H as <- <- <-; cbn [fst snd] in *;
      apply CW in E1; apply ID in E2; [tauto|reflexivity]
    | apply bind_ok in H; destruct H as ((D0 & g0) & E1 & H); destruct kw; [discriminate|]; apply bind_ok in H; destruct H as ((W0 & g1) & E2 & H); injection H as <- <- <-; cbn [fst snd] in *;
      apply ID in E1; [|reflexivity]; destruct E1 as (e1 & e2 & e3 & e4); apply IW in E2; [tauto|exact e4] ]).
  apply bind_ok in H. destruct H as (W0 & E1 & H). apply bind_ok in H. destruct H as (D0 & E2 & H). injection H as <- <- <-. apply CW in E1. apply CD in E2. tauto.
Qed.
Lemma start_anv c K D W n k : nr K = n -> (0 < ac_memory c)%nat -> start_real n k D W -> anv K n k (aa_initialize_workspace c k K W D).
Proof.
  intros E HM (W1 & W2 & D1 & D2 & WF & DF). split; cbn [aa_initialize_workspace a_K a_S a_C a_alpha a_f_S_mem a_f_C_mem a_f_alpha_mem]; auto; try apply repeat_length; destruct (ac_memory c); try lia; discriminate.
Qed.
(** a run that returns *)
Lemma kernel_aa_nan fuel (o : aa ext) K Din Win ud uw kw r : has_nan K -> good_draws (ao_rng o) -> (0 < ac_memory (ao_cfg o))%nat ->
  kernel_aa fuel o K Din Win ud uw kw = Ok r ->
  exists w k m t D W g, nc K = nr K /\ resolve_components (ao_n_components o) (nr K) = PInt (Z.of_nat k) /\ (0 < k)%nat
      /\ ac_max_iterations (ao_cfg o) = PInt (Z.of_nat m) /\ (0 < m)%nat /\ tol_value (ac_tolerance (ao_cfg o)) t
      /\ aa_choose_initial (ao_cfg o) k K Din Win ud uw kw (ao_rng o) = Ok (D, W, g)
      /\ nan_outcome m (ar_cost r) (ar_n_iter r) (ar_log r) (ar_warned r)
      /\ ar_obj r = mk_aa (ao_cfg o) (PInt (Z.of_nat k)) (ao_seeded o) (if ao_seeded o then ao_rng o else g) (Some w) (ao_dictionary_ o) (ao_cost_ o) (ao_n_iter_ o) (ao_n_components_ o)
      /\ nr (a_S w) = nr K /\ nc (a_S w) = k /\ nr (a_C w) = k /\ nc (a_C w) = nr K
      /\ (if ud then all_zero (a_C w) else a_C w = D) /\ (if uw then all_zero (a_S w) else a_S w = W).
Proof.
  intros (i0 & j0 & HN) HG HM H. apply kernel_aa_inv in H. destruct H as (k & m & t & D & W & g & w2 & A0 & A1 & A2 & A3 & A4 & A5 & A6 & A7 & A8 & A9).
  pose proof (aa_choose_real _ _ _ _ _ _ _ _ _ _ _ _ A6 HG) as SR.
  destruct (aa_iterate_nan K (nr K) k (ao_cfg o) fuel i0 j0 eq_refl A0 A2 HN ud uw t m (aa_initialize_workspace (ao_cfg o) k K W D)) as (w & E & I & ZC & ZS & EC & ES).
  { apply start_anv; auto. } { exact A4. }
  rewrite E in A7. injection A7 as -> E1 E2 E3. exists w2, k, m, t, D, W, g.
  do 7 (split; [assumption|]). split.
  { rewrite A9, <- E1, <- E2, <- E3. split; [reflexivity|]. split; [lia|]. split; [reflexivity|]. destruct (Nat.eqb_spec (m - 1) m); [lia|reflexivity]. }
  split; [assumption|]. destruct I. repeat (split; [assumption|]). split.
  - destruct ud; [|apply EC; reflexivity]. intros a Ha j Hj. apply ZC; [reflexivity|lia|lia].
  - destruct uw; [|apply ES; reflexivity]. intros i Hi a Ha. apply ZS; [reflexivity|lia|lia].
Qed.
(** with random starting values the run returns *)
Lemma kernel_aa_random_nan fuel (o : aa ext) K Din Win k m t : has_nan K -> good_draws (ao_rng o) -> (0 < ac_memory (ao_cfg o))%nat -> nc K = nr K ->
  resolve_components (ao_n_components o) (nr K) = PInt (Z.of_nat k) -> (0 < k)%nat -> ac_max_iterations (ao_cfg o) = PInt (Z.of_nat m) -> (0 < m)%nat -> tol_value (ac_tolerance (ao_cfg o)) t ->
  ac_init (ao_cfg o) = InitRandom ->
  exists r, kernel_aa fuel o K Din Win true true None = Ok r.
Proof.
  intros (i0 & j0 & HN) HG HM HS Hc Hk Hm1 Hm Ht Hi. unfold kernel_aa. cbv zeta. rewrite HS, Nat.eqb_refl. cbn [negb]. rewrite Hc, Hm1, (check_params_total k m _ t) by assumption. cbn [bind].
  destruct (aa_choose_initial _ _ _ _ _ _ _ _ _) as [[[D W] g]|e] eqn:EI.
  2:{ exfalso. unfold aa_choose_initial in EI. rewrite Hi in EI. cbn [negb andb aa_initialize_dictionary aa_initialize_weights bind] in EI. discriminate EI. }
  cbn [bind]. pose proof (aa_choose_real _ _ _ _ _ _ _ _ _ _ _ _ EI HG) as SR.
  destruct (aa_iterate_nan K (nr K) k (ao_cfg o) fuel i0 j0 eq_refl HS Hk HN true true t m (aa_initialize_workspace (ao_cfg o) k K W D)) as (w & E & I).
  { apply start_anv; auto. } { exact Hm. }
  rewrite E. cbn [bind]. eauto.
Qed.
