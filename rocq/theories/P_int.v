(** Integer data in the FEM-BV classes and the piecewise VARX class: lemmas *)
From Coq Require Import List Arith ZArith Bool Reals Lra Lia.
From Verif Require Import Num Mat Py Lp M_random M_iter M_gpnh M_fembv M_varx M_pwvarx M_int Spec Spec_fembv Spec_int.
From Verif Require Import P_lin P_random P_iter P_mat P_gpnh_run P_fembv P_fembv_upd P_fembv_run.
Import ListNotations.
Local Open Scope R_scope.

(** ** rounding towards zero *)
Lemma tz_pos x : 0 <= x -> 0 <= toward_zero x <= x /\ x < toward_zero x + 1.
Proof.
  intros H. unfold toward_zero. destruct (Rle_dec 0 x); [|contradiction]. destruct (base_Int_part x) as [B1 B2]. split; [|lra]. split; [|exact B1].
  apply IZR_le. assert (-1 < Int_part x)%Z; [|lia]. apply lt_IZR. lra.
Qed.
Lemma tz_neg x : x < 0 -> toward_zero x = - toward_zero (- x).
Proof. intros H. unfold toward_zero. destruct (Rle_dec 0 x); [lra|]. destruct (Rle_dec 0 (- x)); [reflexivity | lra]. Qed.
Lemma tz_unique x z : 0 <= x -> IZR z <= x < IZR z + 1 -> toward_zero x = IZR z.
Proof.
  intros H Hz. unfold toward_zero. destruct (Rle_dec 0 x); [|contradiction]. f_equal. destruct (base_Int_part x) as [B1 B2].
  assert (Int_part x < z + 1)%Z by (apply lt_IZR; rewrite plus_IZR; lra). assert (z < Int_part x + 1)%Z by (apply lt_IZR; rewrite plus_IZR; lra). lia.
Qed.
Lemma tz_small x : Rabs x < 1 -> toward_zero x = 0.
Proof.
  intros H. destruct (Rle_dec 0 x) as [P|P].
  - apply (tz_unique x 0 P). rewrite Rabs_pos_eq in H by exact P. lra.
  - rewrite tz_neg by lra. rewrite Rabs_left in H by lra. rewrite (tz_unique (- x) 0) by lra. lra.
Qed.
Lemma tz_IZR z : toward_zero (IZR z) = IZR z.
Proof.
  destruct (Z.le_gt_cases 0 z) as [P|P].
  - apply tz_unique; [apply IZR_le; exact P | lra].
  - rewrite tz_neg by (apply IZR_lt; exact P). rewrite <- opp_IZR, (tz_unique _ (- z)); [rewrite !opp_IZR; lra | apply IZR_le; lia | lra].
Qed.
Lemma tz_int x : exists z, toward_zero x = IZR z.
Proof. unfold toward_zero. destruct (Rle_dec 0 x); eexists; [reflexivity | rewrite <- opp_IZR; reflexivity]. Qed.
Lemma tz_mono x y : 0 <= x <= y -> toward_zero x <= toward_zero y.
Proof.
  intros [H1 H2]. destruct (tz_int x) as [a Ea], (tz_int y) as [b Eb]. pose proof (tz_pos x H1). pose proof (tz_pos y ltac:(lra)). rewrite Ea, Eb in *.
  apply IZR_le. assert (a < b + 1)%Z; [|lia]. apply lt_IZR. rewrite plus_IZR. lra.
Qed.
Lemma tz_error x : Rabs (x - toward_zero x) < 1 /\ Rabs (toward_zero x) <= Rabs x.
Proof.
  destruct (Rle_dec 0 x) as [P|P].
  - pose proof (tz_pos x P). rewrite !Rabs_pos_eq by lra. lra.
  - pose proof (tz_pos (- x) ltac:(lra)). rewrite tz_neg by lra. rewrite (Rabs_left x) by lra.
    split; [unfold Rabs; destruct Rcase_abs; lra | rewrite Rabs_Ropp, Rabs_pos_eq; lra].
Qed.

(** ** strict sums *)
Lemma Sum_lt n f g k : (forall i, (i < n)%nat -> f i <= g i) -> (k < n)%nat -> f k < g k -> Sum n f < Sum n g.
Proof.
  intros H Hk Hlt. assert (0 < Sum n (fun i => g i - f i)); [|rewrite Sum_minus in *; lra].
  apply (Sum_pos n _ k); [intros i Hi; specialize (H i Hi); lra | exact Hk | lra].
Qed.
Lemma Sum_pos_term n f : 0 < Sum n f -> exists k, (k < n)%nat /\ 0 < f k.
Proof.
  induction n as [|n IH]; cbn [Sum]; intros H; [lra|]. destruct (Rlt_dec 0 (f n)) as [P|P]; [exists n; split; [lia | exact P]|].
  destruct IH as (k & Hk & Pk); [lra|]. exists k. split; [lia | exact Pk].
Qed.

(** ** FEMBVKMeans *)
Notation ikm := (int_kmeans_class toward_zero).
Lemma dist2_nonneg X Th t j : 0 <= centroid_dist2 X Th t j.
Proof. unfold centroid_dist2. apply Sum_sq_nonneg. Qed.
Lemma int_distance_mat n d k X s : kmok n d k X s -> is_mat n k (int_kmeans_distance toward_zero s).
Proof. intros H. apply kmeans_distance_mat in H. destruct H as (h1 & h2 & _). unfold int_kmeans_distance, mmap. rewrite h1, h2. apply is_mat_mbuild. Qed.
Lemma int_distance_spec n d k X s t j : kmok n d k X s -> (t < n)%nat -> (j < k)%nat ->
  ent (int_kmeans_distance toward_zero s) t j = toward_zero (centroid_dist2 X (km_Theta s) t j).
Proof.
  intros H Ht Hj. rewrite <- (kmeans_distance_spec n d k X s t j H Ht Hj). pose proof (kmeans_distance_mat n d k X s H) as (h1 & h2 & _).
  unfold int_kmeans_distance, mmap. rewrite h1, h2, ent_mbuild by assumption. rewrite mget_ent. reflexivity.
Qed.
Lemma int_kmeans_keeps n d k X : keeps ikm n k (kmok n d k X).
Proof.
  split.
  - intros s H. cbn [int_kmeans_class cl_distance]. eapply int_distance_mat; exact H.
  - intros G s s' HG H E. cbn [int_kmeans_class cl_update] in E. eapply kmeans_update_spec; eauto.
Qed.
Lemma int_kmeans_start c n d k old data th weights init g w g' : is_mat n d data ->
  (forall Th, th = Some Th -> wf Th) -> (forall W0, weights = Some W0 -> wf W0) ->
  fembv_initialize ikm c k old data th weights init g = Ok (w, g') ->
  finv c n k (kmok n d k data) w
  /\ (rng_ok k g -> (forall W0, weights = Some W0 -> row_stochastic W0) -> row_stochastic (f_Gamma w)).
Proof.
  intros HX WT WW H. apply fembv_initialize_inv in H. destruct H as (p & g1 & E1 & E2 & E3 & E4 & <- & _).
  cbn [int_kmeans_class cl_initialize cl_distance] in *. apply (kmeans_initialize_ok n d) in E1; try assumption. destruct E1 as [K Eg].
  pose proof (int_distance_mat n d k data _ K) as (d1 & _). rewrite d1 in *.
  apply fembv_weights_ok in E3; [|exact WW]. destruct E3 as [G1 G2]. split; [split; [exact G1 | split; [exact K | exact E4]]|].
  intros Hg. apply G2. eapply rng_ok_stream; eassumption.
Qed.
Lemma int_cost_spec c n d k X w : finv c n k (kmok n d k X) w ->
  fembv_cost ikm w = truncated_kmeans_cost X (f_Gamma w) (km_Theta (f_params w)).
Proof.
  intros HI. rewrite (fembv_cost_spec ikm c k n w) by (eapply finv_fok; [apply (int_kmeans_keeps n d k X) | exact HI]).
  destruct HI as ((g1 & g2 & _) & HK & _). unfold clustering_cost, truncated_kmeans_cost. rewrite g1, g2. apply Sum_ext. intros t Ht. apply Sum_ext. intros j Hj.
  cbn [int_kmeans_class cl_distance]. rewrite (int_distance_spec n d k X) by assumption. reflexivity.
Qed.
Lemma truncated_cost_bounds n k X G Theta : is_mat n k G -> (0 < n)%nat -> row_stochastic G ->
  truncated_kmeans_cost X G Theta <= kmeans_cost X G Theta < truncated_kmeans_cost X G Theta + INR n.
Proof.
  intros (g1 & g2 & _) Hn HG. unfold truncated_kmeans_cost, kmeans_cost. rewrite g1, g2. split.
  - apply Sum_le. intros t Ht. apply Sum_le. intros j Hj. apply Rmult_le_compat_l; [apply HG; lia|]. apply tz_pos, dist2_nonneg.
  - replace (INR n) with (Sum n (fun _ => 1)) by (rewrite Sum_const; ring). rewrite <- Sum_plus.
    assert (Row : forall t, (t < n)%nat -> Sum k (fun j => ent G t j * centroid_dist2 X Theta t j) < Sum k (fun j => ent G t j * toward_zero (centroid_dist2 X Theta t j)) + 1).
    { intros t Ht. destruct (HG t ltac:(lia)) as [Nn Su]. rewrite g2 in *. replace 1 with (Sum k (fun j => ent G t j)) by exact Su. rewrite <- Sum_plus.
      destruct (Sum_pos_term k (fun j => ent G t j)) as (j & Hj & Pj); [lra|]. apply (Sum_lt k _ _ j); [|exact Hj|].
      - intros i Hi. pose proof (tz_pos _ (dist2_nonneg X Theta t i)). specialize (Nn i Hi). nra.
      - pose proof (tz_pos _ (dist2_nonneg X Theta t j)). nra. }
    apply (Sum_lt n _ _ 0); [|exact Hn | apply Row; exact Hn]. intros t Ht. apply Rlt_le, Row, Ht.
Qed.
(** drawn weights lie strictly between 0 and 1 *)
Lemma drawn_weights_positive n k (g : rng R) t j : (forall i, 0 < r_uniform g i) -> (t < n)%nat -> (j < k)%nat ->
  0 < ent (fst (right_stochastic_matrix n k g)) t j /\ ((1 < k)%nat -> ent (fst (right_stochastic_matrix n k g)) t j < 1).
Proof.
  intros Hg Ht Hj. unfold right_stochastic_matrix, draw_uniform_mat. cbn [fst]. rewrite ent_mbuild by assumption. unfold vget. rewrite nth_tab by exact Ht.
  rewrite nsum_Sum. rewrite mget_ent. set (u := fun j => ent (mbuild n k (fun i j0 => r_uniform g (r_pos g + i * k + j0)%nat)) t j).
  assert (U : forall i, (i < k)%nat -> 0 < u i) by (intros i Hi; unfold u; rewrite ent_mbuild by assumption; apply Hg).
  change (0 < u j / Sum k u /\ ((1 < k)%nat -> u j / Sum k u < 1)).
  assert (P : 0 < Sum k u) by (apply (Sum_pos k u j); [intros i Hi; apply Rlt_le, U, Hi | exact Hj | apply U, Hj]).
  split; [apply Rdiv_lt_0_compat; [apply U, Hj | exact P]|]. intros K.
  apply (Rmult_lt_reg_r (Sum k u)); [exact P|]. replace (u j / Sum k u * Sum k u) with (u j) by (field; lra). rewrite Rmult_1_l.
  set (i := if Nat.eqb j 0 then 1%nat else 0%nat). assert (Hi : (i < k)%nat /\ i <> j) by (unfold i; destruct (Nat.eqb_spec j 0); lia). destruct Hi as [Hi Ne].
  assert (E : Sum k u = Sum k (fun a => if Nat.eqb a j then u a else 0) + Sum k (fun a => if Nat.eqb a j then 0 else u a)).
  { rewrite <- Sum_plus. apply Sum_ext. intros a _. destruct (Nat.eqb a j); ring. }
  rewrite E, Sum_delta by exact Hj. enough (0 < Sum k (fun a => if Nat.eqb a j then 0 else u a)) by lra.
  apply (Sum_pos k _ i); [|exact Hi|].
  - intros a Ha. destruct (Nat.eqb a j); [lra | apply Rlt_le, U, Ha].
  - destruct (Nat.eqb_spec i j); [contradiction | apply U, Hi].
Qed.
Lemma default_weights_positive n k weights init (g g' : rng R) W : (forall i, 0 < r_uniform g i) -> (init = InitCustom -> weights = None) ->
  fembv_initialize_weights k n weights init g = Ok (W, g') ->
  forall t j, (t < n)%nat -> (j < k)%nat -> 0 < ent W t j /\ ((1 < k)%nat -> ent W t j < 1).
Proof.
  intros Hg Hi H t j Ht Hj. assert (E : Ok (right_stochastic_matrix n k g) = Ok (W, g')).
  { unfold fembv_initialize_weights in H. destruct init, weights; try exact H; specialize (Hi eq_refl); discriminate. }
  assert (E' : fst (right_stochastic_matrix n k g) = W) by (revert E; generalize (right_stochastic_matrix n k g); intros p E; injection E as ->; reflexivity).
  rewrite <- E'. apply drawn_weights_positive; assumption.
Qed.
(** the weighted mean of zeros and ones, both with positive weights, lies strictly between them *)
Lemma binary_mean n (g x : nat -> R) a b : (forall t, (t < n)%nat -> 0 < g t) -> (forall t, (t < n)%nat -> x t = 0 \/ x t = 1) ->
  (a < n)%nat -> x a = 0 -> (b < n)%nat -> x b = 1 ->
  0 < Sum n (fun t => g t * x t) / Sum n g < 1.
Proof.
  intros Hg Hx Ha Ea Hb Eb.
  assert (P : 0 < Sum n g) by (apply (Sum_pos n g a); [intros i Hi; apply Rlt_le, Hg, Hi | exact Ha | apply Hg, Ha]).
  assert (L : 0 < Sum n (fun t => g t * x t)).
  { apply (Sum_pos n _ b); [|exact Hb | rewrite Eb; specialize (Hg b Hb); lra]. intros t Ht. specialize (Hg t Ht). destruct (Hx t Ht) as [-> | ->]; lra. }
  assert (U : Sum n (fun t => g t * x t) < Sum n g).
  { apply (Sum_lt n _ _ a); [|exact Ha | rewrite Ea; specialize (Hg a Ha); lra]. intros t Ht. specialize (Hg t Ht). destruct (Hx t Ht) as [-> | ->]; lra. }
  split; [apply Rdiv_lt_0_compat; assumption|]. apply (Rmult_lt_reg_r (Sum n g)); [exact P|]. unfold Rdiv. rewrite Rmult_assoc, Rinv_l by lra. lra.
Qed.
(** no update of fixed parameters increases the cost *)
Lemma int_step_cost solver c n d k data uw i w s s' : (0 < n)%nat -> (0 < k)%nat -> (0 < i)%nat ->
  solver_optimal solver -> solver_honest solver -> finv c n k (kmok n d k data) w ->
  fembv_after ikm solver c k false uw i w = Ok s ->
  other_half ikm solver c k uw s = Ok s' -> fembv_cost ikm s' <= fembv_cost ikm s.
Proof.
  intros Hn Hk Hi Hs Hh I0 Es E2. pose proof (int_kmeans_keeps n d k data) as HK.
  assert (Hf : solver_feasible solver) by (intros a p sol Ea; apply Hs in Ea; apply Ea).
  pose proof (after_inv ikm solver c n k _ HK Hn Hk _ _ _ _ _ I0 Es) as I1.
  apply (other_cost ikm solver c n k _ HK Hn Hk s s' uw Hs I1); [|exact E2]. intros -> K1.
  destruct i as [|i]; [lia|]. cbn [fembv_after] in Es. apply bind_ok in Es. destruct Es as (w1 & E1 & Es). apply bind_ok in Es. destruct Es as (w2 & E3 & Es).
  pose proof (after_inv ikm solver c n k _ HK Hn Hk _ _ _ _ _ I0 E1) as I3. destruct (half_inv ikm c n k _ HK _ _ _ I3 E3) as (I4 & _ & _).
  apply (other_admissible ikm solver c n k _ HK Hn Hk w2 s K1 Hf Hh I4 Es).
Qed.
Lemma int_kmeans_start_raise (c : fembv_cfg R) k old data th weights init g e :
  fembv_initialize ikm c k old data th weights init g = Raise e -> e = ValueError.
Proof.
  unfold fembv_initialize. cbn [int_kmeans_class cl_initialize cl_distance]. destruct (kmeans_initialize k data th init old g) as [[s g1]|e1] eqn:E1; cbn [bind].
  - assert (K : nr (km_Theta s) = k).
    { unfold kmeans_initialize in E1. assert (D : (let! rg := draw_choice (nr data) k g in Ok (mk_kmeans data (mbuild k (nc data) (fun j f => mget data (nth j (fst rg) 0%nat) f)), snd rg)) = Ok (s, g1) -> nr (km_Theta s) = k).
      { intros D. apply bind_ok in D. destruct D as (rg & _ & D). injection D as <- _. reflexivity. }
      destruct init, th as [Th|]; auto. apply bind_ok in E1. destruct E1 as ([] & E & E1). injection E1 as <- _. apply check_array_shape_ok in E. apply E. }
    cbn [int_kmeans_distance mmap kmeans_distance nc nr mbuild]. rewrite K, Nat.eqb_refl. cbn [negb].
    destruct (fembv_initialize_weights _ _ _ _ _) as [[W g2]|e2] eqn:E2; cbn [bind].
    + destruct (initialize_constraints _ _ _) as [cs|e3] eqn:E3; cbn [bind]; [discriminate|]. intros [= ->]. apply constraints_raise in E3. exact E3.
    + intros [= ->]. unfold fembv_initialize_weights in E2. destruct init, weights; try discriminate.
      destruct (check_init_weights _ _ _) eqn:E3; cbn [bind] in E2; [discriminate|]. injection E2 as ->. eapply check_init_weights_raise. exact E3.
  - intros [= ->]. eapply kmeans_initialize_raise. exact E1.
Qed.
