(** Runs in rounded arithmetic: they end, and no weight or probability becomes negative *)
From Coq Require Import List Arith ZArith Reals Lra Lia.
From Verif Require Import Num Mat Py M_random M_simplex M_spg M_iter M_gpnh M_aa M_mtd M_crom Num_rnd Num_b64 Spec Spec_rnd Spec_rnd_run
  P_lin P_mat P_simplex P_iter P_gpnh_run P_rnd P_b64 P_rnd_draw P_rnd_ls P_rnd_run P_rnd_large.
Import ListNotations.
Local Open Scope R_scope.

(** ** C81: every call ends.  The number of reductions of a step is bounded in terms of the line-search
    parameters only.  The step interpolation may divide by 0: numpy then returns inf or nan, which both fail the
    test against sigma_one and sigma_two * step or are replaced by half the step; the proofs use nothing
    about the value of that quotient (it is rounded, so any representable value is covered). *)
Theorem C81_gpnh_ends : forall u eta rnd, rounding u eta rnd -> forall p, step_resolution u eta p ->
  exists M, forall fuel, (M <= fuel)%nat -> forall (o : gpnh R) data, gc_ls (go_cfg o) = p ->
    let documented e := e = ValueError \/ e = IndexError \/ e = TypeError \/ (e = RuntimeError /\ gc_monotone (go_cfg o) = true) in
    (forall dictionary weights ud uw kw,
       (exists r, @fit_transform R (Num_rnd rnd) fuel o data dictionary weights ud uw kw = Ok r)
       \/ (exists e, @fit_transform R (Num_rnd rnd) fuel o data dictionary weights ud uw kw = Raise e /\ documented e))
    /\ ((exists r, @transform R (Num_rnd rnd) fuel o data = Ok r) \/ (exists e, @transform R (Num_rnd rnd) fuel o data = Raise e /\ documented e)).
Proof.
  intros u eta rnd HR p Hp. destruct (line_search_rnd_ends u eta rnd HR p Hp) as [M HM]. exists M. intros fuel Hf o data Eo documented.
  assert (F : @ls_ends R (Num_rnd rnd) (gc_ls (go_cfg o)) fuel) by (rewrite Eo; intros St cost trial full mem cc inm; apply HM; exact Hf). split.
  - intros D W ud uw kw. destruct (@fit_transform R (Num_rnd rnd) fuel o data D W ud uw kw) as [r|e] eqn:E; [left; eauto|]. right. exists e. split; [reflexivity|]. eapply (@fit_transform_exn R (Num_rnd rnd)); [exact F|exact E].
  - destruct (@transform R (Num_rnd rnd) fuel o data) as [r|e] eqn:E; [left; eauto|]. right. exists e. split; [reflexivity|]. eapply (@transform_exn R (Num_rnd rnd)); [exact F|exact E].
Qed.
Print Assumptions C81_gpnh_ends.
Theorem C81_aa_ends : forall u eta rnd, rounding u eta rnd -> forall p, step_resolution u eta p ->
  exists M, forall fuel, (M <= fuel)%nat -> forall (o : aa R) K, ac_ls (ao_cfg o) = p ->
    let documented e := e = ValueError \/ e = IndexError \/ e = TypeError \/ (e = RuntimeError /\ ac_monotone (ao_cfg o) = true) in
    (forall dictionary weights ud uw kw,
       (exists r, @aa_fit_transform R (Num_rnd rnd) fuel o K dictionary weights ud uw kw = Ok r)
       \/ (exists e, @aa_fit_transform R (Num_rnd rnd) fuel o K dictionary weights ud uw kw = Raise e /\ documented e))
    /\ ((exists r, @aa_transform R (Num_rnd rnd) fuel o K = Ok r) \/ (exists e, @aa_transform R (Num_rnd rnd) fuel o K = Raise e /\ documented e)).
Proof.
  intros u eta rnd HR p Hp. destruct (line_search_rnd_ends u eta rnd HR p Hp) as [M HM]. exists M. intros fuel Hf o K Eo documented.
  assert (F : @ls_ends R (Num_rnd rnd) (ac_ls (ao_cfg o)) fuel) by (rewrite Eo; intros St cost trial full mem cc inm; apply HM; exact Hf). split.
  - intros D W ud uw kw. destruct (@aa_fit_transform R (Num_rnd rnd) fuel o K D W ud uw kw) as [r|e] eqn:E; [left; eauto|]. right. exists e. split; [reflexivity|]. eapply (@aa_fit_exn R (Num_rnd rnd)); [exact F|exact E].
  - destruct (@aa_transform R (Num_rnd rnd) fuel o K) as [r|e] eqn:E; [left; eauto|]. right. exists e. split; [reflexivity|]. eapply (@aa_transform_exn R (Num_rnd rnd)); [exact F|exact E].
Qed.
Print Assumptions C81_aa_ends.
Theorem C81_mtd_ends : forall u eta rnd, rounding u eta rnd -> forall p, step_resolution u eta p ->
  exists M, forall fuel, (M <= fuel)%nat -> forall (o : mtd R) data, mc_ls (mo_cfg o) = p ->
    let documented e := e = ValueError \/ e = IndexError \/ e = TypeError \/ e = AttributeError \/ (e = RuntimeError /\ mc_monotone (mo_cfg o) = true) in
    (forall dictionary weights ow Ts ud uw up kw,
       (exists r, @mtd_fit_transform R (Num_rnd rnd) fuel o data dictionary weights ow Ts ud uw up kw = Ok r)
       \/ (exists e, @mtd_fit_transform R (Num_rnd rnd) fuel o data dictionary weights ow Ts ud uw up kw = Raise e /\ documented e))
    /\ ((exists r, @mtd_transform R (Num_rnd rnd) fuel o data = Ok r) \/ (exists e, @mtd_transform R (Num_rnd rnd) fuel o data = Raise e /\ documented e))
    /\ (forall h, (exists r, @mtd_predict R (Num_rnd rnd) fuel o data h = Ok r) \/ (exists e, @mtd_predict R (Num_rnd rnd) fuel o data h = Raise e /\ documented e)).
Proof.
  intros u eta rnd HR p Hp. destruct (line_search_rnd_ends u eta rnd HR p Hp) as [M HM]. exists M. intros fuel Hf o data Eo documented.
  assert (F : @ls_ends R (Num_rnd rnd) (mc_ls (mo_cfg o)) fuel) by (rewrite Eo; intros St cost trial full mem cc inm; apply HM; exact Hf).
  assert (Q : forall e, run_exn (mc_monotone (mo_cfg o)) e \/ e = AttributeError -> documented e) by (intros e; unfold run_exn, documented; tauto). split; [|split].
  - intros D W ow Ts ud uw up kw. destruct (@mtd_fit_transform R (Num_rnd rnd) fuel o data D W ow Ts ud uw up kw) as [r|e] eqn:E; [left; eauto|]. right. exists e. split; [reflexivity|]. apply Q. eapply (@mtd_fit_exn R (Num_rnd rnd)); [exact F|exact E].
  - destruct (@mtd_transform R (Num_rnd rnd) fuel o data) as [r|e] eqn:E; [left; eauto|]. right. exists e. split; [reflexivity|]. apply Q. eapply (@mtd_transform_exn R (Num_rnd rnd)); [exact F|exact E].
  - intros h. destruct (@mtd_predict R (Num_rnd rnd) fuel o data h) as [r|e] eqn:E; [left; eauto|]. right. exists e. split; [reflexivity|]. apply Q. eapply (@mtd_predict_exn R (Num_rnd rnd)); [exact F|exact E].
Qed.
Print Assumptions C81_mtd_ends.
Theorem C81_crom_ends : forall u eta rnd, rounding u eta rnd -> forall p, step_resolution u eta p ->
  exists M, forall fuel, (M <= fuel)%nat -> forall (o : crom R) data, gc_ls (go_cfg (co_gpnh o)) = p ->
    let documented e := e = ValueError \/ e = IndexError \/ e = TypeError \/ (e = RuntimeError /\ gc_monotone (go_cfg (co_gpnh o)) = true) in
    (forall dictionary weights ud uw kw,
       (exists r, @crom_fit_transform R (Num_rnd rnd) fuel o data dictionary weights ud uw kw = Ok r)
       \/ (exists e, @crom_fit_transform R (Num_rnd rnd) fuel o data dictionary weights ud uw kw = Raise e /\ documented e))
    /\ (co_parameters o <> None -> forall h,
         (exists r, @crom_predict R (Num_rnd rnd) fuel o data h = Ok r) \/ (exists e, @crom_predict R (Num_rnd rnd) fuel o data h = Raise e /\ documented e)).
Proof.
  intros u eta rnd HR p Hp. destruct (line_search_rnd_ends u eta rnd HR p Hp) as [M HM]. exists M. intros fuel Hf o data Eo documented.
  assert (F : @ls_ends R (Num_rnd rnd) (gc_ls (go_cfg (co_gpnh o))) fuel) by (rewrite Eo; intros St cost trial full mem cc inm; apply HM; exact Hf). split.
  - intros D W ud uw kw. destruct (@crom_fit_transform R (Num_rnd rnd) fuel o data D W ud uw kw) as [r|e] eqn:E; [left; eauto|]. right. exists e. split; [reflexivity|]. eapply (@crom_fit_exn R (Num_rnd rnd)); [exact F|exact E].
  - intros HP h. destruct (@crom_predict R (Num_rnd rnd) fuel o data h) as [r|e] eqn:E; [left; eauto|]. right. exists e. split; [reflexivity|].
    apply (@crom_predict_exn R (Num_rnd rnd)) in E; [|exact F]. destruct E as [E|[E _]]; [exact E|contradiction].
Qed.
Print Assumptions C81_crom_ends.
(** a fit that starts from random factors, guard off, returns: no exception is left *)
Theorem C81_gpnh_returns : forall u eta rnd, rounding u eta rnd -> forall p, step_resolution u eta p ->
  exists M, forall fuel, (M <= fuel)%nat -> forall (o : gpnh R) n d k m t data dictionary weights kw, gc_ls (go_cfg o) = p ->
    is_mat n d data -> comp_count (go_n_components o) d k -> (0 < k)%nat -> gc_max_iterations (go_cfg o) = PInt (Z.of_nat m) -> (0 < m)%nat ->
    gc_tolerance (go_cfg o) = PFloat t -> 0 <= t -> gc_init (go_cfg o) = InitRandom \/ gc_init (go_cfg o) = InitNone ->
    (0 < gc_memory (go_cfg o))%nat -> gc_monotone (go_cfg o) = false ->
    exists r W, @fit_transform R (Num_rnd rnd) fuel o data dictionary weights true true kw = Ok (r, W).
Proof.
  intros u eta rnd HR p Hp. destruct (line_search_rnd_ends u eta rnd HR p Hp) as [M HM]. exists M. intros fuel Hf o n d k m t data D W kw Eo HX Hc Hk Hm1 Hm Ht Ht0 Hi Hmem Hmono.
  assert (F : @ls_ends R (Num_rnd rnd) (gc_ls (go_cfg o)) fuel) by (rewrite Eo; intros St cost trial full mem cc inm; apply HM; exact Hf).
  assert (nc data = d) as x by apply HX. rewrite <- x in Hc.
  destruct (@gpnh_random_returns R (Num_rnd rnd) fuel o data D W kw k m t F Hc Hk Hm1 Hm) as [[r W'] E]; [|exact Hi|exact Hmem|exact Hmono|eauto].
  rewrite Ht. right. split; [reflexivity|]. cbn [nltb n0 Num_rnd]. destruct (Rltb_spec t 0) as [L|L]; [lra|reflexivity].
Qed.
Print Assumptions C81_gpnh_returns.
(** binary64 and the default line search (gpnh_convex_coding.py:226-232): sigma_one = 0.1, sigma_two = 0.9, step tolerance 1e-12 *)
Example C81_defaults : step_resolution (two_pow (-53)) (two_pow (-1075)) (mk_ls (1/10000) (1/1000) 1000 (1/10) (9/10) (1/1000000000000)).
Proof.
  pose proof b64_u as U. change (2 ^ 53)%Z with 9007199254740992%Z in U. pose proof b64_eta as Q. rewrite b64_eta' in Q. change (2 ^ 106)%Z with 81129638414606681695789005144064%Z in Q.
  unfold step_resolution, contraction. cbn [ls_sigma_one ls_sigma_two ls_step_tol]. rewrite (Rmax_right (1/2)) by lra. rewrite U. repeat split; lra.
Qed.

(** ** C82: weights, archetypes and transition parameters are nonnegative floating-point numbers *)
Theorem C82_gpnh_nonnegative : forall u eta rnd, rounding u eta rnd -> forall fuel (o : gpnh R) n d k data,
  is_mat n d data -> (0 < n)%nat -> (0 < d)%nat -> comp_count (go_n_components o) d k ->
  float_draws rnd (go_rng o) -> (forall p, Sum k (fun j => r_uniform (go_rng o) (p + j)) <> 0) ->
  0 <= ls_sigma_one (gc_ls (go_cfg o)) -> ls_sigma_two (gc_ls (go_cfg o)) <= 1 ->
  (forall dictionary weights ud uw kw r W, (forall W0, weights = Some W0 -> nonneg_mat rnd W0) ->
     @fit_transform R (Num_rnd rnd) fuel o data dictionary weights ud uw kw = Ok (r, W) -> nonneg_mat rnd W)
  /\ (forall r W, @transform R (Num_rnd rnd) fuel o data = Ok (r, W) -> nonneg_mat rnd W).
Proof.
  intros u eta rnd HR fuel o n d k data HX Hn Hd Hc Hg HS H1 H2. assert (nc data = d) as x by apply HX. apply comp_count_resolve in Hc. rewrite <- x in Hc. split.
  - intros D W0 ud uw kw r W HW H. apply (gpnh_fit_nn u eta rnd HR) with (k := k) in H; [apply H|split; assumption|exact Hc|exact HW|exact Hg|exact HS].
  - intros r W H. apply (gpnh_transform_nn u eta rnd HR) with (k := k) in H; [exact H|split; assumption|exact Hc|exact Hg|exact HS].
Qed.
Print Assumptions C82_gpnh_nonnegative.
Theorem C82_aa_nonnegative : forall u eta rnd, rounding u eta rnd -> forall fuel (o : aa R) n k K,
  is_mat n n K -> (0 < n)%nat -> comp_count (ao_n_components o) n k ->
  float_draws rnd (ao_rng o) -> (forall p, Sum k (fun j => r_uniform (ao_rng o) (p + j)) <> 0) -> (forall p, Sum n (fun j => r_uniform (ao_rng o) (p + j)) <> 0) ->
  0 <= ls_sigma_one (ac_ls (ao_cfg o)) -> ls_sigma_two (ac_ls (ao_cfg o)) <= 1 ->
  (forall dictionary weights ud uw kw r W, (forall D0, dictionary = Some D0 -> nonneg_mat rnd D0) -> (forall W0, weights = Some W0 -> nonneg_mat rnd W0) ->
     @aa_fit_transform R (Num_rnd rnd) fuel o K dictionary weights ud uw kw = Ok (r, W) ->
     nonneg_mat rnd W /\ exists C, ao_dictionary_ (ar_obj r) = Some C /\ nonneg_mat rnd C)
  /\ (forall r W, (forall w, ao_ws o = Some w -> nonneg_mat rnd (a_C w)) -> @aa_transform R (Num_rnd rnd) fuel o K = Ok (r, W) -> nonneg_mat rnd W).
Proof.
  intros u eta rnd HR fuel o n k K HX Hn Hc Hg HS HS2 H1 H2. assert (nr K = n) as x by apply HX. apply comp_count_resolve in Hc. rewrite <- x in Hc, HS2. split.
  - intros D W0 ud uw kw r W HD HW H. apply (aa_fit_nn u eta rnd HR) with (k := k) in H; [exact H|split; assumption|exact Hc|exact HD|exact HW|exact Hg|exact HS|exact HS2].
  - intros r W HD H. apply (aa_transform_nn u eta rnd HR) with (k := k) in H; [exact H|split; assumption|exact Hc|exact HD|exact Hg|exact HS|exact HS2].
Qed.
Print Assumptions C82_aa_nonnegative.
Theorem C82_mtd_nonnegative : forall u eta rnd, rounding u eta rnd -> forall fuel (o : mtd R) n d k data,
  is_mat n d data -> (0 < n)%nat -> (0 < d)%nat -> comp_count (mo_n_components o) d k ->
  (let g := r_uniform (mo_rng o) in let p := length (mc_lags (mo_cfg o)) in
   float_draws rnd (mo_rng o) /\ (forall q, Sum k (fun j => g (q + j)%nat) <> 0) /\ (forall q, Sum p (fun j => g (q + j)%nat) <> 0)
   /\ (forall q j, (j < k)%nat -> Sum k (fun i => g (q + i * k + j)%nat) <> 0)) ->
  0 <= ls_sigma_one (mc_ls (mo_cfg o)) -> ls_sigma_two (mc_ls (mo_cfg o)) <= 1 ->
  (forall dictionary weights ow Ts ud uw up kw r W,
     (forall W0, weights = Some W0 -> nonneg_mat rnd W0) -> (forall v, ow = Some v -> nonneg_vec rnd v) -> (forall l, Ts = Some l -> nonneg_stack rnd l) ->
     @mtd_fit_transform R (Num_rnd rnd) fuel o data dictionary weights ow Ts ud uw up kw = Ok (r, W) ->
     nonneg_mat rnd W /\ exists w, mo_ws (mr_obj r) = Some w /\ nonneg_vec rnd (m_order_weights w) /\ nonneg_stack rnd (m_transition_matrices w))
  /\ (forall r W, (forall w, mo_ws o = Some w -> nonneg_vec rnd (m_order_weights w) /\ nonneg_stack rnd (m_transition_matrices w)) ->
        @mtd_transform R (Num_rnd rnd) fuel o data = Ok (r, W) -> nonneg_mat rnd W).
Proof.
  intros u eta rnd HR fuel o n d k data HX Hn Hd Hc HG H1 H2. assert (nc data = d) as x by apply HX. apply comp_count_resolve in Hc. rewrite <- x in Hc. cbv zeta in HG. split.
  - intros D W0 ow Ts ud uw up kw r W HW HO HT H. apply (mtd_fit_nn u eta rnd HR) with (k := k) in H; [exact H|split; assumption|exact Hc|exact HW|exact HO|exact HT|exact HG].
  - intros r W HP H. destruct HG as (Hg & HS & _). apply (mtd_transform_nn u eta rnd HR) with (k := k) in H; [exact H|split; assumption|exact Hc|exact HP|exact Hg|exact HS].
Qed.
Print Assumptions C82_mtd_nonnegative.
Theorem C82_crom_nonnegative : forall u eta rnd, rounding u eta rnd -> forall fuel (o : crom R) n d k data dictionary weights ud uw kw r W,
  is_mat n d data -> (0 < n)%nat -> (0 < d)%nat -> comp_count (go_n_components (co_gpnh o)) d k ->
  (let g := r_uniform (go_rng (co_gpnh o)) in let p := length (co_lags o) in
   float_draws rnd (go_rng (co_gpnh o)) /\ (forall q, Sum k (fun j => g (q + j)%nat) <> 0) /\ (forall q, Sum p (fun j => g (q + j)%nat) <> 0)
   /\ (forall q j, (j < k)%nat -> Sum k (fun i => g (q + i * k + j)%nat) <> 0)) ->
  0 <= ls_sigma_one (gc_ls (go_cfg (co_gpnh o))) -> ls_sigma_two (gc_ls (go_cfg (co_gpnh o))) <= 1 ->
  (forall W0, weights = Some W0 -> nonneg_mat rnd W0) ->
  @crom_fit_transform R (Num_rnd rnd) fuel o data dictionary weights ud uw kw = Ok (r, W) ->
  nonneg_mat rnd W /\ exists ow Ts, co_parameters (cr_obj r) = Some (ow, Ts) /\ nonneg_vec rnd ow /\ nonneg_stack rnd Ts.
Proof.
  intros u eta rnd HR fuel o n d k data D W0 ud uw kw r W HX Hn Hd Hc HG H1 H2 HW H. assert (nc data = d) as x by apply HX. apply comp_count_resolve in Hc. rewrite <- x in Hc. cbv zeta in HG.
  apply (crom_fit_nn u eta rnd HR) with (k := k) in H; [exact H|split; assumption|exact Hc|exact HW|exact HG].
Qed.
Print Assumptions C82_crom_nonnegative.
(** the weights predicted h steps ahead, for all times with a complete history *)
Theorem C82_predicted_nonnegative : forall u eta rnd, rounding u eta rnd -> forall (c : mtd_cfg R) ow Ts n k W h i a,
  is_mat n k W -> nonneg_vec rnd ow -> nonneg_stack rnd Ts -> nonneg_mat rnd W ->
  (max_lag c <= S i)%nat -> (i < n)%nat -> (a < k)%nat ->
  nonneg_float rnd (ent (@mtd_predict_weights R (Num_rnd rnd) c ow Ts W h) i a).
Proof. intros u eta rnd HR c ow Ts n k W h i a _ HO HT HW _ _ _. apply (predict_weights_nn u eta rnd HR c ow Ts W h HO HT HW). Qed.
Print Assumptions C82_predicted_nonnegative.
(** binary64, 2 x 2 data, 2 components, default settings, a generator that always returns 1/2: the runs above
    exist and return nonnegative weights *)
Definition half_rng : rng R := mkrng (fun _ => 1 / 2) (fun _ => 0) (fun n => n) 0.
Lemma half_draws : float_draws round_b64 half_rng.
Proof. intros p. split; [cbn; lra|]. unfold representable. cbn [half_rng r_uniform]. apply (rnd_half _ _ _ b64_rounding). Qed.
Lemma half_sums k : (0 < k)%nat -> forall (f : nat -> nat), Sum k (fun j => r_uniform half_rng (f j)) <> 0.
Proof.
  intros Hk f. assert (E : forall m, Sum m (fun j => r_uniform half_rng (f j)) = INR m * (1/2)).
  { induction m as [|m IH]; [cbn [Sum INR]; ring|]. cbn [Sum]. rewrite IH, S_INR. cbn [half_rng r_uniform]. lra. }
  rewrite E. apply lt_INR in Hk. change (INR 0) with 0 in Hk. lra.
Qed.
Definition default_b64 : ls_params R := mk_ls (1/10000) (1/1000) 1000 (1/10) (9/10) (1/1000000000000).
Definition ex_data : mat R := mkmat 2 2 [[1; 2]; [3; 5]].
Definition ex_gpnh : gpnh R :=
  mk_gpnh (mk_gpnh_cfg 1 InitRandom (PFloat (1/1000000)) (PInt 100) default_b64 1 false) (PInt 2) half_rng None None None None None.
Example C82_gpnh_example : exists fuel r W, @fit_transform R Num_b64 fuel ex_gpnh ex_data None None true true None = Ok (r, W) /\ nonneg_mat round_b64 W.
Proof.
  destruct (C81_gpnh_returns _ _ _ b64_rounding _ C81_defaults) as [M HM].
  assert (HX : is_mat 2 2 ex_data) by (repeat split; intros row [<-|[<-|[]]]; reflexivity).
  assert (Hc : comp_count (go_n_components ex_gpnh) 2 2) by (left; reflexivity).
  destruct (HM M (le_n M) ex_gpnh 2%nat 2%nat 2%nat 100%nat (1/1000000) ex_data None None None eq_refl HX Hc) as (r & W & E); try reflexivity; try lia; try lra; [cbn; auto|cbn; lia|].
  exists M, r, W. split; [exact E|].
  destruct (C82_gpnh_nonnegative _ _ _ b64_rounding M ex_gpnh 2 2 2 ex_data HX) as [Q _]; try lia; try exact Hc; [exact half_draws|intros p; apply half_sums; lia|cbn; lra|cbn; lra|].
  eapply Q; [|exact E]. discriminate.
Qed.
Example C82_draws_example : let g := r_uniform half_rng in
  float_draws round_b64 half_rng /\ (forall q, Sum 2 (fun j => g (q + j)%nat) <> 0) /\ (forall q, Sum 1 (fun j => g (q + j)%nat) <> 0)
  /\ (forall q j, (j < 2)%nat -> Sum 2 (fun i => g (q + i * 2 + j)%nat) <> 0).
Proof. split; [exact half_draws|]. split; [|split]; intros; apply half_sums; lia. Qed.

(** ** C83: large entries.  If subtracting 1 from the largest entry is lost in rounding, the projection is 0. *)
Theorem C83_large_entries_vanish : forall u eta rnd, rounding u eta rnd -> forall x M,
  (forall y, In y x -> y <= M) -> In M x -> representable rnd M -> rnd (M - 1) = M ->
  @simplex_project_vector R (Num_rnd rnd) x = repeat 0 (length x).
Proof. intros u eta rnd HR x M. apply (large_vanish u eta rnd HR). Qed.
Print Assumptions C83_large_entries_vanish.
(** in binary64 that is the case for every largest entry from 2^55 on: no result of the projection is a probability vector *)
Theorem C83_binary64 : forall x M, (forall y, In y x -> y <= M) -> In M x -> representable round_b64 M -> two_pow 55 <= M ->
  let y := @simplex_project_vector R Num_b64 x in y = repeat 0 (length x) /\ Sum (length y) (at_ y) = 0 /\ ~ prob_vec y.
Proof.
  intros x M H1 H2 H3 H4 y. assert (E : y = repeat 0 (length x)) by (apply (C83_large_entries_vanish _ _ _ b64_rounding x M H1 H2 H3); apply b64_large; assumption).
  assert (S0 : Sum (length y) (at_ y) = 0).
  { rewrite E, repeat_length. generalize (length x) at 1 as m. intros m. induction m as [|m IH]; [reflexivity|]. cbn [Sum]. rewrite IH. unfold at_. rewrite nth_repeat. lra. }
  split; [exact E|]. split; [exact S0|]. intros [_ P]. rewrite S0 in P. lra.
Qed.
Print Assumptions C83_binary64.
(** 2^60, 3 and 5: the point of the simplex nearest to them is (1, 0, 0) *)
Example C83_example : let x := [two_pow 60; 3; 5] in
  representable round_b64 (two_pow 60) /\ two_pow 55 <= two_pow 60 /\ (forall y, In y x -> y <= two_pow 60) /\ In (two_pow 60) x
  /\ @simplex_project_vector R Num_b64 x = [0; 0; 0] /\ @simplex_project_vector R Num_R x = [1; 0; 0].
Proof.
  assert (P : 1000 <= two_pow 60) by (rewrite two_pow_IZR by lia; apply IZR_le; lia).
  assert (R1 : representable round_b64 (two_pow 60)).
  { unfold representable. rewrite round_b64_pos by lra. replace (two_pow 60) with (IZR (2 ^ 52) * two_pow (60 - 52)) by (rewrite <- two_pow_IZR, <- two_pow_add by lia; reflexivity).
    apply round_pos_exact; [unfold emin; lia|lia|lia|right; lia]. }
  assert (P2 : two_pow 55 <= two_pow 60) by (apply two_pow_le; lia).
  cbv zeta. assert (B : forall y, In y [two_pow 60; 3; 5] -> y <= two_pow 60) by (intros y [<-|[<-|[<-|[]]]]; lra).
  assert (I0 : In (two_pow 60) [two_pow 60; 3; 5]) by (left; reflexivity).
  split; [exact R1|]. split; [exact P2|]. split; [exact B|]. split; [exact I0|]. split.
  - destruct (C83_binary64 _ _ B I0 R1 P2) as [E _]. exact E.
  - set (t := two_pow 60) in *. clearbody t. clear R1 P2 B I0. destruct (proj_nearest [t; 3; 5] [1; 0; 0]) as [_ U]; [discriminate|reflexivity| |].
    + unfold prob_vec. split; [intros i; destruct i as [|[|[|i]]]; cbn; try lra; destruct i; cbn; lra|cbn; lra].
    + symmetry. apply U. clear U. destruct (proj_prob [t; 3; 5]) as [[Q1 Q2] Q3]; [discriminate|]. set (q := proj _) in *. clearbody q. cbn [length] in Q3.
      destruct q as [|a [|b [|c [|]]]]; try discriminate. pose proof (Q1 0%nat) as A0. pose proof (Q1 1%nat) as A1. pose proof (Q1 2%nat) as A2. clear Q1. cbn in *. unfold at_ in *. cbn in *.
      specialize (A0 ltac:(lia)). specialize (A1 ltac:(lia)). specialize (A2 ltac:(lia)). unfold dist2. cbn [length Sum at_ nth]. unfold at_; cbn [nth].
      assert (E : a = 1 - b - c) by lra. subst a. nra.
Qed.
