(** Proofs about multi-step prediction with the MTD model *)
From Coq Require Import List Arith Lia ZArith Reals Lra Psatz Bool.
From Verif Require Import Num NumExt Mat Py Spec M_simplex M_spg M_iter M_random M_furthest M_gpnh M_mtd.
From Verif Require Import P_lin P_simplex P_spg P_furthest P_random P_mat P_iter P_gpnh P_gpnh_run P_mtd P_mtd_upd P_mtd_run.
Import ListNotations.
Local Open Scope R_scope.

(** ** any arithmetic *)
Section Any.
  Context {T : Type} {N : Num T}.
  Definition mtd_step (c : mtd_cfg T) ow Ts (cur : mat T) : mat T := mtd_shift cur (mtd_next_weights c ow Ts cur).
  Lemma mtd_lead_S c ow Ts m (cur : mat T) : mtd_lead c ow Ts (S m) cur = mtd_step c ow Ts (mtd_lead c ow Ts m cur).
  Proof.
    revert cur. induction m as [|m IH]; intros cur; [reflexivity|].
    change (mtd_lead c ow Ts (S (S m)) cur) with (mtd_lead c ow Ts (S m) (mtd_step c ow Ts cur)).
    rewrite IH. reflexivity.
  Qed.
  Lemma nsum_nan n (f : nat -> T) : nan_sticks T N -> (0 < n)%nat -> (exists i, (i < n)%nat /\ f i = nnan) -> nsum n f = nnan.
  Proof.
    intros Hn. induction n as [|n IH]; [lia|]. intros _ (i & Hi & E). cbn [nsum].
    destruct (Nat.eq_dec i n) as [->|]; [rewrite E; apply Hn|].
    rewrite IH; [apply Hn | lia | exists i; split; [lia | exact E]].
  Qed.
  Lemma mtd_predict_nan (c : mtd_cfg T) ow Ts W h i a : (i < max_lag c - 1)%nat -> (i < nr W)%nat -> (a < nc W)%nat ->
    mget (mtd_predict_weights c ow Ts W h) i a = nnan.
  Proof.
    intros Hi Hn Ha. unfold mtd_predict_weights. rewrite mget_mbuild by assumption.
    destruct (Nat.ltb_spec i (max_lag c - 1)); [reflexivity | lia].
  Qed.
End Any.

(** ** over R *)
Section Pred.
  Variables (c : mtd_cfg R) (k : nat) (ow : list R) (Ts : list (mat R)) (W : mat R) (n : nat).
  Hypotheses (HW : is_mat n k W) (HT : is_stack (n_lags c) k Ts) (Hl : Forall (fun l => (0 < l)%nat) (mc_lags c)) (Hne : mc_lags c <> []).
  Let L := max_lag c.
  Lemma lag_pos j : (j < n_lags c)%nat -> (0 < lag c j <= L)%nat.
  Proof using Hl.
    intros Hj. split; [|apply lag_le, Hj]. rewrite Forall_forall in Hl. apply Hl. unfold lag. apply nth_In. exact Hj.
  Qed.
  Lemma max_lag_pos : (0 < L)%nat.
  Proof using Hl Hne. assert (0 < n_lags c)%nat by (unfold n_lags; destruct (mc_lags c); [congruence | cbn; lia]).
    pose proof (lag_pos 0 H). lia. Qed.

  Lemma step_dim cur : nr cur = L -> nc cur = k -> is_mat L k (mtd_step c ow Ts cur).
  Proof using. intros e1 e2. unfold mtd_step, mtd_shift. rewrite e1, e2. apply is_mat_mbuild. Qed.
  Lemma next_ent cur a : nr cur = L -> nc cur = k -> (a < k)%nat ->
    at_ (mtd_next_weights c ow Ts cur) a = Sum (n_lags c) (fun j => at_ ow j * Sum k (fun b => ent (tmat Ts j) a b * ent cur (L - lag c j) b)).
  Proof using HT.
    intros e1 e2 Ha. unfold mtd_next_weights. fold L. rewrite e1. destruct (Nat.ltb_spec L L); [lia|]. rewrite e2.
    unfold at_. rewrite nth_tab by exact Ha. rewrite nsum_Sum. apply Sum_ext. intros j Hj. numR. f_equal.
    pose proof HT as [LT ST]. destruct (ST j Hj) as (t1 & t2 & _).
    unfold mvmul, vget at 1. rewrite nth_tab by (change (tmat Ts j) with (nth j Ts (mkmat 0 0 [])); rewrite t1; exact Ha).
    rewrite nsum_Sum. change (tmat Ts j) with (nth j Ts (mkmat 0 0 [])). rewrite t2. apply Sum_ext. intros b Hb. numR. f_equal.
    unfold vget, mrow. rewrite nth_tab by (rewrite e2; exact Hb). reflexivity.
  Qed.

  Lemma lead_path i h : (L - 1 <= i < n)%nat ->
    is_mat L k (mtd_lead c ow Ts h (mslice (i + 1 - L) (i + 1) W))
    /\ forall s a, (s < L)%nat -> (a < k)%nat ->
       ent (mtd_lead c ow Ts h (mslice (i + 1 - L) (i + 1) W)) s a = mtd_path (mc_lags c) k ow Ts (ent W) i h (i + h + 1 - L + s) a.
  Proof using HW HT Hl Hne.
    intros Hi. pose proof max_lag_pos as HL. destruct HW as (w1 & w2 & _). induction h as [|h [IH1 IH2]].
    - cbn [mtd_lead mtd_path]. unfold mslice. rewrite w1, w2. replace (Nat.min (i + 1) n - (i + 1 - L))%nat with L by lia.
      split; [apply is_mat_mbuild|]. intros s a Hs Ha. rewrite ent_mbuild by assumption. change (@mget R Num_R) with ent. f_equal; lia.
    - rewrite mtd_lead_S. set (cur := mtd_lead c ow Ts h _) in *. pose proof IH1 as (c1 & c2 & _).
      split; [apply step_dim; assumption|]. intros s a Hs Ha. unfold mtd_step, mtd_shift.
      rewrite ent_mbuild by lia. rewrite c1. cbn [mtd_path]. destruct (Nat.eqb_spec (S s) L) as [E|E].
      + replace (i + S h + 1 - L + s)%nat with (i + S h)%nat by lia. rewrite Nat.eqb_refl.
        change (@vget R Num_R) with at_. rewrite next_ent by assumption. apply Sum_ext. intros j Hj. f_equal. apply Sum_ext. intros b Hb.
        f_equal. pose proof (lag_pos j Hj). rewrite IH2 by lia. change (nth j (mc_lags c) 0%nat) with (lag c j). f_equal; lia.
      + destruct (Nat.eqb_spec (i + S h + 1 - L + s) (i + S h)); [lia|].
        change (@mget R Num_R) with ent. rewrite IH2 by lia. f_equal; lia.
  Qed.
  Lemma predict_path i a h : (L - 1 <= i < n)%nat -> (a < k)%nat ->
    ent (mtd_predict_weights c ow Ts W h) i a = mtd_path (mc_lags c) k ow Ts (ent W) i (Z.to_nat h) (i + Z.to_nat h) a.
  Proof using HW HT Hl Hne.
    intros Hi Ha. pose proof max_lag_pos as HL. destruct (lead_path i (Z.to_nat h) Hi) as [(e1 & _) E]. destruct HW as (w1 & w2 & _).
    unfold mtd_predict_weights. rewrite ent_mbuild by lia. fold L. destruct (Nat.ltb_spec i (L - 1)); [lia|].
    rewrite e1. change (@mget R Num_R) with ent. rewrite E by lia. f_equal; lia.
  Qed.

  (** forecasts are probability vectors *)
  Hypotheses (SW : row_stochastic W) (PO : prob_vec ow) (LO : length ow = n_lags c) (ST : stack_stochastic Ts).
  Lemma path_prob i h : (L - 1 <= i < n)%nat -> forall t, (i + 1 - L <= t <= i + h)%nat -> (t < n \/ i < t)%nat ->
    (forall a, (a < k)%nat -> 0 <= mtd_path (mc_lags c) k ow Ts (ent W) i h t a)
    /\ Sum k (mtd_path (mc_lags c) k ow Ts (ent W) i h t) = 1.
  Proof using HW HT Hl Hne SW PO LO ST.
    intros Hi. pose proof max_lag_pos as HL. destruct HW as (w1 & w2 & _). induction h as [|h IH]; intros t Ht Hc.
    - cbn [mtd_path]. destruct (SW t) as [A B]; [lia|]. rewrite w2 in A, B. split; [exact A|]. rewrite <- B. apply Sum_ext; reflexivity.
    - cbn [mtd_path]. destruct (Nat.eqb_spec t (i + S h)) as [->|Hn].
      + pose proof HT as [LT HS].
        assert (F : forall a, Sum (length (mc_lags c)) (fun j => at_ ow j * Sum k (fun b =>
                     ent (nth j Ts (mkmat 0 0 [])) a b * mtd_path (mc_lags c) k ow Ts (ent W) i h (i + S h - nth j (mc_lags c) 0%nat) b))
                  = fc (n_lags c) k (lag c) (at_ ow) (fun j a b => ent (nth j Ts (mkmat 0 0 [])) a b) (mtd_path (mc_lags c) k ow Ts (ent W) i h) (i + S h) a)
          by (intros a; reflexivity).
        destruct (fc_prob (n_lags c) k (lag c) (at_ ow) (fun j a b => ent (nth j Ts (mkmat 0 0 [])) a b)
                    (mtd_path (mc_lags c) k ow Ts (ent W) i h) (i + S h)) as [A B].
        * intros j Hj. apply PO. lia.
        * rewrite <- LO. apply PO.
        * intros j b Hj Hb. destruct (HS j Hj) as (t1 & t2 & _). destruct (ST j ltac:(lia) b ltac:(lia)) as [A B].
          rewrite t1 in A, B. split; assumption.
        * intros j Hj. pose proof (lag_pos j Hj). apply IH; lia.
        * split; [exact A|]. rewrite <- B. apply Sum_ext. intros a Ha. apply F.
      + apply IH; lia.
  Qed.
End Pred.

(** what a successful prediction did *)
Lemma mtd_predict_inv {T} {N : Num T} fuel (o : mtd T) data h run Y :
  mtd_predict fuel o data h = Ok (run, Y) ->
  exists W w, mtd_transform fuel o data = Ok (run, W) /\ mo_ws (mr_obj run) = Some w /\ nc W = nr (m_S w)
    /\ Y = mmul (if (h =? 0)%Z then W else mtd_predict_weights (mo_cfg o) (m_order_weights w) (m_transition_matrices w) W h) (m_S w).
Proof.
  unfold mtd_predict. intros H. apply bind_ok in H. destruct H as ((r & W) & E & H).
  destruct (mo_ws (mr_obj r)) as [w|] eqn:Ew; [|discriminate]. apply bind_ok in H. destruct H as (Y0 & E2 & H). injection H as <- <-.
  unfold mtd_inverse_transform in E2. rewrite Ew in E2.
  destruct (Nat.eqb_spec (nc (if (h =? 0)%Z then W else mtd_predict_weights (mo_cfg o) (m_order_weights w) (m_transition_matrices w) W h)) (nr (m_S w))) as [E3|];
    [|discriminate]. injection E2 as <-. exists W, w. split; [exact E|]. split; [exact Ew|]. split; [|reflexivity].
  destruct (h =? 0)%Z; exact E3.
Qed.
