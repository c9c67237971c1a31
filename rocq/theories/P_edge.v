(** Fits of a series exactly as long as the largest lag: the normalization is infinite, and infinity
    times zero is NaN. *)
From Coq Require Import List Arith Lia ZArith Reals Bool Lra.
From Verif Require Import Num NumExt Mat Py Spec_nan Spec_edge M_simplex M_spg M_iter M_random M_furthest M_gpnh M_mtd.
From Verif Require Import P_lin P_simplex P_spg P_random P_mat P_iter P_gpnh P_gpnh_run P_mtd_run P_nan P_nan_gpnh P_nan_mtd.
Import ListNotations.

Definition unbounded (x : ext) : Prop := match x with Fin _ => False | _ => True end.
Definition nought (x : ext) : Prop := x = Fin 0 \/ x = NaN.
Lemma unbounded_mul_l x y : unbounded x -> unbounded (emul x y).
Proof. destruct x, y; cbn; auto; unfold inf_of; intros _; repeat destruct Rlt_dec; cbn; auto. Qed.
Lemma unbounded_mul_r x y : unbounded y -> unbounded (emul x y).
Proof. destruct x, y; cbn; auto; unfold inf_of; intros _; repeat destruct Rlt_dec; cbn; auto. Qed.
Lemma inf_of_0 x : x = 0%R -> inf_of x = NaN.
Proof. intros ->. unfold inf_of. repeat destruct Rlt_dec; try lra; reflexivity. Qed.
Lemma unbounded_nought x y : unbounded x -> nought y -> emul x y = NaN.
Proof. intros H [->| ->]; [|apply mul_nan_r]. destruct x; cbn in *; try contradiction; try reflexivity; apply inf_of_0; lra. Qed.
Lemma nought_mul x y : nought x -> nought (emul x y).
Proof. intros [->| ->]; [|right; reflexivity]. destruct y; cbn; [left; f_equal; ring|right; apply inf_of_0; lra|right; apply inf_of_0; lra|right; reflexivity]. Qed.
Lemma nought_sum n f : (forall i, (i < n)%nat -> nought (f i)) -> nought (@nsum ext Num_E n f).
Proof.
  induction n as [|n IH]; intros H; [left; reflexivity|]. cbn [nsum]. destruct (IH (fun i Hi => H i (Nat.lt_lt_succ_r _ _ Hi))) as [E|E]; rewrite E; [|right; reflexivity].
  destruct (H n (Nat.lt_succ_diag_r n)) as [F|F]; rewrite F; [left; cbn; f_equal; ring|right; reflexivity].
Qed.
Lemma nought_sub x : nought (eadd x (eopp x)).
Proof. destruct x; cbn; [left; f_equal; ring|right; reflexivity..]. Qed.
Lemma cell_mbuild r c f i j : (i < r)%nat -> (j < c)%nat -> cell (@mbuild ext r c f) i j = f i j.
Proof. intros Hi Hj. rewrite <- mget_entry. apply (@mget_mbuild ext Num_E); assumption. Qed.

(** ** one step of the parameters *)
Lemma vget_vmap2 (f : ext -> ext -> ext) a b i : (i < length a)%nat -> vget (vmap2 f a b) i = f (vget a i) (vget b i).
Proof. intros H. unfold vmap2. apply (@vget_tab ext Num_E). exact H. Qed.
Lemma length_vmap2 (f : ext -> ext -> ext) a b : length (vmap2 f a b) = length a.
Proof. unfold vmap2. apply length_tab. Qed.
Lemma vget_scale (c : ext) v i : (i < length v)%nat -> vget (vscale c v) i = emul c (vget v i).
Proof. intros H. unfold vget, vscale. rewrite nth_indep with (d' := emul c n0) by (rewrite map_length; exact H). exact (map_nth (fun x => emul c x) v n0 i). Qed.

Lemma step_order_weights (ow grad : list ext) al p : length ow = p -> length grad = p -> (0 < p)%nat ->
  (forall i, (i < p)%nat -> exists x, vget ow i = Fin x) -> (forall i, (i < p)%nat -> vget grad i = NaN) ->
  vadd ow (vsub (simplex_project_vector (vsub ow (vscale al grad))) ow) = repeat (Fin 0) p.
Proof.
  intros L1 L2 Hp HF HN. set (v := vsub ow (vscale al grad)).
  assert (LV : length v = p) by (unfold v, vsub; rewrite length_vmap2; exact L1).
  assert (IN : In NaN v).
  { replace NaN with (vget v 0); [unfold vget; apply nth_In; lia|]. unfold v, vsub. rewrite vget_vmap2, vget_scale, HN by lia. cbn [nsub Num_E]. rewrite mul_nan_r. apply add_nan_r. }
  rewrite project_nan by exact IN.
  assert (Z : forall i, (i < p)%nat -> vget (map (fun _ => Fin 0) v) i = Fin 0).
  { intros i Hi. unfold vget. rewrite nth_indep with (d' := Fin 0) by (rewrite map_length; lia). exact (map_nth (fun _ => Fin 0) v NaN i). }
  unfold vadd. assert (LR : length (vmap2 nadd ow (vsub (map (fun _ => Fin 0) v) ow)) = p) by (rewrite length_vmap2; exact L1).
  apply nth_ext with (d := Fin 0) (d' := Fin 0); [rewrite repeat_length; exact LR|]. intros i Hi. rewrite LR in Hi.
  rewrite nth_repeat.
  change (vget (vmap2 nadd ow (vsub (map (fun _ => Fin 0) v) ow)) i = Fin 0).
  rewrite vget_vmap2 by lia. unfold vsub. rewrite vget_vmap2 by (rewrite map_length; lia). rewrite Z by exact Hi. destruct (HF i Hi) as (x & ->). cbn. f_equal. ring.
Qed.

(** p matrices of size k x k with real entries *)
Definition real_stack (p k : nat) (Ts : list (mat ext)) : Prop :=
  length Ts = p /\ forall i, (i < p)%nat -> nr (tmat Ts i) = k /\ nc (tmat Ts i) = k /\ forall a b, (a < k)%nat -> (b < k)%nat -> exists x, cell (tmat Ts i) a b = Fin x.
Lemma tmat_tab p (f : nat -> mat ext) i : (i < p)%nat -> tmat (tab p f) i = f i.
Proof. intros H. unfold tmat. rewrite nth_indep with (d' := f 0%nat) by (rewrite length_tab; exact H). unfold tab. rewrite map_nth, seq_nth by exact H. reflexivity. Qed.
Lemma tmat_mapE (f : mat ext -> mat ext) A i : (i < length A)%nat -> tmat (map f A) i = f (tmat A i).
Proof. intros H. unfold tmat. rewrite nth_indep with (d' := f mat0) by (rewrite map_length; exact H). apply map_nth. Qed.
Lemma tmat_tsubE (A B : list (mat ext)) i : (i < length A)%nat -> tmat (tsub A B) i = msub (tmat A i) (tmat B i).
Proof. intros H. unfold tsub. apply tmat_tab. exact H. Qed.
Lemma project_cols_nan A i j : (i < nr A)%nat -> (j < nc A)%nat -> @wf ext A -> (exists l, (l < nr A)%nat /\ cell A l j = NaN) ->
  cell (@simplex_project_columns ext Num_E A) i j = Fin 0.
Proof.
  intros Hi Hj W (l & Hl & E). rewrite <- mget_entry, project_cols_eq by exact W. rewrite mget_mbuild by assumption.
  assert (LC : length (mcol A j) = nr A) by (unfold mcol; apply length_tab). rewrite project_nan.
  - unfold vget. rewrite nth_indep with (d' := Fin 0) by (rewrite map_length, LC; exact Hi). apply (map_nth (fun _ => Fin 0) _ (Fin 0)).
  - replace NaN with (vget (mcol A j) l); [unfold vget; apply nth_In; lia|]. unfold mcol. rewrite vget_tab by exact Hl. rewrite mget_entry. exact E.
Qed.
Lemma step_transition (Ts grad : list (mat ext)) al p k : real_stack p k Ts -> length grad = p -> (0 < k)%nat ->
  (forall i, (i < p)%nat -> nr (tmat grad i) = k /\ nc (tmat grad i) = k /\ all_nan (tmat grad i)) ->
  zero_stack p k (tadd Ts (tsub (map simplex_project_columns (tsub Ts (tscale al grad))) Ts)).
Proof.
  intros (L1 & HR) L2 Hk HG. split; [unfold tadd; rewrite length_tab; exact L1|].
  apply Forall_forall. intros M HM. unfold tadd in HM. apply in_map_iff in HM. destruct HM as (i & <- & Hi). apply in_seq in Hi. assert (Hp : (i < p)%nat) by lia.
  destruct (HR i Hp) as (r1 & r2 & r3). destruct (HG i Hp) as (g1 & g2 & g3).
  assert (LT : length (tsub Ts (tscale al grad)) = p) by (unfold tsub; rewrite length_tab; exact L1).
  rewrite tmat_tsubE by (rewrite map_length; lia). rewrite tmat_mapE by lia. rewrite tmat_tsubE by lia. unfold tscale. rewrite tmat_mapE by lia.
  set (B := msub (tmat Ts i) (mscale al (tmat grad i))). assert (WB : @wf ext B) by apply wf_mbuild. destruct (project_cols_shape B WB) as (_ & b1 & b2).
  assert (B1 : nr B = k) by exact r1. assert (B2 : nc B = k) by exact r2.
  split; [exact r1|]. split; [exact r2|]. intros a Ha b Hb. change (a < nr (tmat Ts i))%nat in Ha. change (b < nc (tmat Ts i))%nat in Hb.
  rewrite madd_entry, msub_entry by (rewrite ?b1, ?b2; lia). rewrite project_cols_nan; try lia; [|exact WB|].
  - destruct (r3 a b) as (x & ->); [lia|lia|]. cbn. f_equal. ring.
  - exists a. split; [lia|]. unfold B. rewrite msub_entry by lia. rewrite mscale_nan; [apply add_nan_r|lia|lia|]. apply g3; lia.
Qed.
Lemma zero_stack_real p k Ts : zero_stack p k Ts -> real_stack p k Ts.
Proof.
  intros (L & F). split; [exact L|]. intros i Hi. rewrite Forall_forall in F. destruct (F (tmat Ts i)) as (r1 & r2 & r3); [unfold tmat; apply nth_In; lia|].
  split; [exact r1|]. split; [exact r2|]. intros a b Ha Hb. exists 0%R. apply r3; lia.
Qed.

(** ** the normalization *)
Lemma edge_normalization k z : z = 0%Z -> @ndiv ext Num_E n1 (nmul (nofnat k) (nofZ z)) = PInf.
Proof.
  intros ->. unfold nofnat. cbn [ndiv nmul nofZ n1 Num_E ediv emul]. destruct (Req_EM_T _ 0) as [_|H]; [|exfalso; apply H; ring].
  unfold inf_of. destruct (Rlt_dec 0 _) as [_|H]; [reflexivity|exfalso; apply H; lra].
Qed.
Lemma norm_empty (M : mat ext) : nr M = 0%nat -> @mnorm ext Num_E M = Fin 0.
Proof.
  intros E. unfold mnorm, minner. rewrite E. cbn. destruct (Rlt_dec 0 0); [lra|]. f_equal. apply sqrt_0.
Qed.
