(** Integer data in FEM-BV-VARX: the distance matrix, lemmas *)
From Coq Require Import List Arith ZArith Bool Reals Lra Lia.
From Verif Require Import Num Mat Py Lp M_random M_iter M_gpnh M_furthest M_fembv M_varx M_int Spec Spec_fembv Spec_varx Spec_int
  P_lin P_random P_iter P_mat P_gpnh_run P_furthest P_fembv P_fembv_upd P_fembv_run P_varx P_varx_run P_int P_int_varx.
Import ListNotations.
Local Open Scope R_scope.

Lemma Sum_int n (f : nat -> R) : (forall i, (i < n)%nat -> exists z, f i = IZR z) -> exists z, Sum n f = IZR z.
Proof.
  induction n as [|n IH]; intros H; cbn [Sum]; [exists 0%Z; reflexivity|].
  destruct IH as [a Ea]; [intros i Hi; apply H; lia|]. destruct (H n (Nat.lt_succ_diag_r n)) as [b Eb]. exists (a + b)%Z. rewrite Ea, Eb, plus_IZR. reflexivity.
Qed.
Lemma sq_int x : (exists z, x = IZR z) -> exists z, x ^ 2 = IZR z.
Proof. intros [z ->]. exists (z * z)%Z. rewrite mult_IZR. ring. Qed.

Section Dist.
  Variables (lstsq : mat R -> mat R -> res (mat R)) (inv : mat R -> res (mat R)) (memory : list Z) (k : nat) (data : mat R) (ext : option (mat R)).
  Hypotheses (Hshape : lstsq_shape lstsq) (Hinv : inv_shape inv) (Hk : (k <= length memory)%nat).
  Notation Y := (component_data memory data).
  Notation fit := (int_varx_fit toward_zero lstsq inv).

  (** the inverse covariance has one row per feature *)
  Definition metric_ok (m : varx R) : Prop := exists M, vx_Sigma_u_inv m = Some M /\ nr M = nc data.
  Definition dok (s : vparams R) : Prop :=
    iok memory k data ext s /\ forall i, (i < k)%nat -> exists m, nth_error (vp_models s) i = Some m /\ metric_ok m.

  Lemma fit_metric i m w m' : imodel memory data ext i m -> fit m w = Ok m' -> metric_ok m'.
  Proof using Hinv.
    intros [(l1 & l2 & l3 & l4) _] E. apply int_fit_float in E. destruct E as (mf & _ & _ & _ & _ & _ & ER & ES & S & EI & EV).
    exists S. split; [exact EV|]. apply Hinv in EI. rewrite EI, ES.
    assert (C : nc (vx_residuals m') = nc data) by (rewrite ER; cbn [mbuild nc]; rewrite l3; reflexivity).
    unfold varx_covariance, mmap. destruct w; cbn [mbuild nr mmul mtr mul_rows mslice nc]; exact C.
  Qed.
  Lemma initialize_dok init old (g g' : rng R) s : int_varx_initialize toward_zero lstsq inv memory k data ext init old g = Ok (s, g') -> g' = g /\ dok s.
  Proof using Hshape Hinv.
    intros H. pose proof H as H'. apply initialize_iok in H; [|exact Hshape]. destruct H as [-> HI]. split; [reflexivity|]. split; [exact HI|].
    apply int_initialize_inv in H'. destruct H' as (_ & _ & _ & _ & _ & _ & H). intros i Hi. destruct (H i Hi) as (m0 & m & E0 & Ef & Em).
    exists m. split; [exact Em|]. apply new_imodel in E0. eapply fit_metric; eassumption.
  Qed.
  Lemma update_dok G s s' : dok s -> int_varx_update toward_zero lstsq inv memory G s = Ok s' -> dok s'.
  Proof using Hshape Hinv Hk.
    intros [HI _] E. pose proof E as E'. apply update_iok with (k := k) (data := data) (ext := ext) in E'; try assumption. destruct E' as [HI' _]. split; [exact HI'|].
    destruct HI as (HS & _ & _ & _ & H). apply (int_update_spec _ _ _ _ G k) in E; [|exact Hk | exact HS]. destruct E as (_ & _ & UP).
    intros i Hi. destruct (UP i Hi) as (m & m' & E1 & E2 & E3 & _). destruct (H i Hi) as (m0 & E0 & IM & _). rewrite E1 in E0. injection E0 as <-.
    exists m'. split; [exact E2|]. eapply fit_metric; eassumption.
  Qed.

  (** the row of the residuals read for time t: a single row is used for all times *)
  Definition read_row (m : varx R) (t : nat) : nat :=
    if Nat.eqb (nr (vx_residuals m) - mem_max memory) 1 then mem_max memory else (mem_max memory + t)%nat.

  Lemma residual_int i m t f : imodel memory data ext i m -> ifitted memory data ext i m -> exists z, ent (vx_residuals m) t f = IZR z.
  Proof using.
    intros [_ F] IF. destruct F as (_ & _ & _ & _ & _ & F & _). cbn [float_view vx_residuals] in F.
    destruct (le_lt_dec (nr (Y i)) t) as [O|I]; [exists 0%Z; apply (ent_out _ _ _ _ _ F); auto|].
    destruct (le_lt_dec (nc (Y i)) f) as [O|I']; [exists 0%Z; apply (ent_out _ _ _ _ _ F); auto|].
    rewrite IF by assumption. destruct (Nat.ltb t _); [exists 0%Z; reflexivity | apply tz_int].
  Qed.
  Lemma norms_entry i m t : imodel memory data ext i m -> metric_ok m ->
    assigned (residual_norms memory m) t = Sum (nc data) (fun f => ent (vx_residuals m) (read_row m t) f ^ 2).
  Proof using.
    clear Hk. intros [_ F] (M & EM & NM). destruct F as (_ & _ & _ & _ & _ & F & _). cbn [float_view vx_residuals] in F. pose proof F as (r1 & r2 & _).
    change (nc (Y i)) with (nc data) in r2. set (P := mem_max memory).
    assert (LN : length (residual_norms memory m) = (nr (vx_residuals m) - P)%nat).
    { unfold residual_norms. rewrite length_tab. unfold mslice. cbn [mbuild nr]. rewrite Nat.min_id. reflexivity. }
    assert (EN : forall t, vget (residual_norms memory m) t = Sum (nc data) (fun f => ent (vx_residuals m) (P + t) f ^ 2)).
    { intros q. destruct (le_lt_dec (nr (vx_residuals m) - P) q) as [O|I].
      - unfold vget. rewrite nth_overflow by lia. symmetry. apply Sum_zero. intros f Hf. rewrite (ent_out _ _ _ _ _ F) by (left; lia). ring.
      - unfold vget, residual_norms. fold P. rewrite nth_tab; [|unfold mslice; cbn [mbuild nr]; rewrite Nat.min_id; exact I].
        rewrite EM. replace (nc (mslice P (nr (vx_residuals m)) (vx_residuals m))) with (nc data) by (unfold mslice; cbn [mbuild nc]; lia).
        rewrite nsum_Sum. apply Sum_ext; intros j Hj. rewrite nsum_Sum.
        rewrite (Sum_ext (nc data) _ (fun u => if Nat.eqb u j then ent (vx_residuals m) (P + q) j ^ 2 else 0)).
        + rewrite (Sum_delta (nc data) j (fun _ => ent (vx_residuals m) (P + q) j ^ 2)) by exact Hj. reflexivity.
        + intros u Hu. rewrite !mget_ent, !ent_mslice by (rewrite ?r2; lia). unfold meye. rewrite ent_mbuild by lia. rewrite (Nat.eqb_sym j u).
          destruct (Nat.eqb_spec u j) as [->|]; cbn; ring. }
    unfold assigned, read_row. fold P. rewrite LN. destruct (Nat.eqb _ 1); rewrite EN; [rewrite Nat.add_0_r|]; reflexivity.
  Qed.
  Lemma int_dist_mat s : dok s -> is_mat (nr data - mem_max memory) k (int_varx_distance toward_zero memory s).
  Proof using.
    intros [(HS & EX & _) _]. assert (E : nr (int_varx_distance toward_zero memory s) = (nr data - mem_max memory)%nat /\ nc (int_varx_distance toward_zero memory s) = k).
    { unfold int_varx_distance, mmap, varx_distance. cbn [nr nc mbuild]. rewrite EX. split; [reflexivity | apply HS]. }
    destruct E as [E1 E2]. rewrite <- E1, <- E2. apply is_mat_mbuild.
  Qed.
  (** storing the distances as integers changes nothing: they are sums of squares of integers *)
  Lemma int_dist_entry s t i : dok s -> (t < nr data - mem_max memory)%nat -> (i < k)%nat ->
    exists m, nth_error (vp_models s) i = Some m
      /\ ent (int_varx_distance toward_zero memory s) t i = Sum (nc data) (fun f => ent (vx_residuals m) (read_row m t) f ^ 2)
      /\ forall q f, exists z, ent (vx_residuals m) q f = IZR z.
  Proof using.
    intros [(HS & EX & _ & _ & H) HM] Ht Hi. destruct (H i Hi) as (m & Em & IM & IF). destruct (HM i Hi) as (m1 & Em1 & MO). rewrite Em in Em1. injection Em1 as <-.
    assert (RI : forall q f, exists z, ent (vx_residuals m) q f = IZR z) by (intros; eapply residual_int; eassumption).
    exists m. split; [exact Em|]. split; [|exact RI].
    assert (Hl : (i < length (vp_models s))%nat) by (apply nth_error_Some; congruence).
    unfold int_varx_distance, mmap, varx_distance. cbn [mbuild nr nc]. rewrite ent_mbuild by (rewrite ?EX; assumption). rewrite mget_mbuild by (rewrite ?EX; assumption).
    rewrite (nth_indep _ [] (residual_norms memory m)) by (rewrite map_length; exact Hl). rewrite map_nth, (nth_error_nth _ _ m Em).
    rewrite (norms_entry i m t IM MO).
    destruct (Sum_int (nc data) (fun f => ent (vx_residuals m) (read_row m t) f ^ 2)) as [z Ez]; [intros f _; apply sq_int, RI|].
    rewrite Ez. apply tz_IZR.
  Qed.
End Dist.
