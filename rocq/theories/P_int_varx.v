(** Integer data in FEM-BV-VARX: lemmas *)
From Coq Require Import List Arith ZArith Bool Reals Lra Lia.
From Verif Require Import Num Mat Py Lp M_random M_iter M_gpnh M_furthest M_fembv M_varx M_int Spec Spec_fembv Spec_varx Spec_int
  P_lin P_random P_iter P_mat P_gpnh_run P_furthest P_fembv P_fembv_upd P_fembv_run P_varx P_varx_run P_int.
Import ListNotations.

Section Gen.
  Context {T : Type} {N : Num T} (trunc : T -> T) (lstsq : mat T -> mat T -> res (mat T)) (inv : mat T -> res (mat T)) (memory : list Z).

  (** an integer local model is a floating-point one on truncated external factors, with truncated residuals *)
  Definition float_view (m : varx T) : varx T :=
    mk_varx (vx_p m) (vx_s m) (vx_y m) (option_map (mmap trunc) (vx_u m)) (vx_z m) (vx_residuals m) (vx_mu m) (vx_A m) (vx_B m) (vx_B0 m)
      (vx_Sigma_u m) (vx_Sigma_u_inv m).

  Lemma int_fit_same m w m' : int_varx_fit trunc lstsq inv m w = Ok m' ->
    vx_p m' = vx_p m /\ vx_s m' = vx_s m /\ vx_y m' = vx_y m /\ vx_u m' = vx_u m /\ vx_z m' = vx_z m
    /\ nr (vx_residuals m') = nr (vx_y m) /\ nc (vx_residuals m') = nc (vx_y m).
  Proof.
    unfold int_varx_fit. intros E. apply bind_ok in E. destruct E as (B & _ & E). apply bind_ok in E. destruct E as (S & _ & E). injection E as <-.
    repeat (split; [reflexivity|]). reflexivity.
  Qed.
  (** the coefficients are those of a floating-point fit; only the residuals and the covariance differ *)
  Lemma int_fit_float m w m' : int_varx_fit trunc lstsq inv m w = Ok m' ->
    exists mf, varx_fit lstsq (fun S => Ok S) (float_view m) w = Ok mf
      /\ vx_mu m' = vx_mu mf /\ vx_A m' = vx_A mf /\ vx_B m' = vx_B mf /\ vx_B0 m' = vx_B0 mf
      /\ vx_residuals m' = mbuild (nr (vx_y m)) (nc (vx_y m)) (fun t f =>
           if Nat.ltb t (Nat.max (vx_p m) (vx_s m)) then mget (vx_residuals m) t f else trunc (mget (vx_residuals mf) t f))
      /\ vx_Sigma_u m' = varx_covariance m w (vx_residuals m') /\ exists S, inv (vx_Sigma_u m') = Ok S /\ vx_Sigma_u_inv m' = Some S.
  Proof.
    unfold int_varx_fit, varx_fit. intros E. apply bind_ok in E. destruct E as (B & EB & E). apply bind_ok in E. destruct E as (S & ES & E).
    change (varx_params lstsq (float_view m) w) with (varx_params lstsq m w). rewrite EB. cbn [bind]. eexists. split; [reflexivity|]. injection E as <-.
    split; [reflexivity|]. split; [reflexivity|]. split; [destruct m as [? ? ? [U|]]; reflexivity|]. split; [destruct m as [? ? ? [U|]]; reflexivity|].
    split; [|split; [reflexivity | exists S; split; [exact ES | reflexivity]]].
    cbn [vx_residuals vx_y float_view vx_p vx_s vx_z]. apply mbuild_ext. intros t f Ht Hf. rewrite mget_mbuild by assumption.
    destruct (Nat.ltb t _); reflexivity.
  Qed.

  Definition int_component_weights (G : mat T) (i : nat) : list T := repeat n1 (mem_at memory i) ++ map trunc (mcol G i).
  Definition int_updated (G : mat T) (i : nat) (p p' : vparams T) : Prop :=
    exists m m', nth_error (vp_models p) i = Some m /\ nth_error (vp_models p') i = Some m'
      /\ int_varx_fit trunc lstsq inv m (Some (int_component_weights G i)) = Ok m'
      /\ (forall f, f < nc (vp_mu p) -> mget (vp_mu p') i f = trunc (vget (vx_mu m') f))
      /\ (0 < mem_at memory i -> exists A, vx_A m' = Some A /\ A_of p' i = map (mmap trunc) A ++ skipn (mem_at memory i) (A_of p i))
      /\ (forall U, vp_u p = Some U -> exists B, vx_B0 m' = Some B /\ B0_of p' i = mmap trunc B).

  Lemma int_update_one_spec G i k p p' : i < length memory -> i < k -> shaped memory k p -> int_varx_update_one trunc lstsq inv memory G i p = Ok p' ->
    shaped memory k p' /\ same_frame memory p p' /\ int_updated G i p p' /\ forall j, j <> i -> j < k -> unchanged j p p'.
  Proof.
    intros Him Hik (S1 & S2 & S3 & S4) H. pose proof (mem_at_max memory i Him) as HM. unfold int_varx_update_one in H. destruct (nth_error (vp_models p) i) as [m|] eqn:Em; [|discriminate].
    apply bind_ok in H. destruct H as (m' & Ef & H). apply bind_ok in H. destruct H as (A & EA & H). apply bind_ok in H. destruct H as (B & EB & H). injection H as <-.
    fold (mem_at memory i) in EA, Ef. fold (int_component_weights G i) in Ef.
    assert (HA : (vp_A p <> None -> A <> None) /\ (forall A0, A = Some A0 -> length A0 = k \/ mem_max memory = 0) /\ (mem_max memory = 0 -> A = vp_A p)
      /\ (0 < mem_at memory i -> exists A_i, vx_A m' = Some A_i /\ match A with Some A0 => nth i A0 [] | None => [] end = map (mmap trunc) A_i ++ skipn (mem_at memory i) (A_of p i))
      /\ forall j, j <> i -> match A with Some A0 => nth j A0 [] | None => [] end = A_of p j).
    { destruct (Nat.ltb_spec 0 (mem_at memory i)).
      - destruct (vp_A p) as [A0|] eqn:EP; [|discriminate]. destruct (vx_A m') as [A_i|]; [|discriminate]. injection EA as <-. split; [discriminate|].
        assert (L : length A0 = k) by (destruct (S3 A0 eq_refl); [assumption | lia]).
        split; [intros A1 E; injection E as <-; left; rewrite set_nth_length; exact L|]. split; [lia|].
        unfold A_of. rewrite EP. split.
        + intros _. exists A_i. split; [reflexivity|]. rewrite set_nth_nth by lia. rewrite Nat.eqb_refl. reflexivity.
        + intros j Hj. rewrite set_nth_nth by lia. destruct (Nat.eqb_spec j i); [contradiction | reflexivity].
      - injection EA as <-. split; [auto|]. split; [exact S3|]. split; [reflexivity|]. split; [lia | reflexivity]. }
    assert (HB : (vp_B0 p <> None -> B <> None) /\ (forall B1, B = Some B1 -> length B1 = k \/ vp_u p = None) /\ (vp_u p = None -> B = vp_B0 p)
      /\ (forall U, vp_u p = Some U -> exists B_i, vx_B0 m' = Some B_i /\ match B with Some B1 => nth i B1 (mkmat 0 0 []) | None => mkmat 0 0 [] end = mmap trunc B_i)
      /\ forall j, j <> i -> match B with Some B1 => nth j B1 (mkmat 0 0 []) | None => mkmat 0 0 [] end = B0_of p j).
    { destruct (vp_u p) as [U|] eqn:EU.
      - destruct (vp_B0 p) as [B1|] eqn:EP; [|discriminate]. destruct (vx_B0 m') as [B_i|]; [|discriminate]. injection EB as <-. split; [discriminate|].
        assert (L : length B1 = k) by (destruct (S4 B1 eq_refl); [assumption | discriminate]).
        split; [intros B2 E; injection E as <-; left; rewrite set_nth_length; exact L|]. split; [discriminate|]. unfold B0_of. rewrite EP. split.
        + intros U' _. exists B_i. split; [reflexivity|]. rewrite set_nth_nth by lia. rewrite Nat.eqb_refl. reflexivity.
        + intros j Hj. rewrite set_nth_nth by lia. destruct (Nat.eqb_spec j i); [contradiction | reflexivity].
      - injection EB as <-. split; [auto|]. split; [intros B1 _; right; reflexivity|]. split; [reflexivity|]. split; [discriminate | reflexivity]. }
    destruct HA as (HA0 & HA1 & HA2 & HA3 & HA4), HB as (HB0 & HB1 & HB2 & HB3 & HB4).
    split; [split; [cbn; rewrite set_nth_length; exact S1|]; split; [exact S2|]; split; [exact HA1 | exact HB1]|].
    split; [repeat (split; [reflexivity|]); split; [exact HB2 | split; [exact HA2 | split; [exact HA0 | exact HB0]]]|]. split.
    - exists m, m'. split; [exact Em|]. split; [cbn [vp_models]; rewrite set_nth_error, Nat.eqb_refl, Em; reflexivity|]. split; [exact Ef|].
      split; [intros f Hf; cbn [vp_mu]; rewrite mget_mbuild by lia; rewrite Nat.eqb_refl; reflexivity|]. split; [exact HA3 | exact HB3].
    - intros j Hj Hjk. split; [cbn [vp_models]; rewrite set_nth_error; destruct (Nat.eqb_spec j i); [contradiction | reflexivity]|].
      split; [intros f Hf; cbn [vp_mu]; rewrite mget_mbuild by lia; destruct (Nat.eqb_spec j i); [contradiction | reflexivity]|].
      split; [apply HA4; exact Hj | apply HB4; exact Hj].
  Qed.

  Lemma int_update_from_spec G k cnt : forall b p p', b + cnt <= k -> k <= length memory -> shaped memory k p -> int_varx_update_from trunc lstsq inv memory G (seq b cnt) p = Ok p' ->
    shaped memory k p' /\ same_frame memory p p' /\ (forall i, b <= i < b + cnt -> int_updated G i p p') /\ (forall i, i < k -> ~ (b <= i < b + cnt) -> unchanged i p p').
  Proof.
    induction cnt as [|cnt IH]; intros b p p' Hb Hk HS H; cbn [seq int_varx_update_from] in H.
    - injection H as <-. split; [exact HS|]. split; [do 3 (split; [reflexivity|]); split; [reflexivity | split; [reflexivity | split; intros ?; assumption]]|]. split; [intros; lia|].
      intros. repeat (split; [reflexivity|]). reflexivity.
    - apply bind_ok in H. destruct H as (q & E1 & H). apply (int_update_one_spec G b k) in E1; try assumption; try lia.
      destruct E1 as (SQ & FQ & UQ & OQ). apply IH in H; try assumption; try lia. destruct H as (SP & FP & UP & OP).
      split; [exact SP|]. split; [eapply same_frame_trans; eassumption|].
      destruct FQ as (F1 & F2 & F3 & _). split.
      + intros i Hi. destruct (Nat.eq_dec i b) as [->|Ne].
        * destruct UQ as (m & m' & A1 & A2 & A3 & A4 & A5 & A6). destruct (OP b ltac:(lia) ltac:(lia)) as (O1 & O2 & O3 & O4).
          exists m, m'. split; [exact A1|]. split; [congruence|]. split; [exact A3|]. split; [intros f Hf; rewrite O2 by (rewrite F3; exact Hf); apply A4; exact Hf|].
          rewrite O3, O4. split; assumption.
        * destruct (UP i ltac:(lia)) as (m & m' & A1 & A2 & A3 & A4 & A5 & A6). destruct (OQ i Ne ltac:(lia)) as (O1 & O2 & O3 & O4).
          exists m, m'. split; [congruence|]. split; [exact A2|]. split; [exact A3|]. split; [intros f Hf; apply A4; rewrite F3; exact Hf|].
          rewrite <- O3. split; [exact A5 | intros U EU; apply (A6 U); congruence].
      + intros i Hi Ho. destruct (OQ i ltac:(lia) Hi) as (O1 & O2 & O3 & O4). destruct (OP i Hi ltac:(lia)) as (Q1 & Q2 & Q3 & Q4).
        split; [congruence|]. split; [intros f Hf; rewrite Q2 by (rewrite F3; exact Hf); apply O2; exact Hf|]. split; congruence.
  Qed.
  Lemma int_update_spec G k p p' : k <= length memory -> shaped memory k p -> int_varx_update trunc lstsq inv memory G p = Ok p' ->
    shaped memory k p' /\ same_frame memory p p' /\ forall i, i < k -> int_updated G i p p'.
  Proof.
    intros Hk HS H. unfold int_varx_update in H. assert (L : length (vp_models p) = k) by apply HS. rewrite L in H.
    apply (int_update_from_spec G k k 0) in H; try assumption; try lia. destruct H as (H1 & H2 & H3 & _). split; [exact H1|]. split; [exact H2|].
    intros i Hi. apply H3. lia.
  Qed.

  Lemma int_new_inv y p u s m : int_varx_new trunc y p u s = Ok m ->
    exists m0, varx_new y p (option_map (mmap trunc) u) s = Ok m0 /\ float_view m = m0 /\ vx_u m = u.
  Proof.
    unfold int_varx_new. intros E. apply bind_ok in E. destruct E as (m0 & E0 & E). injection E as <-. exists m0. split; [exact E0|]. split; [|reflexivity].
    destruct (varx_new_cases y p (option_map (mmap trunc) u) s) as [(_ & m1 & p' & s' & E1 & _ & _ & _ & _ & F)|(_ & E1)]; rewrite E1 in E0; [|discriminate]. injection E0 as ->.
    destruct F as (_ & _ & _ & F & _). destruct m0; cbn in *. unfold float_view. cbn. rewrite F. reflexivity.
  Qed.
  Lemma int_initialize_inv k data ext init old (g g' : rng T) p : int_varx_initialize trunc lstsq inv memory k data ext init old g = Ok (p, g') ->
    g' = g /\ vp_X p = data /\ vp_u p = ext /\ shaped memory k p /\ nc (vp_mu p) = nc data
    /\ (forall A, vp_A p = Some A -> 0 < mem_max memory -> forall i, i < k -> length (nth i A []) = mem_max memory)
    /\ forall i, i < k -> exists m0 m, int_varx_new trunc (component_data memory data i) (PInt (nth i memory 0%Z)) ext (PInt 0) = Ok m0
         /\ int_varx_fit trunc lstsq inv m0 None = Ok m /\ nth_error (vp_models p) i = Some m.
  Proof.
    unfold int_varx_initialize. intros H. apply bind_ok in H. destruct H as (u & Eu & H).
    assert (u = ext) as ->.
    { destruct ext as [U|]; [|injection Eu as <-; reflexivity]. apply bind_ok in Eu. destruct Eu as (U' & E & Eu).
      destruct (check_nonempty_cases U) as [(E' & Hr & Hc)|(E' & _)]; rewrite E' in E; [|discriminate]. injection E as <-.
      destruct (Nat.eqb_spec (nr U) (nr data)); [|discriminate]. injection Eu as <-. reflexivity. }
    apply bind_ok in H. destruct H as (ms0 & E0 & H). apply bind_ok in H. destruct H as (ms & E1 & H).
    destruct (forallb _ ms) eqn:EF; [|discriminate]. cbn [negb] in H. injection H as <- <-.
    apply map_res_ok in E0. apply map_res_ok in E1. destruct E0 as [L0 N0], E1 as [L1 N1].
    split; [reflexivity|]. split; [reflexivity|]. split; [reflexivity|]. cbn [vp_models vp_mu vp_A vp_B0 vp_u]. split; [|split; [reflexivity | split]].
    - unfold shaped. cbn [vp_models vp_mu vp_A vp_B0 vp_u]. split; [rewrite L1, L0, seq_length; reflexivity|]. split; [reflexivity|]. split.
      + intros A E. destruct (Z.ltb_spec 0 (zmax memory)) as [Hp|Hp]; [injection E as <-; left; apply repeat_length | right; unfold mem_max; lia].
      + intros B E. destruct ext; [injection E as <-; left; unfold stack_zeros; apply repeat_length | right; reflexivity].
    - intros A E Hm i Hi. destruct (Z.ltb_spec 0 (zmax memory)) as [Hp|Hp]; [|unfold mem_max in Hm; lia]. injection E as <-.
      rewrite nth_repeat_lt by exact Hi. unfold stack_zeros, mem_max. apply repeat_length.
    - intros i Hi. destruct (N0 i i) as (m0 & Em0 & Ei); [rewrite nth_error_seq by exact Hi; reflexivity|].
      destruct (N1 i m0 Em0) as (m & Em & Ef). exists m0, m. split; [exact Ei|]. split; [exact Ef | exact Em].
  Qed.
  (** what every local model keeps *)
  Definition int_local (data : mat T) (ext : option (mat T)) (i : nat) (m : varx T) : Prop :=
    vx_p m = mem_at memory i /\ vx_s m = 0 /\ vx_y m = component_data memory data i /\ vx_u m = ext.
  Lemma int_new_local data ext i m : int_varx_new trunc (component_data memory data i) (PInt (nth i memory 0%Z)) ext (PInt 0) = Ok m ->
    int_local data ext i m /\ fresh (component_data memory data i) (mem_at memory i) (option_map (mmap trunc) ext) 0 (float_view m).
  Proof.
    intros H. apply int_new_inv in H. destruct H as (m0 & E0 & EV & EU).
    destruct (varx_new_cases (component_data memory data i) (PInt (nth i memory 0%Z)) (option_map (mmap trunc) ext) (PInt 0)) as [(_ & m1 & p' & s' & E1 & E2 & E3 & E4 & _ & F)|(_ & E1)]; rewrite E1 in E0; [|discriminate].
    injection E0 as ->. injection E2 as E2. assert (s' = 0).
    { destruct ext as [U|]; [|apply E3; reflexivity]. cbn [option_map] in E4. assert (X : Some (mmap trunc U) <> None) by discriminate. apply E4 in X. injection X as X. lia. } subst s'.
    assert (p' = mem_at memory i) as -> by (unfold mem_at; lia). rewrite EV. split; [|exact F]. destruct F as (F1 & F2 & F3 & _). rewrite <- EV in F1, F2, F3.
    split; [exact F1|]. split; [exact F2|]. split; [exact F3 | exact EU].
  Qed.
  Lemma int_fit_local data ext i m w m' : int_local data ext i m -> int_varx_fit trunc lstsq inv m w = Ok m' -> int_local data ext i m'.
  Proof. intros (L1 & L2 & L3 & L4) E. apply int_fit_same in E. destruct E as (P1 & P2 & P3 & P4 & _). unfold int_local. rewrite P1, P2, P3, P4. auto. Qed.
End Gen.

Local Open Scope R_scope.
Lemma tz_0 : toward_zero 0 = 0.
Proof. apply tz_small. rewrite Rabs_R0. lra. Qed.
Lemma ent_tz (M : mat R) a b : wf M -> ent (mmap toward_zero M) a b = toward_zero (ent M a b).
Proof.
  intros W. destruct (le_lt_dec (nr M) a) as [O|Ia]; [|destruct (le_lt_dec (nc M) b) as [O|Ib]].
  - rewrite (ent_out (nr M) (nc M) (mmap toward_zero M)), (ent_out (nr M) (nc M) M), tz_0; auto; [apply is_mat_wf; auto | apply is_mat_mbuild].
  - rewrite (ent_out (nr M) (nc M) (mmap toward_zero M)), (ent_out (nr M) (nc M) M), tz_0; auto; [apply is_mat_wf; auto | apply is_mat_mbuild].
  - unfold mmap. rewrite ent_mbuild by assumption. rewrite mget_ent. reflexivity.
Qed.
Lemma wf_mbuild_R r c (f : nat -> nat -> R) : wf (mbuild r c f).
Proof. pose proof (is_mat_mbuild r c f) as H. apply is_mat_wf in H. apply H. Qed.

Section Int.
  Variables (lstsq : mat R -> mat R -> res (mat R)) (inv : mat R -> res (mat R)) (memory : list Z) (k : nat) (data : mat R) (ext : option (mat R)).
  Hypotheses (Hshape : lstsq_shape lstsq) (Hk : (k <= length memory)%nat).
  Notation Y := (component_data memory data).
  Notation fit := (int_varx_fit toward_zero lstsq inv).
  Let factors : option (mat R) := option_map (mmap toward_zero) ext.

  Definition imodel (i : nat) (m : varx R) : Prop :=
    int_local memory data ext i m /\ local_ok (Y i) (mem_at memory i) factors 0 (float_view toward_zero m).
  (** the residuals of component i are the truncated errors of its model *)
  Definition ifitted (i : nat) (m : varx R) : Prop :=
    forall t f, (t < nr (Y i))%nat -> (f < nc data)%nat ->
      ent (vx_residuals m) t f = if Nat.ltb t (mem_at memory i) then 0
        else toward_zero (ent (Y i) t f - varx_forecast (mem_at memory i) 0 (Y i) factors (vx_mu m) (reported_list (vx_A m)) (reported_list (vx_B m)) (reported_mat (vx_B0 m)) t f).
  Lemma Y_cols i : nc (Y i) = nc data.
  Proof using. reflexivity. Qed.
  Lemma new_imodel i m : int_varx_new toward_zero (Y i) (PInt (nth i memory 0%Z)) ext (PInt 0) = Ok m -> imodel i m.
  Proof using. intros H. apply int_new_local in H. destruct H as [L F]. split; [exact L|]. apply fresh_ok. exact F. Qed.
  Lemma fit_imodel i m w m' : imodel i m -> fit m w = Ok m' -> imodel i m' /\ ifitted i m'.
  Proof using Hshape.
    clear Hk. intros [L F] E. pose proof (int_fit_same _ _ _ _ _ _ E) as (P1 & P2 & P3 & P4 & P5 & _). pose proof (int_fit_local _ _ _ _ _ _ _ _ _ _ L E) as L'.
    apply int_fit_float in E. destruct E as (mf & Ef & Emu & EA & EB & EB0 & ER & _). destruct L as (l1 & l2 & l3 & l4), L' as (q1 & q2 & q3 & q4).
    assert (Hu : factors = None -> 0%nat = 0%nat) by reflexivity.
    destruct (fit_inv lstsq _ Hshape _ _ _ _ _ _ _ F Hu Ef) as (B & S & _ & SB & (a1 & a2 & a3 & a4 & a5 & a6 & a7) & FF & EE & _).
    rewrite l1, l2, l3, Nat.max_0_r in ER.
    assert (R0 : forall t f, (t < nr (Y i))%nat -> (f < nc data)%nat -> ent (vx_residuals m') t f
      = if Nat.ltb t (mem_at memory i) then 0 else toward_zero (ent (vx_residuals mf) t f)).
    { intros t f Ht Hf. rewrite ER, ent_mbuild by (rewrite ?Y_cols; assumption). destruct (Nat.ltb_spec t (mem_at memory i)); [|reflexivity].
      rewrite mget_ent. destruct F as (_ & _ & _ & _ & _ & _ & F). cbn [float_view vx_residuals] in F. apply F. lia. }
    split.
    - split; [split; [exact q1 | split; [exact q2 | split; [exact q3 | exact q4]]]|]. destruct F as (f1 & f2 & f3 & f4 & f5 & f6 & f7). cbn [float_view vx_p vx_s vx_y vx_u vx_z vx_residuals] in *.
      unfold local_ok. cbn [float_view vx_p vx_s vx_y vx_u vx_z vx_residuals]. split; [exact q1|]. split; [exact q2|]. split; [exact q3|]. split; [rewrite q4; reflexivity|]. split; [rewrite P5; exact f5|].
      split; [rewrite ER; apply is_mat_mbuild|]. rewrite Nat.max_0_r. intros t f Ht.
      destruct (le_lt_dec (nr (Y i)) t) as [O|I]; [rewrite ER; apply (ent_out _ _ _ _ _ (is_mat_mbuild _ _ _)); auto|].
      destruct (le_lt_dec (nc (Y i)) f) as [O|I']; [rewrite ER; apply (ent_out _ _ _ _ _ (is_mat_mbuild _ _ _)); auto|].
      rewrite R0 by assumption. destruct (Nat.ltb_spec t (mem_at memory i)); [reflexivity | lia].
    - intros t f Ht Hf. rewrite R0 by assumption. destruct (Nat.ltb_spec t (mem_at memory i)) as [|Le]; [reflexivity|]. f_equal.
      unfold errors_of in EE. rewrite a1, a2, a3, a4, Nat.max_0_r in EE. replace t with (mem_at memory i + (t - mem_at memory i))%nat by lia.
      rewrite EE by (rewrite ?Y_cols; lia). f_equal.
      pose proof (forecast_fitted _ B mf (mem_at memory i) 0 (mem_at memory i + (t - mem_at memory i)) f FF) as G. cbn [float_view vx_p vx_s vx_y vx_u] in G.
      rewrite l1, l2, l3, l4 in G. fold factors in G. rewrite Emu, EA, EB, EB0. symmetry. apply G; try reflexivity; try exact Hf.
      + rewrite Y_cols. apply SB.
      + destruct SB as (SB & _). rewrite SB. destruct F as (_ & _ & _ & _ & (_ & F & _) & _). cbn [float_view vx_z] in *. rewrite F. lia.
  Qed.
  (** zero residuals or zero weights: the covariance passed to inv is zero *)
  Lemma zero_weights_covariance i m ws m' : imodel i m -> (forall t, at_ (skipn (mem_at memory i) ws) t = 0) -> fit m (Some ws) = Ok m' ->
    exists S, inv (mzeros (nc data) (nc data)) = Ok S.
  Proof using.
    intros [(l1 & l2 & l3 & l4) _] HW E. apply int_fit_float in E. destruct E as (mf & _ & _ & _ & _ & _ & ER & ES & S & EI & _). exists S. rewrite <- EI. f_equal. rewrite ES.
    unfold varx_covariance. rewrite l1, l2, l3, Nat.max_0_r. set (rr := mslice _ _ _). assert (Rc : nc rr = nc data).
    { unfold rr, mslice. cbn [mbuild nc]. rewrite ER. cbn [mbuild nc]. rewrite l3. reflexivity. }
    set (wr := mul_rows _ rr). assert (Wc : nc wr = nc data) by (unfold wr, mul_rows; cbn [mbuild nc]; exact Rc).
    assert (Wr : nr wr = nr rr) by reflexivity.
    apply (mat_ext_R (nc data) (nc data)); [apply is_mat_mbuild | |].
    { unfold mmap. cbn [mmul mtr mbuild nr nc]. rewrite Wc. apply is_mat_mbuild. }
    intros a b Ha Hb. rewrite ent_mzeros. unfold mmap. rewrite ent_mbuild by (cbn [mmul mtr mbuild nr nc]; rewrite Wc; assumption). rewrite mget_ent.
    rewrite ent_mmul by (cbn [mtr mbuild nr nc]; rewrite Wc; assumption). rewrite Sum_zero; [numR; unfold Rdiv; ring|]. intros t Ht. cbn [mtr mbuild nc] in Ht.
    rewrite ent_mtr by (rewrite ?Wc; assumption). unfold wr. rewrite !ent_mul_rows by (rewrite <- ?Wr, ?Rc; assumption).
    replace (at_ (map nsqrt (skipn (mem_at memory i) ws)) t) with 0; [ring|]. symmetry. unfold at_.
    destruct (le_lt_dec (length (skipn (mem_at memory i) ws)) t) as [O|I]; [apply nth_overflow; rewrite map_length; exact O|].
    rewrite (nth_indep _ 0 (nsqrt 0)) by (rewrite map_length; exact I). rewrite map_nth. specialize (HW t). unfold at_ in HW. rewrite HW. apply sqrt_0.
  Qed.
  Lemma zero_residuals_covariance i m m' : imodel i m -> (forall t f, (t < nr (Y i) - mem_at memory i)%nat -> (f < nc data)%nat -> ent (vx_residuals m') (mem_at memory i + t) f = 0) ->
    fit m None = Ok m' -> exists S, inv (mzeros (nc data) (nc data)) = Ok S.
  Proof using.
    intros [(l1 & l2 & l3 & l4) _] HR E. apply int_fit_float in E. destruct E as (mf & _ & _ & _ & _ & _ & ER & ES & S & EI & _). exists S. rewrite <- EI. f_equal. rewrite ES.
    unfold varx_covariance. rewrite l1, l2, l3, Nat.max_0_r. set (rr := mslice _ _ _). assert (Rc : nc rr = nc data).
    { unfold rr, mslice. cbn [mbuild nc]. rewrite ER. cbn [mbuild nc]. rewrite l3. reflexivity. }
    assert (RR : nr (vx_residuals m') = nr (Y i) /\ nc (vx_residuals m') = nc data) by (rewrite ER; cbn [mbuild nr nc]; rewrite l3; split; reflexivity). destruct RR as [Rr Rn].
    assert (Rl : nr rr = (nr (Y i) - mem_at memory i)%nat) by (unfold rr, mslice; cbn [mbuild nr]; rewrite Rr, Nat.min_id; reflexivity).
    apply (mat_ext_R (nc data) (nc data)); [apply is_mat_mbuild | |].
    { unfold mmap. cbn [mmul mtr mbuild nr nc]. rewrite Rc. apply is_mat_mbuild. }
    intros a b Ha Hb. rewrite ent_mzeros. unfold mmap. rewrite ent_mbuild by (cbn [mmul mtr mbuild nr nc]; rewrite Rc; assumption). rewrite mget_ent.
    rewrite ent_mmul by (cbn [mtr mbuild nr nc]; rewrite Rc; assumption). rewrite Sum_zero; [numR; unfold Rdiv; ring|]. intros t Ht. cbn [mtr mbuild nc] in Ht.
    rewrite ent_mtr by (rewrite ?Rc; assumption). rewrite Rl in Ht. unfold rr. rewrite !ent_mslice by (rewrite ?Rr, ?Rn, ?Nat.min_id; assumption). rewrite !HR by assumption. ring.
  Qed.

  (** ** the parameters of a run *)
  Definition iok (s : vparams R) : Prop :=
    shaped memory k s /\ vp_X s = data /\ vp_u s = ext /\ nc (vp_mu s) = nc data
    /\ forall i, (i < k)%nat -> exists m, nth_error (vp_models s) i = Some m /\ imodel i m /\ ifitted i m.
  Definition ireports (s : vparams R) : Prop :=
    forall i, (i < k)%nat -> exists m, nth_error (vp_models s) i = Some m /\ ifitted i m
      /\ (forall f, (f < nc data)%nat -> ent (vp_mu s) i f = toward_zero (at_ (vx_mu m) f))
      /\ (forall tau a b, (tau < mem_at memory i)%nat -> ent (nth tau (A_of s i) no_mat) a b = toward_zero (ent (nth tau (reported_list (vx_A m)) no_mat) a b))
      /\ (ext <> None -> forall a b, ent (B0_of s i) a b = toward_zero (ent (reported_mat (vx_B0 m)) a b)).
  Lemma initialize_iok init old (g g' : rng R) s : int_varx_initialize toward_zero lstsq inv memory k data ext init old g = Ok (s, g') -> g' = g /\ iok s.
  Proof using Hshape.
    intros H. apply int_initialize_inv in H. destruct H as (-> & EX & EU & HS & Emu & _ & H). split; [reflexivity|].
    split; [exact HS|]. split; [exact EX|]. split; [exact EU|]. split; [exact Emu|]. intros i Hi. destruct (H i Hi) as (m0 & m & E0 & Ef & Em). exists m. split; [exact Em|].
    eapply fit_imodel; [apply new_imodel; exact E0 | exact Ef].
  Qed.
  Lemma update_iok G s s' : iok s -> int_varx_update toward_zero lstsq inv memory G s = Ok s' -> iok s' /\ ireports s'.
  Proof using Hshape Hk.
    intros (HS & EX & EU & Emu & H) E. apply (int_update_spec _ _ _ _ G k) in E; [|exact Hk | exact HS]. destruct E as (HS' & (F1 & F2 & F3 & _) & UP). split.
    - split; [exact HS'|]. split; [congruence|]. split; [congruence|]. split; [congruence|]. intros i Hi. destruct (UP i Hi) as (m & m' & E1 & E2 & E3 & _).
      destruct (H i Hi) as (m0 & E0 & IM & _). rewrite E1 in E0. injection E0 as <-. exists m'. split; [exact E2|]. eapply fit_imodel; eassumption.
    - intros i Hi. destruct (UP i Hi) as (m & m' & E1 & E2 & E3 & E4 & E5 & E6). destruct (H i Hi) as (m0 & E0 & IM & _). rewrite E1 in E0. injection E0 as <-.
      exists m'. split; [exact E2|]. destruct (fit_imodel i _ _ _ IM E3) as [_ IF]. split; [exact IF|]. split; [|split].
      + intros f Hf. rewrite <- mget_ent. rewrite E4 by lia. reflexivity.
      + intros tau a b Ht. destruct (E5 ltac:(lia)) as (A & EA & EAo). rewrite EAo, EA. cbn [reported_list].
        assert (LA : length A = mem_at memory i /\ forall M, In M A -> wf M).
        { unfold int_varx_fit in E3. apply bind_ok in E3. destruct E3 as (B & _ & E3). apply bind_ok in E3. destruct E3 as (S & _ & E3). injection E3 as <-. cbn [vx_A] in EA.
          destruct IM as ((L1 & _) & _). rewrite L1 in EA. destruct (Nat.ltb_spec 0 (mem_at memory i)); [|lia]. injection EA as <-. split.
          - unfold swapaxes12. rewrite map_length. unfold reshape3. apply length_tab.
          - intros M HM. unfold swapaxes12 in HM. apply in_map_iff in HM. destruct HM as (M0 & <- & _). apply wf_mbuild_R. }
        destruct LA as [LA WA]. rewrite app_nth1 by (rewrite map_length; lia).
        rewrite (nth_indep _ no_mat (mmap toward_zero no_mat)) by (rewrite map_length; lia). rewrite map_nth. apply ent_tz. apply WA. apply nth_In. lia.
      + intros Hu a b. assert (XU : exists U, ext = Some U) by (revert Hu; generalize ext; intros [U|] Hu; [eauto | congruence]). destruct XU as [U XU]. rewrite EU in E6. destruct (E6 U XU) as (B & EB & EBo). rewrite EBo, EB. cbn [reported_mat]. apply ent_tz.
        unfold int_varx_fit in E3. apply bind_ok in E3. destruct E3 as (B1 & _ & E3). apply bind_ok in E3. destruct E3 as (S & _ & E3). injection E3 as <-. cbn [vx_B0] in EB.
        destruct IM as ((_ & _ & _ & L4) & _). rewrite L4, XU in EB. cbn [snd] in EB. injection EB as <-. apply wf_mbuild_R.
  Qed.
End Int.

(** the mean of 0/1 values is closer than 1 to each of them *)
Lemma binary_mean_close n x t : (t < n)%nat -> (forall i, (i < n)%nat -> x i = 0 \/ x i = 1) -> Rabs (x t - Sum n x / INR n) < 1.
Proof.
  intros Ht Hx. assert (Hn : 0 < INR n) by (apply lt_0_INR; lia).
  assert (N1 : Sum n (fun _ => 1) = INR n) by (rewrite Sum_const; ring).
  assert (Lo : 0 <= Sum n x) by (apply Sum_nonneg; intros i Hi; destruct (Hx i Hi) as [-> | ->]; lra).
  assert (Hi : Sum n x <= INR n) by (rewrite <- N1; apply Sum_le; intros i Hi; destruct (Hx i Hi) as [-> | ->]; lra).
  assert (D : 0 <= Sum n x / INR n <= 1).
  { split; [apply Rmult_le_pos; [exact Lo | left; apply Rinv_0_lt_compat; exact Hn]|]. apply (Rmult_le_reg_r (INR n)); [exact Hn|]. unfold Rdiv. rewrite Rmult_assoc, Rinv_l by lra. lra. }
  assert (M : Sum n x / INR n * INR n = Sum n x) by (field; lra).
  destruct (Hx t Ht) as [E|E]; rewrite E.
  - assert (Sum n x < INR n) by (rewrite <- N1; apply (Sum_lt n _ _ t); [intros i Hi'; destruct (Hx i Hi') as [-> | ->]; lra | exact Ht | rewrite E; lra]).
    unfold Rabs. destruct Rcase_abs; nra.
  - assert (0 < Sum n x) by (apply (Sum_pos n x t); [intros i Hi'; destruct (Hx i Hi') as [-> | ->]; lra | exact Ht | rewrite E; lra]).
    unfold Rabs. destruct Rcase_abs; nra.
Qed.
(** a constant that minimises the sum of squared deviations is the mean *)
Lemma minimiser_mean n x b : (0 < n)%nat -> Sum n (fun t => (x t - b) ^ 2) <= Sum n (fun t => (x t - Sum n x / INR n) ^ 2) -> b = Sum n x / INR n.
Proof.
  intros Hn H. assert (Hi : 0 < INR n) by (apply lt_0_INR; lia). set (c := Sum n x / INR n) in *. assert (M : c * INR n = Sum n x) by (unfold c; field; lra).
  assert (E : forall b, Sum n (fun t => (x t - b) ^ 2) = Sum n (fun t => x t ^ 2) - 2 * b * Sum n x + INR n * b ^ 2).
  { intros b0. rewrite <- Sum_scal_l. replace (INR n * b0 ^ 2) with (Sum n (fun _ => b0 ^ 2)) by apply Sum_const. rewrite <- Sum_minus, <- Sum_plus. apply Sum_ext; intros; ring. }
  rewrite !E, <- M in H. assert (0 <= - (INR n * (b - c) ^ 2)) by nra. assert ((b - c) ^ 2 = 0) by (pose proof (pow2_ge_0 (b - c)); nra). 
  assert (b - c = 0) by nra. lra.
Qed.
