(** Integer data in the piecewise VARX class: lemmas *)
From Coq Require Import List Arith ZArith Bool Reals Lra Lia.
From Verif Require Import Num Mat Py M_furthest M_varx M_pwvarx M_int Spec Spec_varx Spec_pwvarx Spec_int P_lin P_mat P_furthest P_varx P_varx_run P_pwvarx P_int P_int_varx.
Import ListNotations.

Section Gen.
  Context {T C : Type} {N : Num T} (trunc : T -> T) (po : pw_oracles T C).
  Hypothesis Htrunc : trunc n0 = n0.

  (** the integer loop next to the floating-point loop *)
  Definition pw_sim (d : nat) (si sf : M_pwvarx.fitted (T := T)) : Prop :=
    fi_mu si = fi_mu sf /\ fi_A si = fi_A sf /\ fi_B si = fi_B sf /\ fi_residuals si = mmap trunc (fi_residuals sf) /\ nc (fi_residuals sf) = d.
  Lemma put_rows_trunc idx (M B : mat T) : nr B = length idx -> nc B = nc M -> mmap trunc (put_rows idx M B) = put_rows idx (mmap trunc M) (mmap trunc B).
  Proof using.
    intros H1 H2. unfold mmap at 1, put_rows at 1 2. cbn [mbuild nr nc]. unfold put_rows at 2. cbn [mmap mbuild nr nc]. apply mbuild_ext. intros t j Ht Hj.
    unfold put_rows. rewrite mget_mbuild by assumption. destruct (position t idx) as [i|] eqn:E.
    - apply position_some in E. destruct E as [E _]. unfold mmap. rewrite mget_mbuild by lia. reflexivity.
    - unfold mmap. rewrite mget_mbuild by assumption. reflexivity.
  Qed.
  Definition res_rel {A B} (R : A -> B -> Prop) (x : res A) (y : res B) : Prop :=
    match x, y with Ok a, Ok b => R a b | Raise e, Raise e' => e = e' | _, _ => False end.
  Lemma component_sim p s trend e y x labels si sf k : pw_sim (nc y) si sf ->
    res_rel (pw_sim (nc y)) (int_fit_component trunc po p s trend e y x labels si k) (fit_component po p s trend e y x labels sf k).
  Proof using.
    intros (S1 & S2 & S3 & S4 & S5). unfold int_fit_component, fit_component. destruct (po_lstsq po _ _) as [params|ex]; cbn [bind res_rel]; [|reflexivity].
    unfold pw_sim. cbn [fi_mu fi_A fi_B fi_residuals]. rewrite S1, S2, S3, S4. split; [reflexivity|]. split; [reflexivity|]. split; [reflexivity|]. split; [|exact S5].
    symmetry. apply put_rows_trunc; [reflexivity|]. rewrite S5. reflexivity.
  Qed.
  Lemma components_sim p s trend e y x labels ks : forall si sf, pw_sim (nc y) si sf ->
    res_rel (pw_sim (nc y)) (int_fit_components trunc po p s trend e y x labels ks si) (fit_components po p s trend e y x labels ks sf).
  Proof using.
    induction ks as [|k ks IH]; intros si sf H; cbn [int_fit_components fit_components res_rel]; [exact H|].
    pose proof (component_sim p s trend e y x labels si sf k H) as C0. destruct (int_fit_component _ _ _ _ _ _ _ _ _ _ _), (fit_component _ _ _ _ _ _ _ _ _ _); cbn [bind res_rel] in *; try contradiction; [|exact C0].
    apply IH. exact C0.
  Qed.
  Lemma var_model_sim (o : pwvarx T C) y x labels : res_rel (pw_sim (nc y)) (int_fit_var_model trunc po o y x labels) (fit_var_model po o y x labels).
  Proof using Htrunc.
    unfold int_fit_var_model, fit_var_model. destruct (Nat.ltb _ _); [reflexivity|]. destruct (negb _ && _); [reflexivity|]. apply components_sim.
    unfold pw_sim. cbn [fi_mu fi_A fi_B fi_residuals]. split; [reflexivity|]. split; [reflexivity|]. split; [reflexivity|]. split; [|reflexivity].
    unfold mmap, mzeros. cbn [mbuild nr nc]. apply mbuild_ext. intros i j Hi Hj. rewrite mget_mbuild by assumption. symmetry. exact Htrunc.
  Qed.

  (** the covariances are those of the stored residuals *)
  Definition cov_of (p s : nat) (trend : bool) (e : nat) (y : mat T) (labels : list Z) (residuals : mat T) (k : nat) : mat T :=
    let idx := masked labels k in
    let r := take_rows idx residuals in
    let df := (Z.of_nat (length idx) - Z.of_nat (p * nc y) - (if trend then 1 else 0) - (if Nat.ltb 0 e then Z.of_nat (e * s) else 0))%Z in
    mmap (fun v => ndiv v (nofZ df)) (mmul (mtr r) r).
  Lemma take_put_other labels k k' (M B : mat T) : length labels = nr M -> k <> k' -> take_rows (masked labels k) (put_rows (masked labels k') M B) = take_rows (masked labels k) M.
  Proof using.
    intros HL Hk. unfold take_rows, put_rows. cbn [mbuild nc]. apply mbuild_ext. intros i j Hi Hj.
    assert (HI : In (nth i (masked labels k) 0) (masked labels k)) by (apply nth_In; exact Hi). apply masked_in in HI.
    assert (HT : nth i (masked labels k) 0 < length labels) by (apply nth_error_Some; unfold labelled in HI; rewrite HI; discriminate).
    rewrite mget_mbuild by lia. rewrite position_none; [reflexivity|]. intros HI'. apply masked_in in HI'. unfold labelled in *. rewrite HI in HI'. injection HI' as HI'. lia.
  Qed.
  Lemma int_components_cov p s trend e y x labels ks : NoDup ks -> forall st st',
    (forall k, In k ks -> k < length (fi_Sigma_u st)) -> length labels = nr (fi_residuals st) ->
    int_fit_components trunc po p s trend e y x labels ks st = Ok st' ->
    length (fi_Sigma_u st') = length (fi_Sigma_u st) /\ (forall k, In k ks -> nth_error (fi_Sigma_u st') k = Some (cov_of p s trend e y labels (fi_residuals st') k))
    /\ forall k, ~ In k ks -> nth_error (fi_Sigma_u st') k = nth_error (fi_Sigma_u st) k /\ take_rows (masked labels k) (fi_residuals st') = take_rows (masked labels k) (fi_residuals st).
  Proof using.
    induction ks as [|k ks IH]; intros HN st st' HS HL H; cbn [int_fit_components] in H.
    - injection H as <-. split; [reflexivity|]. split; [intros k []|]. auto.
    - inversion HN as [|? ? Nk HN']; subst. apply bind_ok in H. destruct H as (s1 & E & H).
      unfold int_fit_component in E. apply bind_ok in E. destruct E as (params & _ & E). injection E as <-.
      apply IH in H; [|exact HN' | cbn [fi_Sigma_u]; rewrite set_nth_length; intros; apply HS; right; assumption | exact HL]. cbn [fi_Sigma_u fi_residuals] in H. rewrite set_nth_length in H. destruct H as (L & HI & HO).
      split; [exact L|]. split.
      + intros j [<-|Hj]; [|apply HI; exact Hj]. destruct (HO k Nk) as [O1 O2]. rewrite O1, set_nth_error, Nat.eqb_refl.
        destruct (nth_error (fi_Sigma_u st) k) as [Sk|] eqn:Ek; [|apply nth_error_None in Ek; specialize (HS k (or_introl eq_refl)); lia]. cbn [option_map]. unfold cov_of. rewrite O2. reflexivity.
      + intros j Hj. destruct (HO j) as [O1 O2]; [intros Hj'; apply Hj; right; exact Hj'|]. rewrite O1, O2, set_nth_error.
        destruct (Nat.eqb_spec j k) as [->|Ne]; [exfalso; apply Hj; left; reflexivity|]. split; [reflexivity|]. apply take_put_other; assumption.
  Qed.
End Gen.
