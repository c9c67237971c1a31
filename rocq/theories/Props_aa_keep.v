(** C93: transform of archetypal analysis keeps the fit *)
From Coq Require Import List Arith Lia ZArith Reals Lra.
From Verif Require Import Num Mat Py Spec M_simplex M_spg M_iter M_random M_furthest M_gpnh M_aa.
From Verif Require Import P_aa_run Props_base Props_aa.
Import ListNotations.

(** any kernel, any arithmetic: the fitted attributes, the configuration and the coefficients C stay *)
Theorem C93_transform_keeps_fit : forall (T : Type) (N : Num T) fuel (o : aa T) K r W,
  aa_transform fuel o K = Ok (r, W) ->
  ao_dictionary_ (ar_obj r) = ao_dictionary_ o /\ ao_cost_ (ar_obj r) = ao_cost_ o
  /\ ao_n_iter_ (ar_obj r) = ao_n_iter_ o /\ ao_n_components_ (ar_obj r) = ao_n_components_ o
  /\ ao_cfg (ar_obj r) = ao_cfg o /\ ao_seeded (ar_obj r) = ao_seeded o
  /\ exists w w', ao_ws o = Some w /\ ao_ws (ar_obj r) = Some w' /\ a_C w' = a_C w /\ a_S w' = W.
Proof.
  intros T N fuel o K r W H.
  apply aa_transform_inv in H. destruct H as (k & m & t & D & W0 & g' & w2 & A0 & A1 & A2 & A3 & A4 & A5 & A6 & A7 & A8 & A9 & ->).
  pose proof (aa_transform_keeps_C _ _ _ _ _ _ _ _ _ A4 A7) as K1. cbn [aa_initialize_workspace a_C] in K1.
  assert (E : option_map a_C (ao_ws o) = Some D).
  { unfold aa_choose_initial in A6. destruct (ac_init (ao_cfg o)); cbn [negb andb] in A6; try discriminate.
    all: apply bind_ok in A6; destruct A6 as (D1 & E2 & A6); apply bind_ok in A6; destruct A6 as (r2 & E3 & A6);
      injection A6 as <- _ _; apply check_init_aa_dictionary_inv in E2; apply E2. }
  rewrite A8. cbn [ao_dictionary_ ao_cost_ ao_n_iter_ ao_n_components_ ao_cfg ao_seeded ao_ws]. do 6 (split; [reflexivity|]).
  destruct (ao_ws o) as [w|]; [|discriminate]. cbn [option_map] in E. injection E as E. exists w, w2. rewrite K1, E. repeat split; reflexivity.
Qed.
Print Assumptions C93_transform_keeps_fit.

(** with a seeded generator an earlier transform has no effect on a later one of the same size *)
Theorem C93_transform_repeatable : forall (T : Type) (N : Num T) fuel fuel' (o : aa T) K K' r W,
  ao_seeded o = true -> nr K' = nr K ->
  aa_transform fuel o K = Ok (r, W) -> aa_transform fuel' (ar_obj r) K' = aa_transform fuel' o K'.
Proof.
  intros T N fuel fuel' o K K' r W Hs En H. pose proof (C93_transform_keeps_fit T N fuel o K r W H) as (B1 & B2 & B3 & B4 & B5 & B6 & w & w' & Ew & Ew' & EC & _).
  apply aa_transform_inv in H. destruct H as (k & m & t & D & W0 & g' & w2 & A0 & A1 & A2 & A3 & A4 & A5 & A6 & A7 & A8 & _).
  assert (En' : resolve_components (ao_n_components (ar_obj r)) (nr K') = resolve_components (ao_n_components o) (nr K')) by (rewrite A8, En, A1; reflexivity).
  assert (Er : ao_rng (ar_obj r) = ao_rng o) by (rewrite A8; cbn [ao_rng]; rewrite Hs; reflexivity).
  unfold aa_transform, kernel_aa. rewrite En', Er, Ew, Ew', EC, B1, B2, B3, B4, B5, B6. reflexivity.
Qed.
Print Assumptions C93_transform_repeatable.

(** after the example fit, with a seeded generator: transform of other data succeeds, and again with the same outcome *)
Example C93_example : exists fuel (o : aa R) r W, let K := arch_kernel None (mkmat 3 1 [[5]; [7]; [9]])%R in
  ao_dictionary_ o <> None /\ aa_transform fuel o K = Ok (r, W) /\ aa_transform fuel (ar_obj r) K = Ok (r, W)
  /\ ao_dictionary_ (ar_obj r) = ao_dictionary_ o.
Proof.
  destruct C59_example as (fuel & r & W & fuel' & r' & W' & E & E'). exists fuel', (ar_obj r), r', W'. cbv zeta.
  assert (S : ao_seeded (ar_obj r) = true /\ ao_dictionary_ (ar_obj r) <> None).
  { apply aa_fit_transform_inv in E. destruct E as (k & m & t & D & W0 & g' & w2 & A0 & A1 & A2 & A3 & A4 & A5 & A6 & A7 & A8 & _). rewrite A8. split; [reflexivity | discriminate]. }
  destruct S as [S1 S2]. assert (F : aa_transform fuel' (ar_obj r) (arch_kernel None (mkmat 3 1 [[5]; [7]; [9]])%R) = Ok (r', W')) by exact E'.
  split; [exact S2|]. split; [exact F|]. split; [|apply (C93_transform_keeps_fit _ _ _ _ _ _ _ F)].
  rewrite <- F at 1. apply (C93_transform_repeatable _ _ fuel' fuel' _ _ _ r' W' S1 eq_refl F).
Qed.
