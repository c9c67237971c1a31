(** Proofs about the slices of gpnh_convex_coding_crom.py for lags of any sign. *)
From Coq Require Import List Arith Lia ZArith Reals Lra Bool FunctionalExtensionality.
From Verif Require Import Num Mat Py Spec M_simplex M_spg M_iter M_random M_furthest M_gpnh M_mtd M_crom M_crom_lags.
From Verif Require Import P_lin P_simplex P_spg P_random P_mat P_iter P_gpnh P_gpnh_run P_mtd P_mtd_upd P_mtd_run P_mtd_pred P_crom.
Import ListNotations.

(** ** The largest lag *)
Lemma fold_max_ge ls : forall l, (l <= fold_left Z.max ls l)%Z /\ Forall (fun x => (x <= fold_left Z.max ls l)%Z) ls.
Proof.
  induction ls as [|x ls IH]; intros l; cbn [fold_left]; [split; [lia|constructor]|].
  destruct (IH (Z.max l x)) as [A B]. split; [lia|]. constructor; [lia|exact B].
Qed.
Lemma fold_max_in ls : forall l, fold_left Z.max ls l = l \/ In (fold_left Z.max ls l) ls.
Proof.
  induction ls as [|x ls IH]; intros l; cbn [fold_left]; [auto|].
  destruct (IH (Z.max l x)) as [E|E]; [|right; right; exact E]. rewrite E. destruct (Z.max_spec l x) as [[_ ->]|[_ ->]]; cbn; auto.
Qed.
Lemma zmax_in lags : lags <> [] -> In (zmax_of lags) lags.
Proof. destruct lags as [|l ls]; [congruence|]. intros _. cbn. destruct (fold_max_in ls l) as [->|H]; auto. Qed.
Lemma zmax_ge lags z : In z lags -> (z <= zmax_of lags)%Z.
Proof.
  destruct lags as [|l ls]; [intros []|]. cbn. destruct (fold_max_ge ls l) as [A B]. rewrite Forall_forall in B. intros [<-|H]; [lia|auto].
Qed.
Lemma zmax_unique lags m : In m lags -> (forall z, In z lags -> (z <= m)%Z) -> zmax_of lags = m.
Proof. intros H1 H2. assert (lags <> []) by (intros ->; destruct H1). pose proof (zmax_ge lags m H1). pose proof (H2 _ (zmax_in lags H)). lia. Qed.
Lemma zmax_positive lags : Forall (fun z => (1 <= z)%Z) lags -> lags <> [] -> zmax_of lags = Z.of_nat (list_max (map Z.to_nat lags)).
Proof.
  intros F H. rewrite Forall_forall in F.
  assert (G : forall z, In z lags -> (Z.to_nat z <= list_max (map Z.to_nat lags))%nat).
  { intros z Hz. pose proof (list_max_le (map Z.to_nat lags) (list_max (map Z.to_nat lags))) as [Q _]. specialize (Q (le_n _)). rewrite Forall_forall in Q. apply Q, in_map, Hz. }
  assert (U : (list_max (map Z.to_nat lags) <= Z.to_nat (zmax_of lags))%nat).
  { apply list_max_le. rewrite Forall_forall. intros x Hx. apply in_map_iff in Hx. destruct Hx as (z & <- & Hz). pose proof (zmax_ge _ _ Hz). lia. }
  pose proof (G _ (zmax_in _ H)). pose proof (F _ (zmax_in _ H)). lia.
Qed.
Lemma py_max_ok lags : lags <> [] -> py_max_lag lags = Ok (zmax_of lags).
Proof. destruct lags; [congruence|reflexivity]. Qed.

(** ** Bounds *)
Lemma bound_nonneg n z : (0 <= z)%Z -> py_bound n z = Nat.min n (Z.to_nat z).
Proof. intros H. unfold py_bound. destruct (Z.ltb_spec z 0); lia. Qed.
Lemma bound_neg n z : (z < 0)%Z -> py_bound n z = (n - Z.to_nat (- z))%nat.
Proof. intros H. unfold py_bound. destruct (Z.ltb_spec z 0); lia. Qed.
Lemma bound_le n z : (py_bound n z <= n)%nat.
Proof. unfold py_bound. lia. Qed.

Lemma fold_left_shift {A B C} (f : A -> C -> A) (g : B -> C) l : forall x, fold_left f (map g l) x = fold_left (fun y b => f y (g b)) l x.
Proof. induction l as [|b l IH]; intros x; cbn; auto. Qed.

Section GEN.
  Context {T : Type} {N : Num T}.

  (** number of rows of the slice of one lag *)
  Definition lag_rows (n : nat) (lags : list Z) (lag : Z) : nat := py_bound n (- lag) - py_bound n (zmax_of lags - lag).
  Lemma lagged_rows lags lag (G : mat T) : nr (py_lagged lags lag G) = lag_rows (nr G) lags lag.
  Proof. unfold py_lagged, py_slice, lag_rows, mslice. cbn [nr mbuild]. pose proof (bound_le (nr G) (- lag)). f_equal. lia. Qed.
  Definition fits_rows (n : nat) (lags : list Z) (lag : Z) : bool :=
    let m := lag_rows n lags lag in Nat.eqb m (n - py_bound n (zmax_of lags)) || Nat.eqb m 1.

  Lemma add_rows_shape a m V (Z : mat T) Z' : add_rows a m V Z = Ok Z' -> nr Z' = nr Z /\ nc Z' = nc Z /\ wf Z'.
  Proof.
    unfold add_rows. intros H. destruct (Nat.eqb _ _); [injection H as <-|destruct (Nat.eqb _ _); [injection H as <-|discriminate]]; (split; [reflexivity|]; split; [reflexivity|apply wf_mbuild]).
  Qed.
  Lemma add_lags_outcome lags rest : forall i ow Ts (G Z : mat T), nr Z = nr G ->
    if forallb (fits_rows (nr G) lags) rest then exists Z', py_add_lags lags rest i ow Ts G Z = Ok Z'
    else py_add_lags lags rest i ow Ts G Z = Raise ValueError.
  Proof.
    induction rest as [|lag rest IH]; intros i ow Ts G Z HZ; cbn [py_add_lags forallb]; [eauto|].
    set (V := mmul _ _). assert (NV : nr V = lag_rows (nr G) lags lag) by (rewrite <- lagged_rows; reflexivity).
    destruct (add_rows _ _ _ Z) as [Z'|e] eqn:E.
    - destruct (add_rows_shape _ _ _ _ _ E) as (H1 & _). assert (F : fits_rows (nr G) lags lag = true).
      { unfold add_rows in E. rewrite NV, HZ in E. unfold fits_rows. destruct (Nat.eqb _ (_ - _)); [reflexivity|]. destruct (Nat.eqb _ 1); [reflexivity|discriminate]. }
      rewrite F. cbn [andb bind]. apply IH. congruence.
    - assert (F : fits_rows (nr G) lags lag = false /\ e = ValueError).
      { unfold add_rows in E. rewrite NV, HZ in E. unfold fits_rows. destruct (Nat.eqb _ (_ - _)); [discriminate|]. destruct (Nat.eqb _ 1); [discriminate|]. injection E as <-. auto. }
      destruct F as [F ->]. rewrite F. reflexivity.
  Qed.
  (** the whole call succeeds or raises according to the lags and the number of samples only *)
  Lemma predicted_outcome lags ow Ts (G : mat T) :
    if negb (match lags with [] => true | _ => false end) && forallb (fits_rows (nr G) lags) lags
    then exists Z, py_predicted_weights lags ow Ts G = Ok Z else py_predicted_weights lags ow Ts G = Raise ValueError.
  Proof.
    destruct lags as [|l ls] eqn:El; [reflexivity|]. rewrite <- El. assert (H : lags <> []) by (rewrite El; discriminate).
    replace (negb match lags with [] => true | _ => false end) with true by (rewrite El; reflexivity). cbn [andb].
    unfold py_predicted_weights. rewrite (py_max_ok _ H). cbn [bind]. apply add_lags_outcome. reflexivity.
  Qed.

  (** entries, when every slice has the full number of rows *)
  Lemma add_lags_entries lags rest : forall i ow Ts (G Z : mat T), nr Z = nr G -> nc Z = nc G -> wf Z ->
    Forall (fun lag => lag_rows (nr G) lags lag = (nr G - py_bound (nr G) (zmax_of lags))%nat) rest ->
    let a := py_bound (nr G) (zmax_of lags) in
    exists Z', py_add_lags lags rest i ow Ts G Z = Ok Z' /\ nr Z' = nr G /\ nc Z' = nc G /\ wf Z'
    /\ forall t j, (t < nr G)%nat -> (j < nc G)%nat ->
         mget Z' t j = if Nat.ltb t a then mget Z t j
                       else fold_left (fun x q => nadd x (nmul (vget ow (i + q)) (mget (mmul (py_lagged lags (nth q rest 0%Z) G) (mtr (tmat Ts (i + q)))) (t - a) j)))
                              (seq 0 (length rest)) (mget Z t j).
  Proof.
    induction rest as [|lag rest IH]; intros i ow Ts G Z H1 H2 H3 HR a; cbn [py_add_lags].
    - exists Z. do 4 (split; [auto|]). intros t j _ _. cbn [length seq fold_left]. destruct (Nat.ltb t a); reflexivity.
    - inversion HR as [|? ? HL HR']; subst.
      set (V := mmul _ _). assert (NV : nr V = lag_rows (nr G) lags lag) by (rewrite <- lagged_rows; reflexivity).
      unfold add_rows at 1. rewrite NV, HL, H1. rewrite Nat.eqb_refl. cbn [bind].
      set (Z1 := mbuild _ _ _). destruct (IH (S i) ow Ts G Z1) as (Z' & E & N1 & N2 & N3 & EN); try assumption.
      + reflexivity.
      + apply wf_mbuild.
      + exists Z'. split; [exact E|]. do 3 (split; [assumption|]). intros t j Ht Hj. rewrite EN by assumption. unfold Z1. rewrite !mget_mbuild by lia.
        fold a. destruct (Nat.ltb t a) eqn:Eb; [reflexivity|]. cbn [length seq fold_left]. rewrite <- seq_shift, fold_left_shift. rewrite Nat.add_0_r. cbn [nth].
        apply (f_equal2 (fun f x => fold_left f (seq 0 (length rest)) x)); [|reflexivity].
        apply functional_extensionality. intros x. apply functional_extensionality. intros q. replace (S i + q)%nat with (i + S q)%nat by lia. reflexivity.
  Qed.
  Lemma fold_nsum (f : nat -> T) p : fold_left (fun x q => nadd x (f q)) (seq 0 p) n0 = nsum p f.
  Proof. induction p as [|p IH]; [reflexivity|]. rewrite seq_S, fold_left_app, IH. reflexivity. Qed.
  Lemma predicted_entries lags ow Ts (G : mat T) : lags <> [] ->
    Forall (fun lag => lag_rows (nr G) lags lag = (nr G - py_bound (nr G) (zmax_of lags))%nat) lags ->
    let a := py_bound (nr G) (zmax_of lags) in
    py_predicted_weights lags ow Ts G = Ok (mbuild (nr G) (nc G) (fun t j => if Nat.ltb t a then mget G t j
      else nsum (length lags) (fun i => nmul (vget ow i) (mget (mmul (py_lagged lags (zlag lags i) G) (mtr (tmat Ts i))) (t - a) j)))).
  Proof.
    intros H HR a. unfold py_predicted_weights. rewrite (py_max_ok _ H). cbn [bind]. set (Z0 := mbuild _ _ _).
    destruct (add_lags_entries lags lags 0 ow Ts G Z0) as (Z' & E & N1 & N2 & N3 & EN); try assumption; try reflexivity.
    { apply wf_mbuild. }
    rewrite E. f_equal. apply mat_ext; try assumption; try (cbn [nr nc mbuild]; assumption); [apply wf_mbuild|].
    intros t j Ht Hj. rewrite N1 in Ht. rewrite N2 in Hj. rewrite EN by assumption. rewrite mget_mbuild by assumption. fold a.
    unfold Z0. rewrite mget_mbuild by assumption. fold a. destruct (Nat.ltb t a); [reflexivity|]. rewrite fold_nsum. reflexivity.
  Qed.

  (** ** Positive lags *)
  Lemma lagged_positive (c : gpnh_cfg T) lags i (G : mat T) : Forall (fun z => (1 <= z)%Z) lags -> lags <> [] -> (i < length lags)%nat ->
    py_lagged lags (zlag lags i) G = lagged (crom_cfg c lags) i G.
  Proof.
    intros F H Hi. unfold py_lagged, py_slice, lagged, max_lag, lag. cbn [mc_lags crom_cfg].
    assert (HI : In (zlag lags i) lags) by (apply nth_In, Hi). pose proof (zmax_ge _ _ HI) as G1. rewrite Forall_forall in F. pose proof (F _ HI) as G2.
    assert (F' : Forall (fun z => (1 <= z)%Z) lags) by (rewrite Forall_forall; exact F).
    pose proof (zmax_positive lags F' H) as EM.
    replace (nth i (map Z.to_nat lags) 0%nat) with (Z.to_nat (zlag lags i)).
    2:{ unfold zlag. rewrite (nth_indep _ 0%nat (Z.to_nat 0)) by (rewrite map_length; exact Hi). rewrite map_nth. reflexivity. }
    rewrite (bound_nonneg _ (_ - _)) by lia. rewrite bound_neg by lia. rewrite EM, Z.opp_involutive. set (L := list_max _) in *. set (l := Z.to_nat (zlag lags i)).
    replace (Z.to_nat (Z.of_nat L - zlag lags i)) with (L - l)%nat by (unfold l; lia).
    unfold mslice. destruct (Nat.le_gt_cases (L - l) (nr G)) as [Q|Q]; [rewrite (Nat.min_r (nr G) (L - l)) by lia; reflexivity|].
    rewrite (Nat.min_l (nr G) (L - l)) by lia. replace (Nat.min (nr G - l) (nr G) - nr G)%nat with 0%nat by lia. replace (Nat.min (nr G - l) (nr G) - (L - l))%nat with 0%nat by lia. reflexivity.
  Qed.
  Lemma rows_positive lags n : Forall (fun z => (1 <= z)%Z) lags -> lags <> [] ->
    Forall (fun lag => lag_rows n lags lag = (n - py_bound n (zmax_of lags))%nat) lags.
  Proof.
    intros F H. rewrite Forall_forall in *. intros z Hz. pose proof (zmax_ge _ _ Hz). specialize (F _ Hz). unfold lag_rows.
    rewrite (bound_nonneg n (zmax_of lags)), (bound_nonneg n (_ - _)), bound_neg by lia. lia.
  Qed.
  Lemma predicted_positive (c : gpnh_cfg T) lags ow Ts (G : mat T) : Forall (fun z => (1 <= z)%Z) lags -> lags <> [] ->
    py_predicted_weights lags ow Ts G = Ok (predicted_weights (crom_cfg c lags) ow Ts G).
  Proof.
    intros F H. rewrite predicted_entries; [|assumption..|apply rows_positive; assumption]. f_equal. unfold predicted_weights. apply mbuild_ext. intros t j Ht Hj.
    rewrite (zmax_positive lags F H), bound_nonneg by lia. rewrite Nat2Z.id. unfold max_lag. cbn [mc_lags crom_cfg]. set (L := list_max _).
    destruct (Nat.ltb_spec t (Nat.min (nr G) L)); destruct (Nat.ltb_spec t L); try lia; [reflexivity|].
    unfold n_lags. cbn [mc_lags crom_cfg]. rewrite map_length. apply nsum_ext. intros i Hi. rewrite (lagged_positive c) by assumption. rewrite Nat.min_r by lia. reflexivity.
  Qed.
  (** the run *)
  Lemma py_Z_positive (c : gpnh_cfg T) lags ow Ts (G : mat T) : Forall (fun z => (1 <= z)%Z) lags -> lags <> [] ->
    py_Z lags ow Ts G = predicted_weights (crom_cfg c lags) ow Ts G.
  Proof. intros F H. unfold py_Z. rewrite (predicted_positive c) by assumption. reflexivity. Qed.
  Lemma py_from_positive (c : gpnh_cfg T) lags (G : mat T) : Forall (fun z => (1 <= z)%Z) lags -> lags <> [] ->
    py_from (zmax_of lags) G = mslice (max_lag (crom_cfg c lags)) (nr G) G.
  Proof.
    intros F H. unfold py_from, max_lag. cbn [mc_lags crom_cfg]. rewrite (zmax_positive lags F H), bound_nonneg by lia. rewrite Nat2Z.id. set (L := list_max _).
    unfold mslice. destruct (Nat.le_gt_cases L (nr G)) as [Q|Q]; [rewrite (Nat.min_r (nr G) L) by lia; reflexivity|].
    rewrite (Nat.min_l (nr G) L), Nat.min_id by lia. replace (nr G - nr G)%nat with 0%nat by lia. replace (nr G - L)%nat with 0%nat by lia. reflexivity.
  Qed.
  Section POS.
    Variables (c : gpnh_cfg T) (lags : list Z).
    Hypothesis F : Forall (fun z => (1 <= z)%Z) lags.
    Hypothesis H : lags <> [].
    Let mc := crom_cfg c lags.
    Lemma py_set_positive (G : mat T) ow Ts w : py_set_parameters lags G ow Ts w = crom_set_parameters mc G ow Ts w.
    Proof using F H. unfold py_set_parameters, crom_set_parameters. rewrite (py_Z_positive c) by assumption. reflexivity. Qed.
    Lemma py_residual_positive (G : mat T) w : py_residual lags G w = crom_residual mc G w.
    Proof using F H. unfold py_residual, crom_residual. rewrite !(py_from_positive c) by assumption. reflexivity. Qed.
    Lemma py_normalization_positive k n : py_normalization (T := T) lags k n = crom_normalization mc k n.
    Proof using F H. unfold py_normalization, crom_normalization, max_lag. cbn [mc mc_lags crom_cfg]. rewrite (zmax_positive lags F H). reflexivity. Qed.
    Lemma py_fit_residual_positive k n (G : mat T) : py_fit_residual lags k n G = crom_fit_residual mc k n G.
    Proof using F H. apply functional_extensionality. intros w. unfold py_fit_residual, crom_fit_residual. rewrite py_residual_positive, py_normalization_positive. reflexivity. Qed.
    Lemma py_order_positive k n (G : mat T) w : py_order_gradient lags k n G w = crom_order_gradient mc k n G w.
    Proof using F H.
      unfold py_order_gradient, crom_order_gradient, n_lags. cbn [mc mc_lags crom_cfg]. rewrite map_length. apply tab_ext. intros i Hi.
      rewrite py_residual_positive, py_normalization_positive, (lagged_positive c) by assumption. reflexivity.
    Qed.
    Lemma py_transition_positive k n (G : mat T) w : py_transition_gradient lags k n G w = crom_transition_gradient mc k n G w.
    Proof using F H.
      unfold py_transition_gradient, crom_transition_gradient, n_lags. cbn [mc mc_lags crom_cfg]. rewrite map_length. apply tab_ext. intros i Hi.
      rewrite py_residual_positive, py_normalization_positive, (lagged_positive c) by assumption. reflexivity.
    Qed.
    Lemma py_update_positive fuel k n (G : mat T) : py_update_parameters fuel (crom_cfg c []) lags k n G = crom_update_parameters fuel mc k n G.
    Proof using F H.
      apply functional_extensionality. intros w0. unfold py_update_parameters, crom_update_parameters. cbv zeta.
      rewrite py_set_positive. set (w := crom_set_parameters _ _ _ _ _). rewrite py_order_positive, py_transition_positive.
      replace (py_line_search fuel (crom_cfg c []) lags k n G w) with (crom_line_search fuel mc k n G w).
      2:{ repeat (apply functional_extensionality; intros ?). unfold py_line_search, crom_line_search. cbv zeta. rewrite py_fit_residual_positive.
          rewrite py_set_positive. change (mc_ls (crom_cfg c [])) with (mc_ls mc). f_equal. apply functional_extensionality. intros s. rewrite py_set_positive. reflexivity. }
      set (ls := crom_line_search _ _ _ _ _ _ _ _ _ _). destruct ls as [[[w1 s] mem]|e]; [|reflexivity]. cbn [bind].
      rewrite py_order_positive, py_transition_positive. reflexivity.
    Qed.
    Lemma py_fit_positive fuel k n (G : mat T) t m g : py_fit_parameters fuel (crom_cfg c []) lags k n G t m g = crom_fit_parameters fuel mc k n G t m g.
    Proof using F H.
      unfold py_fit_parameters, crom_fit_parameters, n_lags. cbn [mc mc_lags crom_cfg]. rewrite map_length. destruct (initialize_parameters_random k (length lags) g) as [[ow Ts] g'].
      rewrite (predicted_positive c) by assumption.
      assert (EC : check_max_lag mc = Ok tt) by (clear - H; unfold check_max_lag, mc; cbn [mc_lags crom_cfg]; destruct lags; [congruence|reflexivity]).
      change (mk_mtd_cfg _ _ _ _ _ _ _ _ _) with mc. rewrite EC. cbn [bind].
      rewrite py_fit_residual_positive, py_update_positive. replace (py_initialize_workspace (crom_cfg c []) lags G ow Ts) with (crom_initialize_workspace mc G ow Ts); [reflexivity|].
      unfold py_initialize_workspace, crom_initialize_workspace. rewrite (py_Z_positive c) by assumption. reflexivity.
    Qed.
  End POS.
End GEN.
