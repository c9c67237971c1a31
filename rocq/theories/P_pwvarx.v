(** Lemmas about the piecewise VARX model. *)
From Coq Require Import List Arith ZArith Bool Lia Reals Lra.
From Verif Require Import Num Mat Py Spec Spec_varx Spec_pwvarx P_lin P_mat M_furthest M_varx M_pwvarx P_fembv_upd P_varx P_varx_run.
Import ListNotations.

Section Stack.
  Context {T : Type} {N : Num T}.
  Lemma as_columns_nr (a : arr T) : nr (as_columns a) = n_samples a.
  Proof. destruct a; reflexivity. Qed.
  Lemma as_columns_nc (a : arr T) : nc (as_columns a) = n_features a.
  Proof. destruct a; reflexivity. Qed.
  Lemma as_columns_get (a : arr T) t f : t < n_samples a -> f < n_features a -> mget (as_columns a) t f = sample a t f.
  Proof. destruct a as [v|M]; cbn [as_columns n_samples n_features]; intros Ht Hf; [rewrite mget_mbuild by assumption|]; reflexivity. Qed.

  Definition fits (r n : nat) : Prop := r = n \/ r = 1.
  Lemma assign_cols_ok (x : mat T) c B : fits (nr B) (nr x) -> exists x', assign_cols x c B = Ok x' /\ nr x' = nr x /\ nc x' = nc x /\ wf x'
    /\ (forall t q, t < nr x -> q < nc x -> mget x' t q = if andb (Nat.leb c q) (Nat.ltb q (c + nc B)) then mget B (if Nat.eqb (nr B) (nr x) then t else 0) (q - c) else mget x t q).
  Proof.
    intros E. unfold assign_cols. assert (EB : (nr B =? nr x) || (nr B =? 1) = true) by (destruct E as [-> | ->]; [rewrite Nat.eqb_refl | rewrite orb_comm]; reflexivity).
    rewrite EB. eexists. split; [reflexivity|]. split; [reflexivity|]. split; [reflexivity|]. split; [apply wf_mbuild|]. intros t q Ht Hq. rewrite mget_mbuild by assumption. reflexivity.
  Qed.
  Lemma stack_lags_ok (M : mat T) P cnt : forall b c x, 1 <= b -> b + cnt <= S P -> fits (nr M - P) (nr x) -> wf x ->
    exists x', stack_lags x M P (seq b cnt) c = Ok (x', c + cnt * nc M) /\ nr x' = nr x /\ nc x' = nc x /\ wf x'
    /\ (forall t q, t < nr x -> q < nc x -> q < c \/ c + cnt * nc M <= q -> mget x' t q = mget x t q)
    /\ (forall t j f, t < nr x -> j < cnt -> f < nc M -> c + j * nc M + f < nc x ->
          mget x' t (c + j * nc M + f) = mget M (P - (b + j) + (if Nat.eqb (nr M - P) (nr x) then t else 0)) f).
  Proof.
    induction cnt as [|cnt IH]; intros b c x Hb Hc HZ WZ.
    - exists x. cbn [seq stack_lags]. split; [rewrite Nat.mul_0_l, Nat.add_0_r; reflexivity|]. split; [reflexivity|]. split; [reflexivity|]. split; [exact WZ|].
      split; [reflexivity | intros; lia].
    - cbn [seq stack_lags].
      assert (ER : nr (mslice (P - b) (nr M - b) M) = nr M - P) by (cbn [mslice mbuild nr]; lia).
      destruct (assign_cols_ok x c (mslice (P - b) (nr M - b) M)) as (Z1 & E1 & R1 & C1 & W1 & G1).
      { rewrite ER. exact HZ. }
      rewrite E1. cbn [bind].
      destruct (IH (S b) (c + nc M) Z1 ltac:(lia) ltac:(lia) ltac:(rewrite R1; exact HZ) W1) as (Z' & E' & R' & C' & W' & O' & G').
      exists Z'. split; [rewrite E'; do 2 f_equal; cbn; lia|]. split; [congruence|]. split; [congruence|]. split; [exact W'|].
      rewrite ER in G1. change (nc (mslice (P - b) (nr M - b) M)) with (nc M) in G1.
      split.
      + intros t q Ht Hq Ho. rewrite O' by (cbn in Ho; lia). rewrite G1 by assumption.
        destruct (Nat.leb_spec c q), (Nat.ltb_spec q (c + nc M)); cbn [andb]; try reflexivity. cbn in Ho. lia.
      + intros t [|j] f Ht Hj Hf Hq.
        * rewrite Nat.mul_0_l, Nat.add_0_r in *. rewrite O' by lia. rewrite G1 by lia.
          destruct (Nat.leb_spec c (c + f)), (Nat.ltb_spec (c + f) (c + nc M)); cbn [andb]; try lia.
          replace (c + f - c) with f by lia.
          assert (Hrow : (if nr M - P =? nr x then t else 0) < nr M - P).
          { destruct (Nat.eqb_spec (nr M - P) (nr x)); [lia|]. destruct HZ; lia. }
          unfold mslice. rewrite mget_mbuild by (try lia). f_equal. lia.
        * replace (c + S j * nc M + f) with ((c + nc M) + j * nc M + f) in * by (cbn; lia).
          rewrite G' by lia. rewrite R1. f_equal. lia.
  Qed.
  Lemma stack_lags_raise (M : mat T) P cnt : forall b c x, 0 < cnt -> 1 <= b -> b + cnt <= S P -> ~ fits (nr M - P) (nr x) ->
    stack_lags x M P (seq b cnt) c = Raise ValueError.
  Proof.
    intros b c x H0 Hb Hc HN. destruct cnt as [|cnt]; [lia|]. cbn [seq stack_lags]. unfold assign_cols.
    assert (ER : nr (mslice (P - b) (nr M - b) M) = nr M - P) by (cbn [mslice mbuild nr]; lia). rewrite ER.
    destruct (Nat.eqb_spec (nr M - P) (nr x)); [exfalso; apply HN; left; assumption|]. destruct (Nat.eqb_spec (nr M - P) 1); [exfalso; apply HN; right; assumption|]. reflexivity.
  Qed.

  (** the stacked predictors in terms of the data; [rowu] is the row of the external factors used *)
  Definition stacked (p s : nat) (endog : arr T) (exog : option (arr T)) (rowu : nat -> nat) (x : mat T) : Prop :=
    let P := Nat.max p s in
    nr x = n_samples endog - P /\ nc x = p * n_features endog + s * n_factors exog /\ wf x
    /\ forall t, t < n_samples endog - P ->
         (forall tau f, tau < p -> f < n_features endog -> mget x t (tau * n_features endog + f) = sample endog (P + t - S tau) f)
         /\ forall u, exog = Some u -> forall tau f, tau < s -> f < n_features u ->
              mget x t (p * n_features endog + (tau * n_features u + f)) = sample u (P + rowu t - S tau) f.
  Lemma stack_predictors_ok p s (endog : arr T) exog : let P := Nat.max p s in P <= n_samples endog ->
    (forall u, exog = Some u -> 0 < s -> fits (n_samples u - P) (n_samples endog - P)) ->
    exists x, stack_predictors p s endog exog = Ok x
      /\ stacked p s endog exog (fun t => match exog with Some u => if Nat.eqb (n_samples u - P) (n_samples endog - P) then t else 0 | None => t end) x.
  Proof.
    intros P HP HU. unfold stack_predictors. fold P. rewrite as_columns_nr, as_columns_nc.
    destruct (Nat.ltb_spec (n_samples endog) P); [lia|].
    match goal with |- context [mzeros ?r ?c] => set (x0 := mzeros r c) end.
    destruct (stack_lags_ok (as_columns endog) P p 1 0 x0 (le_n _) ltac:(unfold P; lia)) as (x1 & E1 & R1 & C1 & W1 & O1 & G1).
    { left. rewrite as_columns_nr. reflexivity. }
    { apply wf_mbuild. }
    rewrite E1. cbn [bind fst snd]. rewrite as_columns_nc, as_columns_nr in *. rewrite Nat.add_0_l in *.
    assert (N0 : nc x0 = p * n_features endog + s * n_factors exog). { unfold x0. cbn [mzeros mbuild nc]. destruct exog as [u|]; cbn [option_map n_factors]; [rewrite as_columns_nc|]; reflexivity. }
    assert (R0 : nr x0 = n_samples endog - P) by reflexivity. clearbody x0.
    assert (Gy : forall t tau f, t < n_samples endog - P -> tau < p -> f < n_features endog -> mget x1 t (tau * n_features endog + f) = sample endog (P + t - S tau) f).
    { intros t tau f Ht Htau Hf. pose proof (lag_bound p _ tau f Htau Hf). pose proof (G1 t tau f) as G. rewrite Nat.add_0_l in G. rewrite G by lia. rewrite R0, Nat.eqb_refl. rewrite as_columns_get by (unfold P in *; lia). f_equal. unfold P; lia. }
    destruct exog as [u|]; cbn [option_map n_factors] in *.
    - destruct (Nat.ltb_spec 0 s) as [Hs|Hs].
      + destruct (stack_lags_ok (as_columns u) P s 1 (p * n_features endog) x1 (le_n _) ltac:(unfold P; lia)) as (x2 & E2 & R2 & C2 & W2 & O2 & G2).
        { rewrite as_columns_nr, R1, R0. apply HU; [reflexivity | exact Hs]. }
        { exact W1. }
        rewrite E2. cbn [bind fst snd]. rewrite as_columns_nc, as_columns_nr in *. exists x2. split; [reflexivity|]. unfold stacked. fold P.
        split; [congruence|]. split; [cbn [n_factors]; congruence|]. split; [exact W2|]. intros t Ht. split.
        * intros tau f Htau Hf. pose proof (lag_bound p _ tau f Htau Hf). rewrite O2 by lia. apply Gy; assumption.
        * intros u' Eu tau f Htau Hf. injection Eu as <-. pose proof (lag_bound s _ tau f Htau Hf).
          replace (p * n_features endog + (tau * n_features u + f)) with (p * n_features endog + tau * n_features u + f) by lia. rewrite G2 by lia. rewrite R1, R0.
          assert (F := HU u eq_refl Hs). unfold fits in F. destruct (Nat.eqb_spec (n_samples u - P) (n_samples endog - P)); rewrite as_columns_get by (unfold P in *; lia); f_equal; unfold P; lia.
      + exists x1. split; [reflexivity|]. unfold stacked. fold P. split; [congruence|]. split; [cbn [n_factors]; congruence|]. split; [exact W1|]. intros t Ht. split; [intros; apply Gy; assumption|].
        intros u' _ tau f Htau. lia.
    - exists x1. split; [reflexivity|]. unfold stacked. fold P. split; [congruence|]. split; [cbn [n_factors]; congruence|]. split; [exact W1|]. intros t Ht. split; [intros; apply Gy; assumption|]. discriminate.
  Qed.
  Lemma stack_predictors_raise p s (endog : arr T) exog : let P := Nat.max p s in
    n_samples endog < P \/ (exists u, exog = Some u /\ 0 < s /\ ~ fits (n_samples u - P) (n_samples endog - P)) ->
    stack_predictors p s endog exog = Raise ValueError.
  Proof.
    intros P H. unfold stack_predictors. fold P. rewrite as_columns_nr, as_columns_nc. destruct (Nat.ltb_spec (n_samples endog) P); [reflexivity|].
    destruct H as [H | (u & -> & Hs & HN)]; [lia|]. cbn [option_map].
    match goal with |- context [mzeros ?r ?c] => set (x0 := mzeros r c) end.
    destruct (stack_lags_ok (as_columns endog) P p 1 0 x0 (le_n _) ltac:(unfold P; lia)) as (x1 & E1 & R1 & _).
    { left. rewrite as_columns_nr. reflexivity. }
    { apply wf_mbuild. }
    rewrite E1. cbn [bind fst snd]. destruct (Nat.ltb_spec 0 s); [|lia]. rewrite stack_lags_raise; [reflexivity | exact Hs | lia | unfold P; lia |].
    rewrite as_columns_nr, R1. exact HN.
  Qed.
  Lemma stack_predictors_inv p s (endog : arr T) exog x : let P := Nat.max p s in stack_predictors p s endog exog = Ok x ->
    P <= n_samples endog /\ (forall u, exog = Some u -> 0 < s -> fits (n_samples u - P) (n_samples endog - P)).
  Proof.
    intros P H. destruct (Nat.ltb_spec (n_samples endog) P).
    - rewrite stack_predictors_raise in H; [discriminate | left; assumption].
    - split; [assumption|]. intros u Eu Hs. unfold fits. destruct (Nat.eq_dec (n_samples u - P) (n_samples endog - P)); [left; assumption|]. destruct (Nat.eq_dec (n_samples u - P) 1); [right; assumption|].
      rewrite stack_predictors_raise in H; [discriminate|]. right. exists u. split; [exact Eu|]. split; [exact Hs|]. unfold fits. fold P. tauto.
  Qed.
End Stack.

(** ** masks *)
Lemma masked_in labels k t : In t (masked labels k) <-> labelled labels t k.
Proof.
  unfold masked, labelled. rewrite filter_In, in_seq. split.
  - intros [H1 H2]. apply Z.eqb_eq in H2. rewrite <- H2. apply nth_error_nth'. lia.
  - intros H. pose proof (nth_error_Some labels t) as Q. rewrite H in Q. split; [split; [lia | apply Q; discriminate]|]. apply Z.eqb_eq. apply nth_error_nth. exact H.
Qed.
Lemma masked_nodup labels k : NoDup (masked labels k).
Proof. apply NoDup_filter, seq_NoDup. Qed.
Lemma position_some idx : forall t i, position t idx = Some i -> i < length idx /\ nth i idx 0 = t.
Proof.
  induction idx as [|a idx IH]; intros t i H; cbn [position] in H; [discriminate|]. destruct (Nat.eqb_spec t a) as [->|Hn].
  - injection H as <-. cbn. split; [lia | reflexivity].
  - destruct (position t idx) as [j|] eqn:E; [|discriminate]. injection H as <-. destruct (IH t j E). cbn [length nth]. split; [lia | assumption].
Qed.
Lemma position_in idx : forall t, In t idx -> exists i, position t idx = Some i.
Proof.
  induction idx as [|a idx IH]; intros t H; [destruct H|]. cbn [position]. destruct (Nat.eqb_spec t a); [eauto|]. destruct H as [->|H]; [congruence|]. destruct (IH t H) as (i & ->). cbn. eauto.
Qed.
Lemma position_nth idx : NoDup idx -> forall i, i < length idx -> position (nth i idx 0) idx = Some i.
Proof.
  intros HN. induction HN as [|a idx Ha HN IH]; intros i Hi; [cbn in Hi; lia|]. destruct i as [|i]; cbn [nth position]; [rewrite Nat.eqb_refl; reflexivity|].
  cbn in Hi. destruct (Nat.eqb_spec (nth i idx 0) a) as [E|E].
  - exfalso. apply Ha. rewrite <- E. apply nth_In. lia.
  - rewrite IH by lia. reflexivity.
Qed.
Lemma position_none idx t : ~ In t idx -> position t idx = None.
Proof. intros H. destruct (position t idx) as [i|] eqn:E; [|reflexivity]. exfalso. apply H. apply position_some in E. destruct E as [E1 E2]. rewrite <- E2. apply nth_In. exact E1. Qed.

Local Open Scope R_scope.
Lemma Sum_masked labels k (g : nat -> R) :
  Sum (length (masked labels k)) (fun i => g (nth i (masked labels k) O))
  = Sum (length labels) (fun t => if Z.eqb (nth t labels (-1)%Z) (Z.of_nat k) then g t else 0).
Proof.
  unfold masked. generalize (length labels) as n. intros n. set (h := fun t => Z.eqb (nth t labels (-1)%Z) (Z.of_nat k)).
  induction n as [|n IH]; [reflexivity|]. rewrite seq_S, filter_app, app_length, Sum_split. cbn [Sum]. rewrite <- IH. f_equal.
  - apply Sum_ext. intros i Hi. rewrite app_nth1 by exact Hi. reflexivity.
  - cbn [filter Nat.add]. fold (h n). destruct (h n); cbn [length Sum]; [|reflexivity]. rewrite app_nth2 by lia. rewrite Nat.add_0_r, Nat.sub_diag. cbn [nth]. ring.
Qed.

Definition off (trend : bool) : nat := if trend then 1%nat else 0%nat.
(** the regression of one sample on its predictors *)
Definition explained (trend : bool) (x params : mat R) (t f : nat) : R :=
  (if trend then ent params 0 f else 0) + Sum (nc x) (fun q => ent x t q * ent params (off trend + q) f).
Definition regressors (trend : bool) (x : mat R) (idx : list nat) : mat R :=
  if trend then with_ones (take_rows idx x) else take_rows idx x.
Lemma regressors_nc trend x idx : nc (regressors trend x idx) = (off trend + nc x)%nat.
Proof. destruct trend; reflexivity. Qed.
Lemma regressors_nr trend x idx : nr (regressors trend x idx) = length idx.
Proof. destruct trend; reflexivity. Qed.
Lemma ent_take_rows idx (M : mat R) i j : (i < length idx)%nat -> (j < nc M)%nat -> ent (take_rows idx M) i j = ent M (nth i idx O) j.
Proof. intros. unfold take_rows. rewrite ent_mbuild by assumption. reflexivity. Qed.
Lemma regressors_dot trend x idx params i f : (i < length idx)%nat ->
  Sum (nc (regressors trend x idx)) (fun q => ent (regressors trend x idx) i q * ent params q f) = explained trend x params (nth i idx O) f.
Proof.
  intros Hi. rewrite regressors_nc. unfold regressors, explained, off. destruct trend.
  - rewrite Sum_split. f_equal.
    + cbn [Sum]. unfold with_ones. rewrite ent_mbuild by (cbn; lia). cbn. ring.
    + apply Sum_ext; intros q Hq. unfold with_ones. rewrite ent_mbuild by (cbn; lia). change (1 + q)%nat with (S q). cbv iota beta. rewrite mget_ent, ent_take_rows by assumption. reflexivity.
  - rewrite Nat.add_0_l, Rplus_0_l. apply Sum_ext; intros q Hq. rewrite ent_take_rows by assumption. reflexivity.
Qed.

Section FitLoop.
  Context {C : Type}.
  Variable po : pw_oracles R C.
  Hypothesis Hshape : lstsq_shape (po_lstsq po).
  Variables (K p s e : nat) (trend : bool) (y x : mat R) (labels : list Z).
  Hypothesis Hx : nc x = (p * nc y + s * e)%nat.
  Hypothesis Hl : length labels = nr y.
  Let d := nc y.

  (** what the loop maintains about shapes *)
  Definition st_ok (st : @M_pwvarx.fitted R) : Prop :=
    (trend = true -> exists m, fi_mu st = Some m /\ is_mat K d m)
    /\ ((0 < p)%nat -> exists l, fi_A st = Some l /\ length l = K)
    /\ ((0 < s * e)%nat -> exists l, fi_B st = Some l /\ length l = K)
    /\ length (fi_Sigma_u st) = K /\ is_mat (nr y) d (fi_residuals st).
  (** component k holds the regression coefficients [params] *)
  Definition comp_ok (k : nat) (params : mat R) (st : @M_pwvarx.fitted R) : Prop :=
    (trend = true -> exists m, fi_mu st = Some m /\ forall f, (f < d)%nat -> ent m k f = ent params 0 f)
    /\ (forall tau f j, (tau < p)%nat -> (f < d)%nat -> (j < d)%nat -> ent (nth tau (reported_stack (fi_A st) k) no_mat) f j = ent params (off trend + (tau * d + j)) f)
    /\ (forall tau f j, (tau < s)%nat -> (f < d)%nat -> (j < e)%nat -> ent (nth tau (reported_stack (fi_B st) k) no_mat) f j = ent params (off trend + (p * d + (tau * e + j))) f)
    /\ (forall t f, labelled labels t k -> (f < d)%nat -> ent (fi_residuals st) t f = ent y t f - explained trend x params t f)
    /\ is_mat d d (nth k (fi_Sigma_u st) no_mat)
    /\ (forall i j, (i < d)%nat -> (j < d)%nat ->
         ent (nth k (fi_Sigma_u st) no_mat) i j
         = Sum (length labels) (fun t => if Z.eqb (nth t labels (-1)%Z) (Z.of_nat k)
                  then (ent y t i - explained trend x params t i) * (ent y t j - explained trend x params t j) else 0)
           / IZR (Z.of_nat (length (masked labels k)) - Z.of_nat (p * d) - (if trend then 1 else 0) - Z.of_nat (e * s))).
  Definition comp_params (k : nat) (params : mat R) : Prop :=
    po_lstsq po (regressors trend x (masked labels k)) (take_rows (masked labels k) y) = Ok params.
  Definition kept (t : nat) (st st' : @M_pwvarx.fitted R) : Prop := forall f, ent (fi_residuals st') t f = ent (fi_residuals st) t f.

  Lemma label_row t k : labelled labels t k -> (t < nr y)%nat.
  Proof using Hl. intros H. rewrite <- Hl. apply nth_error_Some. rewrite H. discriminate. Qed.

  Lemma e_zero : (if Nat.ltb 0 e then Z.of_nat (e * s) else 0%Z) = Z.of_nat (e * s).
  Proof. destruct (Nat.ltb_spec 0 e); [reflexivity|]. assert (e = 0)%nat as -> by lia. reflexivity. Qed.

  Lemma step_ok st k st' : (k < K)%nat -> st_ok st -> fit_component po p s trend e y x labels st k = Ok st' ->
    st_ok st' /\ (exists params, comp_params k params /\ is_mat (off trend + nc x) d params /\ comp_ok k params st')
    /\ (forall k' params', k' <> k -> comp_ok k' params' st -> comp_ok k' params' st')
    /\ (forall t, ~ labelled labels t k -> kept t st st').
  Proof using Hshape Hx Hl.
    intros Hk (S1 & S2 & S3 & S4 & S5) H. unfold fit_component in H. fold d in H.
    change (if trend then with_ones (take_rows (masked labels k) x) else take_rows (masked labels k) x) with (regressors trend x (masked labels k)) in H.
    apply bind_ok in H. destruct H as (params & EP & H). pose proof (Hshape _ _ _ EP) as SP. rewrite regressors_nc in SP. change (nc (take_rows (masked labels k) y)) with d in SP.
    set (idx := masked labels k) in *. set (Y := take_rows idx y) in *. set (X := regressors trend x idx) in *.
    set (res' := put_rows idx (fi_residuals st) (msub Y (mmul X params))) in *.
    assert (NR : nr (fi_residuals st) = nr y /\ nc (fi_residuals st) = d) by (destruct S5 as (? & ? & _); auto).
    assert (Rk : forall t f, labelled labels t k -> (f < d)%nat -> ent res' t f = ent y t f - explained trend x params t f).
    { intros t f Ht Hf. pose proof (label_row t k Ht) as Lt. unfold res', put_rows. rewrite (proj1 NR), (proj2 NR). rewrite ent_mbuild by assumption.
      destruct (position_in idx t) as (i & Ei); [apply masked_in; exact Ht|]. rewrite Ei. apply position_some in Ei. destruct Ei as [Hi Ei].
      unfold msub, mmap2. rewrite mget_mbuild by assumption. change (ent Y i f - ent (mmul X params) i f = ent y t f - explained trend x params t f).
      f_equal.
      - unfold Y. rewrite ent_take_rows by assumption. rewrite Ei. reflexivity.
      - destruct SP as (SP1 & SP2 & _). rewrite ent_mmul by (try (unfold X; rewrite regressors_nr); try rewrite SP2; assumption). unfold X. rewrite regressors_dot by exact Hi. rewrite Ei. reflexivity. }
    assert (Rn : forall t f, ~ labelled labels t k -> ent res' t f = ent (fi_residuals st) t f).
    { intros t f Ht. unfold res', put_rows. rewrite (proj1 NR), (proj2 NR). destruct (le_lt_dec (nr y) t) as [O|I]; [rewrite (ent_out _ _ _ _ _ (is_mat_mbuild _ _ _)) by auto; rewrite (ent_out _ _ _ _ _ S5) by auto; reflexivity|].
      destruct (le_lt_dec d f) as [O|I']; [rewrite (ent_out _ _ _ _ _ (is_mat_mbuild _ _ _)) by auto; rewrite (ent_out _ _ _ _ _ S5) by auto; reflexivity|].
      rewrite ent_mbuild by assumption. rewrite position_none; [reflexivity|]. intros In. apply Ht. apply masked_in. exact In. }
    assert (SR : is_mat (nr y) d res') by (unfold res', put_rows; rewrite (proj1 NR), (proj2 NR); apply is_mat_mbuild).
    assert (OTHER : forall t k', labelled labels t k' -> k' <> k -> ~ labelled labels t k).
    { intros t k' L1 Hn L2. unfold labelled in *. rewrite L1 in L2. injection L2 as L2. apply Hn. lia. }
    rewrite e_zero in H.
    set (df := (Z.of_nat (nr Y) - Z.of_nat (p * d) - (if trend then 1 else 0) - Z.of_nat (e * s))%Z) in *.
    set (Sig := mmap (fun v => ndiv v (nofZ df)) (mmul (mtr (take_rows idx res')) (take_rows idx res'))) in *.
    assert (HSig : is_mat d d Sig). { unfold Sig, mmap, mmul, mtr, take_rows, mbuild. cbn [nr nc]. replace (nc res') with d by (destruct SR as (_ & -> & _); reflexivity). apply is_mat_mbuild. }
    assert (ESig : forall i j, (i < d)%nat -> (j < d)%nat -> ent Sig i j = Sum (length idx) (fun a => ent res' (nth a idx O) i * ent res' (nth a idx O) j) / IZR df).
    { intros i j Hi Hj. destruct SR as (_ & SRc & _). unfold Sig, mmap. rewrite ent_mbuild by (cbn [mmul mtr take_rows mbuild nr nc]; lia).
      rewrite mget_ent. rewrite ent_mmul by (cbn [mmul mtr take_rows mbuild nr nc]; lia). change (nc (mtr (take_rows idx res'))) with (length idx).
      cbn [ndiv nofZ Num_R]. f_equal. apply Sum_ext; intros a Ha. rewrite ent_mtr by (cbn [take_rows mbuild nr nc]; lia). rewrite !ent_take_rows by lia. reflexivity. }
    injection H as <-. split; [|split; [|split]].
    - unfold st_ok. cbn [fi_mu fi_A fi_B fi_Sigma_u fi_residuals]. split; [|split; [|split; [|split]]].
      + intros ->. destruct (S1 eq_refl) as (m & -> & Hm). cbn [option_map]. eexists. split; [reflexivity|]. destruct Hm as (-> & -> & _). apply is_mat_mbuild.
      + intros Hp. destruct (S2 Hp) as (l & -> & Hll). destruct (Nat.ltb_spec 0 p); [|lia]. cbn [option_map]. eexists. split; [reflexivity|]. rewrite P_furthest.set_nth_length. exact Hll.
      + intros Hs. destruct (S3 Hs) as (l & -> & Hll). destruct (Nat.ltb_spec 0 e), (Nat.ltb_spec 0 s); try nia. cbn [andb option_map]. eexists. split; [reflexivity|]. rewrite P_furthest.set_nth_length. exact Hll.
      + rewrite P_furthest.set_nth_length. exact S4.
      + exact SR.
    - exists params. split; [exact EP|]. split; [exact SP|]. unfold comp_ok. cbn [fi_mu fi_A fi_B fi_Sigma_u fi_residuals]. destruct SP as (SP1 & SP2 & _).
      split; [|split; [|split; [|split; [|split]]]].
      + intros ->. destruct (S1 eq_refl) as (m & -> & Hm1 & Hm2 & _). cbn [option_map]. eexists. split; [reflexivity|]. intros f Hf. rewrite ent_mbuild by lia. rewrite Nat.eqb_refl. reflexivity.
      + intros tau f j Htau Hf Hj. destruct (S2 ltac:(lia)) as (l & -> & Hll). destruct (Nat.ltb_spec 0 p); [|lia]. cbn [option_map reported_stack]. rewrite set_nth_nth by lia. rewrite Nat.eqb_refl.
        fold (off trend). rewrite reshape_swap_ent by (try assumption; exact SP2). pose proof (lag_bound p d tau j Htau Hj). rewrite ent_mslice; [f_equal; lia | | lia]. fold d in Hx. rewrite SP1, Hx. replace (d * p)%nat with (p * d)%nat by lia. lia.
      + intros tau f j Htau Hf Hj. destruct (S3 ltac:(nia)) as (l & -> & Hll). destruct (Nat.ltb_spec 0 e), (Nat.ltb_spec 0 s); try lia. cbn [andb option_map reported_stack]. rewrite set_nth_nth by lia. rewrite Nat.eqb_refl.
        fold (off trend). rewrite reshape_swap_ent by (try assumption; exact SP2). pose proof (lag_bound s e tau j Htau Hj).
        assert (ROW : (if Nat.ltb 0 p then off trend + d * p else off trend)%nat = (off trend + p * d)%nat) by (destruct (Nat.ltb_spec 0 p); [lia | replace p with O by lia; lia]).
        rewrite ROW. rewrite ent_mslice; [f_equal; lia | | lia]. fold d in Hx. rewrite SP1, Hx. lia.
      + exact Rk.
      + rewrite set_nth_nth by lia. rewrite Nat.eqb_refl. exact HSig.
      + intros i j Hi Hj. rewrite set_nth_nth by lia. rewrite Nat.eqb_refl. rewrite ESig by assumption. unfold df. change (nr Y) with (length idx). f_equal.
        rewrite <- Sum_masked. fold idx. apply Sum_ext; intros a Ha. assert (La : labelled labels (nth a idx O) k) by (apply masked_in; apply nth_In; exact Ha). rewrite !Rk by assumption. reflexivity.
    - intros k' params' Hk' (C1 & C2 & C3 & C4 & C5 & C6). unfold comp_ok. cbn [fi_mu fi_A fi_B fi_Sigma_u fi_residuals].
      split; [|split; [|split; [|split; [|split]]]].
      + intros ->. destruct (S1 eq_refl) as (m & Em & Hm). destruct (C1 eq_refl) as (m' & Em' & Hm'). rewrite Em in Em'. injection Em' as <-. rewrite Em. cbn [option_map]. eexists. split; [reflexivity|].
        intros f Hf. destruct (le_lt_dec K k') as [O|I].
        * rewrite <- Hm' by exact Hf. rewrite (ent_out _ _ _ _ _ Hm) by auto. destruct Hm as (Hm1 & Hm2 & _). apply (ent_out _ _ _ _ _ (is_mat_mbuild _ _ _)). left. lia.
        * destruct Hm as (Hm1 & Hm2 & _). rewrite ent_mbuild by lia. destruct (Nat.eqb_spec k' k); [lia|]. apply Hm'. exact Hf.
      + intros tau f j Htau Hf Hj. rewrite <- (C2 tau f j Htau Hf Hj). destruct (Nat.ltb_spec 0 p); [|reflexivity]. destruct (S2 ltac:(lia)) as (l & -> & Hll). cbn [option_map reported_stack]. rewrite set_nth_nth by lia.
        destruct (Nat.eqb_spec k' k); [lia | reflexivity].
      + intros tau f j Htau Hf Hj. rewrite <- (C3 tau f j Htau Hf Hj). destruct (Nat.ltb_spec 0 e), (Nat.ltb_spec 0 s); try reflexivity. cbn [andb]. destruct (S3 ltac:(nia)) as (l & -> & Hll). cbn [option_map reported_stack]. rewrite set_nth_nth by lia.
        destruct (Nat.eqb_spec k' k); [lia | reflexivity].
      + intros t f Ht Hf. rewrite Rn by (apply (OTHER t k'); assumption). apply C4; assumption.
      + rewrite set_nth_nth by lia. destruct (Nat.eqb_spec k' k); [lia | exact C5].
      + intros i j Hi Hj. rewrite set_nth_nth by lia. destruct (Nat.eqb_spec k' k); [lia | apply C6; assumption].
    - intros t Ht f. apply Rn. exact Ht.
  Qed.
  Lemma loop_ok ks : NoDup ks -> (forall k, In k ks -> (k < K)%nat) -> forall st st', st_ok st -> fit_components po p s trend e y x labels ks st = Ok st' ->
    st_ok st' /\ (forall k, In k ks -> exists params, comp_params k params /\ is_mat (off trend + nc x) d params /\ comp_ok k params st')
    /\ (forall k' params', ~ In k' ks -> comp_ok k' params' st -> comp_ok k' params' st')
    /\ (forall t, (forall k, In k ks -> ~ labelled labels t k) -> kept t st st').
  Proof using Hshape Hx Hl.
    intros HN. induction HN as [|k ks Hk HN IH]; intros HK st st' S H; cbn [fit_components] in H.
    - injection H as <-. split; [exact S|]. split; [intros k []|]. split; [auto|]. intros t _ f. reflexivity.
    - apply bind_ok in H. destruct H as (st1 & E & H). apply step_ok in E; [|apply HK; left; reflexivity | exact S]. destruct E as (S1 & (params & P1 & P2 & P3) & O1 & R1).
      apply IH in H; [|intros k' Hk'; apply HK; right; exact Hk' | exact S1]. destruct H as (S2 & A2 & O2 & R2). split; [exact S2|]. split; [|split].
      + intros k' [<-|Hin]; [|apply A2; exact Hin]. exists params. split; [exact P1|]. split; [exact P2|]. apply O2; assumption.
      + intros k' params' Hn Hc. apply O2; [intros Hin; apply Hn; right; exact Hin|]. apply O1; [|exact Hc]. intros ->. apply Hn. left. reflexivity.
      + intros t Ht f. rewrite R2 by (intros k' Hk'; apply Ht; right; exact Hk'). apply R1. apply Ht. left. reflexivity.
  Qed.
End FitLoop.

(** the regression in terms of the data *)
Lemma explained_row p s endog exog x trend params t f : stacked p s endog exog (fun t => t) x -> (t < n_samples endog - Nat.max p s)%nat ->
  explained trend x params t f
  = pw_forecast p s endog exog (fun f => if trend then ent params 0 f else 0)
      (tab p (fun tau => mbuild (n_features endog) (n_features endog) (fun i j => ent params (off trend + (tau * n_features endog + j)) i)))
      (tab s (fun tau => mbuild (n_features endog) (n_factors exog) (fun i j => ent params (off trend + (p * n_features endog + (tau * n_factors exog + j))) i)))
      (Nat.max p s + t) f \/ (n_features endog <= f)%nat.
Proof.
  intros (R1 & C1 & _ & G) Ht. destruct (le_lt_dec (n_features endog) f) as [O|Hf]; [right; exact O | left].
  destruct (G t Ht) as [GY GU]. clear G. unfold explained, pw_forecast. rewrite Rplus_assoc. f_equal. rewrite C1, Sum_split. f_equal.
  - rewrite Sum_grid. apply Sum_ext; intros tau Htau. apply Sum_ext; intros j Hj. rewrite nth_tab by exact Htau. rewrite ent_mbuild by assumption. change (ent x t (tau * n_features endog + j)) with (mget x t (tau * n_features endog + j)). rewrite GY by assumption. ring.
  - destruct exog as [u|]; cbn [n_factors]; [|rewrite Nat.mul_0_r; reflexivity]. rewrite Sum_grid. apply Sum_ext; intros tau Htau. apply Sum_ext; intros j Hj. rewrite nth_tab by exact Htau. rewrite ent_mbuild by assumption.
    change (ent x t (p * n_features endog + (tau * n_features u + j))) with (mget x t (p * n_features endog + (tau * n_features u + j))). rewrite (GU u eq_refl) by assumption. ring.
Qed.
Lemma pw_forecast_ext p s endog exog mu mu' A A' B B' t f : mu f = mu' f ->
  (forall tau j, (tau < p)%nat -> (j < n_features endog)%nat -> ent (nth tau A no_mat) f j = ent (nth tau A' no_mat) f j) ->
  (forall tau j, (tau < s)%nat -> (j < n_factors exog)%nat -> ent (nth tau B no_mat) f j = ent (nth tau B' no_mat) f j) ->
  pw_forecast p s endog exog mu A B t f = pw_forecast p s endog exog mu' A' B' t f.
Proof.
  intros H1 H2 H3. unfold pw_forecast. rewrite H1. f_equal; [f_equal|].
  - apply Sum_ext; intros tau Htau. apply Sum_ext; intros j Hj. rewrite H2 by assumption. reflexivity.
  - destruct exog as [u|]; [|reflexivity]. cbn [n_factors] in H3. apply Sum_ext; intros tau Htau. apply Sum_ext; intros j Hj. rewrite H3 by assumption. reflexivity.
Qed.

Lemma targets_spec {T} {N : Num T} P (endog : arr T) y : targets P endog = Some y ->
  nr y = (n_samples endog - P)%nat /\ nc y = n_features endog /\ forall t f, (t < n_samples endog - P)%nat -> (f < n_features endog)%nat -> mget y t f = sample endog (P + t) f.
Proof.
  intros H. destruct endog as [v|M]; cbn [targets] in H.
  - injection H as <-. cbn [n_samples n_features as_columns mslice mbuild nr nc]. split; [lia|]. split; [reflexivity|]. intros t f Ht Hf. unfold mslice. rewrite mget_mbuild by (cbn [mbuild nr nc]; lia). rewrite mget_mbuild by lia. reflexivity.
  - destruct (Nat.eqb (nc M) 1); [discriminate|]. injection H as <-. cbn [n_samples n_features mslice mbuild nr nc]. split; [lia|]. split; [reflexivity|]. intros t f Ht Hf. unfold mslice. rewrite mget_mbuild by lia. reflexivity.
Qed.

Section Fit.
  Context {C : Type}.
  Variable po : pw_oracles R C.
  Hypothesis Hshape : lstsq_shape (po_lstsq po).

  (** everything a successful fit establishes *)
  Definition fit_facts (o : pwvarx R C) (endog : arr R) (exog : option (arr R)) (o' : pwvarx R C) (labels : list Z) (y x : mat R) (r : mat R) (Sig : list (mat R)) : Prop :=
    let P := Nat.max (pw_p o) (pw_s o) in
    stacked (pw_p o) (pw_s o) endog exog (fun t => t) x
    /\ targets P endog = Some y
    /\ stack_predictors (pw_p o) (pw_s o) endog exog = Ok x
    /\ pw_residuals o' = Some r /\ is_mat (n_samples endog - P) (n_features endog) r
    /\ pw_Sigma_u o' = Some Sig /\ length Sig = pw_K o
    /\ (forall k, (k < pw_K o)%nat -> length labels = (n_samples endog - P)%nat /\ exists params,
          comp_params po (pw_trend o) y x labels k params /\ is_mat (off (pw_trend o) + nc x) (n_features endog) params
          /\ comp_ok (pw_p o) (pw_s o) (n_factors exog) (pw_trend o) y x labels k params (mk_fitted (pw_mu o') (pw_A o') (pw_B o') Sig r))
    /\ (forall t f, (forall k, (k < pw_K o)%nat -> ~ labelled labels t k) -> ent r t f = 0).

  Lemma fit_facts_ok o endog exog o' labels : (forall u, exog = Some u -> n_samples u = n_samples endog) ->
    pw_fit_transform po o endog exog = Ok (o', labels) ->
    pw_K o' = pw_K o /\ pw_p o' = pw_p o /\ pw_s o' = pw_s o /\ pw_trend o' = pw_trend o /\ (exists c x, pw_classifier o' = Some c /\ stack_predictors (pw_p o) (pw_s o) endog exog = Ok x /\ po_classify po c x = Ok labels)
    /\ exists y x r Sig, fit_facts o endog exog o' labels y x r Sig.
  Proof using Hshape.
    intros HU H. unfold pw_fit_transform in H. set (P := Nat.max (pw_p o) (pw_s o)) in *. apply bind_ok in H. destruct H as (x & Ex & H).
    destruct (targets P endog) as [y|] eqn:Ey; [|discriminate]. apply bind_ok in H. destruct H as (z & Ez & H). apply bind_ok in H. destruct H as (cl & Ecl & H). apply bind_ok in H. destruct H as (c & Ec & H).
    apply bind_ok in H. destruct H as (lab & Elab & H). apply bind_ok in H. destruct H as (fi & Efi & H). injection H as <- <-. cbn [pw_K pw_p pw_s pw_trend pw_classifier].
    do 4 (split; [reflexivity|]). split; [exists c, x; auto|].
    pose proof (targets_spec P endog y Ey) as (Y1 & Y2 & Y3).
    pose proof (stack_predictors_inv _ _ _ _ _ Ex) as [I1 I2].
    destruct (stack_predictors_ok (pw_p o) (pw_s o) endog exog I1 I2) as (x' & Ex' & SX). rewrite Ex in Ex'. injection Ex' as <-.
    assert (SX' : stacked (pw_p o) (pw_s o) endog exog (fun t => t) x).
    { destruct exog as [u|]; [|exact SX]. rewrite (HU u eq_refl) in SX. rewrite Nat.eqb_refl in SX. exact SX. }
    clear SX. pose proof SX' as SX. destruct SX as (X1 & X2 & _ & _).
    unfold fit_var_model in Efi. rewrite Y2 in Efi. rewrite X2 in Efi.
    destruct (Nat.ltb_spec (pw_p o * n_features endog + pw_s o * n_factors exog) (pw_p o * n_features endog)); [lia|].
    replace (pw_p o * n_features endog + pw_s o * n_factors exog - pw_p o * n_features endog)%nat with (pw_s o * n_factors exog)%nat in Efi by lia.
    assert (NE : (if Nat.ltb 0 (pw_s o * n_factors exog) then (pw_s o * n_factors exog) / pw_s o else 0)%nat = (if Nat.ltb 0 (pw_s o * n_factors exog) then n_factors exog else 0)%nat).
    { destruct (Nat.ltb_spec 0 (pw_s o * n_factors exog)); [|reflexivity]. rewrite Nat.mul_comm, Nat.div_mul by nia. reflexivity. }
    rewrite NE in Efi. destruct (negb _ && _) eqn:LK in Efi; [discriminate|].
    set (st0 := mk_fitted _ _ _ _ _) in Efi.
    destruct (Nat.eq_dec (pw_K o) 0) as [K0|K0].
    { rewrite K0 in Efi. cbn [seq fit_components] in Efi. injection Efi as <-. exists y, x. do 2 eexists. unfold fit_facts. fold P. split; [exact SX'|]. split; [exact Ey|]. split; [exact Ex|].
      cbn [pw_residuals pw_Sigma_u]. split; [reflexivity|]. split; [unfold st0; cbn [fi_residuals]; rewrite Y1; apply is_mat_mbuild|]. split; [reflexivity|]. split; [unfold st0; cbn [fi_Sigma_u]; apply repeat_length|].
      split; [intros k Hk; lia|]. intros t f _. apply ent_mzeros. }
    assert (LL : length lab = nr y). { apply andb_false_iff in LK. destruct LK as [LK|LK]; [apply negb_false_iff, Nat.eqb_eq in LK; exact LK | apply Nat.ltb_ge in LK; lia]. }
    (* without lagged factors the loop does not look at B *)
    assert (Q : exists e', (if Nat.ltb 0 (pw_s o * n_factors exog) then n_factors exog else 0)%nat = e' /\ nc x = (pw_p o * nc y + pw_s o * e')%nat /\ (forall s0 j, (s0 < pw_s o)%nat -> (j < n_factors exog)%nat -> e' = n_factors exog) /\ (e' * pw_s o = n_factors exog * pw_s o)%nat /\ (0 < pw_s o * e' -> e' = n_factors exog)%nat).
    { eexists. split; [reflexivity|]. rewrite X2, Y2. destruct (Nat.ltb_spec 0 (pw_s o * n_factors exog)); [auto|]. split; [nia|]. split; [nia|]. split; nia. }
    destruct Q as (e' & Ee & Hx & He & Hs0 & He'). rewrite Ee in Efi.
    apply (loop_ok po Hshape (pw_K o) (pw_p o) (pw_s o) e' (pw_trend o) y x lab Hx LL) in Efi; [|apply seq_NoDup | intros k Hk; apply in_seq in Hk; lia|].
    2:{ unfold st_ok, st0. cbn [fi_mu fi_A fi_B fi_Sigma_u fi_residuals]. rewrite Y2. split; [|split; [|split; [|split]]].
        - intros ->. eexists. split; [reflexivity | apply is_mat_mbuild].
        - intros Hp. destruct (Nat.ltb_spec 0 (pw_p o)); [|lia]. eexists. split; [reflexivity | apply repeat_length].
        - intros Hp. destruct (Nat.ltb_spec 0 (pw_s o * n_factors exog)); [|nia]. eexists. split; [reflexivity | apply repeat_length].
        - apply repeat_length.
        - apply is_mat_mbuild. }
    destruct Efi as (S & A & _ & R0). unfold st_ok in S. destruct S as (_ & _ & _ & S4 & S5). rewrite Y1, Y2 in S5.
    exists y, x, (fi_residuals fi), (fi_Sigma_u fi). unfold fit_facts. fold P. split; [exact SX'|]. split; [exact Ey|]. split; [exact Ex|]. cbn [pw_residuals pw_Sigma_u pw_mu pw_A pw_B].
    split; [reflexivity|]. split; [exact S5|]. split; [reflexivity|]. split; [exact S4|]. split.
    - intros k Hk. split; [lia|]. destruct (A k) as (params & A1 & A2 & A3); [apply in_seq; lia|]. exists params. split; [exact A1|]. split; [rewrite <- Y2; exact A2|].
      unfold comp_ok in *. destruct A3 as (c1 & c2 & c3 & c4 & c5 & c6). cbn [fi_mu fi_A fi_B fi_Sigma_u fi_residuals]. split; [exact c1|]. split; [exact c2|]. split.
      + intros tau f j Htau Hf Hj. pose proof (He tau j Htau Hj) as E. rewrite E in c3. apply c3; assumption.
      + split; [exact c4|]. split; [exact c5|]. intros i j Hi Hj. rewrite c6 by assumption. rewrite Hs0. reflexivity.
    - intros t f Ht. rewrite R0 by (intros k Hk; apply Ht; apply in_seq in Hk; lia). unfold st0. cbn [fi_residuals]. apply ent_mzeros.
  Qed.

  (** the regression with the fitted coefficients is the forecast of the reported component *)
  Lemma explained_reported o endog exog o' labels y x r Sig k params t f : fit_facts o endog exog o' labels y x r Sig ->
    comp_ok (pw_p o) (pw_s o) (n_factors exog) (pw_trend o) y x labels k params (mk_fitted (pw_mu o') (pw_A o') (pw_B o') Sig r) ->
    (t < n_samples endog - Nat.max (pw_p o) (pw_s o))%nat -> (f < n_features endog)%nat ->
    explained (pw_trend o) x params t f
    = pw_forecast (pw_p o) (pw_s o) endog exog (reported_mu (pw_trend o) (pw_mu o') k) (reported_stack (pw_A o') k) (reported_stack (pw_B o') k) (Nat.max (pw_p o) (pw_s o) + t) f.
  Proof.
    intros (SX & Ey & _) (c1 & c2 & c3 & _) Ht Hf. pose proof (targets_spec _ endog y Ey) as (_ & Y2 & _). rewrite Y2 in c1, c2, c3. cbn [fi_mu fi_A fi_B] in c1, c2, c3.
    destruct (explained_row _ _ _ _ _ (pw_trend o) params t f SX Ht) as [-> | O]; [|lia]. apply pw_forecast_ext.
    - unfold reported_mu. destruct (pw_trend o); [|destruct (pw_mu o'); reflexivity]. destruct (c1 eq_refl) as (m & -> & Hm). rewrite Hm by exact Hf. reflexivity.
    - intros tau j Htau Hj. rewrite nth_tab by exact Htau. rewrite ent_mbuild by assumption. rewrite c2 by assumption. reflexivity.
    - intros tau j Htau Hj. rewrite nth_tab by exact Htau. rewrite ent_mbuild by assumption. rewrite c3 by assumption. reflexivity.
  Qed.

  (** the squared errors of a regression over the rows of one component *)
  Lemma regression_component o endog exog o' labels y x r Sig k params F : fit_facts o endog exog o' labels y x r Sig ->
    length labels = (n_samples endog - Nat.max (pw_p o) (pw_s o))%nat ->
    (forall t f, (t < n_samples endog - Nat.max (pw_p o) (pw_s o))%nat -> (f < n_features endog)%nat -> explained (pw_trend o) x params t f = F (Nat.max (pw_p o) (pw_s o) + t)%nat f) ->
    regression_error (regressors (pw_trend o) x (masked labels k)) (take_rows (masked labels k) y) params
    = component_error (Nat.max (pw_p o) (pw_s o)) endog labels k F.
  Proof.
    intros (SX & Ey & _) HL HF. pose proof (targets_spec _ endog y Ey) as (Y1 & Y2 & Y3). unfold regression_error, component_error.
    change (nr (take_rows (masked labels k) y)) with (length (masked labels k)). change (nc (take_rows (masked labels k) y)) with (nc y). rewrite <- HL.
    rewrite <- (Sum_masked labels k (fun t => Sum (n_features endog) (fun f => (sample endog (Nat.max (pw_p o) (pw_s o) + t) f - F (Nat.max (pw_p o) (pw_s o) + t)%nat f) ^ 2))).
    apply Sum_ext; intros i Hi. rewrite Y2. apply Sum_ext; intros f Hf. rewrite regressors_dot by exact Hi. rewrite ent_take_rows by (try assumption; lia).
    assert (Ht : (nth i (masked labels k) O < n_samples endog - Nat.max (pw_p o) (pw_s o))%nat).
    { rewrite <- HL. apply nth_error_Some. assert (L : labelled labels (nth i (masked labels k) O) k) by (apply masked_in, nth_In; exact Hi). rewrite L. discriminate. }
    rewrite HF by assumption. rewrite <- Y3 by assumption. reflexivity.
  Qed.
End Fit.
