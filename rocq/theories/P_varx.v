(** Lemmas about the VARX local model. *)
From Coq Require Import List Arith ZArith Bool Lia Reals Lra.
From Verif Require Import Num Mat Py Spec Spec_varx P_lin P_mat P_fembv P_fembv_upd M_furthest M_fembv M_varx.
Import ListNotations.

Section Design.
  Context {T : Type} {N : Num T}.
  Lemma set_cols_ok (Z : mat T) c B : nr B = nr Z -> exists Z', set_cols Z c B = Ok Z' /\ nr Z' = nr Z /\ nc Z' = nc Z /\ wf Z'
    /\ (forall t q, t < nr Z -> q < nc Z -> mget Z' t q = if andb (Nat.leb c q) (Nat.ltb q (c + nc B)) then mget B t (q - c) else mget Z t q).
  Proof.
    intros E. unfold set_cols. rewrite E, Nat.eqb_refl. cbn [negb]. eexists. split; [reflexivity|].
    split; [reflexivity|]. split; [reflexivity|]. split; [apply wf_mbuild|]. intros t q Ht Hq. rewrite mget_mbuild by assumption. reflexivity.
  Qed.
  Lemma fill_lags_ok (M : mat T) P cnt : forall b c Z, P <= nr M -> 1 <= b -> b + cnt <= S P -> nr Z = nr M - P -> wf Z -> 0 < nc M ->
    exists Z', fill_lags Z M P (seq b cnt) c = Ok (Z', c + cnt * nc M) /\ nr Z' = nr Z /\ nc Z' = nc Z /\ wf Z'
    /\ (forall t q, t < nr Z -> q < nc Z -> q < c \/ c + cnt * nc M <= q -> mget Z' t q = mget Z t q)
    /\ (forall t j f, t < nr Z -> j < cnt -> f < nc M -> c + j * nc M + f < nc Z -> mget Z' t (c + j * nc M + f) = mget M (P - (b + j) + t) f).
  Proof.
    induction cnt as [|cnt IH]; intros b c Z HP Hb Hc HZ WZ Hw.
    - exists Z. cbn [seq fill_lags]. split; [rewrite Nat.mul_0_l, Nat.add_0_r; reflexivity|]. split; [reflexivity|]. split; [reflexivity|]. split; [exact WZ|].
      split; [reflexivity | intros; lia].
    - cbn [seq fill_lags].
      destruct (set_cols_ok Z c (mslice (P - b) (nr M - b) M)) as (Z1 & E1 & R1 & C1 & W1 & G1).
      { cbn [mslice mbuild nr]. lia. }
      rewrite E1. cbn [bind].
      destruct (IH (S b) (c + nc M) Z1 HP ltac:(lia) ltac:(lia) ltac:(lia) W1 Hw) as (Z' & E' & R' & C' & W' & O' & G').
      exists Z'. split; [rewrite E'; do 2 f_equal; cbn; lia|]. split; [congruence|]. split; [congruence|]. split; [exact W'|].
      cbn [mslice mbuild nc] in G1.
      split.
      + intros t q Ht Hq Ho. rewrite O' by (cbn in Ho; lia). rewrite G1 by assumption.
        destruct (Nat.leb_spec c q), (Nat.ltb_spec q (c + nc M)); cbn [andb]; try reflexivity. cbn in Ho. lia.
      + intros t [|j] f Ht Hj Hf Hq.
        * rewrite Nat.mul_0_l, Nat.add_0_r in *. rewrite O' by lia. rewrite G1 by lia.
          destruct (Nat.leb_spec c (c + f)), (Nat.ltb_spec (c + f) (c + nc M)); cbn [andb]; try lia.
          replace (c + f - c) with f by lia.
          transitivity (mget (mslice (P - b) (nr M - b) M) t f); [reflexivity|]. unfold mslice. rewrite mget_mbuild by (try lia). f_equal. lia.
        * replace (c + S j * nc M + f) with ((c + nc M) + j * nc M + f) in * by (cbn; lia).
          rewrite G' by lia. f_equal. lia.
  Qed.

  Definition n_exog (u : option (mat T)) : nat := match u with Some U => nc U | None => 0 end.
  (** the regressors as the documentation has them *)
  Definition design_ok (y : mat T) (p : nat) (u : option (mat T)) (s : nat) (z : mat T) : Prop :=
    let P := Nat.max p s in
    nr z = nr y - P /\ nc z = 1 + p * nc y + n_exog u * (1 + s) /\ wf z
    /\ forall t, t < nr y - P ->
         mget z t 0 = n1
         /\ (forall tau f, tau < p -> f < nc y -> mget z t (1 + tau * nc y + f) = mget y (P + t - S tau) f)
         /\ forall U, u = Some U ->
              (forall tau f, tau < s -> f < nc U -> mget z t (1 + p * nc y + tau * nc U + f) = mget U (P + t - S tau) f)
              /\ (forall f, f < nc U -> mget z t (1 + p * nc y + s * nc U + f) = mget U (P + t) f).
  Lemma lag_bound k d j f : j < k -> f < d -> j * d + f < k * d.
  Proof. intros. nia. Qed.
  Lemma design_spec (y : mat T) p u s : Nat.max p s <= nr y -> 0 < nc y -> (forall U, u = Some U -> nr U = nr y /\ 0 < nc U) -> (u = None -> s = 0) ->
    exists z, varx_design y p u s = Ok z /\ design_ok y p u s z.
  Proof.
    intros HP Hd HU Hs. unfold varx_design. destruct (Nat.ltb_spec (nr y) (Nat.max p s)) as [L|_]; [lia|].
    set (P := Nat.max p s) in *.
    match goal with |- context [fill_lags ?Z0 y P (seq 1 p) 1] => set (z0 := Z0) end.
    destruct (fill_lags_ok y P p 1 1 z0 HP (le_n _) ltac:(unfold P; lia) eq_refl (wf_mbuild _ _ _) Hd) as (Z1 & E1 & R1 & C1 & W1 & O1 & G1).
    rewrite E1. cbn [bind fst snd]. change (nr z0) with (nr y - P) in *. 
    assert (N0 : nc z0 = 1 + p * nc y + n_exog u * (1 + s)) by reflexivity.
    assert (Z00 : forall t, t < nr y - P -> mget z0 t 0 = n1).
    { intros t Ht. unfold z0. rewrite mget_mbuild by lia. reflexivity. }
    clearbody z0.
    destruct u as [U|].
    - destruct (HU U eq_refl) as [HrU HcU]. cbn [n_exog] in N0.
      destruct (fill_lags_ok U P s 1 (1 + p * nc y) Z1 ltac:(lia) (le_n _) ltac:(unfold P; lia) ltac:(lia) W1 HcU) as (Z2 & E2 & R2 & C2 & W2 & O2 & G2).
      rewrite E2. cbn [bind fst snd].
      destruct (set_cols_ok Z2 (1 + p * nc y + s * nc U) (mslice P (nr U) U)) as (z & E3 & R3 & C3 & W3 & G3).
      { cbn [mslice mbuild nr]. lia. }
      change (nc (mslice P (nr U) U)) with (nc U) in G3.
      exists z. split; [exact E3|]. unfold design_ok. fold P. split; [lia|]. split; [rewrite C3, C2, C1, N0; reflexivity|]. split; [exact W3|].
      intros t Ht.
      assert (Q : forall q, q < 1 + p * nc y + s * nc U -> mget z t q = mget Z2 t q).
      { intros q Hq. rewrite G3 by lia. destruct (Nat.leb_spec (1 + p * nc y + s * nc U) q); cbn [andb]; [lia | reflexivity]. }
      split; [|split].
      + rewrite Q by lia. rewrite O2 by lia. rewrite O1 by lia. apply Z00. exact Ht.
      + intros tau f Htau Hf. pose proof (lag_bound p (nc y) tau f Htau Hf). rewrite Q by lia. rewrite O2 by lia. rewrite G1 by lia. f_equal. unfold P; lia.
      + intros U' EU. injection EU as <-. split.
        * intros tau f Htau Hf. pose proof (lag_bound s (nc U) tau f Htau Hf). rewrite Q by lia. rewrite G2 by lia. f_equal. unfold P; lia.
        * intros f Hf. rewrite G3 by lia.
          destruct (Nat.leb_spec (1 + p * nc y + s * nc U) (1 + p * nc y + s * nc U + f)), (Nat.ltb_spec (1 + p * nc y + s * nc U + f) (1 + p * nc y + s * nc U + nc U)); cbn [andb]; try lia.
          replace (1 + p * nc y + s * nc U + f - (1 + p * nc y + s * nc U)) with f by lia. unfold mslice. rewrite mget_mbuild by lia. reflexivity.
    - exists Z1. split; [reflexivity|]. unfold design_ok. fold P. split; [lia|]. split; [congruence|]. split; [exact W1|].
      intros t Ht. split; [rewrite O1 by lia; apply Z00; exact Ht|]. split; [|discriminate].
      intros tau f Htau Hf. pose proof (lag_bound p (nc y) tau f Htau Hf). rewrite G1 by lia. f_equal. unfold P; lia.
  Qed.

  (** when the constructor accepts its arguments, and what it builds *)
  Definition varx_args_ok (y : mat T) (p : pyval T) (u : option (mat T)) (s : pyval T) : Prop :=
    0 < nr y /\ 0 < nc y /\
    exists p', p = PInt (Z.of_nat p') /\
      match u with
      | None => p' <= nr y
      | Some U => nr U = nr y /\ 0 < nc U /\ exists s', s = PInt (Z.of_nat s') /\ Nat.max p' s' <= nr y
      end.
  Definition fresh (y : mat T) (p : nat) (u : option (mat T)) (s : nat) (m : varx T) : Prop :=
    vx_p m = p /\ vx_s m = s /\ vx_y m = y /\ vx_u m = u /\ design_ok y p u s (vx_z m)
    /\ vx_residuals m = mzeros (nr y) (nc y).
  Lemma check_nonempty_cases (M : mat T) : (check_nonempty M = Ok M /\ 0 < nr M /\ 0 < nc M) \/ (check_nonempty M = Raise ValueError /\ ~ (0 < nr M /\ 0 < nc M)).
  Proof. unfold check_nonempty. destruct (Nat.eqb_spec (nr M) 0), (Nat.eqb_spec (nc M) 0); cbn [orb]; [right | right | right | left]; split; try reflexivity; lia. Qed.
  Lemma design_short (y : mat T) p u s : nr y < Nat.max p s -> varx_design y p u s = Raise ValueError.
  Proof. intros H. unfold varx_design. destruct (Nat.ltb_spec (nr y) (Nat.max p s)); [reflexivity | lia]. Qed.
  Lemma varx_new_cases (y : mat T) p u s :
    (varx_args_ok y p u s /\ exists m p' s', varx_new y p u s = Ok m /\ p = PInt (Z.of_nat p') /\ (u = None -> s' = 0) /\ (u <> None -> s = PInt (Z.of_nat s'))
       /\ Nat.max p' s' <= nr y /\ fresh y p' u s' m)
    \/ (~ varx_args_ok y p u s /\ varx_new y p u s = Raise ValueError).
  Proof.
    unfold varx_new. destruct p as [|zp|x|]; try solve [right; split; [intros (_ & _ & p' & E & _); discriminate | reflexivity]].
    destruct (Z.ltb_spec zp 0) as [L|L].
    { right. split; [|reflexivity]. intros (_ & _ & p' & E & _). injection E as ->. lia. }
    set (p := Z.to_nat zp). assert (Ep : zp = Z.of_nat p) by (unfold p; lia). clearbody p. subst zp. rewrite !Nat2Z.id || idtac.
    assert (INJ : forall q, @PInt T (Z.of_nat p) = PInt (Z.of_nat q) -> q = p) by (intros q E; injection E as E; lia).
    destruct (check_nonempty_cases y) as [(-> & Hn & Hd)|(-> & B)].
    2:{ right. split; [|reflexivity]. intros (A1 & A2 & _). apply B. auto. }
    cbn [bind]. destruct u as [U|].
    - destruct (check_nonempty_cases U) as [(-> & HrU & HcU)|(-> & B)]; cbn [bind].
      2:{ right. split; [|reflexivity]. intros (_ & _ & p' & E & A1 & A2 & _). apply B. lia. }
      destruct (Nat.eqb_spec (nr U) (nr y)) as [ER|ER]; cbn [negb].
      2:{ right. split; [|reflexivity]. intros (_ & _ & p' & E & A1 & _). contradiction. }
      destruct s as [|zs|x|]; try solve [right; split; [intros (_ & _ & p' & E & _ & _ & s' & E' & _); discriminate | reflexivity]].
      destruct (Z.ltb_spec zs 0) as [Ls|Ls].
      { right. split; [|reflexivity]. intros (_ & _ & p' & E & _ & _ & s' & E' & _). injection E' as ->. lia. }
      set (s := Z.to_nat zs). assert (Es : zs = Z.of_nat s) by (unfold s; lia). clearbody s. subst zs.
      destruct (le_lt_dec (Nat.max p s) (nr y)) as [LE|GT].
      + left. split; [split; [exact Hn|]; split; [exact Hd|]; exists p; split; [reflexivity|]; split; [exact ER|]; split; [exact HcU|]; exists s; auto|].
        destruct (design_spec y p (Some U) s LE Hd) as (z & -> & D); [intros U' E; injection E as <-; auto | discriminate|]. cbn [bind].
        eexists. exists p, s. split; [reflexivity|]. split; [reflexivity|]. split; [discriminate|]. split; [reflexivity|]. split; [exact LE|].
        do 4 (split; [reflexivity|]). split; [exact D | reflexivity].
      + right. split.
        * intros (_ & _ & p' & E & _ & _ & s' & E' & LE). apply INJ in E. injection E' as E'. assert (s' = s) by lia. subst. lia.
        * rewrite design_short by exact GT. reflexivity.
    - destruct (le_lt_dec p (nr y)) as [LE|GT].
      + left. split; [split; [exact Hn|]; split; [exact Hd|]; exists p; auto|].
        destruct (design_spec y p None 0 ltac:(lia) Hd) as (z & -> & D); [discriminate | reflexivity|]. cbn [bind].
        eexists. exists p, 0. split; [reflexivity|]. split; [reflexivity|]. split; [reflexivity|]. split; [congruence|]. split; [lia|].
        do 4 (split; [reflexivity|]). split; [exact D | reflexivity].
      + right. split.
        * intros (_ & _ & p' & E & LE). apply INJ in E. subst. lia.
        * rewrite design_short by lia. reflexivity.
  Qed.
End Design.

Local Open Scope R_scope.
(** a row of regressors times a vector of coefficients *)
Definition design_row (p s : nat) (y : mat R) (u : option (mat R)) (t : nat) (x : nat -> R) : R :=
  x O
  + Sum p (fun tau => Sum (nc y) (fun j => ent y (t - S tau) j * x (1 + tau * nc y + j)%nat))
  + match u with
    | None => 0
    | Some U => Sum s (fun tau => Sum (nc U) (fun j => ent U (t - S tau) j * x (1 + p * nc y + tau * nc U + j)%nat))
                + Sum (nc U) (fun j => ent U t j * x (1 + p * nc y + s * nc U + j)%nat)
    end.
Lemma design_dot y p u s z t x : design_ok y p u s z -> (t < nr y - Nat.max p s)%nat -> (u = None -> s = 0%nat) ->
  Sum (nc z) (fun q => ent z t q * x q) = design_row p s y u (Nat.max p s + t) x.
Proof.
  intros (_ & HC & _ & H) Ht Hs. destruct (H t Ht) as (H0 & HY & HU). clear H.
  change (forall tau f, (tau < p)%nat -> (f < nc y)%nat -> ent z t (1 + tau * nc y + f) = ent y (Nat.max p s + t - S tau) f) in HY.
  assert (E : nc z = ((1 + p * nc y) + n_exog u * (1 + s))%nat) by lia. rewrite E, Sum_split.
  unfold design_row. f_equal.
  - rewrite (Sum_split 1 (p * nc y)). f_equal.
    + cbn [Sum]. change (ent z t 0) with (mget z t 0). rewrite H0. cbn. ring.
    + rewrite Sum_grid. apply Sum_ext; intros tau Htau. apply Sum_ext; intros j Hj. rewrite Nat.add_assoc. rewrite HY by assumption. reflexivity.
  - destruct u as [U|]; [|cbn; reflexivity]. cbn [n_exog]. destruct (HU U eq_refl) as [HB HB0].
    change (forall tau f, (tau < s)%nat -> (f < nc U)%nat -> ent z t (1 + p * nc y + tau * nc U + f) = ent U (Nat.max p s + t - S tau) f) in HB.
    change (forall f, (f < nc U)%nat -> ent z t (1 + p * nc y + s * nc U + f) = ent U (Nat.max p s + t) f) in HB0.
    replace (nc U * (1 + s))%nat with (s * nc U + nc U)%nat by lia. rewrite Sum_split. f_equal.
    + rewrite Sum_grid. apply Sum_ext; intros tau Htau. apply Sum_ext; intros j Hj. rewrite !Nat.add_assoc. rewrite HB by assumption. reflexivity.
    + apply Sum_ext; intros j Hj. rewrite !Nat.add_assoc. rewrite HB0 by assumption. reflexivity.
Qed.

Lemma reshape3_ent (M : mat R) a b c k i j : (k < a)%nat -> (i < b)%nat -> (j < c)%nat -> nc M = c ->
  ent (nth k (reshape3 M a b c) no_mat) i j = ent M (k * b + i) j.
Proof.
  intros Hk Hi Hj HC. unfold reshape3. rewrite nth_tab by exact Hk. rewrite ent_mbuild by assumption. rewrite HC.
  destruct (div_grid c (k * b + i) j Hj) as [-> ->]. reflexivity.
Qed.
Lemma swapaxes_ent (X : list (mat R)) a b c k i j : length X = a -> (forall X', In X' X -> nr X' = b /\ nc X' = c) -> (k < a)%nat -> (i < c)%nat -> (j < b)%nat ->
  ent (nth k (swapaxes12 X) no_mat) i j = ent (nth k X no_mat) j i.
Proof.
  intros HL HX Hk Hi Hj. unfold swapaxes12. rewrite (nth_indep _ no_mat (mtr no_mat)) by (rewrite map_length; lia). rewrite map_nth.
  destruct (HX (nth k X no_mat)) as [Hr Hc]; [apply nth_In; lia|]. rewrite ent_mtr by lia. reflexivity.
Qed.
Lemma reshape_swap_ent (M : mat R) a b c k i j : nc M = c -> (k < a)%nat -> (i < c)%nat -> (j < b)%nat ->
  ent (nth k (swapaxes12 (reshape3 M a b c)) no_mat) i j = ent M (k * b + j) i.
Proof.
  intros HC Hk Hi Hj. rewrite (swapaxes_ent _ a b c); try assumption.
  - apply reshape3_ent; assumption.
  - unfold reshape3. apply length_tab.
  - intros X' HX. unfold reshape3 in HX. apply in_tab in HX. destruct HX as (k' & _ & ->). split; reflexivity.
Qed.

(** what the constructor and every fit maintain *)
Definition errors_of (m : varx R) (B : mat R) : Prop :=
  forall t f, (t < nr (vx_y m) - Nat.max (vx_p m) (vx_s m))%nat -> (f < nc (vx_y m))%nat ->
    ent (vx_residuals m) (Nat.max (vx_p m) (vx_s m) + t) f
    = ent (vx_y m) (Nat.max (vx_p m) (vx_s m) + t) f - design_row (vx_p m) (vx_s m) (vx_y m) (vx_u m) (Nat.max (vx_p m) (vx_s m) + t) (fun q => ent B q f).
Definition local_ok (y : mat R) (p : nat) (u : option (mat R)) (s : nat) (m : varx R) : Prop :=
  vx_p m = p /\ vx_s m = s /\ vx_y m = y /\ vx_u m = u /\ design_ok y p u s (vx_z m)
  /\ is_mat (nr y) (nc y) (vx_residuals m)
  /\ forall t f, (t < Nat.max p s)%nat -> ent (vx_residuals m) t f = 0.
Lemma fresh_ok y p u s m : fresh y p u s m -> local_ok y p u s m.
Proof.
  intros (H1 & H2 & H3 & H4 & H5 & H6). do 5 (split; [assumption|]). rewrite H6. split; [apply is_mat_mbuild|]. intros. apply ent_mzeros.
Qed.

Section Fit.
  Variables (lstsq : mat R -> mat R -> res (mat R)) (inv : mat R -> res (mat R)).
  Hypothesis Hshape : lstsq_shape lstsq.

  Definition fitted (m : varx R) (params : mat R) (m' : varx R) : Prop :=
    vx_mu m' = mrow params 0
    /\ (forall tau i j, (tau < vx_p m)%nat -> (i < nc (vx_y m))%nat -> (j < nc (vx_y m))%nat ->
          ent (nth tau (reported_list (vx_A m')) no_mat) i j = ent params (1 + tau * nc (vx_y m) + j) i)
    /\ forall U, vx_u m = Some U ->
        (forall tau i j, (tau < vx_s m)%nat -> (i < nc (vx_y m))%nat -> (j < nc U)%nat ->
           ent (nth tau (reported_list (vx_B m')) no_mat) i j = ent params (1 + vx_p m * nc (vx_y m) + tau * nc U + j) i)
        /\ (forall i j, (i < nc (vx_y m))%nat -> (j < nc U)%nat ->
           ent (reported_mat (vx_B0 m')) i j = ent params (1 + vx_p m * nc (vx_y m) + vx_s m * nc U + j) i).

  Lemma params_shape m w B y p u s : local_ok y p u s m -> varx_params lstsq m w = Ok B -> is_mat (nc (vx_z m)) (nc y) B.
  Proof using Hshape.
    intros (H1 & H2 & H3 & H4 & H5 & H6) E. unfold varx_params in E. destruct w as [ws|].
    - destruct (negb _); [discriminate|]. apply Hshape in E. cbn in E. rewrite H3 in E. exact E.
    - apply Hshape in E. cbn in E. rewrite H3 in E. exact E.
  Qed.

  Lemma fit_inv m w m' y p u s : local_ok y p u s m -> (u = None -> s = 0%nat) -> varx_fit lstsq inv m w = Ok m' ->
    exists B S, varx_params lstsq m w = Ok B /\ is_mat (nc (vx_z m)) (nc y) B /\ local_ok y p u s m' /\ fitted m B m' /\ errors_of m' B
      /\ vx_z m' = vx_z m /\ inv (vx_Sigma_u m') = Ok S /\ vx_Sigma_u_inv m' = Some S /\ nr (vx_Sigma_u m') = nc y
      /\ (vx_A m' = None -> p = 0%nat /\ vx_A m = None)
      /\ (vx_B0 m' = None -> u = None).
  Proof using Hshape.
    intros L Hu E. unfold varx_fit in E. apply bind_ok in E. destruct E as (B & EB & E). pose proof (params_shape _ _ _ _ _ _ _ L EB) as SB.
    destruct L as (H1 & H2 & H3 & H4 & H5 & H6 & H7). apply bind_ok in E. destruct E as (S & ES & E). injection E as <-.
    exists B, S. split; [exact EB|]. split; [exact SB|]. destruct SB as (NB & CB & SB).
    assert (ZC : nc (vx_z m) = (1 + p * nc y + n_exog u * (1 + s))%nat) by apply H5.
    assert (ZR : nr (vx_z m) = (nr y - Nat.max p s)%nat) by apply H5.
    set (m' := mk_varx _ _ _ _ _ _ _ _ _ _ _ _).
    assert (L' : local_ok y p u s m').
    { unfold m'. split; [exact H1|]. split; [exact H2|]. split; [exact H3|]. split; [exact H4|]. split; [exact H5|]. cbn [vx_residuals].
      rewrite H3. split; [apply is_mat_mbuild|]. intros t f Ht. rewrite H1, H2.
      destruct (le_lt_dec (nr y) t) as [O|I]; [apply (ent_out _ _ _ _ _ (is_mat_mbuild _ _ _)); auto|].
      destruct (le_lt_dec (nc y) f) as [O|I']; [apply (ent_out _ _ _ _ _ (is_mat_mbuild _ _ _)); auto|].
      rewrite ent_mbuild by assumption. destruct (Nat.ltb_spec t (Nat.max p s)); [apply H7; assumption | lia]. }
    split; [exact L'|]. split; [|split].
    - (* reported parameters *)
      unfold fitted. rewrite H1, H2, H3. split; [reflexivity|]. split.
      + intros tau i j Htau Hi Hj. unfold m'. cbn [vx_A]. rewrite H1, H3. destruct (Nat.ltb_spec 0 p); [|lia]. cbn [reported_list].
        rewrite reshape_swap_ent by (try assumption; exact CB). unfold mslice.
        pose proof (lag_bound p (nc y) tau j Htau Hj).
        rewrite NB, CB, ZC. generalize (n_exog u * (1 + s))%nat as ex; intros ex. replace (nc y * p)%nat with (p * nc y)%nat by lia. rewrite ent_mbuild by lia. rewrite mget_ent; f_equal; lia.
      + intros U EU. rewrite H4 in EU. rewrite EU in H4, ZC. clear EU. cbn [n_exog] in ZC. unfold m'. cbn [vx_B vx_B0]. rewrite H4. cbn [fst snd reported_mat]. split.
        * intros tau i j Htau Hi Hj. rewrite H1, H2, H3. destruct (Nat.ltb_spec 0 s); [|lia]. cbn [reported_list].
          rewrite reshape_swap_ent by (try assumption; exact CB). unfold mslice.
          pose proof (lag_bound s (nc U) tau j Htau Hj). rewrite NB, CB, ZC.
          replace (nc y * p)%nat with (p * nc y)%nat by lia. replace (nc U * (1 + s))%nat with (s * nc U + nc U)%nat by lia.
          rewrite ent_mbuild by lia. rewrite mget_ent; f_equal; lia.
        * intros i j Hi Hj. rewrite H1, H2, H3. replace (nc y * p)%nat with (p * nc y)%nat by lia. replace (nc U * (1 + s))%nat with (s * nc U + nc U)%nat in ZC by lia.
          rewrite ent_mtr by (cbn [mslice mbuild nr nc]; rewrite ?NB, ?CB, ?ZC; lia). unfold mslice. rewrite NB, CB, ZC.
          rewrite ent_mbuild by lia. rewrite mget_ent; f_equal; lia.
    - intros t f. unfold m'. cbn [vx_y vx_p vx_s vx_u vx_residuals]. rewrite H1, H2, H3, H4. intros Ht Hf.
      rewrite ent_mbuild by lia. destruct (Nat.ltb_spec (Nat.max p s + t) (Nat.max p s)); [lia|].
      replace (Nat.max p s + t - Nat.max p s)%nat with t by lia.
      change (ent y (Nat.max p s + t) f - ent (mmul (vx_z m) B) t f = ent y (Nat.max p s + t) f - design_row p s y u (Nat.max p s + t) (fun q => ent B q f)).
      f_equal. rewrite ent_mmul by (try rewrite ZR; try rewrite CB; assumption). apply design_dot; assumption.
    - split; [reflexivity|]. split; [exact ES|]. split; [reflexivity|]. split; [|split].
      + unfold m', varx_covariance. cbn [vx_Sigma_u]. destruct w; cbn [mmap mmul mbuild nr mtr mul_rows mslice nc]; exact H3 || reflexivity || (rewrite H3; reflexivity).
      + unfold m'. cbn [vx_A]. rewrite H1. destruct (Nat.ltb_spec 0 p); [discriminate|]. intros; split; [lia | assumption].
      + unfold m'. cbn [vx_B0]. rewrite H4. destruct u; [discriminate | reflexivity].
  Qed.

  (** the reported parameters make the forecasts of the regression *)
  Lemma forecast_fitted m B m' p s t f : fitted m B m' -> vx_p m = p -> vx_s m = s -> nc B = nc (vx_y m) -> (0 < nr B)%nat -> (f < nc (vx_y m))%nat ->
    varx_forecast p s (vx_y m) (vx_u m) (vx_mu m') (reported_list (vx_A m')) (reported_list (vx_B m')) (reported_mat (vx_B0 m')) t f
    = design_row p s (vx_y m) (vx_u m) t (fun q => ent B q f).
  Proof.
    intros (F1 & F2 & F3) Hp Hs HC HR Hf. unfold varx_forecast, design_row. f_equal; [f_equal|].
    - rewrite F1. unfold at_, mrow. rewrite HC, nth_tab by exact Hf. reflexivity.
    - apply Sum_ext; intros tau Htau. apply Sum_ext; intros j Hj. rewrite F2 by lia. ring.
    - destruct (vx_u m) as [U|]; [|reflexivity]. destruct (F3 U eq_refl) as [FB FB0]. f_equal.
      + apply Sum_ext; intros tau Htau. apply Sum_ext; intros j Hj. rewrite FB by lia. subst p. ring.
      + apply Sum_ext; intros j Hj. rewrite FB0 by lia. subst p s. ring.
  Qed.
End Fit.

(** ** competitors *)
(** coefficients of a model as a regression matrix *)
Definition coefficient (p s d e : nat) (mu : list R) (A B : list (mat R)) (B0 : mat R) (q f : nat) : R :=
  if Nat.ltb q 1 then at_ mu f
  else if Nat.ltb q (1 + p * d) then ent (nth ((q - 1) / d) A no_mat) f ((q - 1) mod d)
  else if Nat.ltb q (1 + p * d + s * e) then ent (nth ((q - (1 + p * d)) / e) B no_mat) f ((q - (1 + p * d)) mod e)
  else ent B0 f (q - (1 + p * d + s * e)).
Lemma design_row_coefficient p s y u mu A B B0 t f :
  design_row p s y u t (fun q => coefficient p s (nc y) (n_exog u) mu A B B0 q f) = varx_forecast p s y u mu A B B0 t f.
Proof.
  unfold design_row, varx_forecast. f_equal; [f_equal|].
  - apply Sum_ext; intros tau Htau. apply Sum_ext; intros j Hj. pose proof (lag_bound p (nc y) tau j Htau Hj). unfold coefficient.
    destruct (Nat.ltb_spec (1 + tau * nc y + j) 1); [lia|]. destruct (Nat.ltb_spec (1 + tau * nc y + j) (1 + p * nc y)); [|lia].
    replace (1 + tau * nc y + j - 1)%nat with (tau * nc y + j)%nat by lia. destruct (div_grid (nc y) tau j Hj) as [-> ->]. ring.
  - destruct u as [U|]; [|reflexivity]. cbn [n_exog]. f_equal.
    + apply Sum_ext; intros tau Htau. apply Sum_ext; intros j Hj. pose proof (lag_bound s (nc U) tau j Htau Hj). unfold coefficient.
      destruct (Nat.ltb_spec (1 + p * nc y + tau * nc U + j) 1); [lia|]. destruct (Nat.ltb_spec (1 + p * nc y + tau * nc U + j) (1 + p * nc y)); [lia|].
      destruct (Nat.ltb_spec (1 + p * nc y + tau * nc U + j) (1 + p * nc y + s * nc U)); [|lia].
      replace (1 + p * nc y + tau * nc U + j - (1 + p * nc y))%nat with (tau * nc U + j)%nat by lia. destruct (div_grid (nc U) tau j Hj) as [-> ->]. ring.
    + apply Sum_ext; intros j Hj. unfold coefficient.
      destruct (Nat.ltb_spec (1 + p * nc y + s * nc U + j) 1); [lia|]. destruct (Nat.ltb_spec (1 + p * nc y + s * nc U + j) (1 + p * nc y)); [lia|].
      destruct (Nat.ltb_spec (1 + p * nc y + s * nc U + j) (1 + p * nc y + s * nc U)); [lia|].
      replace (1 + p * nc y + s * nc U + j - (1 + p * nc y + s * nc U))%nat with j by lia. ring.
Qed.

(** the weight of sample t in a fit *)
Definition weight_at (w : option (list R)) (t : nat) : R := match w with None => 1 | Some ws => at_ ws t end.
Lemma design_row_ext p s y u t x x' : (forall q, (q < 1 + p * nc y + n_exog u * (1 + s))%nat -> x q = x' q) -> design_row p s y u t x = design_row p s y u t x'.
Proof.
  intros H. unfold design_row. f_equal; [f_equal|].
  - apply H. lia.
  - apply Sum_ext; intros tau Htau. apply Sum_ext; intros j Hj. pose proof (lag_bound p (nc y) tau j Htau Hj). rewrite H by nia. reflexivity.
  - destruct u as [U|]; [|reflexivity]. cbn [n_exog] in H. f_equal.
    + apply Sum_ext; intros tau Htau. apply Sum_ext; intros j Hj. pose proof (lag_bound s (nc U) tau j Htau Hj). rewrite H by nia. reflexivity.
    + apply Sum_ext; intros j Hj. rewrite H by nia. reflexivity.
Qed.

Lemma nth_skipn' {A} (l : list A) n i d : nth i (skipn n l) d = nth (n + i) l d.
Proof. revert n; induction l as [|x l IH]; intros [|n]; cbn [skipn nth Nat.add]; try reflexivity; [destruct i; reflexivity | apply IH]. Qed.
Lemma ent_mul_rows v M i j : (i < nr M)%nat -> (j < nc M)%nat -> ent (@mul_rows R Num_R v M) i j = at_ v i * ent M i j.
Proof. intros. unfold mul_rows. rewrite ent_mbuild by assumption. reflexivity. Qed.
Lemma ent_mslice lo hi M i j : (i < Nat.min hi (nr M) - lo)%nat -> (j < nc M)%nat -> ent (@mslice R Num_R lo hi M) i j = ent M (lo + i) j.
Proof. intros. unfold mslice. rewrite ent_mbuild by assumption. reflexivity. Qed.
(** the error minimised by the least-squares call is the weighted error *)
Lemma regression_weighted m w y p u s (B : mat R) : local_ok y p u s m -> (u = None -> s = 0%nat) ->
  (forall ws, w = Some ws -> length ws = nr y /\ forall t, (t < nr y)%nat -> 0 <= at_ ws t) ->
  is_mat (nc (vx_z m)) (nc y) B ->
  regression_error (match w with None => vx_z m | Some ws => mul_rows (map nsqrt (skipn (Nat.max p s) ws)) (vx_z m) end)
                   (match w with None => mslice (Nat.max p s) (nr y) y | Some ws => mul_rows (map nsqrt (skipn (Nat.max p s) ws)) (mslice (Nat.max p s) (nr y) y) end) B
  = weighted_error (Nat.max p s) y (weight_at w) (fun t f => design_row p s y u t (fun q => ent B q f)).
Proof.
  intros (H1 & H2 & H3 & H4 & H5 & H6 & H7) Hu Hw HB. unfold weighted_error.
  assert (ZR : nr (vx_z m) = (nr y - Nat.max p s)%nat) by apply H5.
  destruct w as [ws|].
  - destruct (Hw ws eq_refl) as [HL HN]. unfold regression_error. cbn [mul_rows mslice mbuild nr nc]. rewrite Nat.min_id.
    apply Sum_ext; intros t Ht. cbn [weight_at]. rewrite <- Sum_scal_l. apply Sum_ext; intros f Hf.
    set (v := map nsqrt (skipn (Nat.max p s) ws)).
    rewrite ent_mul_rows by (cbn [mslice mbuild nr nc]; lia). rewrite ent_mslice by lia.
    assert (Er : at_ v t * at_ v t = at_ ws (Nat.max p s + t)).
    { unfold v, at_. rewrite (nth_indep _ _ (nsqrt n0)) by (rewrite map_length, skipn_length; lia). rewrite map_nth. rewrite nth_skipn'.
      change (sqrt (at_ ws (Nat.max p s + t)) * sqrt (at_ ws (Nat.max p s + t)) = at_ ws (Nat.max p s + t)). apply sqrt_sqrt, HN. lia. }
    rewrite (Sum_ext _ _ (fun q => at_ v t * (ent (vx_z m) t q * ent B q f))).
    2:{ intros q Hq. rewrite ent_mul_rows by lia. ring. }
    rewrite Sum_scal_l, (design_dot y p u s) by assumption. rewrite <- Er. ring.
  - unfold regression_error. cbn [mslice mbuild nr nc]. rewrite Nat.min_id.
    apply Sum_ext; intros t Ht. cbn [weight_at]. rewrite Rmult_1_l. apply Sum_ext; intros f Hf.
    rewrite ent_mslice by lia. rewrite (design_dot y p u s) by assumption. reflexivity.
Qed.
Lemma weighted_error_ext P y w w' F F' : (forall t, (t < nr y - P)%nat -> w (P + t)%nat = w' (P + t)%nat) ->
  (forall t f, (t < nr y - P)%nat -> (f < nc y)%nat -> ent y (P + t) f - F (P + t)%nat f = ent y (P + t) f - F' (P + t)%nat f) ->
  weighted_error P y w F = weighted_error P y w' F'.
Proof.
  intros Hw HF. unfold weighted_error. apply Sum_ext; intros t Ht. rewrite Hw by exact Ht. f_equal. apply Sum_ext; intros f Hf. rewrite HF by assumption. reflexivity.
Qed.

Lemma fit_minimises lstsq inv m w m' y p u s : lstsq_shape lstsq -> lstsq_minimises lstsq -> local_ok y p u s m -> (u = None -> s = 0%nat) ->
  (forall ws, w = Some ws -> forall t, (t < nr y)%nat -> 0 <= at_ ws t) ->
  varx_fit lstsq inv m w = Ok m' -> forall x : nat -> nat -> R,
  weighted_error (Nat.max p s) y (weight_at w) (fun t f => ent y t f - ent (vx_residuals m') t f)
  <= weighted_error (Nat.max p s) y (weight_at w) (fun t f => design_row p s y u t (fun q => x q f)).
Proof.
  intros Hs Hm L Hu Hw E x. destruct (fit_inv lstsq inv Hs _ _ _ _ _ _ _ L Hu E) as (B & S & EB & SB & L' & F & ER & _).
  destruct L as (H1 & H2 & H3 & H4 & H5 & H6 & H7).
  assert (L : local_ok y p u s m) by (do 6 (split; [assumption|]); assumption).
  unfold errors_of in ER. destruct L' as (H1' & H2' & H3' & H4' & _). rewrite H1', H2', H3', H4' in ER.
  rewrite (weighted_error_ext _ _ _ (weight_at w) _ (fun t f => design_row p s y u t (fun q => ent B q f))); [|reflexivity|].
  2:{ intros t f Ht Hf. rewrite ER by assumption. ring. }
  set (B' := mbuild (nc (vx_z m)) (nc y) x).
  rewrite (weighted_error_ext _ _ _ (weight_at w) (fun t f => design_row p s y u t (fun q => x q f)) (fun t f => design_row p s y u t (fun q => ent B' q f))); [|reflexivity|].
  2:{ intros t f Ht Hf. f_equal. apply design_row_ext. intros q Hq. unfold B'. rewrite ent_mbuild; [reflexivity | | exact Hf].
      assert (ZC : nc (vx_z m) = (1 + p * nc y + n_exog u * (1 + s))%nat) by apply H5. lia. }
  assert (HL : forall ws, w = Some ws -> length ws = nr y).
  { intros ws ->. unfold varx_params in EB. rewrite H3 in EB. destruct (Nat.eqb_spec (length ws) (nr y)); [assumption | discriminate]. }
  assert (HW : forall ws, w = Some ws -> length ws = nr y /\ forall t, (t < nr y)%nat -> 0 <= at_ ws t) by (intros ws Ew; split; [apply HL | apply Hw]; assumption).
  assert (SB' : is_mat (nc (vx_z m)) (nc y) B') by apply is_mat_mbuild.
  rewrite <- (regression_weighted m w y p u s B L Hu HW SB), <- (regression_weighted m w y p u s B' L Hu HW SB').
  unfold varx_params in EB. rewrite H1, H2, H3 in EB. destruct w as [ws|].
  - destruct (negb _) in EB; [discriminate|]. apply (Hm _ _ _ EB). apply is_mat_mbuild.
  - apply (Hm _ _ _ EB). apply is_mat_mbuild.
Qed.
