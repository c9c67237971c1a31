(** FEM-BV-VARX: initial guess and parameter updates *)
From Coq Require Import List Arith ZArith Bool Reals Lra Lia.
From Verif Require Import Num Mat Py Lp M_random M_iter M_gpnh M_furthest M_fembv M_varx Spec Spec_fembv Spec_varx
  P_lin P_random P_iter P_mat P_gpnh_run P_furthest P_fembv P_fembv_upd P_fembv_run P_varx.
Import ListNotations.

Lemma map_res_ok {A B} (f : A -> res B) : forall l l', map_res f l = Ok l' ->
  length l' = length l /\ forall i x, nth_error l i = Some x -> exists y, nth_error l' i = Some y /\ f x = Ok y.
Proof.
  induction l as [|a l IH]; intros l' H; cbn [map_res] in H.
  - injection H as <-. split; [reflexivity|]. intros [|i] x E; discriminate.
  - apply bind_ok in H. destruct H as (y & Ey & H). apply bind_ok in H. destruct H as (ys & Eys & H). injection H as <-.
    destruct (IH _ Eys) as [L N]. split; [cbn; congruence|]. intros [|i] x E; cbn [nth_error] in *; [injection E as <-; eauto | apply N; exact E].
Qed.
Lemma map_res_raise_inv {A B} (f : A -> res B) : forall l e, map_res f l = Raise e -> exists x, In x l /\ f x = Raise e.
Proof.
  induction l as [|a l IH]; intros e H; cbn [map_res] in H; [discriminate|].
  destruct (f a) as [y|e1] eqn:Ea; cbn [bind] in H; [|exists a; split; [left; reflexivity | congruence]].
  destruct (map_res f l) as [ys|e1] eqn:El; cbn [bind] in H; [discriminate|]. destruct (IH e1 eq_refl) as (x & Hx & E). exists x. split; [right; exact Hx | congruence].
Qed.
Lemma nth_error_seq b n i : i < n -> nth_error (seq b n) i = Some (b + i).
Proof. intros H. rewrite (nth_error_nth' _ 0) by (rewrite seq_length; exact H). rewrite seq_nth by exact H. reflexivity. Qed.
Lemma zmax_ge l x : In x l -> (x <= zmax l)%Z.
Proof.
  destruct l as [|a l]; [contradiction|]. cbn [zmax]. revert a x. induction l as [|b l IH]; intros a x [<-|H]; cbn [fold_left].
  - lia.
  - contradiction.
  - specialize (IH (Z.max a b) (Z.max a b) (or_introl eq_refl)). lia.
  - destruct H as [<-|H]; [specialize (IH (Z.max a b) (Z.max a b) (or_introl eq_refl)); lia | apply IH; right; exact H].
Qed.
Lemma zmax_in l : l <> [] -> In (zmax l) l.
Proof.
  destruct l as [|a l]; [congruence|]. intros _. cbn [zmax]. revert a. induction l as [|b l IH]; intros a; cbn [fold_left]; [left; reflexivity|].
  destruct (Z.max_spec a b) as [[_ ->]|[_ ->]]; [right; apply IH|]. destruct (IH a) as [H|H]; [left; exact H | right; right; exact H].
Qed.
Lemma zmax_repeat z k : 0 < k -> zmax (repeat z k) = z.
Proof. intros H. assert (R : repeat z k <> []) by (destruct k; [lia | discriminate]). apply zmax_in in R. apply repeat_spec in R. exact R. Qed.
Lemma nth_repeat_lt {A} (x d : A) k i : i < k -> nth i (repeat x k) d = x.
Proof. revert i; induction k as [|k IH]; intros [|i] H; cbn [repeat nth]; try lia; [reflexivity | apply IH; lia]. Qed.
Lemma set_nth_error {A} (l : list A) : forall i j v, nth_error (set_nth i v l) j = if Nat.eqb j i then option_map (fun _ => v) (nth_error l j) else nth_error l j.
Proof.
  induction l as [|x l IH]; intros [|i] [|j] v; cbn [set_nth nth_error Nat.eqb option_map]; try reflexivity.
  - destruct (Nat.eqb j i); reflexivity.
  - apply IH.
Qed.
Lemma set_nth_nth {A} (l : list A) i j v d : i < length l -> nth j (set_nth i v l) d = if Nat.eqb j i then v else nth j l d.
Proof.
  revert i j; induction l as [|x l IH]; intros [|i] [|j] H; cbn [set_nth nth Nat.eqb length] in *; try lia; try reflexivity. apply IH. lia.
Qed.

Section Gen.
  Context {T : Type} {N : Num T} (lstsq : mat T -> mat T -> res (mat T)) (inv : mat T -> res (mat T)) (memory : list Z).

  Definition component_data (data : mat T) (i : nat) : mat T := mslice (Z.to_nat (zmax memory - nth i memory 0%Z)) (nr data) data.

  Lemma varx_fit_same m w m' : varx_fit lstsq inv m w = Ok m' ->
    vx_p m' = vx_p m /\ vx_s m' = vx_s m /\ vx_y m' = vx_y m /\ vx_u m' = vx_u m /\ vx_z m' = vx_z m
    /\ nr (vx_residuals m') = nr (vx_y m) /\ nc (vx_residuals m') = nc (vx_y m).
  Proof.
    unfold varx_fit. intros E. apply bind_ok in E. destruct E as (B & _ & E). apply bind_ok in E. destruct E as (S & _ & E). injection E as <-.
    repeat (split; [reflexivity|]). reflexivity.
  Qed.

  Lemma initialize_inv k data ext init old (g g' : rng T) p : varx_initialize lstsq inv memory k data ext init old g = Ok (p, g') ->
    g' = g /\ vp_X p = data /\ vp_u p = ext /\ (forall U, ext = Some U -> nr U = nr data /\ 0 < nr U /\ 0 < nc U)
    /\ length (vp_models p) = k
    /\ vp_mu p = mzeros k (nc data)
    /\ vp_A p = (if (0 <? zmax memory)%Z then Some (repeat (stack_zeros (Z.to_nat (zmax memory)) (nc data) (nc data)) k)
                 else match old with Some o => vp_A o | None => None end)
    /\ vp_B0 p = match ext with
                 | Some U => Some (stack_zeros k (nc data) (nc U))
                 | None => match old with Some o => vp_B0 o | None => None end
                 end
    /\ forall i, i < k -> exists m0 m, varx_new (component_data data i) (PInt (nth i memory 0%Z)) ext (PInt 0) = Ok m0
         /\ varx_fit lstsq inv m0 None = Ok m /\ nth_error (vp_models p) i = Some m
         /\ assignable (nr data - mem_max memory) (residual_norms memory m) = true.
  Proof.
    unfold varx_initialize. intros H. apply bind_ok in H. destruct H as (u & Eu & H).
    assert (U : u = ext /\ forall U, ext = Some U -> nr U = nr data /\ 0 < nr U /\ 0 < nc U).
    { destruct ext as [U|]; [|injection Eu as <-; split; [reflexivity | discriminate]]. apply bind_ok in Eu. destruct Eu as (U' & E & Eu).
      destruct (check_nonempty_cases U) as [(E' & Hr & Hc)|(E' & _)]; rewrite E' in E; [|discriminate]. injection E as <-.
      destruct (Nat.eqb_spec (nr U) (nr data)); [|discriminate]. injection Eu as <-. split; [reflexivity|]. intros U0 E0. injection E0 as <-. auto. }
    destruct U as [-> HU]. apply bind_ok in H. destruct H as (ms0 & E0 & H). apply bind_ok in H. destruct H as (ms & E1 & H).
    destruct (forallb _ ms) eqn:EF; [|discriminate]. cbn [negb] in H. injection H as <- <-.
    apply map_res_ok in E0. apply map_res_ok in E1. destruct E0 as [L0 N0], E1 as [L1 N1].
    split; [reflexivity|]. split; [reflexivity|]. split; [reflexivity|]. split; [exact HU|]. cbn [vp_models vp_mu vp_A vp_B0].
    split; [rewrite L1, L0, seq_length; reflexivity|]. split; [reflexivity|]. split; [reflexivity|]. split; [destruct ext; reflexivity|].
    intros i Hi. destruct (N0 i i) as (m0 & Em0 & Ei); [rewrite nth_error_seq by exact Hi; reflexivity|].
    destruct (N1 i m0 Em0) as (m & Em & Ef). exists m0, m. split; [exact Ei|]. split; [exact Ef|]. split; [exact Em|].
    rewrite forallb_forall in EF. apply EF. eapply nth_error_In. exact Em.
  Qed.

  (** entries of the reported parameters of component i *)
  Definition A_of (p : vparams T) (i : nat) : list (mat T) := match vp_A p with Some A => nth i A [] | None => [] end.
  Definition B0_of (p : vparams T) (i : nat) : mat T := match vp_B0 p with Some B => nth i B (mkmat 0 0 []) | None => mkmat 0 0 [] end.
  Definition mem_at (i : nat) : nat := Z.to_nat (nth i memory 0%Z).
  Definition shaped (k : nat) (p : vparams T) : Prop :=
    length (vp_models p) = k /\ nr (vp_mu p) = k /\ (forall A, vp_A p = Some A -> length A = k \/ mem_max memory = 0)
    /\ (forall B, vp_B0 p = Some B -> length B = k \/ vp_u p = None).
  Definition component_weights (G : mat T) (i : nat) : list T := repeat n1 (mem_at i) ++ mcol G i.
  Definition updated (G : mat T) (i : nat) (p p' : vparams T) : Prop :=
    exists m m', nth_error (vp_models p) i = Some m /\ nth_error (vp_models p') i = Some m'
      /\ varx_fit lstsq inv m (Some (component_weights G i)) = Ok m'
      /\ (forall f, f < nc (vp_mu p) -> mget (vp_mu p') i f = vget (vx_mu m') f)
      /\ (0 < mem_at i -> exists A, vx_A m' = Some A /\ A_of p' i = A ++ skipn (mem_at i) (A_of p i))
      /\ (forall U, vp_u p = Some U -> exists B, vx_B0 m' = Some B /\ B0_of p' i = B).
  Definition unchanged (i : nat) (p p' : vparams T) : Prop :=
    nth_error (vp_models p') i = nth_error (vp_models p) i /\ (forall f, f < nc (vp_mu p) -> mget (vp_mu p') i f = mget (vp_mu p) i f)
    /\ A_of p' i = A_of p i /\ B0_of p' i = B0_of p i.
  Definition same_frame (p p' : vparams T) : Prop :=
    vp_X p' = vp_X p /\ vp_u p' = vp_u p /\ nc (vp_mu p') = nc (vp_mu p) /\ (vp_u p = None -> vp_B0 p' = vp_B0 p)
    /\ (mem_max memory = 0 -> vp_A p' = vp_A p)
    /\ (vp_A p <> None -> vp_A p' <> None) /\ (vp_B0 p <> None -> vp_B0 p' <> None).

  Lemma mem_at_max i : i < length memory -> mem_at i <= mem_max memory.
  Proof. intros H. unfold mem_at, mem_max. pose proof (zmax_ge memory (nth i memory 0%Z) (nth_In _ _ H)). lia. Qed.

  Lemma update_one_spec G i k p p' : i < length memory -> i < k -> shaped k p -> varx_update_one lstsq inv memory G i p = Ok p' ->
    shaped k p' /\ same_frame p p' /\ updated G i p p' /\ forall j, j <> i -> j < k -> unchanged j p p'.
  Proof.
    intros Him Hik (S1 & S2 & S3 & S4) H. pose proof (mem_at_max i Him) as HM. unfold varx_update_one in H. destruct (nth_error (vp_models p) i) as [m|] eqn:Em; [|discriminate].
    apply bind_ok in H. destruct H as (m' & Ef & H). apply bind_ok in H. destruct H as (A & EA & H). apply bind_ok in H. destruct H as (B & EB & H). injection H as <-.
    fold (mem_at i) in EA, Ef. fold (component_weights G i) in Ef.
    assert (HA : (vp_A p <> None -> A <> None) /\ (forall A0, A = Some A0 -> length A0 = k \/ mem_max memory = 0) /\ (mem_max memory = 0 -> A = vp_A p)
      /\ (0 < mem_at i -> exists A_i, vx_A m' = Some A_i /\ match A with Some A0 => nth i A0 [] | None => [] end = A_i ++ skipn (mem_at i) (A_of p i))
      /\ forall j, j <> i -> match A with Some A0 => nth j A0 [] | None => [] end = A_of p j).
    { destruct (Nat.ltb_spec 0 (mem_at i)).
      - destruct (vp_A p) as [A0|] eqn:EP; [|discriminate]. destruct (vx_A m') as [A_i|]; [|discriminate]. injection EA as <-. split; [discriminate|].
        assert (L : length A0 = k) by (destruct (S3 A0 eq_refl); [assumption | lia]).
        split; [intros A1 E; injection E as <-; left; rewrite set_nth_length; exact L|]. split; [lia|].
        unfold A_of. rewrite EP. split.
        + intros _. exists A_i. split; [reflexivity|]. rewrite set_nth_nth by lia. rewrite Nat.eqb_refl. reflexivity.
        + intros j Hj. rewrite set_nth_nth by lia. destruct (Nat.eqb_spec j i); [contradiction | reflexivity].
      - injection EA as <-. split; [auto|]. split; [exact S3|]. split; [reflexivity|]. split; [lia | reflexivity]. }
    assert (HB : (vp_B0 p <> None -> B <> None) /\ (forall B1, B = Some B1 -> length B1 = k \/ vp_u p = None) /\ (vp_u p = None -> B = vp_B0 p)
      /\ (forall U, vp_u p = Some U -> exists B_i, vx_B0 m' = Some B_i /\ match B with Some B1 => nth i B1 (mkmat 0 0 []) | None => mkmat 0 0 [] end = B_i)
      /\ forall j, j <> i -> match B with Some B1 => nth j B1 (mkmat 0 0 []) | None => mkmat 0 0 [] end = B0_of p j).
    { destruct (vp_u p) as [U|] eqn:EU.
      - destruct (vp_B0 p) as [B1|] eqn:EP; [|discriminate]. destruct (vx_B0 m') as [B_i|]; [|discriminate]. injection EB as <-. split; [discriminate|].
        assert (L : length B1 = k) by (destruct (S4 B1 eq_refl); [assumption | discriminate]).
        split; [intros B2 E; injection E as <-; left; rewrite set_nth_length; exact L|]. split; [discriminate|]. unfold B0_of. rewrite EP. split.
        + intros U' _. exists B_i. split; [reflexivity|]. rewrite set_nth_nth by lia. rewrite Nat.eqb_refl. reflexivity.
        + intros j Hj. rewrite set_nth_nth by lia. destruct (Nat.eqb_spec j i); [contradiction | reflexivity].
      - injection EB as <-. split; [auto|]. split; [intros B1 _; right; reflexivity|]. split; [reflexivity|]. split; [discriminate | reflexivity]. }
    destruct HA as (HA0 & HA1 & HA2 & HA3 & HA4), HB as (HB0 & HB1 & HB2 & HB3 & HB4).
    split; [split; [cbn; rewrite set_nth_length; exact S1|]; split; [exact S2|]; split; [exact HA1 | exact HB1]|].
    split; [repeat (split; [reflexivity|]); split; [exact HB2 | split; [exact HA2 | split; [exact HA0 | exact HB0]]]|]. split.
    - exists m, m'. split; [exact Em|]. split; [cbn [vp_models]; rewrite set_nth_error, Nat.eqb_refl, Em; reflexivity|]. split; [exact Ef|].
      split; [intros f Hf; cbn [vp_mu]; rewrite mget_mbuild by lia; rewrite Nat.eqb_refl; reflexivity|]. split; [exact HA3 | exact HB3].
    - intros j Hj Hjk. split; [cbn [vp_models]; rewrite set_nth_error; destruct (Nat.eqb_spec j i); [contradiction | reflexivity]|].
      split; [intros f Hf; cbn [vp_mu]; rewrite mget_mbuild by lia; destruct (Nat.eqb_spec j i); [contradiction | reflexivity]|].
      split; [apply HA4; exact Hj | apply HB4; exact Hj].
  Qed.

  Lemma same_frame_trans p q r : same_frame p q -> same_frame q r -> same_frame p r.
  Proof.
    intros (A1 & A2 & A3 & A4 & A5 & A6 & A7) (B1 & B2 & B3 & B4 & B5 & B6 & B7). split; [congruence|]. split; [congruence|]. split; [congruence|]. split; [|split; [|split; [auto | auto]]].
    - intros E. rewrite B4 by congruence. apply A4. exact E.
    - intros E. rewrite B5 by exact E. apply A5. exact E.
  Qed.
  Lemma update_from_spec G k cnt : forall b p p', b + cnt <= k -> k <= length memory -> shaped k p -> varx_update_from lstsq inv memory G (seq b cnt) p = Ok p' ->
    shaped k p' /\ same_frame p p' /\ (forall i, b <= i < b + cnt -> updated G i p p') /\ (forall i, i < k -> ~ (b <= i < b + cnt) -> unchanged i p p').
  Proof.
    induction cnt as [|cnt IH]; intros b p p' Hb Hk HS H; cbn [seq varx_update_from] in H.
    - injection H as <-. split; [exact HS|]. split; [do 3 (split; [reflexivity|]); split; [reflexivity | split; [reflexivity | split; intros ?; assumption]]|]. split; [intros; lia|].
      intros. repeat (split; [reflexivity|]). reflexivity.
    - apply bind_ok in H. destruct H as (q & E1 & H). apply (update_one_spec G b k) in E1; try assumption; try lia.
      destruct E1 as (SQ & FQ & UQ & OQ). apply IH in H; try assumption; try lia. destruct H as (SP & FP & UP & OP).
      split; [exact SP|]. split; [eapply same_frame_trans; eassumption|].
      destruct FQ as (F1 & F2 & F3 & _). split.
      + intros i Hi. destruct (Nat.eq_dec i b) as [->|Ne].
        * destruct UQ as (m & m' & A1 & A2 & A3 & A4 & A5 & A6). destruct (OP b ltac:(lia) ltac:(lia)) as (O1 & O2 & O3 & O4).
          exists m, m'. split; [exact A1|]. split; [congruence|]. split; [exact A3|]. split; [intros f Hf; rewrite O2 by (rewrite F3; exact Hf); apply A4; exact Hf|].
          rewrite O3, O4. split; assumption.
        * destruct (UP i ltac:(lia)) as (m & m' & A1 & A2 & A3 & A4 & A5 & A6). destruct (OQ i Ne ltac:(lia)) as (O1 & O2 & O3 & O4).
          exists m, m'. split; [congruence|]. split; [exact A2|]. split; [exact A3|]. split; [intros f Hf; apply A4; rewrite F3; exact Hf|].
          rewrite <- O3. split; [exact A5 | intros U EU; apply (A6 U); congruence].
      + intros i Hi Ho. destruct (OQ i ltac:(lia) Hi) as (O1 & O2 & O3 & O4). destruct (OP i Hi ltac:(lia)) as (Q1 & Q2 & Q3 & Q4).
        split; [congruence|]. split; [intros f Hf; rewrite Q2 by (rewrite F3; exact Hf); apply O2; exact Hf|]. split; congruence.
  Qed.
  Lemma update_spec G k p p' : k <= length memory -> shaped k p -> varx_update lstsq inv memory G p = Ok p' ->
    shaped k p' /\ same_frame p p' /\ forall i, i < k -> updated G i p p'.
  Proof.
    intros Hk HS H. unfold varx_update in H. assert (L : length (vp_models p) = k) by apply HS. rewrite L in H.
    apply (update_from_spec G k k 0) in H; try assumption; try lia. destruct H as (H1 & H2 & H3 & _). split; [exact H1|]. split; [exact H2|].
    intros i Hi. apply H3. lia.
  Qed.
  (** every component's residuals keep their shape *)
  Definition residual_rows (rows : nat -> nat) (k : nat) (p : vparams T) : Prop :=
    forall i, i < k -> exists m, nth_error (vp_models p) i = Some m /\ nr (vx_residuals m) = rows i /\ nr (vx_y m) = rows i.
  Lemma initialize_shaped k data ext init old (g g' : rng T) p :
    varx_initialize lstsq inv memory k data ext init old g = Ok (p, g') -> shaped k p.
  Proof.
    intros H. apply initialize_inv in H. destruct H as (_ & _ & Eu & _ & L & Emu & EA & EB & _).
    split; [exact L|]. split; [rewrite Emu; reflexivity|]. rewrite EA, EB, Eu. split.
    - intros A E. destruct (Z.ltb_spec 0 (zmax memory)) as [Hp|Hp]; [injection E as <-; left; apply repeat_length | right; unfold mem_max; lia].
    - intros B E. destruct ext; [injection E as <-; left; unfold stack_zeros; apply repeat_length | right; reflexivity].
  Qed.

  Lemma component_rows data i : i < length memory -> (0 <= nth i memory 0)%Z ->
    nr (component_data data i) = nr data - (mem_max memory - mem_at i).
  Proof.
    intros Hi H0. cbn [component_data mslice mbuild nr]. unfold component_data, mslice, mbuild. cbn [nr]. rewrite Nat.min_id.
    pose proof (zmax_ge memory _ (nth_In memory 0%Z Hi)). unfold mem_max, mem_at. lia.
  Qed.
  (** unequal memories *)
  Lemma unequal_external k data U init old (g : rng T) i : k <= length memory -> i < k -> nth i memory 0%Z <> zmax memory ->
    varx_initialize lstsq inv memory k data (Some U) init old g = Raise ValueError.
  Proof.
    intros Hk Hi Hne. unfold varx_initialize.
    destruct (check_nonempty_cases U) as [(-> & Hr & Hc)|(-> & _)]; cbn [bind]; [|reflexivity].
    destruct (Nat.eqb_spec (nr U) (nr data)) as [ER|ER]; cbn [negb]; [|reflexivity]. cbn [bind].
    match goal with |- bind (map_res ?F ?l) _ = _ => set (f := F); destruct (map_res f l) as [ms|e] eqn:E end; cbn [bind].
    - exfalso. apply map_res_ok in E. destruct E as [_ E]. destruct (E i i) as (m & _ & Em); [rewrite nth_error_seq by exact Hi; reflexivity|].
      unfold f in Em. fold (component_data data i) in Em.
      destruct (varx_new_cases (component_data data i) (PInt (nth i memory 0%Z)) (Some U) (PInt 0)) as [(A & _)|(_ & E2)]; [|rewrite E2 in Em; discriminate].
      destruct A as (_ & _ & p' & E3 & E4 & _). injection E3 as E3. rewrite component_rows in E4 by lia.
      pose proof (zmax_ge memory _ (nth_In memory 0%Z (Nat.lt_le_trans _ _ _ Hi Hk))). unfold mem_max, mem_at in E4. lia.
    - apply map_res_raise_inv in E. destruct E as (j & _ & E). unfold f in E.
      destruct (varx_new_cases (mslice (Z.to_nat (zmax memory - nth j memory 0%Z)) (nr data) data) (PInt (nth j memory 0%Z)) (Some U) (PInt 0)) as [(_ & m & p' & s' & E1 & _)|(_ & E1)]; rewrite E1 in E; [discriminate | congruence].
  Qed.
  Definition one_row (data : mat T) (i : nat) : Prop := nr data - (mem_max memory - mem_at i) - mem_max memory = 1.
  Definition one_residual (k : nat) (p : vparams T) (i : nat) : Prop :=
    exists m, nth_error (vp_models p) i = Some m /\ nr (vx_residuals m) - mem_max memory = 1 /\ nr (vx_y m) - mem_max memory = 1.
  Lemma unequal_broadcast k data ext init old (g g' : rng T) p i : k <= length memory -> i < k -> nth i memory 0%Z <> zmax memory -> mem_max memory < nr data ->
    varx_initialize lstsq inv memory k data ext init old g = Ok (p, g') ->
    (0 <= nth i memory 0)%Z /\ one_row data i /\ one_residual k p i.
  Proof.
    intros Hk Hi Hne Hn H. apply initialize_inv in H. destruct H as (_ & HX & _ & _ & _ & _ & _ & _ & H).
    destruct (H i Hi) as (m0 & m & E0 & Ef & Em & Ea).
    destruct (varx_new_cases (component_data data i) (PInt (nth i memory 0%Z)) ext (PInt 0)) as [(_ & m1 & p' & s' & E1 & E2 & _ & _ & _ & F)|(_ & E1)]; rewrite E1 in E0; [|discriminate].
    injection E0 as ->. injection E2 as E2. destruct F as (_ & _ & Fy & _).
    destruct (varx_fit_same _ _ _ Ef) as (_ & _ & Y & _ & _ & R & _). rewrite Fy in R, Y.
    assert (H0 : (0 <= nth i memory 0)%Z) by lia. rewrite component_rows in R by lia.
    pose proof (zmax_ge memory _ (nth_In memory 0%Z (Nat.lt_le_trans _ _ _ Hi Hk))) as HZ.
    unfold assignable, residual_norms in Ea. rewrite length_tab in Ea. cbn [mslice mbuild nr] in Ea. unfold mslice in Ea. cbn [mbuild nr] in Ea. rewrite Nat.min_id, R in Ea.
    assert (L : mem_at i < mem_max memory) by (unfold mem_at, mem_max; lia).
    split; [exact H0|]. unfold one_row.
    apply orb_true_iff in Ea. destruct Ea as [Ea|Ea]; apply Nat.eqb_eq in Ea; [lia|]. split; [exact Ea|].
    exists m. split; [exact Em|]. split; [lia|]. rewrite Y, component_rows by lia. exact Ea.
  Qed.
  Lemma one_residual_update k G p p' i : k <= length memory -> i < k -> shaped k p -> one_residual k p i ->
    varx_update lstsq inv memory G p = Ok p' -> one_residual k p' i.
  Proof.
    intros Hk Hi HS (m & Em & Er & Ey) H. apply (update_spec G k) in H; try assumption. destruct H as (_ & _ & H).
    destruct (H i Hi) as (m1 & m2 & E1 & E2 & Ef & _). rewrite Em in E1. injection E1 as <-. destruct (varx_fit_same _ _ _ Ef) as (_ & _ & Y & _ & _ & R & _).
    exists m2. split; [exact E2|]. rewrite R, Y. auto.
  Qed.
  Lemma one_residual_constant k p i t t' : one_residual k p i -> t < nr (vp_X p) - mem_max memory -> t' < nr (vp_X p) - mem_max memory ->
    mget (varx_distance memory p) t i = mget (varx_distance memory p) t' i.
  Proof.
    intros (m & Em & Er & _) Ht Ht'. unfold varx_distance.
    assert (Hi : i < length (vp_models p)) by (apply nth_error_Some; congruence). rewrite !mget_mbuild by assumption.
    rewrite (nth_indep _ [] (residual_norms memory m)) by (rewrite map_length; exact Hi). rewrite map_nth, (nth_error_nth _ _ m Em).
    unfold assigned. assert (L : length (residual_norms memory m) = 1).
    { unfold residual_norms. rewrite length_tab. unfold mslice. cbn [mbuild nr]. rewrite Nat.min_id. exact Er. }
    rewrite L. reflexivity.
  Qed.

  (** ** exceptions, for all memories *)
  Definition gok (X : mat T) (ext : option (mat T)) (k : nat) (p : vparams T) : Prop :=
    shaped k p /\ vp_X p = X /\ vp_u p = ext /\ (0 < mem_max memory -> vp_A p <> None) /\ (ext <> None -> vp_B0 p <> None)
    /\ forall i, i < k -> exists m, nth_error (vp_models p) i = Some m /\ vx_p m = mem_at i /\ vx_u m = ext.
  Lemma initialize_gok k data ext init old (g g' : rng T) p : varx_initialize lstsq inv memory k data ext init old g = Ok (p, g') -> gok data ext k p.
  Proof.
    intros H. pose proof (initialize_shaped _ _ _ _ _ _ _ _ H) as HS. apply initialize_inv in H. destruct H as (_ & EX & EU & _ & _ & _ & EA & EB & H).
    split; [exact HS|]. split; [exact EX|]. split; [exact EU|]. split.
    { intros Hp. rewrite EA. destruct (Z.ltb_spec 0 (zmax memory)) as [L|L]; [discriminate | unfold mem_max in Hp; lia]. }
    split; [intros Hu; rewrite EB; destruct ext; [discriminate | congruence]|].
    intros i Hi. destruct (H i Hi) as (m0 & m & E0 & Ef & Em & _). exists m. split; [exact Em|].
    destruct (varx_new_cases (component_data data i) (PInt (nth i memory 0%Z)) ext (PInt 0)) as [(_ & m1 & p' & s' & E1 & E2 & _ & _ & _ & F)|(_ & E1)]; rewrite E1 in E0; [|discriminate].
    injection E0 as ->. injection E2 as E2. destruct F as (F1 & _ & _ & F4 & _). destruct (varx_fit_same _ _ _ Ef) as (P1 & _ & _ & P4 & _).
    rewrite P1, P4, F1, F4. unfold mem_at. split; [lia | reflexivity].
  Qed.
  Lemma update_gok X ext k G p p' : k <= length memory -> gok X ext k p -> varx_update lstsq inv memory G p = Ok p' -> gok X ext k p'.
  Proof.
    intros Hk (HS & EX & EU & EA & EB & H) E. apply (update_spec G k) in E; try assumption. destruct E as (HS' & (F1 & F2 & F3 & F4 & F5 & F6 & F7) & UP).
    split; [exact HS'|]. split; [congruence|]. split; [congruence|]. split; [auto|]. split; [auto|].
    intros i Hi. destruct (UP i Hi) as (m & m' & E1 & E2 & E3 & _). destruct (H i Hi) as (m0 & E0 & P0 & U0). rewrite E1 in E0. injection E0 as <-.
    destruct (varx_fit_same _ _ _ E3) as (P1 & _ & _ & P4 & _). exists m'. split; [exact E2|]. split; congruence.
  Qed.
  Definition oracle_raises (e : exn) : Prop := (exists Z Y, lstsq Z Y = Raise e) \/ (exists M, inv M = Raise e).
  Lemma fit_raise m w e : varx_fit lstsq inv m w = Raise e -> e = ValueError \/ oracle_raises e.
  Proof.
    unfold varx_fit. intros H. destruct (varx_params lstsq m w) as [B|e1] eqn:EB; cbn [bind] in H.
    - match type of H with bind (inv ?M) _ = _ => destruct (inv M) as [S|e1] eqn:ES; cbn [bind] in H; [discriminate|] end.
      injection H as ->. right. right. eexists. exact ES.
    - injection H as ->. unfold varx_params in EB. destruct w as [ws|]; [destruct (negb _); [injection EB as <-; auto|]|]; right; left; eauto.
  Qed.
  Lemma initialize_raise k data ext init old (g : rng T) e : varx_initialize lstsq inv memory k data ext init old g = Raise e -> e = ValueError \/ oracle_raises e.
  Proof.
    unfold varx_initialize. intros H. match type of H with bind ?M _ = _ => destruct M as [u|e1] eqn:EU end; cbn [bind] in H.
    - match type of H with bind ?M _ = _ => destruct M as [ms|e1] eqn:EM end; cbn [bind] in H.
      + match type of H with bind ?M _ = _ => destruct M as [ms'|e1] eqn:EM' end; cbn [bind] in H.
        * destruct (negb _); [injection H as <-; auto | discriminate].
        * injection H as ->. apply map_res_raise_inv in EM'. destruct EM' as (m & _ & E). apply fit_raise in E. exact E.
      + injection H as ->. apply map_res_raise_inv in EM. destruct EM as (i & _ & E). left.
        match type of E with varx_new ?a ?b ?c ?d = _ => destruct (varx_new_cases a b c d) as [(_ & m & p' & s' & E1 & _)|(_ & E1)] end; rewrite E1 in E; [discriminate | congruence].
    - injection H as ->. left. destruct ext as [U|]; [|discriminate]. destruct (check_nonempty_cases U) as [(E & _)|(E & _)]; rewrite E in EU; cbn [bind] in EU; [|congruence].
      destruct (negb _); [congruence | discriminate].
  Qed.
  Lemma update_one_raise X ext k G i p e : i < length memory -> i < k -> gok X ext k p -> varx_update_one lstsq inv memory G i p = Raise e ->
    exists m, nth_error (vp_models p) i = Some m /\ varx_fit lstsq inv m (Some (component_weights G i)) = Raise e.
  Proof.
    intros Him Hi (HS & EX & EU & EA & EB & H) E. destruct (H i Hi) as (m & Em & P1 & U1). unfold varx_update_one in E. rewrite Em in E.
    destruct (varx_fit lstsq inv m _) as [m'|e1] eqn:Ef; cbn [bind] in E; [|injection E as ->; exists m; auto]. exfalso.
    pose proof (mem_at_max i Him) as HM. fold (mem_at i) in E.
    assert (A : exists A', (if Nat.ltb 0 (mem_at i) then match vp_A p, vx_A m' with Some A, Some A_i => Ok (Some (set_nth i (A_i ++ skipn (mem_at i) (nth i A [])) A)) | _, _ => Raise TypeError end else Ok (vp_A p)) = Ok A').
    { destruct (Nat.ltb_spec 0 (mem_at i)); [|eauto]. destruct (vp_A p) as [A|]; [|exfalso; apply EA; [lia | reflexivity]].
      unfold varx_fit in Ef. apply bind_ok in Ef. destruct Ef as (B & _ & Ef). apply bind_ok in Ef. destruct Ef as (S & _ & Ef). injection Ef as <-. cbn [vx_A]. rewrite P1.
      destruct (Nat.ltb_spec 0 (mem_at i)); [eauto | lia]. }
    destruct A as [A' HA]. rewrite HA in E. cbn [bind] in E. rewrite EU in E. destruct ext as [U|].
    - destruct (vp_B0 p) as [B1|]; [|apply EB; [discriminate | reflexivity]]. unfold varx_fit in Ef. apply bind_ok in Ef. destruct Ef as (B & _ & Ef). apply bind_ok in Ef. destruct Ef as (S & _ & Ef). injection Ef as <-.
      cbn [vx_B0] in E. rewrite U1 in E. discriminate.
    - discriminate.
  Qed.
  Lemma update_one_gok X ext k G i p p' : i < length memory -> i < k -> gok X ext k p -> varx_update_one lstsq inv memory G i p = Ok p' -> gok X ext k p'.
  Proof.
    intros Him Hi (HS & EX & EU & EA & EB & H) E. apply (update_one_spec G i k) in E; try assumption. destruct E as (HS' & (F1 & F2 & F3 & F4 & F5 & F6 & F7) & (m & m' & E1 & E2 & E3 & _) & OT).
    split; [exact HS'|]. split; [congruence|]. split; [congruence|]. split; [auto|]. split; [auto|].
    intros j Hj. destruct (H j Hj) as (m0 & E0 & P0 & U0). destruct (Nat.eq_dec j i) as [->|Ne].
    - rewrite E1 in E0. injection E0 as <-. destruct (varx_fit_same _ _ _ E3) as (P1 & _ & _ & P4 & _). exists m'. split; [exact E2|]. split; congruence.
    - destruct (OT j Ne Hj) as (O1 & _). exists m0. split; [congruence | auto].
  Qed.
  Lemma update_raise_fit (Q : nat -> varx T -> Prop) X ext k G p e : k <= length memory -> (forall i m w m', Q i m -> varx_fit lstsq inv m w = Ok m' -> Q i m') ->
    gok X ext k p -> (forall i m, i < k -> nth_error (vp_models p) i = Some m -> Q i m) -> varx_update lstsq inv memory G p = Raise e ->
    exists i m, i < k /\ Q i m /\ varx_fit lstsq inv m (Some (component_weights G i)) = Raise e.
  Proof.
    intros Hk HQ HG HM H. unfold varx_update in H. assert (L : length (vp_models p) = k) by apply HG. rewrite L in H. clear L.
    assert (Gn : forall l p, (forall i, In i l -> i < k) -> gok X ext k p -> (forall i m, i < k -> nth_error (vp_models p) i = Some m -> Q i m) ->
      varx_update_from lstsq inv memory G l p = Raise e -> exists i m, i < k /\ Q i m /\ varx_fit lstsq inv m (Some (component_weights G i)) = Raise e).
    { induction l as [|i l IH]; intros q Hl Hq Hm E; cbn [varx_update_from] in E; [discriminate|].
      assert (Hi : i < k) by (apply Hl; left; reflexivity).
      destruct (varx_update_one lstsq inv memory G i q) as [q'|e1] eqn:E1; cbn [bind] in E.
      - eapply IH; [intros; apply Hl; right; assumption | | | exact E]; [eapply update_one_gok; [| |exact Hq | exact E1]; lia|].
        apply (update_one_spec G i k) in E1; [| lia | lia | apply Hq]. destruct E1 as (_ & _ & (m & m' & F1 & F2 & F3 & _) & OT).
        intros j mj Hj Ej. destruct (Nat.eq_dec j i) as [->|Ne]; [rewrite F2 in Ej; injection Ej as <-; eapply HQ; [|exact F3]; apply Hm; assumption|].
        destruct (OT j Ne Hj) as (O1 & _). apply Hm; [exact Hj | congruence].
      - injection E as ->. eapply update_one_raise in E1; [| | |exact Hq]; try lia. destruct E1 as (m & F1 & F2). exists i, m. split; [exact Hi|]. split; [apply Hm; assumption | exact F2]. }
    eapply Gn; [|exact HG | exact HM | exact H]. intros i Hi. apply in_seq in Hi. lia.
  Qed.
  Lemma update_raise X ext k G p e : k <= length memory -> gok X ext k p -> varx_update lstsq inv memory G p = Raise e -> e = ValueError \/ oracle_raises e.
  Proof.
    intros Hk HG H. apply (update_raise_fit (fun _ _ => True) X ext k) in H; auto. destruct H as (i & m & _ & _ & H). apply fit_raise in H. exact H.
  Qed.
End Gen.

Lemma after_params_inv {T} {N : Num T} {P A} (cl : fembv_class T P A) solver c k up uw (I : P -> Prop) :
  (forall G p p', I p -> cl_update cl G p = Ok p' -> I p') ->
  forall i w w', I (f_params w) -> fembv_after cl solver c k up uw i w = Ok w' -> I (f_params w').
Proof.
  intros HU. induction i as [|i IH]; intros w w' HI E; cbn [fembv_after] in E; [injection E as <-; exact HI|].
  apply bind_ok in E. destruct E as (w1 & E1 & E). apply bind_ok in E. destruct E as (w2 & E2 & E). apply other_params in E. rewrite E.
  apply IH in E1; [|exact HI]. unfold half_step in E2. destruct up; [|injection E2 as <-; exact E1].
  unfold fembv_update_parameters in E2. apply bind_ok in E2. destruct E2 as (p & E2 & E3). injection E3 as <-. cbn [f_params]. eapply HU; eassumption.
Qed.

(** ** equal memories, over the reals *)
Local Open Scope R_scope.
Section Equal.
  Variables (lstsq : mat R -> mat R -> res (mat R)) (inv : mat R -> res (mat R)) (p k n d : nat) (X : mat R) (u : option (mat R)).
  Hypotheses (Hshape : lstsq_shape lstsq) (Hinv : inv_shape inv) (Hk : (0 < k)%nat) (HX : is_mat n d X).
  Let memory : list Z := repeat (Z.of_nat p) k.
  Lemma memory_length : length memory = k. Proof using. apply repeat_length. Qed.
  Lemma mem_max_eq : mem_max memory = p.
  Proof using Hk. unfold mem_max, memory. rewrite zmax_repeat by exact Hk. lia. Qed.
  Lemma mem_at_eq i : (i < k)%nat -> mem_at memory i = p.
  Proof using Hk. intros H. unfold mem_at, memory. rewrite nth_repeat_lt by exact H. lia. Qed.
  Lemma component_data_eq i : (i < k)%nat -> component_data memory X i = X.
  Proof using Hk HX.
    intros H. unfold component_data, memory. rewrite zmax_repeat, nth_repeat_lt, Z.sub_diag by assumption. cbn [Z.to_nat].
    apply is_mat_wf in HX. rewrite (wf_mbuild_eq X) at 3 by apply HX. unfold mslice. rewrite Nat.min_id, Nat.sub_0_r. reflexivity.
  Qed.

  (** what holds of a component's local model after its fits *)
  Definition model_ok (m : varx R) : Prop :=
    local_ok X p u 0 m /\ (exists M, vx_Sigma_u_inv m = Some M /\ nr M = d)
    /\ exists B, is_mat (nc (vx_z m)) d B /\ errors_of m B /\ fitted m B m.
  Definition vok (s : vparams R) : Prop :=
    shaped memory k s /\ vp_X s = X /\ vp_u s = u /\ nc (vp_mu s) = d
    /\ (forall A, vp_A s = Some A -> (0 < p)%nat -> forall i, (i < k)%nat -> length (nth i A []) = p)
    /\ forall i, (i < k)%nat -> exists m, nth_error (vp_models s) i = Some m /\ model_ok m.
  (** the reported parameters are those of the local models *)
  Definition reported_ok (s : vparams R) : Prop :=
    forall i, (i < k)%nat -> exists m, nth_error (vp_models s) i = Some m /\ mrow (vp_mu s) i = vx_mu m
      /\ ((0 < p)%nat -> A_of s i = reported_list (vx_A m)) /\ (u <> None -> B0_of s i = reported_mat (vx_B0 m)).

  Lemma fit_model_ok m w m' : local_ok X p u 0 m -> varx_fit lstsq inv m w = Ok m' -> model_ok m'.
  Proof using Hshape Hinv HX Hk.
    intros L E. destruct (fit_inv lstsq inv Hshape _ _ _ _ _ _ _ L (fun _ => eq_refl) E) as (B & S & _ & SB & L' & F & ER & EZ & EI & ES & EN & _).
    pose proof HX as (x1 & x2 & _). split; [exact L'|]. split; [exists S; split; [exact ES|]; apply Hinv in EI; lia|].
    exists B. rewrite EZ, <- x2. split; [exact SB|]. split; [exact ER|].
    destruct L as (a1 & a2 & a3 & a4 & _), L' as (b1 & b2 & b3 & b4 & _). unfold fitted in *. rewrite a1, a2, a3, a4 in F. rewrite b1, b2, b3, b4. exact F.
  Qed.
  Lemma initialize_vok init old (g g' : rng R) s : varx_initialize lstsq inv memory k X u init old g = Ok (s, g') -> vok s /\ (p <= n)%nat.
  Proof using Hshape Hinv HX Hk.
    intros H. pose proof (initialize_shaped lstsq inv memory _ _ _ _ _ _ _ _ H) as HS. pose proof HX as (x1 & x2 & _).
    apply initialize_inv in H. destruct H as (_ & EX & EU & _ & _ & Emu & EA & _ & H).
    split.
    - split; [exact HS|]. split; [exact EX|]. split; [exact EU|]. split; [rewrite Emu; exact x2|]. split.
      + intros A E Hp i Hi. rewrite EA in E. unfold memory in E. rewrite zmax_repeat in E by exact Hk. destruct (Z.ltb_spec 0 (Z.of_nat p)); [|lia].
        injection E as <-. rewrite nth_repeat_lt by exact Hi. unfold stack_zeros. rewrite repeat_length. lia.
      + intros i Hi. destruct (H i Hi) as (m0 & m & E0 & Ef & Em & _). exists m. split; [exact Em|].
        rewrite component_data_eq in E0 by exact Hi. unfold memory in E0. rewrite nth_repeat_lt in E0 by exact Hi.
        destruct (varx_new_cases X (PInt (Z.of_nat p)) u (PInt 0)) as [(_ & m1 & p' & s' & E1 & E2 & E3 & E4 & _ & F)|(_ & E1)]; rewrite E1 in E0; [|discriminate].
        injection E0 as ->. injection E2 as E2. assert (p' = p) by lia. subst p'.
        assert (s' = 0%nat). { destruct u as [U|]; [|apply E3; reflexivity]. assert (N : Some U <> None) by discriminate. apply E4 in N. injection N as N. lia. } subst s'.
        eapply fit_model_ok; [apply fresh_ok; exact F | exact Ef].
    - destruct (H 0%nat Hk) as (m0 & m & E0 & _). rewrite component_data_eq in E0 by exact Hk. unfold memory in E0. rewrite nth_repeat_lt in E0 by exact Hk.
      destruct (varx_new_cases X (PInt (Z.of_nat p)) u (PInt 0)) as [(_ & m1 & p' & s' & E1 & E2 & E3 & E4 & LE & F)|(_ & E1)]; rewrite E1 in E0; [|discriminate].
      injection E2 as E2. lia.
  Qed.
  Lemma update_vok G s s' : vok s -> varx_update lstsq inv memory G s = Ok s' ->
    vok s' /\ reported_ok s' /\ forall i, (i < k)%nat -> exists m m', nth_error (vp_models s) i = Some m /\ nth_error (vp_models s') i = Some m'
      /\ varx_fit lstsq inv m (Some (repeat 1 p ++ mcol G i)) = Ok m'.
  Proof using Hshape Hinv HX Hk.
    intros (HS & EX & EU & Emu & EL & H) E. apply (update_spec lstsq inv memory G k) in E; [|rewrite memory_length; lia | exact HS].
    destruct E as (HS' & (F1 & F2 & F3 & F4 & F5 & _) & UP). pose proof HX as (x1 & x2 & _).
    assert (ST : forall i, (i < k)%nat -> exists m m', nth_error (vp_models s) i = Some m /\ nth_error (vp_models s') i = Some m'
      /\ varx_fit lstsq inv m (Some (repeat 1 p ++ mcol G i)) = Ok m' /\ model_ok m
      /\ (forall f, (f < d)%nat -> mget (vp_mu s') i f = vget (vx_mu m') f)
      /\ ((0 < p)%nat -> A_of s' i = reported_list (vx_A m') /\ length (reported_list (vx_A m')) = p)
      /\ (u <> None -> B0_of s' i = reported_mat (vx_B0 m'))).
    { intros i Hi. destruct (UP i Hi) as (m & m' & E1 & E2 & E3 & E4 & E5 & E6). destruct (H i Hi) as (m0 & E0 & OK). rewrite E1 in E0. injection E0 as <-.
      exists m, m'. split; [exact E1|]. split; [exact E2|]. unfold component_weights in E3. rewrite mem_at_eq in E3, E5 by exact Hi. split; [exact E3|]. split; [exact OK|].
      split; [intros f Hf; apply E4; lia|].
      destruct OK as (L & _). split.
      - intros Hp. destruct (E5 Hp) as (A & EA & EAo). rewrite EA. cbn [reported_list].
        assert (LA : length A = p).
        { unfold varx_fit in E3. apply bind_ok in E3. destruct E3 as (B & _ & E3). apply bind_ok in E3. destruct E3 as (S & _ & E3). injection E3 as <-. cbn [vx_A] in EA.
          destruct L as (L1 & _). rewrite L1 in EA. destruct (Nat.ltb_spec 0 p); [|lia]. injection EA as <-. unfold swapaxes12. rewrite map_length. unfold reshape3. apply length_tab. }
        split; [|exact LA]. rewrite EAo. 
        rewrite (skipn_all2 (A_of s i)); [apply app_nil_r|]. unfold A_of. destruct (vp_A s) as [A0|] eqn:E0; [|cbn; lia]. rewrite (EL A0 eq_refl Hp i Hi). lia.
      - intros Hu. rewrite EU in E6. destruct u as [U|]; [|congruence]. destruct (E6 U eq_refl) as (B & EB & EBo). rewrite EB. exact EBo. }
    split; [|split].
    - split; [exact HS'|]. split; [congruence|]. split; [congruence|]. split; [congruence|]. split.
      + intros A EA Hp i Hi. destruct (ST i Hi) as (m & m' & _ & _ & _ & _ & _ & HA & _). destruct (HA Hp) as [HA1 HA2]. unfold A_of in HA1. rewrite EA in HA1. rewrite HA1. exact HA2.
      + intros i Hi. destruct (ST i Hi) as (m & m' & E1 & E2 & E3 & (L & _) & _). exists m'. split; [exact E2|]. eapply fit_model_ok; eassumption.
    - intros i Hi. destruct (ST i Hi) as (m & m' & E1 & E2 & E3 & (L & _) & HM & HA & HB). exists m'. split; [exact E2|]. split; [|split; [apply HA | exact HB]].
      assert (LM : length (vx_mu m') = d).
      { destruct (fit_inv lstsq inv Hshape _ _ _ _ _ _ _ L (fun _ => eq_refl) E3) as (B & S & _ & SB & _ & (F & _) & _). rewrite F. unfold mrow. rewrite length_tab. destruct SB as (_ & SB & _). lia. }
      rewrite (list_eq_tab (vx_mu m') 0), LM. unfold mrow. rewrite F3, Emu. apply tab_ext. intros f Hf. apply HM. exact Hf.
    - intros i Hi. destruct (ST i Hi) as (m & m' & E1 & E2 & E3 & _). eauto.
  Qed.

  Lemma vok_gok s : vok s -> (0 < p -> vp_A s <> None)%nat -> (u <> None -> vp_B0 s <> None) -> gok memory X u k s.
  Proof using Hk.
    intros (HS & EX & EU & Emu & EL & H) HA HB. split; [exact HS|]. split; [exact EX|]. split; [exact EU|]. split; [rewrite mem_max_eq; exact HA|]. split; [exact HB|].
    intros i Hi. destruct (H i Hi) as (m & Em & (L & _)). exists m. split; [exact Em|]. rewrite mem_at_eq by exact Hi. destruct L as (L1 & _ & _ & L4 & _). auto.
  Qed.
  (** with oracles that answer nothing can fail *)
  Lemma fit_total m w : local_ok X p u 0 m -> (forall ws, w = Some ws -> length ws = nr X) ->
    (forall Z Y, nc Z = (1 + p * d + n_exog u)%nat -> exists B, lstsq Z Y = Ok B) -> (forall S, exists S', inv S = Ok S') -> exists m', varx_fit lstsq inv m w = Ok m'.
  Proof using HX Hk.
    intros (L1 & L2 & L3 & L4 & L5 & L6 & _) HW HL HI. destruct HX as (x1 & x2 & _).
    assert (EB : exists B, varx_params lstsq m w = Ok B).
    { unfold varx_params. destruct L5 as (_ & z2 & _). destruct w as [ws|].
      - rewrite L3, (HW ws eq_refl), Nat.eqb_refl. cbn [negb]. apply HL. cbn [mul_rows nc mbuild]. rewrite z2, x2. lia.
      - apply HL. rewrite z2, x2. lia. }
    destruct EB as [B EB]. unfold varx_fit. rewrite EB. cbn [bind]. match goal with |- exists m', bind (inv ?S) _ = _ => destruct (HI S) as [S' ES] end.
    rewrite ES. cbn [bind]. eauto.
  Qed.
  Lemma initialize_total init old (g : rng R) : (0 < d)%nat -> (0 < n)%nat -> (p <= n)%nat -> (forall U, u = Some U -> nr U = n /\ (0 < nc U)%nat) ->
    (forall Z Y, nc Z = (1 + p * d + n_exog u)%nat -> exists B, lstsq Z Y = Ok B) -> (forall S, exists S', inv S = Ok S') ->
    exists s, varx_initialize lstsq inv memory k X u init old g = Ok (s, g).
  Proof using Hshape Hinv HX Hk.
    intros Hd Hn Hp HU HL HI. pose proof HX as (x1 & x2 & _). unfold varx_initialize.
    match goal with |- exists s, bind ?M _ = _ => assert (EU : M = Ok u) end.
    { destruct u as [U|]; [|reflexivity]. destruct (HU U eq_refl) as [U1 U2]. destruct (check_nonempty_cases U) as [(E & _)|(_ & E)]; [|lia].
      rewrite E. cbn [bind]. rewrite U1, x1, Nat.eqb_refl. reflexivity. }
    rewrite EU. cbn [bind].
    match goal with |- exists s, bind (map_res ?F ?l) _ = _ => destruct (map_res F l) as [ms|e] eqn:EM end.
    - cbn [bind]. apply map_res_ok in EM. destruct EM as [LM EM]. rewrite seq_length in LM.
      assert (LO : forall i m, nth_error ms i = Some m -> local_ok X p u 0 m).
      { intros i m Em. assert (Hi : (i < k)%nat) by (rewrite <- LM; apply nth_error_Some; congruence).
        destruct (EM i i) as (m1 & E1 & E2); [rewrite nth_error_seq by exact Hi; reflexivity|]. rewrite E1 in Em. injection Em as ->.
        fold (component_data memory X i) in E2. rewrite component_data_eq in E2 by exact Hi. unfold memory in E2. rewrite nth_repeat_lt in E2 by exact Hi.
        destruct (varx_new_cases X (PInt (Z.of_nat p)) u (PInt 0)) as [(_ & m2 & p' & s' & F1 & F2 & F3 & F4 & _ & F)|(_ & F1)]; rewrite F1 in E2; [|discriminate].
        injection E2 as ->. injection F2 as F2. assert (p' = p) by lia. subst p'.
        assert (s' = 0%nat). { clear - F3 F4. destruct u as [U|]; [|apply F3; reflexivity]. assert (N : Some U <> None) by discriminate. apply F4 in N. injection N as N. lia. } subst s'.
        apply fresh_ok. exact F. }
      match goal with |- exists s, bind (map_res ?F ?l) _ = _ => destruct (map_res F l) as [ms'|e] eqn:EM' end.
      + cbn [bind]. apply map_res_ok in EM'. destruct EM' as [LM' EM'].
        destruct (forallb _ ms') eqn:EF; cbn [negb]; [eauto|]. exfalso.
        apply not_true_iff_false in EF. apply EF. apply forallb_forall. intros m' Hm'. apply In_nth_error in Hm'. destruct Hm' as [i Em'].
        assert (Hi : (i < length ms)%nat) by (rewrite <- LM'; apply nth_error_Some; congruence).
        destruct (nth_error ms i) as [m|] eqn:Em; [|apply nth_error_None in Em; lia]. destruct (EM' i m Em) as (m1 & E1 & E2). rewrite E1 in Em'. injection Em' as ->.
        apply LO in Em. pose proof (fit_model_ok m None m' Em E2) as ((_ & _ & _ & _ & _ & (r1 & _) & _) & _).
        unfold assignable, residual_norms. rewrite length_tab. unfold mslice. cbn [mbuild nr]. rewrite Nat.min_id, r1, Nat.eqb_refl. reflexivity.
      + exfalso. apply map_res_raise_inv in EM'. destruct EM' as (m & Hm & E). apply In_nth_error in Hm. destruct Hm as [i Hm]. apply LO in Hm.
        destruct (fit_total m None Hm ltac:(discriminate) HL HI) as [m' E']. rewrite E' in E. discriminate.
    - exfalso. apply map_res_raise_inv in EM. destruct EM as (i & Hi & E). apply in_seq in Hi. fold (component_data memory X i) in E. rewrite component_data_eq in E by lia.
      unfold memory in E. rewrite nth_repeat_lt in E by lia.
      destruct (varx_new_cases X (PInt (Z.of_nat p)) u (PInt 0)) as [(_ & m2 & p' & s' & F1 & _)|(F1 & _)]; [rewrite F1 in E; discriminate|].
      apply F1. split; [lia|]. split; [lia|]. exists p. split; [reflexivity|]. destruct u as [U|]; [|lia]. destruct (HU U eq_refl) as [U1 U2]. split; [lia|]. split; [lia|]. exists 0%nat. split; [reflexivity | lia].
  Qed.
  Lemma update_total G s : vok s -> gok memory X u k s -> is_mat (n - p) k G -> (p <= n)%nat ->
    (forall Z Y, nc Z = (1 + p * d + n_exog u)%nat -> exists B, lstsq Z Y = Ok B) -> (forall S, exists S', inv S = Ok S') ->
    exists s', varx_update lstsq inv memory G s = Ok s'.
  Proof using Hshape Hinv HX Hk.
    intros HV HG (g1 & g2 & _) Hp HL HI. destruct (varx_update lstsq inv memory G s) as [s'|e] eqn:E; [eauto|]. exfalso. pose proof HX as (x1 & _).
    apply (update_raise_fit lstsq inv memory (fun _ m => local_ok X p u 0 m) X u k) in E; [| rewrite memory_length; lia | | exact HG |].
    - destruct E as (i & m & Hi & L & E). destruct (fit_total m (Some (component_weights memory G i)) L) as [m' E']; try assumption; [|rewrite E' in E; discriminate].
      intros ws [= <-]. unfold component_weights. rewrite app_length, repeat_length, mem_at_eq by exact Hi. unfold mcol. rewrite length_tab. lia.
    - intros i m w m' L E'. apply (fit_model_ok m w) in E'; [apply E' | exact L].
    - intros i m Hi Em. destruct HV as (_ & _ & _ & _ & _ & H). destruct (H i Hi) as (m1 & E1 & (L & _)). rewrite Em in E1. injection E1 as <-. exact L.
  Qed.

  (** the distances are squared residuals *)
  Lemma distance_entry s t i m : vok s -> (t < n - p)%nat -> (i < k)%nat -> nth_error (vp_models s) i = Some m ->
    ent (varx_distance memory s) t i = Sum d (fun f => ent (vx_residuals m) (p + t) f ^ 2).
  Proof using Hk HX.
    intros (HS & EX & EU & Emu & EL & H) Ht Hi Em. destruct (H i Hi) as (m0 & E0 & (L & (M & EM & NM) & _)). rewrite Em in E0. injection E0 as <-.
    pose proof HX as (x1 & x2 & _). destruct L as (L1 & L2 & L3 & L4 & L5 & L6 & L7). destruct L6 as (r1 & r2 & _).
    assert (Hl : (i < length (vp_models s))%nat) by (apply nth_error_Some; congruence).
    unfold varx_distance. rewrite ent_mbuild by (rewrite ?EX, ?mem_max_eq; lia).
    rewrite (nth_indep _ [] (residual_norms memory m)) by (rewrite map_length; exact Hl). rewrite map_nth, (nth_error_nth _ _ m Em).
    assert (LN : length (residual_norms memory m) = (n - p)%nat).
    { unfold residual_norms. rewrite length_tab. unfold mslice. cbn [mbuild nr]. rewrite Nat.min_id, r1, mem_max_eq. lia. }
    assert (EN : forall t, (t < n - p)%nat -> vget (residual_norms memory m) t = Sum d (fun f => ent (vx_residuals m) (p + t) f ^ 2)).
    { intros t' Ht'. unfold vget, residual_norms. rewrite nth_tab; [|unfold mslice; cbn [mbuild nr]; rewrite Nat.min_id, r1, mem_max_eq; lia].
      rewrite EM, mem_max_eq. replace (nc (mslice p (nr (vx_residuals m)) (vx_residuals m))) with d by (unfold mslice; cbn [mbuild nc]; lia). rewrite nsum_Sum. apply Sum_ext; intros j Hj. rewrite nsum_Sum.
      rewrite (Sum_ext d _ (fun q => if Nat.eqb q j then ent (vx_residuals m) (p + t') j ^ 2 else 0)).
      - rewrite (Sum_delta d j (fun _ => ent (vx_residuals m) (p + t') j ^ 2)) by exact Hj. reflexivity.
      - intros q Hq. rewrite !mget_ent, !ent_mslice by (rewrite ?r1, ?r2; lia). unfold meye. rewrite ent_mbuild by lia. rewrite (Nat.eqb_sym j q).
        destruct (Nat.eqb_spec q j) as [->|]; cbn; ring. }
    unfold assigned. rewrite LN. destruct (Nat.eqb_spec (n - p) 1) as [E1|E1]; [replace t with 0%nat by lia; apply EN; lia | apply EN; exact Ht].
  Qed.
  Lemma distance_mat s : vok s -> is_mat (n - p) k (varx_distance memory s).
  Proof using Hk HX.
    intros (HS & EX & _). destruct HX as (x1 & _). assert (E : nr (varx_distance memory s) = (n - p)%nat /\ nc (varx_distance memory s) = k).
    { unfold varx_distance. cbn [nr nc mbuild]. rewrite EX, x1, mem_max_eq. split; [reflexivity | apply HS]. }
    destruct E as [E1 E2]. rewrite <- E1, <- E2. apply is_mat_mbuild.
  Qed.
  Lemma varx_keeps : keeps (varx_class lstsq inv memory) (n - p) k vok.
  Proof using Hshape Hinv HX Hk. split; [exact distance_mat|]. intros G s s' _ HI E. apply (update_vok G) in E; [apply E | exact HI]. Qed.

  (** the cost is a sum of weighted errors *)
  Lemma cost_weighted s G : vok s -> is_mat (n - p) k G ->
    clustering_cost G (varx_distance memory s) = Sum k (fun i => weighted_error p X (weight_at (Some (repeat 1 p ++ mcol G i)))
      (fun t f => ent X t f - match nth_error (vp_models s) i with Some m => ent (vx_residuals m) t f | None => 0 end)).
  Proof using Hk HX.
    intros HV (g1 & g2 & _). pose proof HX as (x1 & x2 & _). unfold clustering_cost. rewrite g1, g2, Sum_swap. apply Sum_ext; intros i Hi.
    pose proof HV as (_ & _ & _ & _ & _ & H). destruct (H i Hi) as (m & Em & _).
    unfold weighted_error. rewrite x1, x2. apply Sum_ext; intros t Ht. f_equal.
    - cbn [weight_at]. unfold at_. rewrite app_nth2 by (rewrite repeat_length; lia). rewrite repeat_length. replace (p + t - p)%nat with t by lia.
      unfold mcol. rewrite nth_tab by lia. reflexivity.
    - rewrite (distance_entry s t i m) by assumption. apply Sum_ext; intros f Hf. rewrite Em. f_equal. ring.
  Qed.
  Lemma weights_nonneg G i : is_mat (n - p) k G -> (forall t j, (t < n - p)%nat -> (j < k)%nat -> 0 <= ent G t j) -> (i < k)%nat ->
    forall t, 0 <= at_ (repeat 1 p ++ mcol G i) t.
  Proof using Hk.
    intros (g1 & g2 & _) H Hi t. unfold at_. destruct (le_lt_dec p t) as [L|L].
    - rewrite app_nth2 by (rewrite repeat_length; exact L). rewrite repeat_length. unfold mcol. rewrite g1.
      destruct (le_lt_dec (n - p) (t - p)) as [O|I]; [rewrite nth_tab_out by exact O; lra | rewrite nth_tab by exact I; apply H; assumption].
    - rewrite app_nth1 by (rewrite repeat_length; exact L). rewrite nth_repeat_lt by exact L. lra.
  Qed.
  Lemma update_cost G s s' : lstsq_minimises lstsq -> vok s -> is_mat (n - p) k G -> (forall t j, (t < n - p)%nat -> (j < k)%nat -> 0 <= ent G t j) ->
    varx_update lstsq inv memory G s = Ok s' -> clustering_cost G (varx_distance memory s') <= clustering_cost G (varx_distance memory s).
  Proof using Hshape Hinv HX Hk.
    intros Hm HV HG HN E. destruct (update_vok G s s' HV E) as (HV' & _ & ST). rewrite !cost_weighted by assumption. apply Sum_le; intros i Hi.
    destruct (ST i Hi) as (m & m' & E1 & E2 & E3). rewrite E1, E2.
    destruct HV as (_ & _ & _ & _ & _ & H). destruct (H i Hi) as (m0 & E0 & (L & _ & B & SB & ER & _)). rewrite E1 in E0. injection E0 as <-.
    pose proof HX as (x1 & x2 & _).
    pose proof (fit_minimises lstsq inv m (Some (repeat 1 p ++ mcol G i)) m' X p u 0 Hshape Hm L (fun _ => eq_refl)) as FM.
    rewrite Nat.max_0_r in FM. specialize (FM ltac:(intros ws Ew t Ht; injection Ew as <-; apply weights_nonneg; assumption) E3 (ent B)).
    eapply Rle_trans; [exact FM|]. right. apply weighted_error_ext; [reflexivity|]. intros t f Ht Hf.
    unfold errors_of in ER. destruct L as (a1 & a2 & a3 & a4 & _). rewrite a1, a2, a3, a4, Nat.max_0_r in ER. rewrite ER by assumption. ring.
  Qed.
  (** the distances are the squared forecast errors of the reported parameters *)
  Lemma distance_reported s t i : vok s -> reported_ok s -> (t < n - p)%nat -> (i < k)%nat ->
    ent (varx_distance memory s) t i
    = Sum d (fun f => (ent X (p + t) f - varx_forecast p 0 X u (mrow (vp_mu s) i) (A_of s i) [] (B0_of s i) (p + t) f) ^ 2).
  Proof using Hk HX.
    intros HV HR Ht Hi. destruct (HR i Hi) as (m & Em & E1 & E2 & E3). rewrite (distance_entry s t i m) by assumption.
    destruct HV as (_ & _ & _ & _ & _ & H). destruct (H i Hi) as (m0 & E0 & (L & _ & B & SB & ER & F)). rewrite Em in E0. injection E0 as <-.
    pose proof HX as (x1 & x2 & _). apply Sum_ext; intros f Hf. f_equal. unfold errors_of in ER. destruct L as (a1 & a2 & a3 & a4 & a5 & _).
    rewrite a1, a2, a3, a4, Nat.max_0_r in ER. rewrite ER by lia. f_equal.
    assert (FF := forecast_fitted m B m p 0 (p + t) f F a1 a2). rewrite a3, a4 in FF. rewrite <- FF.
    - rewrite E1. unfold varx_forecast. f_equal; [f_equal|].
      + apply Sum_ext; intros tau Htau. rewrite E2 by lia. reflexivity.
      + destruct u as [U|]; [|reflexivity]. rewrite E3 by discriminate. f_equal.
    - destruct SB as (_ & SB & _). lia.
    - destruct SB as (SB & _). destruct a5 as (_ & a5 & _). lia.
    - lia.
  Qed.
End Equal.

(** all memories *)
Lemma gok_keeps (lstsq : mat R -> mat R -> res (mat R)) inv memory (X : mat R) u k : (k <= length memory)%nat ->
  keeps (varx_class lstsq inv memory) (nr X - mem_max memory) k (gok memory X u k).
Proof.
  intros Hk. split.
  - intros s (HS & EX & _). cbn [varx_class cl_distance].
    assert (E : nr (varx_distance memory s) = (nr X - mem_max memory)%nat /\ nc (varx_distance memory s) = k).
    { unfold varx_distance. cbn [nr nc mbuild]. rewrite EX. split; [reflexivity | apply HS]. }
    destruct E as [E1 E2]. rewrite <- E1, <- E2. apply is_mat_mbuild.
  - intros G s s' _ HG E. cbn [varx_class cl_update] in E. eapply update_gok; eassumption.
Qed.
Lemma varx_initialize_stream {T} {N : Num T} lstsq inv memory k (data : mat T) ext init old (g g' : rng T) s :
  varx_initialize lstsq inv memory k data ext init old g = Ok (s, g') -> g' = g.
Proof.
  unfold varx_initialize. intros H. apply bind_ok in H. destruct H as (u & _ & H). apply bind_ok in H. destruct H as (ms & _ & H). apply bind_ok in H. destruct H as (ms' & _ & H).
  destruct (negb _); [discriminate|]. injection H as _ <-. reflexivity.
Qed.
Lemma varx_start lstsq inv memory c k old data u weights init g w g' : (k <= length memory)%nat -> (forall W0, weights = Some W0 -> wf W0) ->
  fembv_initialize (varx_class lstsq inv memory) c k old data u weights init g = Ok (w, g') ->
  finv c (nr data - mem_max memory) k (gok memory data u k) w
  /\ (rng_ok k g -> (forall W0, weights = Some W0 -> row_stochastic W0) -> row_stochastic (f_Gamma w))
  /\ varx_initialize lstsq inv memory k data u init old g = Ok (f_params w, g).
Proof.
  intros Hk WW H. apply fembv_initialize_inv in H. destruct H as (p & g1 & E1 & E2 & E3 & E4 & <- & _). cbn [varx_class cl_initialize cl_distance] in *.
  pose proof (varx_initialize_stream _ _ _ _ _ _ _ _ _ _ _ E1) as ->. pose proof (initialize_gok _ _ _ _ _ _ _ _ _ _ _ E1) as HG.
  destruct (gok_keeps lstsq inv memory data u k Hk) as [K _]. specialize (K _ HG). cbn [varx_class cl_distance] in K. destruct K as (d1 & _). rewrite d1 in *.
  apply fembv_weights_ok in E3; [|exact WW]. destruct E3 as [G1 G2]. split; [split; [exact G1 | split; [exact HG | exact E4]]|]. split; [exact G2 | exact E1].
Qed.
