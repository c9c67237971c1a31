(** The calls of MTDConvexCoding on the heap. *)
From Coq Require Import List Arith ZArith Bool Lia.
From Verif Require Import Num Mat Py M_simplex M_spg M_iter M_random M_furthest M_gpnh M_mtd
  Heap M_heap M_heap_mtd Spec_heap Spec_heap_obj P_heap P_heap_loops P_heap_mtd P_heap_call.
Import ListNotations.

Section PMC.
  Context {T : Type} {N : Num T}.
  Notation run_e := (run_e mname_eq m_rd).
  Notation run_h := (run_h mname_eq m_rd).
  Notation vals m := (option_map (fun a => am (m_heap m a))).
  Notation valv m := (option_map (fun a => av (m_heap m a))).
  Notation val3 m := (option_map (fun a => a3 (m_heap m a))).
  Notation mem := (mem (arr T)).

  Lemma vals_unchanged {B} (f : arr T -> B) (m m1 : mem) a : unchanged m m1 -> arg_in m a ->
    option_map (fun x => f (m_heap m1 x)) a = option_map (fun x => f (m_heap m x)) a.
  Proof using.
    intros HU Ha. destruct a as [x|]; [|reflexivity]. cbn. f_equal. f_equal.
    apply (unchanged_val _ _ _ HU). apply Ha. reflexivity.
  Qed.
  Lemma arg_in_unchanged (m m1 : mem) a : unchanged m m1 -> arg_in m a -> arg_in m1 a.
  Proof using. intros HU Ha x Hx. eapply unchanged_in; eauto. Qed.

  (** the caller's arrays *)
  Lemma check_D_sim (m : mem) a k p : arg_in m a ->
    match check_init_dictionary (vals m a) k p with
    | Ok D => exists x, hm_check_D m a k p = Ok x /\ am (m_heap m x) = D /\ exists_in m x
    | Raise e => hm_check_D m a k p = Raise e
    end.
  Proof using.
    intros Ha. unfold hm_check_D. destruct (check_init_dictionary _ _ _) as [D|e] eqn:E; cbn [bind]; [|reflexivity].
    apply given_D in E as (x & -> & <-). exists x. cbn. auto.
  Qed.
  Lemma check_W_sim (m : mem) a k p : arg_in m a ->
    match check_init_weights (vals m a) k p with
    | Ok D => exists x, hm_check_W m a k p = Ok x /\ am (m_heap m x) = D /\ exists_in m x
    | Raise e => hm_check_W m a k p = Raise e
    end.
  Proof using.
    intros Ha. unfold hm_check_W. destruct (check_init_weights _ _ _) as [D|e] eqn:E; cbn [bind]; [|reflexivity].
    apply given_W in E as (x & -> & <-). exists x. cbn. auto.
  Qed.
  Lemma check_o_sim (m : mem) a p : arg_in m a ->
    match check_init_order_weights (valv m a) p with
    | Ok D => exists x, hm_check_o m a p = Ok x /\ av (m_heap m x) = D /\ exists_in m x
    | Raise e => hm_check_o m a p = Raise e
    end.
  Proof using.
    intros Ha. unfold hm_check_o. destruct (check_init_order_weights _ _) as [D|e] eqn:E; cbn [bind]; [|reflexivity].
    apply given_o in E as (x & -> & <-). exists x. cbn. auto.
  Qed.
  Lemma check_T_sim (m : mem) a p k : arg_in m a ->
    match check_init_transition_matrices (val3 m a) p k with
    | Ok D => exists x, hm_check_T m a p k = Ok x /\ a3 (m_heap m x) = D /\ exists_in m x
    | Raise e => hm_check_T m a p k = Raise e
    end.
  Proof using.
    intros Ha. unfold hm_check_T. destruct (check_init_transition_matrices _ _ _) as [D|e] eqn:E; cbn [bind]; [|reflexivity].
    apply given_T in E as (x & -> & <-). exists x. cbn. auto.
  Qed.

  Lemma choose_D_unchanged k (m : mem) data a ud init kwv g d g1 m1 :
    hm_choose_D k m data a ud init kwv g = Ok (d, g1, m1) -> unchanged m m1.
  Proof using.
    unfold hm_choose_D. destruct ud; intros H; apply bind_ok in H as (r & _ & H).
    - injection H as _ _ <-. apply unchanged_alloc.
    - injection H as _ _ <-. apply unchanged_refl.
  Qed.
  Lemma choose_W_unchanged k (m : mem) data a uw init kw g d g1 m1 :
    hm_choose_W k m data a uw init kw g = Ok (d, g1, m1) -> unchanged m m1.
  Proof using.
    unfold hm_choose_W. destruct uw; [destruct kw; [discriminate|]|]; intros H; apply bind_ok in H as (r & _ & H).
    - injection H as _ _ <-. apply unchanged_alloc.
    - injection H as _ _ <-. apply unchanged_refl.
  Qed.
  Lemma choose_P_unchanged c k (m : mem) a b up init kw g o t g1 m1 :
    hm_choose_P c k m a b up init kw g = Ok (o, t, g1, m1) -> unchanged m m1.
  Proof using.
    unfold hm_choose_P. destruct up; [destruct kw; [discriminate|]|]; intros H; apply bind_ok in H as (r & _ & H).
    - injection H as _ _ _ <-. eapply unchanged_trans; [apply (unchanged_alloc m (AV (fst (fst r))))|].
      apply (unchanged_alloc (snd (alloc m (AV (fst (fst r))))) (A3 (snd (fst r)))).
    - apply bind_ok in H as (? & _ & H). injection H as _ _ _ <-. apply unchanged_refl.
  Qed.
  Lemma hm_choose_unchanged (c : mtd_cfg T) k (m : mem) data dict wts ow Ts ud uw up kw g d w o t g' m1 :
    hm_choose c k m data dict wts ow Ts ud uw up kw g = Ok (d, w, o, t, g', m1) -> unchanged m m1.
  Proof using.
    unfold hm_choose. cbv zeta. intros H. destruct (mc_init c);
      [ | | | apply bind_ok in H as (? & _ & H); apply bind_ok in H as (? & _ & H);
              apply bind_ok in H as (? & _ & H); apply bind_ok in H as (? & _ & H);
              injection H as _ _ _ _ _ <-; apply unchanged_refl | ].
    all: apply bind_ok in H as ([[d1 g1] m2] & H1 & H); apply bind_ok in H as ([[w1 g2] m3] & H2 & H);
      apply bind_ok in H as ([[[o1 t1] g3] m4] & H3 & H); injection H as _ _ _ _ _ <-;
      apply choose_D_unchanged in H1; apply choose_W_unchanged in H2; apply choose_P_unchanged in H3;
      eapply unchanged_trans; [exact H1|]; eapply unchanged_trans; eauto.
  Qed.

  Lemma choose_D_sim k (m : mem) data a (ud : bool) init kwv g : arg_in m a ->
    match (if ud then initialize_dictionary (am (m_heap m data)) k init kwv g
           else let! D := check_init_dictionary (vals m a) k (nc (am (m_heap m data))) in Ok (D, g)) with
    | Ok Dg => exists d m1, hm_choose_D k m data a ud init kwv g = Ok (d, snd Dg, m1) /\ unchanged m m1 /\
                 am (m_heap m1 d) = fst Dg /\ exists_in m1 d
    | Raise e => hm_choose_D k m data a ud init kwv g = Raise e
    end.
  Proof using.
    intros Ha. unfold hm_choose_D. destruct ud.
    - destruct (initialize_dictionary _ _ _ _ _) as [r|e]; cbn [bind]; [|reflexivity].
      eexists. eexists. split; [reflexivity|]. split; [apply (unchanged_alloc m (AM (fst r)))|].
      split; [exact (f_equal am (alloc_val m (AM (fst r))))|]. unfold exists_in; cbn; lia.
    - pose proof (check_D_sim m a k (nc (am (m_heap m data))) Ha) as H.
      destruct (check_init_dictionary _ _ _) as [D|e]; cbn [bind].
      + destruct H as (x & -> & Hx & Hi). exists x, m. split; [reflexivity|]. split; [apply unchanged_refl|]. auto.
      + rewrite H. reflexivity.
  Qed.
  Lemma choose_W_sim k (m : mem) data a (uw : bool) init kw g : arg_in m a ->
    match (if uw then match kw with Some _ => Raise TypeError
                      | None => initialize_weights (am (m_heap m data)) k init g end
           else let! D := check_init_weights (vals m a) (nr (am (m_heap m data))) k in Ok (D, g)) with
    | Ok Dg => exists d m1, hm_choose_W k m data a uw init kw g = Ok (d, snd Dg, m1) /\ unchanged m m1 /\
                 am (m_heap m1 d) = fst Dg /\ exists_in m1 d
    | Raise e => hm_choose_W k m data a uw init kw g = Raise e
    end.
  Proof using.
    intros Ha. unfold hm_choose_W. destruct uw.
    - destruct kw; [reflexivity|].
      destruct (initialize_weights _ _ _ _) as [r|e]; cbn [bind]; [|reflexivity].
      eexists. eexists. split; [reflexivity|]. split; [apply (unchanged_alloc m (AM (fst r)))|].
      split; [exact (f_equal am (alloc_val m (AM (fst r))))|]. unfold exists_in; cbn; lia.
    - pose proof (check_W_sim m a (nr (am (m_heap m data))) k Ha) as H.
      destruct (check_init_weights _ _ _) as [D|e]; cbn [bind].
      + destruct H as (x & -> & Hx & Hi). exists x, m. split; [reflexivity|]. split; [apply unchanged_refl|]. auto.
      + rewrite H. reflexivity.
  Qed.
  Lemma choose_P_sim c k (m : mem) a b (up : bool) init kw g : arg_in m a -> arg_in m b ->
    match (if up then match kw with Some _ => Raise TypeError
                      | None => initialize_parameters k (n_lags c) init g end
           else let! o := check_init_order_weights (valv m a) (n_lags c) in
                let! M := check_init_transition_matrices (val3 m b) (n_lags c) k in Ok (o, M, g)) with
    | Ok r => exists o t m1, hm_choose_P c k m a b up init kw g = Ok (o, t, snd r, m1) /\ unchanged m m1 /\
                 av (m_heap m1 o) = fst (fst r) /\ a3 (m_heap m1 t) = snd (fst r) /\ exists_in m1 o /\ exists_in m1 t
    | Raise e => hm_choose_P c k m a b up init kw g = Raise e
    end.
  Proof using.
    intros Ha Hb. unfold hm_choose_P. destruct up.
    - destruct kw; [reflexivity|].
      destruct (initialize_parameters _ _ _ _) as [r|e]; cbn [bind]; [|reflexivity].
      pose proof (unchanged_alloc m (AV (fst (fst r)))) as HU.
      set (m1 := snd (alloc m (AV (fst (fst r))))) in *.
      pose proof (unchanged_alloc m1 (A3 (snd (fst r)))) as HU2.
      assert (Hin : exists_in m1 (m_next m)) by (unfold exists_in; cbn; lia).
      eexists. eexists. eexists. split; [reflexivity|]. split; [exact (unchanged_trans _ _ _ HU HU2)|].
      split; [exact (eq_trans (f_equal av (unchanged_val _ _ _ HU2 Hin)) (f_equal av (alloc_val m (AV (fst (fst r))))))|].
      split; [exact (f_equal a3 (alloc_val m1 (A3 (snd (fst r)))))|].
      split; [exact (unchanged_in _ _ _ HU2 Hin)|unfold exists_in; cbn; lia].
    - pose proof (check_o_sim m a (n_lags c) Ha) as H.
      destruct (check_init_order_weights _ _) as [o|e]; cbn [bind]; [|rewrite H; reflexivity].
      destruct H as (x & -> & Hx & Hi). cbn [bind].
      pose proof (check_T_sim m b (n_lags c) k Hb) as H.
      destruct (check_init_transition_matrices _ _ _) as [M|e]; cbn [bind]; [|rewrite H; reflexivity].
      destruct H as (y & -> & Hy & Hj). exists x, y, m. split; [reflexivity|]. split; [apply unchanged_refl|]. auto.
  Qed.

  Definition choose_post (m : mem) (a : nat * nat * nat * nat * rng T * mem)
             (b : mat T * mat T * list T * list (mat T) * rng T) : Prop :=
    let '(d, w, o, t, g, m1) := a in let '(D, W, ow, M, g') := b in
    unchanged m m1 /\ am (m_heap m1 d) = D /\ am (m_heap m1 w) = W /\ av (m_heap m1 o) = ow /\
    a3 (m_heap m1 t) = M /\ g = g' /\ exists_in m1 d /\ exists_in m1 w /\ exists_in m1 o /\ exists_in m1 t.

  Lemma hm_choose_sim (c : mtd_cfg T) k (m : mem) data dict wts ow Ts ud uw up kw g :
    exists_in m data -> arg_in m dict -> arg_in m wts -> arg_in m ow -> arg_in m Ts ->
    match mtd_choose_initial c k (am (m_heap m data)) (vals m dict) (vals m wts) (valv m ow) (val3 m Ts) ud uw up kw g with
    | Ok b => exists a, hm_choose c k m data dict wts ow Ts ud uw up kw g = Ok a /\ choose_post m a b
    | Raise e => hm_choose c k m data dict wts ow Ts ud uw up kw g = Raise e
    end.
  Proof using.
    intros Hx Hd Hw Ho Ht. unfold mtd_choose_initial, hm_choose. cbv zeta. destruct (mc_init c) as [| | | |] eqn:Einit.
    4:{ pose proof (check_W_sim m wts (nr (am (m_heap m data))) k Hw) as H.
        destruct (check_init_weights _ _ _) as [W|e]; cbn [bind]; [|rewrite H; reflexivity].
        destruct H as (w & -> & Hw1 & Hw2); cbn [bind].
        pose proof (check_D_sim m dict k (nc (am (m_heap m data))) Hd) as H.
        destruct (check_init_dictionary _ _ _) as [D|e]; cbn [bind]; [|rewrite H; reflexivity].
        destruct H as (d & -> & Hd1 & Hd2); cbn [bind].
        pose proof (check_o_sim m ow (n_lags c) Ho) as H.
        destruct (check_init_order_weights _ _) as [o|e]; cbn [bind]; [|rewrite H; reflexivity].
        destruct H as (o1 & -> & Ho1 & Ho2); cbn [bind].
        pose proof (check_T_sim m Ts (n_lags c) k Ht) as H.
        destruct (check_init_transition_matrices _ _ _) as [M|e]; cbn [bind]; [|rewrite H; reflexivity].
        destruct H as (t1 & -> & Ht1 & Ht2); cbn [bind].
        eexists. split; [reflexivity|]. split; [apply unchanged_refl|]. auto 12. }
    all: match goal with |- context [hm_choose_D _ _ _ _ _ ?i ?v _] =>
        pose proof (choose_D_sim k m data dict ud i v g Hd) as SD end;
      destruct (if ud then _ else _) as [Dg|e]; cbn [bind]; [|rewrite SD; reflexivity];
      destruct SD as (d & m1 & -> & HU1 & Ed & Id); cbn [bind];
      match goal with |- context [hm_choose_W _ _ _ _ _ ?i _ ?g'] =>
        pose proof (choose_W_sim k m1 data wts uw i kw g' (arg_in_unchanged _ _ _ HU1 Hw)) as SW end;
      rewrite (vals_unchanged am _ _ _ HU1 Hw), (unchanged_val _ _ _ HU1 Hx) in SW;
      destruct (if uw then _ else _) as [Wg|e]; cbn [bind]; [|rewrite SW; reflexivity];
      destruct SW as (w & m2 & -> & HU2 & Ew & Iw); cbn [bind];
      pose proof (unchanged_trans _ _ _ HU1 HU2) as HU12;
      match goal with |- context [hm_choose_P _ _ _ _ _ _ ?i _ ?g'] =>
        pose proof (choose_P_sim c k m2 ow Ts up i kw g' (arg_in_unchanged _ _ _ HU12 Ho) (arg_in_unchanged _ _ _ HU12 Ht)) as SP end;
      rewrite (vals_unchanged av _ _ _ HU12 Ho), (vals_unchanged a3 _ _ _ HU12 Ht) in SP;
      destruct (if up then _ else _) as [[[o' M] g']|e]; cbn [bind]; [|rewrite SP; reflexivity];
      destruct SP as (o1 & t1 & m3 & -> & HU3 & Eo & Et & Io & It); cbn [bind fst snd] in *;
      eexists; (split; [reflexivity|]);
      split; [exact (unchanged_trans _ _ _ HU12 HU3)|];
      pose proof (unchanged_trans _ _ _ HU2 HU3) as HU23;
      rewrite (unchanged_val _ _ _ HU23 Id), (unchanged_val _ _ _ HU3 Iw), Ed, Ew, Eo, Et;
      do 5 (split; [reflexivity|]);
      split; [exact (unchanged_in _ _ _ HU23 Id)|]; split; [exact (unchanged_in _ _ _ HU3 Iw)|]; split; assumption.
  Qed.

  (** the state in which the iteration starts *)
  Lemma hm_setup_sim (c : mtd_cfg T) junk (m : mem) attr data d w o t :
    exists e, models (m_next m) (hm_setup c junk m attr data d w o t) e (m_sc0 c) /\
      (exists_in m data -> exists_in m d -> exists_in m w -> exists_in m o -> exists_in m t ->
       m_ws (m_rd e) (m_sc0 c) =
         mtd_initialize_workspace c (am (m_heap m data)) (am (m_heap m w)) (am (m_heap m d))
           (av (m_heap m o)) (a3 (m_heap m t))) /\
      (forall a, a < m_next m -> h_heap (hm_setup c junk m attr data d w o t) a = m_heap m a).
  Proof using.
    unfold hm_setup. cbv zeta.
    set (s0 := mk_hst (m_heap m) (m_next m) attr (m_sc0 c)).
    set (X := h_heap s0 data). set (s1 := h_new mname_eq xX X s0).
    set (W := h_heap s1 w). set (s2 := h_new mname_eq xGamma W s1).
    set (D := h_heap s2 d). set (s3 := h_new mname_eq xS D s2).
    set (O := h_heap s3 o). set (s4 := h_new mname_eq xow O s3).
    set (M := h_heap s4 t). set (s5 := h_new mname_eq xT M s4).
    assert (G0 : good (fun _ => False) (m_next m) s0) by (split; [cbn; lia|split; intros; contradiction]).
    pose proof (good_new mname_eq _ _ _ xX X G0) as G1. fold s1 in G1.
    pose proof (good_new mname_eq _ _ _ xGamma W G1) as G2. fold s2 in G2.
    pose proof (good_new mname_eq _ _ _ xS D G2) as G3. fold s3 in G3.
    pose proof (good_new mname_eq _ _ _ xow O G3) as G4. fold s4 in G4.
    pose proof (good_new mname_eq _ _ _ xT M G4) as G5. fold s5 in G5.
    set (P := fun y => y = xT \/ y = xow \/ y = xS \/ y = xGamma \/ y = xX \/ False) in *.
    set (e0 := fun y : mname => match y with xX => X | xGamma => W | xS => D | xow => O | xT => M | _ => AM (mkmat 0 0 []) end).
    assert (HV : forall x, P x -> val s5 x = e0 x).
    { assert (V1 : val s1 xX = X) by (unfold s1; rewrite (val_new mname_eq _ _ _ _ _ _ G0) by auto; apply upd_same).
      assert (V2 : val s2 xX = X /\ val s2 xGamma = W).
      { unfold s2. rewrite !(val_new mname_eq _ _ _ _ _ _ G1) by auto. rewrite upd_other, upd_same by discriminate. auto. }
      assert (V3 : val s3 xX = X /\ val s3 xGamma = W /\ val s3 xS = D).
      { unfold s3. rewrite !(val_new mname_eq _ _ _ _ _ _ G2) by auto. rewrite !upd_other, upd_same by discriminate. tauto. }
      assert (V4 : val s4 xX = X /\ val s4 xGamma = W /\ val s4 xS = D /\ val s4 xow = O).
      { unfold s4. rewrite !(val_new mname_eq _ _ _ _ _ _ G3) by auto 6. rewrite !upd_other, upd_same by discriminate. tauto. }
      assert (V5 : val s5 xX = X /\ val s5 xGamma = W /\ val s5 xS = D /\ val s5 xow = O /\ val s5 xT = M).
      { unfold s5. rewrite !(val_new mname_eq _ _ _ _ _ _ G4) by auto 7. rewrite !upd_other, upd_same by discriminate. tauto. }
      intros x [-> | [-> | [-> | [-> | [-> | []]]]]]; apply V5. }
    assert (F5 : frame (m_next m) s0 s5).
    { eapply frame_trans; [exact (frame_new mname_eq _ _ _ xX X G0)|].
      eapply frame_trans; [exact (frame_new mname_eq _ _ _ xGamma W G1)|].
      eapply frame_trans; [exact (frame_new mname_eq _ _ _ xS D G2)|].
      eapply frame_trans; [exact (frame_new mname_eq _ _ _ xow O G3)|].
      exact (frame_new mname_eq _ _ _ xT M G4). }
    assert (HN : news_ok m_rd P (m_workspace c junk)).
    { unfold m_workspace, news_ok, reads, m_rd; cbn [fst snd q_X q_Gamma q_S q_ow q_T].
      repeat (split; [intros ? ? ? HE; rewrite ?(HE xGamma), ?(HE xX), ?(HE xS), ?(HE xow), ?(HE xT) by (unfold P; tauto); reflexivity|]).
      exact I. }
    destruct (news_sim mname_eq m_rd (m_workspace c junk) P (m_next m) s5 e0 (m_sc0 c) HN G5 HV eq_refl)
      as (A1 & A2 & A3' & A4).
    assert (HA : forall x, adds P (m_workspace c junk) x) by (intros x; cbn; unfold P; destruct x; tauto).
    eexists. split; [|split].
    - split; [|split; [|exact A3']].
      + eapply good_weaken; [|exact A1]. intros x _. apply HA.
      + intros x. apply A2. apply HA.
    - intros Hx Hd Hw Ho Ht. unfold exists_in in *.
      assert (EW : W = m_heap m w).
      { unfold W, s1. cbn. unfold hwrite. destruct (Nat.eqb_spec w (m_next m)); [lia|reflexivity]. }
      assert (ED : D = m_heap m d).
      { unfold D, s2, s1. cbn. unfold hwrite. destruct (Nat.eqb_spec d (S (m_next m))); [lia|].
        destruct (Nat.eqb_spec d (m_next m)); [lia|reflexivity]. }
      assert (EO : O = m_heap m o).
      { unfold O, s3, s2, s1. cbn. unfold hwrite. destruct (Nat.eqb_spec o (S (S (m_next m)))); [lia|].
        destruct (Nat.eqb_spec o (S (m_next m))); [lia|].
        destruct (Nat.eqb_spec o (m_next m)); [lia|reflexivity]. }
      assert (EM : M = m_heap m t).
      { unfold M, s4, s3, s2, s1. cbn. unfold hwrite. destruct (Nat.eqb_spec t (S (S (S (m_next m))))); [lia|].
        destruct (Nat.eqb_spec t (S (S (m_next m)))); [lia|]. destruct (Nat.eqb_spec t (S (m_next m))); [lia|].
        destruct (Nat.eqb_spec t (m_next m)); [lia|reflexivity]. }
      rewrite <- EW, <- ED, <- EO, <- EM. clear. reflexivity.
    - intros a Ha. destruct A4 as [_ A4]. rewrite A4 by exact Ha. destruct F5 as [_ F5].
      rewrite F5 by exact Ha. reflexivity.
  Qed.

  (** The run on the heap, started from the set-up state. *)
  Lemma hm_iterate_sim fuel (c : mtd_cfg T) junk (m : mem) attr data d w o t k ud uw up tol mx r s1 :
    run_h (pm_iterate fuel c k ud uw up tol mx) (hm_setup c junk m attr data d w o t) = (r, s1) ->
    (m_next m <= h_next s1 /\ forall a, a < m_next m -> h_heap s1 a = m_heap m a) /\
    (forall x, m_next m <= h_attr s1 x < h_next s1) /\
    (exists_in m data -> exists_in m d -> exists_in m w -> exists_in m o -> exists_in m t ->
      match (let! _ := check_max_lag c in
             mtd_iterate fuel c k ud uw up tol mx
              (mtd_initialize_workspace c (am (m_heap m data)) (am (m_heap m w)) (am (m_heap m d))
                (av (m_heap m o)) (a3 (m_heap m t)))) with
      | Ok (w2, cost, n, log) => r = Ok (cost, n, log) /\ m_ws (m_rd (val s1)) (h_sc s1) = w2
      | Raise e => r = Raise e
      end).
  Proof using.
    intros HR. destruct (hm_setup_sim c junk m attr data d w o t) as (e & HM & HW & HF).
    destruct (run_sim mname_eq m_rd m_rd_ext _ (noalias_pm_iterate fuel c k ud uw up tol mx) _ _ _ _ HM)
      as (A1 & A2 & A3').
    rewrite HR in A1, A2, A3'. cbn [fst snd] in *. split; [|split].
    - destruct A3' as [A3' A4]. destruct HM as ((HN & _) & _). split; [lia|].
      intros a Ha. rewrite A4 by exact Ha. apply HF. exact Ha.
    - destruct A2 as ((_ & A2 & _) & _). intros x. apply A2. exact I.
    - intros Hx Hd Hw Ho Ht. specialize (HW Hx Hd Hw Ho Ht).
      pose proof (sim_mtd_iterate fuel c k ud uw up tol mx e (m_sc0 c) _ HW) as HS.
      unfold computes in HS.
      destruct (bind (check_max_lag c) _) as [[[[w2 cost] n] log]|x].
      + destruct HS as ([[c1 n1] l1] & e' & s' & E & -> & -> & -> & HR').
        rewrite E in A1, A2. cbn [fst snd] in *. split; [exact A1|].
        destruct A2 as (_ & HV & HSC). rewrite HSC, <- HR'. f_equal. apply m_rd_ext. exact HV.
      + rewrite A1. exact HS.
  Qed.

  Notation coding := hm_convex_coding.
  Lemma coding_unchanged fuel junk o (m : mem) data dict wts ow Ts ud uw up kw r o1 m1 :
    coding fuel junk o m data dict wts ow Ts ud uw up kw = (r, o1, m1) ->
    unchanged m m1 /\
    (forall x, r = Ok x -> exists a, hq_attr o1 = Some a /\ forall y, fresh_for m (a y) /\ exists_in m1 (a y)) /\
    (m_valid m o -> m_valid m1 o1).
  Proof using.
    unfold hm_convex_coding. intros H.
    destruct (check_params _ _ _) as [[[k mx] tol]|e];
      [|injection H as <- <- <-; split; [apply unchanged_refl|]; split; [discriminate|]; intros HV; exact HV].
    destruct (hm_choose _ _ _ _ _ _ _ _ _ _ _ _ _) as [[[[[[d w] o'] t] g] m2]|e] eqn:EC;
      [|injection H as <- <- <-; split; [apply unchanged_refl|]; split; [discriminate|]; intros HV; exact HV].
    apply hm_choose_unchanged in EC.
    destruct (run_h _ _) as [r' s1] eqn:ER. apply hm_iterate_sim in ER as (A1 & A2 & _).
    injection H as <- <- <-.
    assert (HU : unchanged m (mk_mem (h_heap s1) (h_next s1))) by (eapply unchanged_trans; [exact EC|exact A1]).
    split; [exact HU|]. split.
    - intros x _. exists (h_attr s1). split; [reflexivity|]. intros y. specialize (A2 y). destruct EC as [EC _].
      unfold fresh_for, exists_in; cbn. lia.
    - intros [_ HV]. split; cbn.
      + intros a x E. injection E as <-. unfold exists_in. cbn. apply A2.
      + intros x Hx. eapply unchanged_in; [exact HU|]. apply HV. exact Hx.
  Qed.

  Lemma coding_sim fuel junk o (m : mem) data dict wts ow Ts ud uw up kw r o1 m1 :
    exists_in m data -> arg_in m dict -> arg_in m wts -> arg_in m ow -> arg_in m Ts -> m_valid m o ->
    coding fuel junk o m data dict wts ow Ts ud uw up kw = (r, o1, m1) ->
    match mtd_convex_coding fuel (m_abs m o) (am (m_heap m data)) (vals m dict) (vals m wts) (valv m ow) (val3 m Ts)
            ud uw up kw with
    | Ok run => r = Ok (mr_cost run, mr_n_iter run, mr_log run, mr_warned run) /\ m_abs m1 o1 = mr_obj run
    | Raise e => r = Raise e
    end.
  Proof using.
    intros Hx Hd Hw Ho Ht HV H. pose proof (coding_unchanged _ _ _ _ _ _ _ _ _ _ _ _ _ _ _ _ H) as (HU & _ & _).
    unfold hm_convex_coding in H. unfold mtd_convex_coding.
    cbn [mo_cfg mo_n_components mo_rng m_abs] in *.
    destruct (check_params _ _ _) as [[[k mx] tol]|e]; cbn [bind]; [|injection H as <- <- <-; reflexivity].
    pose proof (hm_choose_sim (hq_cfg o) k m data dict wts ow Ts ud uw up kw (hq_rng o) Hx Hd Hw Ho Ht) as HC.
    destruct (mtd_choose_initial _ _ _ _ _ _ _ _ _ _ _ _) as [[[[[D W] ow0] M] g]|e]; cbn [bind].
    2:{ rewrite HC in H. injection H as <- <- <-. reflexivity. }
    destruct HC as ([[[[[d w] o'] t] g'] m2] & HC & HU2 & <- & <- & <- & <- & -> & Hd2 & Hw2 & Ho2 & Ht2). rewrite HC in H.
    destruct (run_h _ _) as [r' s1] eqn:ER. apply hm_iterate_sim in ER as (_ & _ & HS).
    specialize (HS (unchanged_in _ _ _ HU2 Hx) Hd2 Hw2 Ho2 Ht2).
    rewrite (unchanged_val _ _ _ HU2 Hx) in HS.
    injection H as <- <- <-.
    destruct (check_max_lag _) as [u|x]; cbn [bind] in *; [|rewrite HS; reflexivity].
    destruct (mtd_iterate _ _ _ _ _ _ _ _ _) as [[[[w2 cost] n] log]|x]; cbn [bind].
    - destruct HS as (-> & HS). cbn [bind mr_cost mr_n_iter mr_log mr_warned mr_obj]. split; [reflexivity|].
      unfold m_abs. cbn [hq_cfg hq_n_components hq_rng hq_attr hq_sc hq_dictionary_ hq_cost_ hq_n_iter_
        hq_n_components_ option_map mo_dictionary_ mo_cost_ mo_n_iter_ mo_n_components_].
      rewrite <- HS. destruct HV as [_ HV].
      f_equal. destruct (hq_dictionary_ o) as [x|]; [|reflexivity]. cbn. f_equal. f_equal.
      apply (unchanged_val _ _ _ HU). apply HV. reflexivity.
    - rewrite HS. reflexivity.
  Qed.

  Lemma fit_unchanged fuel junk o (m : mem) data dict wts ow Ts ud uw up kw r o1 m1 :
    hm_fit_transform fuel junk o m data dict wts ow Ts ud uw up kw = (r, o1, m1) ->
    unchanged m m1 /\ (m_valid m o -> m_valid m1 o1) /\
    (forall a, r = Ok a -> fresh_for m a /\ exists_in m1 a /\
       exists d, hq_dictionary_ o1 = Some d /\ fresh_for m d /\ exists_in m1 d).
  Proof using.
    unfold hm_fit_transform. destruct (coding fuel junk o m data dict wts ow Ts ud uw up kw) as [[r0 o0] m0] eqn:E.
    apply coding_unchanged in E as (A1 & A2 & A3'). intros H.
    destruct r0 as [[[[cost n] log] wn]|e].
    - destruct (A2 _ eq_refl) as (a & Ea & Ha). rewrite Ea in H. injection H as <- <- <-.
      split; [exact A1|]. split.
      + intros HV. destruct (A3' HV) as [B1 B2]. split; cbn.
        * intros b x Eb. apply (B1 b x). congruence.
        * intros x Hx. injection Hx as <-. apply Ha.
      + intros x Hx. injection Hx as <-. split; [apply Ha|]. split; [apply Ha|].
        exists (a xS). split; [reflexivity|]. apply Ha.
    - injection H as <- <- <-. split; [exact A1|]. split; [exact A3'|]. discriminate.
  Qed.

  Lemma transform_unchanged fuel junk o (m : mem) data r o1 m1 :
    hm_transform fuel junk o m data = (r, o1, m1) ->
    unchanged m m1 /\ (m_valid m o -> m_valid m1 o1) /\
    (forall a, r = Ok a -> fresh_for m a /\ exists_in m1 a).
  Proof using.
    unfold hm_transform. cbv zeta. destruct (coding _ _ _ _ _ _ _ _ _ _ _ _ _) as [[r0 o0] m0] eqn:E.
    apply coding_unchanged in E as (A1 & A2 & A3'). intros H. destruct r0 as [x|e].
    - destruct (A2 _ eq_refl) as (a & Ea & Ha). rewrite Ea in H. injection H as <- <- <-.
      split; [exact A1|]. split; [exact A3'|]. intros y Hy. injection Hy as <-. apply Ha.
    - injection H as <- <- <-. split; [exact A1|]. split; [exact A3'|]. discriminate.
  Qed.

  Lemma m_abs_unchanged (m m' : mem) o : unchanged m m' -> m_valid m o -> m_abs m' o = m_abs m o.
  Proof using.
    intros HU [HV HD]. unfold m_abs. f_equal.
    - destruct (hq_attr o) as [a|]; [|reflexivity]. cbn. f_equal. f_equal. apply m_rd_ext.
      intros x. apply (unchanged_val _ _ _ HU). apply HV. reflexivity.
    - destruct (hq_dictionary_ o) as [d|]; [|reflexivity]. cbn. f_equal. f_equal.
      apply (unchanged_val _ _ _ HU). apply HD. reflexivity.
  Qed.
  Lemma m_valid_unchanged (m m' : mem) o : unchanged m m' -> m_valid m o -> m_valid m' o.
  Proof using.
    intros HU [HV HD]. split; [intros a x E|intros x E]; eapply unchanged_in; eauto.
  Qed.

  Lemma predict_unchanged fuel junk o (m : mem) data horizon r o1 m1 :
    hm_predict fuel junk o m data horizon = (r, o1, m1) ->
    unchanged m m1 /\ (m_valid m o -> m_valid m1 o1) /\
    (forall a, r = Ok a -> fresh_for m a /\ exists_in m1 a).
  Proof using.
    unfold hm_predict. destruct (hm_transform fuel junk o m data) as [[r0 o0] m0] eqn:E.
    apply transform_unchanged in E as (A1 & A2 & A3'). intros H. destruct r0 as [W|e].
    2:{ injection H as <- <- <-. split; [exact A1|]. split; [exact A2|]. discriminate. }
    destruct (hq_attr o0) as [a|].
    2:{ injection H as <- <- <-. split; [exact A1|]. split; [exact A2|]. discriminate. }
    match type of H with context [let '(_, _) := ?e in _] => destruct e as [PW m2] eqn:EP end.
    assert (HU : unchanged m0 m2).
    { destruct (horizon =? 0)%Z; [injection EP as _ <-; apply unchanged_refl|].
      injection EP as _ <-. apply unchanged_alloc. }
    cbv zeta in H. destruct (Nat.eqb _ _).
    - injection H as <- <- <-.
      match goal with |- unchanged m ?M /\ _ =>
        assert (HU2 : unchanged m0 M) by (eapply unchanged_trans; [exact HU|apply (unchanged_alloc m2)]) end.
      split; [eapply unchanged_trans; [exact A1|exact HU2]|]. split.
      + intros HV. eapply m_valid_unchanged; [exact HU2|]. apply A2. exact HV.
      + intros x Hx. injection Hx as <-. destruct A1 as [A1 _]. destruct HU as [HU _].
        unfold fresh_for, exists_in. cbn. lia.
    - injection H as <- <- <-. split; [eapply unchanged_trans; [exact A1|exact HU]|]. split.
      + intros HV. eapply m_valid_unchanged; [exact HU|]. apply A2. exact HV.
      + discriminate.
  Qed.

  Lemma fit_sim fuel junk o (m : mem) data dict wts ow Ts ud uw up kw r o1 m1 :
    exists_in m data -> arg_in m dict -> arg_in m wts -> arg_in m ow -> arg_in m Ts -> m_valid m o ->
    hm_fit_transform fuel junk o m data dict wts ow Ts ud uw up kw = (r, o1, m1) ->
    match mtd_fit_transform fuel (m_abs m o) (am (m_heap m data)) (vals m dict) (vals m wts) (valv m ow) (val3 m Ts)
            ud uw up kw with
    | Ok (run, W) => exists a, r = Ok a /\ am (m_heap m1 a) = W /\ m_abs m1 o1 = mr_obj run
    | Raise e => r = Raise e
    end.
  Proof using.
    intros Hx Hd Hw Ho Ht HV. unfold hm_fit_transform, mtd_fit_transform.
    destruct (coding fuel junk o m data dict wts ow Ts ud uw up kw) as [[r0 o0] m0] eqn:E.
    pose proof (coding_unchanged _ _ _ _ _ _ _ _ _ _ _ _ _ _ _ _ E) as (_ & A2 & _).
    pose proof (coding_sim _ _ _ _ _ _ _ _ _ _ _ _ _ _ _ _ Hx Hd Hw Ho Ht HV E) as HS. intros H.
    destruct (mtd_convex_coding _ _ _ _ _ _ _ _ _ _ _) as [run|e]; cbn [bind].
    - destruct HS as (-> & HS). destruct (A2 _ eq_refl) as (a & Ea & _). rewrite Ea in H.
      injection H as <- <- <-. rewrite <- HS. unfold m_abs. cbn [mo_ws]. rewrite Ea. cbn [option_map].
      exists (a xGamma). split; [reflexivity|]. split; [reflexivity|]. cbn; try rewrite Ea; reflexivity.
    - subst r0. injection H as <- <- <-. reflexivity.
  Qed.

  Lemma transform_sim fuel junk o (m : mem) data r o1 m1 :
    exists_in m data -> m_valid m o ->
    hm_transform fuel junk o m data = (r, o1, m1) ->
    match mtd_transform fuel (m_abs m o) (am (m_heap m data)) with
    | Ok (run, W) => exists a, r = Ok a /\ am (m_heap m1 a) = W /\ m_abs m1 o1 = mr_obj run
    | Raise e => r = Raise e
    end.
  Proof using.
    intros Hx HV. unfold hm_transform, mtd_transform. cbv zeta.
    set (self := fun x => match hq_attr o with Some a => Some (a x) | None => None end).
    assert (HA : forall x, arg_in m (self x)).
    { intros x y. unfold self. destruct (hq_attr o) as [a|] eqn:Ea; [|discriminate]. intros Hx'. injection Hx' as <-.
      apply (proj1 HV). exact Ea. }
    assert (ES : match mo_ws (m_abs m o) with Some w => Some (m_S w) | None => None end = vals m (self xS)).
    { unfold self. cbn. destruct (hq_attr o); reflexivity. }
    assert (Eo : match mo_ws (m_abs m o) with Some w => Some (m_order_weights w) | None => None end = valv m (self xow)).
    { unfold self. cbn. destruct (hq_attr o); reflexivity. }
    assert (ET : match mo_ws (m_abs m o) with Some w => Some (m_transition_matrices w) | None => None end = val3 m (self xT)).
    { unfold self. cbn. destruct (hq_attr o); reflexivity. }
    rewrite ES, Eo, ET.
    change (match hq_attr o with Some a => Some (a xS) | None => None end) with (self xS).
    change (match hq_attr o with Some a => Some (a xow) | None => None end) with (self xow).
    change (match hq_attr o with Some a => Some (a xT) | None => None end) with (self xT).
    destruct (coding fuel junk o m data (self xS) None (self xow) (self xT) false true false None) as [[r0 o0] m0] eqn:E.
    pose proof (coding_unchanged _ _ _ _ _ _ _ _ _ _ _ _ _ _ _ _ E) as (_ & A2 & _).
    assert (HN : arg_in m None) by (intros ? ?; discriminate).
    pose proof (coding_sim _ _ _ _ _ _ _ _ _ _ _ _ _ _ _ _ Hx (HA _) HN (HA _) (HA _) HV E) as HS. intros H.
    change (vals m None) with (@None (mat T)) in HS.
    destruct (mtd_convex_coding _ _ _ _ _ _ _ _ _ _ _) as [run|e]; cbn [bind].
    - destruct HS as (-> & HS). destruct (A2 _ eq_refl) as (a & Ea & _). rewrite Ea in H.
      injection H as <- <- <-. rewrite <- HS. unfold m_abs at 1. cbn [mo_ws]. rewrite Ea. cbn [option_map].
      exists (a xGamma). split; [reflexivity|]. split; [reflexivity|exact HS].
    - subst r0. injection H as <- <- <-. reflexivity.
  Qed.

  Lemma predict_sim fuel junk o (m : mem) data horizon r o1 m1 :
    exists_in m data -> m_valid m o ->
    hm_predict fuel junk o m data horizon = (r, o1, m1) ->
    match mtd_predict fuel (m_abs m o) (am (m_heap m data)) horizon with
    | Ok (run, Y) => exists a, r = Ok a /\ am (m_heap m1 a) = Y /\ m_abs m1 o1 = mr_obj run
    | Raise e => r = Raise e
    end.
  Proof using.
    intros Hx HV. unfold hm_predict, mtd_predict.
    destruct (hm_transform fuel junk o m data) as [[r0 o0] m0] eqn:E.
    pose proof (transform_unchanged _ _ _ _ _ _ _ _ E) as (A1 & A2 & A3').
    pose proof (transform_sim _ _ _ _ _ _ _ _ Hx HV E) as HS. specialize (A2 HV). intros H.
    destruct (mtd_transform _ _ _) as [[run W]|e]; cbn [bind].
    2:{ subst r0. injection H as <- <- <-. reflexivity. }
    destruct HS as (aW & -> & HW & HO). specialize (A3' _ eq_refl) as (_ & IW).
    rewrite <- HO. unfold mtd_inverse_transform.
    destruct (hq_attr o0) as [a|] eqn:Ea.
    2:{ injection H as <- <- <-. unfold m_abs at 1. cbn [mo_ws]. rewrite Ea. reflexivity. }
    assert (EW : mo_ws (m_abs m0 o0) = Some (m_ws (m_rd (fun x => m_heap m0 (a x))) (hq_sc o0)))
      by (unfold m_abs; cbn [mo_ws]; rewrite Ea; reflexivity).
    rewrite EW. cbn [m_S m_order_weights m_transition_matrices m_ws m_rd q_ow q_T q_S].
    cbn [mo_cfg m_abs].
    match type of H with context [let '(_, _) := ?e in _] => destruct e as [PW m2] eqn:EP end.
    assert (HU : unchanged m0 m2).
    { destruct (horizon =? 0)%Z; [injection EP as _ <-; apply unchanged_refl|].
      injection EP as _ <-. apply unchanged_alloc. }
    assert (IS : exists_in m0 (a xS)) by (apply (proj1 A2); exact Ea).
    set (P := if (horizon =? 0)%Z then W else _).
    assert (HP : am (m_heap m2 PW) = P).
    { unfold P. destruct (horizon =? 0)%Z.
      - injection EP as <- <-. exact HW.
      - injection EP as <- <-. cbn. unfold hwrite. rewrite Nat.eqb_refl. cbn. rewrite HW. reflexivity. }
    cbv zeta in H. rewrite HP, (unchanged_val _ _ _ HU IS) in H.
    destruct (Nat.eqb _ _); cbn [bind]; injection H as <- <- <-; [|reflexivity].
    eexists. split; [reflexivity|]. split.
    - cbn. unfold hwrite. rewrite Nat.eqb_refl. reflexivity.
    - rewrite <- HO. apply m_abs_unchanged; [|exact A2]. eapply unchanged_trans; [exact HU|apply (unchanged_alloc m2)].
  Qed.
End PMC.
