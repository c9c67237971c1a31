(** Lemmas about the dtype models. *)
From Coq Require Import List Arith ZArith Bool Lia.
From Verif Require Import Num Mat Py M_simplex M_spg M_iter M_random M_furthest M_gpnh M_aa M_mtd M_crom M_dtype Spec_dtype.
Import ListNotations.

(** ** The outer iteration with dtypes *)
Section Iterate.
  Context {T : Type} {N : Num T} {Tg St : Type}.
  Definition tag_run (t : Tg) (r : res (St * T * nat * list T)) : res (Tg * St * T * nat * list T) :=
    let! x := r in let '(s, c, n, l) := x in Ok (t, s, c, n, l).
  (** a list of updates, each with its dtype part *)
  Definition pairs := list ((Tg -> res Tg) * (St -> res St)).
  Definition typed_all (us : pairs) : list (Tg * St -> res (Tg * St)) :=
    map (fun u : (Tg -> res Tg) * (St -> res St) => typed (fst u) (snd u)) us.
  Definition plain_all (us : pairs) : list (St -> res St) := map (fun u : (Tg -> res Tg) * (St -> res St) => snd u) us.
  Definition settled (t : Tg) (us : pairs) : Prop := forall u, In u us -> fst u t = Ok t.

  Lemma run_settled (cost : St -> T) bad t (us : pairs) : settled t us -> forall s c,
    run_updates (fun q => cost (snd q)) bad (typed_all us) (t, s) c
    = let! x := run_updates cost bad (plain_all us) s c in Ok ((t, fst x), snd x).
  Proof.
    induction us as [|[tu u] us IH]; intros Hs s c; [reflexivity|]. cbn [typed_all plain_all map run_updates fst snd].
    pose proof (Hs (tu, u) (or_introl eq_refl)) as E. cbn [fst] in E.
    unfold typed at 1. cbn [fst snd]. rewrite E. cbn [bind].
    destruct (u s) as [s'|e]; cbn [bind fst snd]; [|reflexivity].
    destruct (bad (cost s')); [reflexivity|]. apply IH. intros v Hv. apply Hs. right; exact Hv.
  Qed.
  Lemma loop_settled (cost : St -> T) bad tol t (us : pairs) : settled t us -> forall left n s c l,
    iterate_loop (fun q => cost (snd q)) bad (typed_all us) tol left n (t, s) c l
    = tag_run t (iterate_loop cost bad (plain_all us) tol left n s c l).
  Proof.
    intros Hs. induction left as [|left IH]; intros n s c l; cbn [iterate_loop]; [reflexivity|].
    rewrite run_settled by exact Hs.
    destruct (run_updates cost (bad n c) (plain_all us) s c) as [[s' c']|e]; cbn [bind fst snd]; [|reflexivity].
    destruct (_ <? _)%num; [reflexivity|]. apply IH.
  Qed.
  Lemma iterate_settled (cost : St -> T) bad tol m t (us : pairs) s : settled t us ->
    iterate (fun q => cost (snd q)) bad (typed_all us) tol m (t, s)
    = tag_run t (iterate cost bad (plain_all us) tol m s).
  Proof. intros Hs. unfold iterate. cbn [snd]. apply loop_settled, Hs. Qed.

  (** a raising dtype part: never a result, and its exception if the values alone would not raise *)
  Definition stuck (t : Tg) (e : exn) (us : pairs) : Prop :=
    exists us1 u us2, us = us1 ++ u :: us2 /\ settled t us1 /\ fst u t = Raise e.
  Lemma run_stuck (cost : St -> T) bad t e (us : pairs) : stuck t e us -> forall s c,
    (forall x, run_updates (fun q => cost (snd q)) bad (typed_all us) (t, s) c <> Ok x)
    /\ ((exists x, run_updates cost bad (plain_all us) s c = Ok x) ->
        run_updates (fun q => cost (snd q)) bad (typed_all us) (t, s) c = Raise e).
  Proof.
    intros (us1 & [tu v] & us2 & -> & Hs & Hr). induction us1 as [|[tu' u'] us1 IH]; intros s c; cbn [app typed_all plain_all map run_updates].
    - cbn [fst] in Hr. unfold typed. cbn [fst snd]. rewrite Hr. cbn. split; [intros x; discriminate | reflexivity].
    - pose proof (Hs (tu', u') (or_introl eq_refl)) as E. cbn [fst] in E.
      unfold typed at 1 3. cbn [fst snd]. rewrite E. cbn [bind].
      destruct (u' s) as [s'|e']; cbn [bind snd]; [|split; [intros x; discriminate | intros [x Hx]; discriminate]].
      destruct (bad (cost s')); [split; [intros x; discriminate | intros [x Hx]; discriminate]|].
      apply IH. intros w Hw. apply Hs. right; exact Hw.
  Qed.
  Lemma iterate_stuck (cost : St -> T) bad tol m t e (us : pairs) s : stuck t e us -> 1 <= m ->
    (forall x, iterate (fun q => cost (snd q)) bad (typed_all us) tol m (t, s) <> Ok x)
    /\ ((exists x, iterate cost bad (plain_all us) tol m s = Ok x) ->
        iterate (fun q => cost (snd q)) bad (typed_all us) tol m (t, s) = Raise e).
  Proof.
    intros Hs Hm. destruct m as [|m]; [lia|]. unfold iterate. cbn [snd iterate_loop].
    destruct (run_stuck cost (bad 0 (cost s)) t e us Hs s (cost s)) as [H1 H2].
    destruct (run_updates (fun q => cost (snd q)) (bad 0 (cost s)) (typed_all us) (t, s) (cost s)) as [x|e'];
      [destruct (H1 x); reflexivity|]. cbn [bind].
    split; [intros x; discriminate|]. intros [x Hx].
    destruct (run_updates cost (bad 0 (cost s)) (plain_all us) s (cost s)) as [y|e''] eqn:E; [|discriminate].
    specialize (H2 (ex_intro _ y eq_refl)). injection H2 as ->. reflexivity.
  Qed.
End Iterate.

Lemma check_params_max {T} {N : Num T} nco mi tol k m t :
  check_params nco mi tol = Ok (k, m, t) -> 1 <= m.
Proof.
  unfold check_params. destruct nco as [|z| |]; cbn; try discriminate. destruct (z <=? 0)%Z; cbn; [discriminate|].
  destruct mi as [|y| |]; cbn; try discriminate. destruct (y <=? 0)%Z eqn:E; cbn; [discriminate|].
  destruct tol as [|x|x|]; cbn; try discriminate.
  - destruct (x <? 0)%Z; cbn; [discriminate|]. intros H; injection H as <- <- <-. apply Z.leb_gt in E. lia.
  - destruct (x <? n0)%num; cbn; [discriminate|]. intros H; injection H as <- <- <-. apply Z.leb_gt in E. lia.
Qed.

Lemma oint {A} (a : option (arr A)) : odt a = DInt <-> integer_arg a.
Proof.
  unfold odt, integer_arg. destruct a as [x|]; split.
  - intros H; eauto.
  - intros (y & [= <-] & H); exact H.
  - discriminate.
  - intros (y & H & _); discriminate.
Qed.
Lemma dtype_dec (a : dtype) : a = DInt \/ a = DFloat.
Proof. destruct a; auto. Qed.

(** ** GPNHConvexCoding *)
Section Gpnh.
  Context {T : Type} {N : Num T}.

  Lemma gt_dictionary_settled k dX dG : gt_update_dictionary k (mk_gtags dX dG DFloat) = Ok (mk_gtags dX dG DFloat).
  Proof. unfold gt_update_dictionary, gt_dictionary_gradient. destruct (Nat.eqb k 1), dX, dG; reflexivity. Qed.
  Lemma gt_dictionary_raises k dX dG : gt_update_dictionary k (mk_gtags dX dG DInt) = Raise TypeError.
  Proof. unfold gt_update_dictionary, gt_dictionary_gradient. destruct (Nat.eqb k 1), dX, dG; reflexivity. Qed.
  Lemma gt_weights_settled dX dS : gt_update_weights (mk_gtags dX DFloat dS) = Ok (mk_gtags dX DFloat dS).
  Proof. destruct dX, dS; reflexivity. Qed.
  Lemma gt_weights_raises dX dS : gt_update_weights (mk_gtags dX DInt dS) = Raise TypeError.
  Proof. destruct dX, dS; reflexivity. Qed.

  Definition gpnh_pairs (fuel : nat) (c : gpnh_cfg T) (k : nat) (ud uw : bool) : @pairs gtags (gws T) :=
    (if ud then [(gt_update_dictionary k, update_dictionary fuel c k)] else [])
    ++ (if uw then [(gt_update_weights, update_weights fuel c k)] else []).
  Lemma d_gpnh_iterate_pairs fuel c k ud uw tol m p :
    d_gpnh_iterate fuel c k ud uw tol m p
    = iterate (fun q => evaluate_cost c k (snd q)) (cost_increased (gc_monotone c))
        (typed_all (gpnh_pairs fuel c k ud uw)) tol m p.
  Proof. destruct ud, uw; reflexivity. Qed.
  Lemma gpnh_iterate_pairs fuel c k ud uw tol m w :
    gpnh_iterate fuel c k ud uw tol m w
    = iterate (evaluate_cost c k) (cost_increased (gc_monotone c))
        (plain_all (gpnh_pairs fuel c k ud uw)) tol m w.
  Proof. destruct ud, uw; reflexivity. Qed.

  Lemma gpnh_settled fuel c k ud uw t :
    (ud = true -> gt_S t = DFloat) -> (uw = true -> gt_Gamma t = DFloat) ->
    settled t (gpnh_pairs fuel c k ud uw).
  Proof.
    destruct t as [dX dG dS]; cbn. intros H1 H2 u Hu. unfold gpnh_pairs in Hu. apply in_app_or in Hu. destruct Hu as [Hu|Hu].
    - destruct ud; cbn in Hu; [|contradiction]. destruct Hu as [<-|[]]. cbn. rewrite (H1 eq_refl). apply gt_dictionary_settled.
    - destruct uw; cbn in Hu; [|contradiction]. destruct Hu as [<-|[]]. cbn. rewrite (H2 eq_refl). apply gt_weights_settled.
  Qed.
  Lemma gpnh_stuck fuel c k ud uw t :
    (ud = true /\ gt_S t = DInt) \/ (uw = true /\ gt_Gamma t = DInt) ->
    stuck t TypeError (gpnh_pairs fuel c k ud uw).
  Proof.
    destruct t as [dX dG dS]; cbn. intros H. unfold gpnh_pairs, stuck.
    destruct ud, dS.
    - exists [], (gt_update_dictionary k, update_dictionary fuel c k), (if uw then [(gt_update_weights, update_weights fuel c k)] else []).
      split; [reflexivity|]. split; [intros u []|]. apply gt_dictionary_raises.
    - destruct H as [[_ H]|[-> ->]]; [discriminate|].
      exists [(gt_update_dictionary k, update_dictionary fuel c k)], (gt_update_weights, update_weights fuel c k), [].
      split; [reflexivity|]. split; [|apply gt_weights_raises].
      intros u [<-|[]]. apply gt_dictionary_settled.
    - destruct H as [[H _]|[-> ->]]; [discriminate|].
      exists [], (gt_update_weights, update_weights fuel c k), []. split; [reflexivity|]. split; [intros u []|]. apply gt_weights_raises.
    - destruct H as [[H _]|[-> ->]]; [discriminate|].
      exists [], (gt_update_weights, update_weights fuel c k), []. split; [reflexivity|]. split; [intros u []|]. apply gt_weights_raises.
  Qed.

  Lemma gt_initial_S init (data : arr (mat T)) (D W : option (arr (mat T))) ud uw : gt_S (gt_initial init (dt data) (odt D) (odt W) ud uw) = DInt
    <-> @gpnh_int_dictionary T init ud uw data D.
  Proof.
    unfold gpnh_int_dictionary, uses_dictionary, gt_initial, drawn_dictionary. rewrite <- oint.
    destruct init, ud, uw, (odt D), (dt data); cbn; intuition (try discriminate; try congruence).
  Qed.
  Lemma gt_initial_Gamma init (data : arr (mat T)) (D W : option (arr (mat T))) ud uw :
    gt_Gamma (gt_initial init (dt data) (odt D) (odt W) ud uw) = DInt <-> @gpnh_int_weights T init ud uw W.
  Proof.
    unfold gpnh_int_weights, uses_weights, gt_initial, drawn_dictionary. rewrite <- oint.
    destruct init, ud, uw, (odt W); cbn; intuition (try discriminate; try congruence).
  Qed.
  Lemma gt_initial_X init dX dD dW ud uw : gt_X (gt_initial init dX dD dW ud uw) = dX.
  Proof. destruct init, ud, uw; reflexivity. Qed.

  (** the dtypes after a run that works: those at the start *)
  Lemma d_coding_agrees fuel (o : gpnh T) data D W ud uw kw :
    ~ gpnh_fails (gc_init (go_cfg o)) ud uw data D W ->
    d_gpnh_convex_coding fuel o data D W ud uw kw
    = let! r := gpnh_convex_coding fuel o (val data) (oval D) (oval W) ud uw kw in
      Ok (gt_initial (gc_init (go_cfg o)) (dt data) (odt D) (odt W) ud uw, r).
  Proof.
    intros H. unfold d_gpnh_convex_coding, gpnh_convex_coding.
    destruct (check_params _ _ _) as [[[k m] t]|e]; cbn [bind]; [|reflexivity].
    destruct (choose_initial _ _ _ _ _ _ _ _ _) as [[[D0 W0] g]|e]; cbn [bind]; [|reflexivity].
    rewrite d_gpnh_iterate_pairs, iterate_settled, gpnh_iterate_pairs.
    - unfold tag_run. destruct (iterate _ _ _ _ _ _) as [[[[w2 cost] n] l]|e]; reflexivity.
    - apply gpnh_settled; intros ->; unfold gpnh_fails in H;
        rewrite <- gt_initial_S with (W := W), <- gt_initial_Gamma with (data := data) (D := D) in H.
      + destruct (dtype_dec (gt_S (gt_initial (gc_init (go_cfg o)) (dt data) (odt D) (odt W) true uw))); tauto.
      + destruct (dtype_dec (gt_Gamma (gt_initial (gc_init (go_cfg o)) (dt data) (odt D) (odt W) ud true))); tauto.
  Qed.
  Lemma d_coding_fails fuel (o : gpnh T) data D W ud uw kw :
    gpnh_fails (gc_init (go_cfg o)) ud uw data D W ->
    (forall x, d_gpnh_convex_coding fuel o data D W ud uw kw <> Ok x)
    /\ ((exists r, gpnh_convex_coding fuel o (val data) (oval D) (oval W) ud uw kw = Ok r) ->
        d_gpnh_convex_coding fuel o data D W ud uw kw = Raise TypeError).
  Proof.
    intros H. unfold d_gpnh_convex_coding, gpnh_convex_coding.
    destruct (check_params _ _ _) as [[[k m] t]|e] eqn:E; cbn [bind]; [|split; [discriminate | intros [r Hr]; discriminate]].
    destruct (choose_initial _ _ _ _ _ _ _ _ _) as [[[D0 W0] g]|e]; cbn [bind]; [|split; [discriminate | intros [r Hr]; discriminate]].
    apply check_params_max in E.
    assert (S : stuck (gt_initial (gc_init (go_cfg o)) (dt data) (odt D) (odt W) ud uw) TypeError (gpnh_pairs fuel (go_cfg o) k ud uw)).
    { apply gpnh_stuck. rewrite gt_initial_S, gt_initial_Gamma. exact H. }
    rewrite gpnh_iterate_pairs, d_gpnh_iterate_pairs.
    match goal with |- context[iterate ?f ?b (typed_all ?us) ?tol ?mm (?tt, ?s)] =>
      destruct (iterate_stuck (evaluate_cost (go_cfg o) k) b tol mm tt TypeError us s S E) as [A B] end.
    match goal with |- context[bind (iterate ?f ?b (typed_all ?us) ?tol ?mm (?tt, ?s)) _] =>
      destruct (iterate f b (typed_all us) tol mm (tt, s)) as [x|e] end; [destruct (A x); reflexivity|].
    cbn [bind]. split; [discriminate|]. intros [r Hr].
    match type of Hr with bind ?i _ = _ => destruct i as [y|e'] eqn:Ei; [|discriminate] end.
    specialize (B (ex_intro _ y eq_refl)). injection B as ->. reflexivity.
  Qed.
  Lemma d_fit_agrees fuel (o : gpnh T) data D W ud uw kw :
    ~ gpnh_fails (gc_init (go_cfg o)) ud uw data D W ->
    d_fit_transform fuel o data D W ud uw kw
    = let! r := fit_transform fuel o (val data) (oval D) (oval W) ud uw kw in
      Ok (gt_initial (gc_init (go_cfg o)) (dt data) (odt D) (odt W) ud uw, r).
  Proof.
    intros H. unfold d_fit_transform, fit_transform. rewrite d_coding_agrees by exact H.
    destruct (gpnh_convex_coding _ _ _ _ _ _ _ _) as [r|e]; cbn [bind]; [|reflexivity].
    destruct (go_ws (gr_obj r)); reflexivity.
  Qed.
  Lemma d_fit_fails fuel (o : gpnh T) data D W ud uw kw :
    gpnh_fails (gc_init (go_cfg o)) ud uw data D W ->
    (forall x, d_fit_transform fuel o data D W ud uw kw <> Ok x)
    /\ ((exists r, fit_transform fuel o (val data) (oval D) (oval W) ud uw kw = Ok r) ->
        d_fit_transform fuel o data D W ud uw kw = Raise TypeError).
  Proof.
    intros H. unfold d_fit_transform, fit_transform. destruct (d_coding_fails fuel o data D W ud uw kw H) as [A B].
    destruct (d_gpnh_convex_coding _ _ _ _ _ _ _ _) as [x|e]; [destruct (A x); reflexivity|]. cbn [bind].
    split; [discriminate|]. intros [r Hr].
    destruct (gpnh_convex_coding _ _ _ _ _ _ _ _) as [y|e'] eqn:Ei; [|discriminate].
    specialize (B (ex_intro _ y eq_refl)). injection B as ->. reflexivity.
  Qed.
  Lemma d_transform_agrees fuel (o : gpnh T) dS data : gc_init (go_cfg o) <> InitCustom ->
    exists t, d_transform fuel o dS data = let! r := transform fuel o (val data) in Ok (t, r).
  Proof.
    intros Hi. eexists. unfold d_transform, transform. rewrite d_coding_agrees.
    - replace (oval match go_ws o with Some w => Some (mkarr dS (w_S w)) | None => None end)
        with (match go_ws o with Some w => Some (w_S w) | None => None end) by (destruct (go_ws o); reflexivity).
      cbn [oval]. destruct (gpnh_convex_coding _ _ _ _ _ _ _ _) as [r|e]; cbn [bind]; [|reflexivity].
      destruct (go_ws (gr_obj r)); reflexivity.
    - intros [[H _]|[_ [[H|[H _]] _]]]; [discriminate | contradiction | discriminate].
  Qed.
End Gpnh.

(** ** KernelAA *)
Section Aa.
  Context {T : Type} {N : Num T}.

  Lemma at_cost_initial pos K S C :
    at_evaluate_cost pos (at_initialize K S C)
    = if andb pos (match C, K with DInt, DInt => true | _, _ => false end) then Raise ValueError
      else Ok (at_initialize K S C).
  Proof. destruct pos, K, S, C; reflexivity. Qed.
  (** which dtypes each update accepts *)
  Definition at_dictionary_ok (K S C : dtype) : bool :=
    match C, S, K with DFloat, DFloat, _ | DFloat, _, DFloat => true | _, _, _ => false end.
  Definition at_weights_ok (pos : bool) (K S C : dtype) : bool :=
    match S, K, C with DFloat, DFloat, _ | DFloat, _, DFloat => true | DFloat, DInt, DInt => pos | _, _, _ => false end.
  Lemma at_dictionary_step pos K S C : andb pos (match C, K with DInt, DInt => true | _, _ => false end) = false ->
    at_and_cost pos (at_update_dictionary pos) (at_initialize K S C)
    = if at_dictionary_ok K S C then Ok (at_initialize K S C) else Raise TypeError.
  Proof. destruct pos, K, S, C; cbn; intros; try discriminate; reflexivity. Qed.
  Lemma at_weights_step pos K S C : andb pos (match C, K with DInt, DInt => true | _, _ => false end) = false ->
    at_and_cost pos (at_update_weights pos) (at_initialize K S C)
    = if at_weights_ok pos K S C then Ok (at_initialize K S C) else Raise TypeError.
  Proof. destruct pos, K, S, C; cbn; intros; try discriminate; reflexivity. Qed.

  Definition aa_pairs (fuel : nat) (c : aa_cfg T) (ud uw : bool) : @pairs atags (aws T) :=
    let pos := (ac_delta c >? n0)%num in
    (if ud then [(at_and_cost pos (at_update_dictionary pos), and_refresh c (aa_update_dictionary fuel c))] else [])
    ++ (if uw then [(at_and_cost pos (at_update_weights pos), and_refresh c (aa_update_weights fuel c))] else []).
  Lemma d_aa_iterate_pairs fuel c ud uw tol m t w :
    d_aa_iterate fuel c ud uw tol m (t, w)
    = let! t' := at_evaluate_cost (ac_delta c >? n0)%num t in
      iterate (fun q => aa_evaluate_cost c (snd q)) (cost_increased (ac_monotone c))
        (typed_all (aa_pairs fuel c ud uw)) tol m (t', aa_refresh c w).
  Proof. destruct ud, uw; reflexivity. Qed.
  Lemma aa_iterate_pairs fuel c ud uw tol m w :
    aa_iterate fuel c ud uw tol m w
    = iterate (aa_evaluate_cost c) (cost_increased (ac_monotone c))
        (plain_all (aa_pairs fuel c ud uw)) tol m (aa_refresh c w).
  Proof. destruct ud, uw; reflexivity. Qed.

  Lemma aa_settled fuel c ud uw K S C :
    andb (ac_delta c >? n0)%num (match C, K with DInt, DInt => true | _, _ => false end) = false ->
    (ud = true -> at_dictionary_ok K S C = true) ->
    (uw = true -> at_weights_ok (ac_delta c >? n0)%num K S C = true) ->
    settled (at_initialize K S C) (aa_pairs fuel c ud uw).
  Proof.
    intros P H1 H2 u Hu. unfold aa_pairs in Hu. apply in_app_or in Hu. destruct Hu as [Hu|Hu].
    - destruct ud; cbn in Hu; [|contradiction]. destruct Hu as [<-|[]]. cbn [fst].
      rewrite at_dictionary_step, (H1 eq_refl) by exact P. reflexivity.
    - destruct uw; cbn in Hu; [|contradiction]. destruct Hu as [<-|[]]. cbn [fst].
      rewrite at_weights_step, (H2 eq_refl) by exact P. reflexivity.
  Qed.
  Lemma aa_stuck fuel c ud uw K S C :
    andb (ac_delta c >? n0)%num (match C, K with DInt, DInt => true | _, _ => false end) = false ->
    (ud = true /\ at_dictionary_ok K S C = false) \/ (uw = true /\ at_weights_ok (ac_delta c >? n0)%num K S C = false) ->
    stuck (at_initialize K S C) TypeError (aa_pairs fuel c ud uw).
  Proof.
    intros P H. unfold aa_pairs, stuck. set (pos := (ac_delta c >? n0)%num) in *.
    assert (D := at_dictionary_step pos K S C P). assert (W := at_weights_step pos K S C P).
    destruct ud; [destruct (at_dictionary_ok K S C)|].
    - destruct H as [[_ H]|[-> Hw]]; [discriminate|]. rewrite Hw in W.
      exists [(at_and_cost pos (at_update_dictionary pos), and_refresh c (aa_update_dictionary fuel c))],
             (at_and_cost pos (at_update_weights pos), and_refresh c (aa_update_weights fuel c)), [].
      split; [reflexivity|]. split; [|exact W]. intros u [<-|[]]. exact D.
    - exists [], (at_and_cost pos (at_update_dictionary pos), and_refresh c (aa_update_dictionary fuel c)),
             (if uw then [(at_and_cost pos (at_update_weights pos), and_refresh c (aa_update_weights fuel c))] else []).
      split; [reflexivity|]. split; [intros u []|exact D].
    - destruct H as [[H _]|[-> Hw]]; [discriminate|]. rewrite Hw in W.
      exists [], (at_and_cost pos (at_update_weights pos), and_refresh c (aa_update_weights fuel c)), [].
      split; [reflexivity|]. split; [intros u []|exact W].
  Qed.

  Definition aa_starts (init : init_method) (kernel : arr (mat T)) (D W : option (arr (mat T))) (ud uw : bool) : dtype * dtype :=
    at_initial init (dt kernel) (odt D) (odt W) ud uw.
  Lemma at_initial_C init kernel D W ud uw :
    fst (aa_starts init kernel D W ud uw) = DInt <-> aa_int_dictionary init ud uw kernel D.
  Proof.
    unfold aa_int_dictionary, uses_dictionary, aa_starts, at_initial, at_drawn_dictionary. rewrite <- oint.
    destruct init, ud, uw, (odt D), (dt kernel); cbn; intuition (try discriminate; try congruence).
  Qed.
  Lemma at_initial_S init kernel D W ud uw :
    snd (aa_starts init kernel D W ud uw) = DInt <-> gpnh_int_weights init ud uw W.
  Proof.
    unfold gpnh_int_weights, uses_weights, aa_starts, at_initial, at_drawn_dictionary. rewrite <- oint.
    destruct init, ud, uw, (odt W); cbn; intuition (try discriminate; try congruence).
  Qed.

  Lemma d_aa_agrees fuel (o : aa T) kernel D W ud uw kw :
    let pos := (ac_delta (ao_cfg o) >? n0)%num in let init := ac_init (ao_cfg o) in
    ~ aa_fails_value pos init ud uw kernel D W -> ~ aa_fails_type pos init ud uw kernel D W ->
    d_kernel_aa fuel o kernel D W ud uw kw
    = let! r := kernel_aa fuel o (val kernel) (oval D) (oval W) ud uw kw in
      let s := aa_starts init kernel D W ud uw in
      Ok (at_initialize (dt kernel) (snd s) (fst s), r).
  Proof.
    intros pos init HV HT. unfold d_kernel_aa, kernel_aa.
    destruct (negb _); [reflexivity|].
    destruct (check_params _ _ _) as [[[k m] t]|e]; cbn [bind]; [|reflexivity].
    destruct (aa_choose_initial _ _ _ _ _ _ _ _ _) as [[[D0 W0] g]|e]; cbn [bind]; [|reflexivity].
    unfold aa_fails_value, aa_fails_type in HV, HT.
    rewrite <- at_initial_C with (W := W) in HV, HT. rewrite <- at_initial_S with (D := D) (kernel := kernel) in HT.
    fold init. fold (aa_starts init kernel D W ud uw).
    destruct (aa_starts init kernel D W ud uw) as [dC dS]. cbn [fst snd] in *.
    assert (P : andb pos (match dC, dt kernel with DInt, DInt => true | _, _ => false end) = false)
      by (destruct pos, dC, (dt kernel); cbn; auto; exfalso; apply HV; auto).
    rewrite d_aa_iterate_pairs, at_cost_initial. fold pos. rewrite P. cbn [bind].
    rewrite iterate_settled, aa_iterate_pairs.
    - unfold tag_run. destruct (iterate _ _ _ _ _ _) as [[[[w2 cost] n] l]|e]; reflexivity.
    - apply aa_settled; [exact P| |]; fold pos; intros ->; destruct dC, dS, (dt kernel); cbn; auto;
        exfalso; apply HT; auto; right; auto.
  Qed.
  Lemma d_aa_fails fuel (o : aa T) kernel D W ud uw kw :
    let pos := (ac_delta (ao_cfg o) >? n0)%num in let init := ac_init (ao_cfg o) in
    aa_fails_value pos init ud uw kernel D W \/ aa_fails_type pos init ud uw kernel D W ->
    (forall x, d_kernel_aa fuel o kernel D W ud uw kw <> Ok x)
    /\ ((exists r, kernel_aa fuel o (val kernel) (oval D) (oval W) ud uw kw = Ok r) ->
        (aa_fails_value pos init ud uw kernel D W -> d_kernel_aa fuel o kernel D W ud uw kw = Raise ValueError)
        /\ (~ aa_fails_value pos init ud uw kernel D W -> d_kernel_aa fuel o kernel D W ud uw kw = Raise TypeError)).
  Proof.
    intros pos init H. unfold d_kernel_aa, kernel_aa.
    destruct (negb _); [split; [discriminate | intros [r Hr]; discriminate]|].
    destruct (check_params _ _ _) as [[[k m] t]|e] eqn:E; cbn [bind]; [|split; [discriminate | intros [r Hr]; discriminate]].
    destruct (aa_choose_initial _ _ _ _ _ _ _ _ _) as [[[D0 W0] g]|e]; cbn [bind]; [|split; [discriminate | intros [r Hr]; discriminate]].
    apply check_params_max in E.
    unfold aa_fails_value, aa_fails_type in *.
    rewrite <- at_initial_C with (W := W) in *. rewrite <- at_initial_S with (D := D) (kernel := kernel) in *.
    fold init. fold (aa_starts init kernel D W ud uw).
    destruct (aa_starts init kernel D W ud uw) as [dC dS]. cbn [fst snd] in *.
    rewrite d_aa_iterate_pairs, at_cost_initial. fold pos.
    destruct (andb pos _) eqn:P.
    - assert (pos = true /\ dt kernel = DInt /\ dC = DInt) as V by (destruct pos, dC, (dt kernel); cbn in P; try discriminate; auto).
      cbn [bind]. split; [discriminate|]. intros _. split; [reflexivity|]. intros nV; contradiction.
    - assert (~ (pos = true /\ dt kernel = DInt /\ dC = DInt)) as V
        by (intros (h1 & h2 & h3); rewrite h1, h2, h3 in P; discriminate).
      assert (S : stuck (at_initialize (dt kernel) dS dC) TypeError (aa_pairs fuel (ao_cfg o) ud uw)).
      { apply aa_stuck; [exact P|]. fold pos. destruct H as [H|H]; [contradiction|].
        destruct H as [[-> H]|[-> H]]; [left | right]; (split; [reflexivity|]);
          destruct dC, dS, (dt kernel), pos; cbn in *; auto; intuition (try discriminate). }
      cbn [bind]. rewrite aa_iterate_pairs.
      match goal with |- context[iterate ?f ?b (typed_all ?us) ?tol ?mm (?tt, ?s)] =>
        destruct (iterate_stuck (aa_evaluate_cost (ao_cfg o)) b tol mm tt TypeError us s S E) as [A B];
        destruct (iterate f b (typed_all us) tol mm (tt, s)) as [x|e]; [destruct (A x); reflexivity|] end.
      cbn [bind]. split; [discriminate|]. intros [r Hr]. split; [intros; contradiction|]. intros _.
      match type of Hr with bind ?i _ = _ => destruct i as [y|e'] eqn:Ei; [|discriminate] end.
      specialize (B (ex_intro _ y eq_refl)). injection B as ->. reflexivity.
  Qed.
  Lemma d_aa_fit_agrees fuel (o : aa T) kernel D W ud uw kw :
    let pos := (ac_delta (ao_cfg o) >? n0)%num in let init := ac_init (ao_cfg o) in
    ~ aa_fails_value pos init ud uw kernel D W -> ~ aa_fails_type pos init ud uw kernel D W ->
    d_aa_fit_transform fuel o kernel D W ud uw kw
    = let! r := aa_fit_transform fuel o (val kernel) (oval D) (oval W) ud uw kw in
      let s := aa_starts init kernel D W ud uw in
      Ok (at_initialize (dt kernel) (snd s) (fst s), r).
  Proof.
    intros pos init HV HT. unfold d_aa_fit_transform, aa_fit_transform. rewrite d_aa_agrees by assumption.
    destruct (kernel_aa _ _ _ _ _ _ _ _) as [r|e]; cbn [bind fst snd]; [|reflexivity].
    destruct (aa_set_fitted r); reflexivity.
  Qed.
  Lemma d_aa_fit_fails fuel (o : aa T) kernel D W ud uw kw :
    let pos := (ac_delta (ao_cfg o) >? n0)%num in let init := ac_init (ao_cfg o) in
    aa_fails_value pos init ud uw kernel D W \/ aa_fails_type pos init ud uw kernel D W ->
    (forall x, d_aa_fit_transform fuel o kernel D W ud uw kw <> Ok x)
    /\ ((exists r, aa_fit_transform fuel o (val kernel) (oval D) (oval W) ud uw kw = Ok r) ->
        (aa_fails_value pos init ud uw kernel D W -> d_aa_fit_transform fuel o kernel D W ud uw kw = Raise ValueError)
        /\ (~ aa_fails_value pos init ud uw kernel D W -> d_aa_fit_transform fuel o kernel D W ud uw kw = Raise TypeError)).
  Proof.
    intros pos init H. unfold d_aa_fit_transform, aa_fit_transform.
    destruct (d_aa_fails fuel o kernel D W ud uw kw H) as [A B]. fold pos init in B.
    destruct (d_kernel_aa _ _ _ _ _ _ _ _) as [x|e]; [destruct (A x); reflexivity|]. cbn [bind].
    split; [discriminate|]. intros [r Hr].
    destruct (kernel_aa _ _ _ _ _ _ _ _) as [y|e'] eqn:Ei; [|discriminate].
    destruct (B (ex_intro _ y eq_refl)) as [B1 B2].
    split; intros h; [specialize (B1 h); injection B1 as -> | specialize (B2 h); injection B2 as ->]; reflexivity.
  Qed.
End Aa.

(** ** MTDConvexCoding *)
Section Mtd.
  Context {T : Type} {N : Num T}.

  Lemma mt_dictionary_step k dX dG dS dow dT dZ :
    mt_update_dictionary k (mk_mtags dX dG dS dow dT dZ)
    = match dS with DFloat => Ok (mk_mtags dX dG dS dow dT dZ) | DInt => Raise TypeError end.
  Proof.
    unfold mt_update_dictionary. cbn [mt_X mt_Gamma mt_S]. destruct dS.
    - rewrite gt_dictionary_raises. reflexivity.
    - rewrite gt_dictionary_settled. reflexivity.
  Qed.
  Lemma mt_weights_step dX dG dS dow dT :
    mt_update_weights (mk_mtags dX dG dS dow dT dG)
    = match dG with DFloat => Ok (mk_mtags dX dG dS dow dT dG) | DInt => Raise TypeError end.
  Proof. destruct dX, dG, dS, dow, dT; reflexivity. Qed.
  Lemma mt_parameters_step dX dG dS dow dT :
    mt_predicted dG dow dT = Ok dG ->
    mt_update_parameters (mk_mtags dX dG dS dow dT dG)
    = match dow, dT with DFloat, DFloat => Ok (mk_mtags dX dG dS dow dT dG) | _, _ => Raise TypeError end.
  Proof. destruct dX, dG, dS, dow, dT; cbn; intros; try discriminate; reflexivity. Qed.
  Lemma mt_predicted_start dX dG dS dow dT :
    mt_update_predicted (mk_mtags dX dG dS dow dT dG)
    = match dG, dow, dT with
      | DInt, DFloat, _ | DInt, _, DFloat => Raise TypeError
      | _, _, _ => Ok (mk_mtags dX dG dS dow dT dG) end.
  Proof. destruct dX, dG, dS, dow, dT; reflexivity. Qed.

  Definition mtd_pairs (fuel : nat) (c : mtd_cfg T) (k : nat) (ud uw up : bool) : @pairs mtags (mws T) :=
    (if ud then [(mt_update_dictionary k, mtd_update_dictionary fuel c k)] else [])
    ++ (if uw then [(mt_update_weights, mtd_update_weights fuel c k)] else [])
    ++ (if up then [(mt_update_parameters, mtd_update_parameters fuel c k)] else []).
  Lemma d_mtd_iterate_pairs fuel c k ud uw up tol m p :
    d_mtd_iterate fuel c k ud uw up tol m p
    = iterate (fun q => mtd_evaluate_cost c k (snd q)) (cost_increased (mc_monotone c))
        (typed_all (mtd_pairs fuel c k ud uw up)) tol m p.
  Proof. destruct ud, uw, up; reflexivity. Qed.
  Lemma mtd_iterate_pairs fuel c k ud uw up tol m w :
    mtd_iterate fuel c k ud uw up tol m w
    = iterate (mtd_evaluate_cost c k) (cost_increased (mc_monotone c))
        (plain_all (mtd_pairs fuel c k ud uw up)) tol m w.
  Proof. destruct ud, uw, up; reflexivity. Qed.

  Lemma mtd_settled fuel c k ud uw up dX dG dS dow dT :
    mt_predicted dG dow dT = Ok dG ->
    (ud = true -> dS = DFloat) -> (uw = true -> dG = DFloat) -> (up = true -> dow = DFloat /\ dT = DFloat) ->
    settled (mk_mtags dX dG dS dow dT dG) (mtd_pairs fuel c k ud uw up).
  Proof.
    intros P H1 H2 H3 u Hu. unfold mtd_pairs in Hu. rewrite !in_app_iff in Hu. destruct Hu as [Hu|[Hu|Hu]].
    - destruct ud; cbn in Hu; [|contradiction]. destruct Hu as [<-|[]]. cbn [fst].
      rewrite mt_dictionary_step, (H1 eq_refl). reflexivity.
    - destruct uw; cbn in Hu; [|contradiction]. destruct Hu as [<-|[]]. cbn [fst].
      rewrite mt_weights_step, (H2 eq_refl). reflexivity.
    - destruct up; cbn in Hu; [|contradiction]. destruct Hu as [<-|[]]. cbn [fst].
      rewrite mt_parameters_step by exact P. destruct (H3 eq_refl) as [-> ->]. reflexivity.
  Qed.
  Lemma mtd_stuck fuel c k ud uw up dX dG dS dow dT :
    mt_predicted dG dow dT = Ok dG ->
    (ud = true /\ dS = DInt) \/ (uw = true /\ dG = DInt) \/ (up = true /\ (dow = DInt \/ dT = DInt)) ->
    stuck (mk_mtags dX dG dS dow dT dG) TypeError (mtd_pairs fuel c k ud uw up).
  Proof.
    intros P H.
    assert (HD := mt_dictionary_step k dX dG dS dow dT dG).
    assert (HW := mt_weights_step dX dG dS dow dT).
    assert (HP := mt_parameters_step dX dG dS dow dT P).
    set (t := mk_mtags dX dG dS dow dT dG) in *.
    set (pd := (mt_update_dictionary k, mtd_update_dictionary fuel c k)).
    set (pw := (mt_update_weights, mtd_update_weights fuel c k)).
    set (pp := (mt_update_parameters, mtd_update_parameters fuel c k)).
    assert (F1 : ud = true -> dS = DFloat -> fst pd t = Ok t) by (intros _ h; cbn [pd fst]; rewrite HD, h; reflexivity).
    unfold mtd_pairs, stuck. fold pd pw pp.
    destruct ud eqn:Eud; [destruct dS|].
    - exists [], pd, ((if uw then [pw] else []) ++ (if up then [pp] else [])).
      split; [reflexivity|]. split; [intros u []|exact HD].
    - destruct uw eqn:Euw; [destruct dG|].
      + exists [pd], pw, (if up then [pp] else []). split; [reflexivity|]. split; [|exact HW]. intros u [<-|[]]; exact HD.
      + destruct H as [[_ H]|[[_ H]|[-> H]]]; try discriminate.
        exists [pd; pw], pp, []. split; [reflexivity|]. split; [intros u [<-|[<-|[]]]; [exact HD|exact HW]|].
        cbn [pp fst]. rewrite HP. destruct H as [-> | ->]; [reflexivity|]. destruct dow; reflexivity.
      + destruct H as [[_ H]|[[H _]|[-> H]]]; try discriminate.
        exists [pd], pp, []. split; [reflexivity|]. split; [intros u [<-|[]]; exact HD|].
        cbn [pp fst]. rewrite HP. destruct H as [-> | ->]; [reflexivity|]. destruct dow; reflexivity.
    - destruct uw eqn:Euw; [destruct dG|].
      + exists [], pw, (if up then [pp] else []). split; [reflexivity|]. split; [intros u []|exact HW].
      + destruct H as [[H _]|[[_ H]|[-> H]]]; try discriminate.
        exists [pw], pp, []. split; [reflexivity|]. split; [intros u [<-|[]]; exact HW|].
        cbn [pp fst]. rewrite HP. destruct H as [-> | ->]; [reflexivity|]. destruct dow; reflexivity.
      + destruct H as [[H _]|[[H _]|[-> H]]]; try discriminate.
        exists [], pp, []. split; [reflexivity|]. split; [intros u []|].
        cbn [pp fst]. rewrite HP. destruct H as [-> | ->]; [reflexivity|]. destruct dow; reflexivity.
  Qed.

  Definition mtd_starts (init : init_method) (data : arr (mat T)) (D W : option (arr (mat T)))
             (ow : option (arr (list T))) (Ts : option (arr (list (mat T)))) (ud uw up : bool) : mtags :=
    mt_initial init (dt data) (odt D) (odt W) (odt ow) (odt Ts) ud uw up.
  Lemma mtd_starts_S init data D W ow Ts ud uw up :
    mt_S (mtd_starts init data D W ow Ts ud uw up) = DInt <-> mtd_int_dictionary init ud data D.
  Proof.
    unfold mtd_int_dictionary, mtd_starts, mt_initial, drawn_dictionary. rewrite <- oint.
    destruct init, ud, (odt D), (dt data); cbn; intuition (try discriminate; try congruence).
  Qed.
  Lemma mtd_starts_G init data D W ow Ts ud uw up :
    mt_Gamma (mtd_starts init data D W ow Ts ud uw up) = DInt <-> mtd_int_arg init uw W.
  Proof.
    unfold mtd_int_arg, mtd_starts, mt_initial. rewrite <- oint.
    destruct init, uw, (odt W); cbn; intuition (try discriminate; try congruence).
  Qed.
  Lemma mtd_starts_ow init data D W ow Ts ud uw up :
    mt_ow (mtd_starts init data D W ow Ts ud uw up) = DInt <-> mtd_int_arg init up ow.
  Proof.
    unfold mtd_int_arg, mtd_starts, mt_initial. rewrite <- oint.
    destruct init, up, (odt ow); cbn; intuition (try discriminate; try congruence).
  Qed.
  Lemma mtd_starts_T init data D W ow Ts ud uw up :
    mt_T (mtd_starts init data D W ow Ts ud uw up) = DInt <-> mtd_int_matrices init up data Ts.
  Proof.
    unfold mtd_int_matrices, mtd_int_arg, mtd_starts, mt_initial. rewrite <- oint.
    destruct init, up, (odt Ts), (dt data); cbn; intuition (try discriminate; try congruence).
  Qed.
  Lemma mtd_starts_Z init data D W ow Ts ud uw up :
    mt_Z (mtd_starts init data D W ow Ts ud uw up) = mt_Gamma (mtd_starts init data D W ow Ts ud uw up).
  Proof. destruct init; reflexivity. Qed.
  Lemma stored_float trunc init (data : arr (mat T)) (Ts : option (arr (list (mat T)))) up (M : list (mat T)) :
    ~ (up = true /\ mtd_int_matrices init up data Ts) -> stored_matrices trunc init (dt data) up M = M.
  Proof.
    unfold stored_matrices, mtd_int_matrices. intros H. destruct init, up, (dt data); try reflexivity;
      exfalso; apply H; (split; [reflexivity|]); right; (split; [discriminate|]); auto.
  Qed.

  Lemma mtd_fails_tags init data D W ow Ts ud uw up dX dG dS dow dT dZ :
    mtd_starts init data D W ow Ts ud uw up = mk_mtags dX dG dS dow dT dZ ->
    (mtd_fails init ud uw up data D W ow Ts <->
     (ud = true /\ dS = DInt) \/ (uw = true /\ dG = DInt) \/ (up = true /\ (dow = DInt \/ dT = DInt))
     \/ (dG = DInt /\ ~ (dow = DInt /\ dT = DInt))).
  Proof.
    intros E. unfold mtd_fails.
    rewrite <- (mtd_starts_S init data D W ow Ts ud uw up), <- (mtd_starts_G init data D W ow Ts ud uw up),
      <- (mtd_starts_ow init data D W ow Ts ud uw up), <- (mtd_starts_T init data D W ow Ts ud uw up), E. reflexivity.
  Qed.

  Lemma d_mtd_agrees trunc fuel (o : mtd T) data D W ow Ts ud uw up kw :
    let init := mc_init (mo_cfg o) in
    ~ mtd_fails init ud uw up data D W ow Ts ->
    d_mtd_convex_coding trunc fuel o data D W ow Ts ud uw up kw
    = let! r := mtd_convex_coding fuel o (val data) (oval D) (oval W) (oval ow) (oval Ts) ud uw up kw in
      Ok (mtd_starts init data D W ow Ts ud uw up, r).
  Proof.
    intros init H. unfold d_mtd_convex_coding, mtd_convex_coding.
    destruct (check_params _ _ _) as [[[k m] t]|e]; cbn [bind]; [|reflexivity].
    destruct (mtd_choose_initial _ _ _ _ _ _ _ _ _ _ _ _) as [[[[[D0 W0] o0] T0] g]|e]; cbn [bind]; [|reflexivity].
    destruct (check_max_lag _); cbn [bind]; [|reflexivity].
    fold init. fold (mtd_starts init data D W ow Ts ud uw up).
    rewrite (stored_float trunc init data Ts up T0)
      by (intros [-> HM]; apply H; right; right; left; auto).
    pose proof (mtd_starts_Z init data D W ow Ts ud uw up) as EZ.
    destruct (mtd_starts init data D W ow Ts ud uw up) as [dX dG dS dow dT dZ] eqn:E. cbn [mt_Z mt_Gamma] in EZ. subst dZ.
    apply mtd_fails_tags in E. rewrite E in H.
    rewrite mt_predicted_start.
    assert (P : mt_predicted dG dow dT = Ok dG)
      by (destruct dG, dow, dT; try reflexivity; exfalso; apply H; right; right; right; (split; [reflexivity|]); intros [? ?]; discriminate).
    replace (match dG, dow, dT with DInt, DFloat, _ | DInt, _, DFloat => Raise TypeError | _, _, _ => Ok (mk_mtags dX dG dS dow dT dG) end)
      with (Ok (mk_mtags dX dG dS dow dT dG)) by (destruct dG, dow, dT; try reflexivity; discriminate P).
    cbn [bind].
    rewrite d_mtd_iterate_pairs, iterate_settled, mtd_iterate_pairs.
    - unfold tag_run. destruct (iterate _ _ _ _ _ _) as [[[[w2 cost] n] l]|e]; reflexivity.
    - apply mtd_settled; [exact P| | |].
      + intros ->. destruct dS; [exfalso; tauto | reflexivity].
      + intros ->. destruct dG; [exfalso; tauto | reflexivity].
      + intros ->. destruct dow, dT; [exfalso; tauto .. | split; reflexivity].
  Qed.
  (** the matrices drawn for integer data differ from those of a float fit, so the exact exception is
      stated only for arrays that are given *)
  Lemma d_mtd_fails trunc fuel (o : mtd T) data D W ow Ts ud uw up kw :
    let init := mc_init (mo_cfg o) in
    mtd_fails init ud uw up data D W ow Ts ->
    (forall x, d_mtd_convex_coding trunc fuel o data D W ow Ts ud uw up kw <> Ok x)
    /\ ((exists r, mtd_convex_coding fuel o (val data) (oval D) (oval W) (oval ow) (oval Ts) ud uw up kw = Ok r) ->
        (init <> InitCustom -> up = true -> dt data = DFloat) ->
        d_mtd_convex_coding trunc fuel o data D W ow Ts ud uw up kw = Raise TypeError).
  Proof.
    intros init H. unfold d_mtd_convex_coding, mtd_convex_coding.
    destruct (check_params _ _ _) as [[[k m] t]|e] eqn:Ep; cbn [bind]; [|split; [discriminate | intros [r Hr]; discriminate]].
    destruct (mtd_choose_initial _ _ _ _ _ _ _ _ _ _ _ _) as [[[[[D0 W0] o0] T0] g]|e]; cbn [bind]; [|split; [discriminate | intros [r Hr]; discriminate]].
    destruct (check_max_lag _); cbn [bind]; [|split; [discriminate | intros [r Hr]; discriminate]].
    apply check_params_max in Ep.
    fold init. fold (mtd_starts init data D W ow Ts ud uw up).
    assert (St : (init <> InitCustom -> up = true -> dt data = DFloat) -> stored_matrices trunc init (dt data) up T0 = T0).
    { intros h. unfold stored_matrices. destruct init; try reflexivity; destruct up; try reflexivity;
        rewrite h by (discriminate || reflexivity); reflexivity. }
    pose proof (mtd_starts_Z init data D W ow Ts ud uw up) as EZ.
    destruct (mtd_starts init data D W ow Ts ud uw up) as [dX dG dS dow dT dZ] eqn:E. cbn [mt_Z mt_Gamma] in EZ. subst dZ.
    apply mtd_fails_tags in E. rewrite E in H. clear E.
    destruct (mt_predicted dG dow dT) as [z|e] eqn:P.
    - assert (P' : mt_predicted dG dow dT = Ok dG) by (destruct dG, dow, dT; cbn in *; congruence).
      rewrite mt_predicted_start.
      replace (match dG, dow, dT with DInt, DFloat, _ | DInt, _, DFloat => Raise TypeError | _, _, _ => Ok (mk_mtags dX dG dS dow dT dG) end)
        with (Ok (mk_mtags dX dG dS dow dT dG)) by (destruct dG, dow, dT; try reflexivity; discriminate P').
      cbn [bind].
      assert (S : stuck (mk_mtags dX dG dS dow dT dG) TypeError (mtd_pairs fuel (mo_cfg o) k ud uw up)).
      { apply mtd_stuck; [exact P'|]. destruct H as [H|[H|[H|[-> H]]]]; auto.
        exfalso. destruct dow, dT; cbn in P'; try discriminate. apply H; auto. }
      rewrite mtd_iterate_pairs, d_mtd_iterate_pairs.
      match goal with |- context[iterate ?f ?b (typed_all ?us) ?tol ?mm (?tt, ?s)] =>
        destruct (iterate_stuck (mtd_evaluate_cost (mo_cfg o) k) b tol mm tt TypeError us s S Ep) as [A B];
        destruct (iterate f b (typed_all us) tol mm (tt, s)) as [x|e]; [destruct (A x); reflexivity|] end.
      cbn [bind]. split; [discriminate|]. intros [r Hr] hd. rewrite St in B by exact hd.
      match type of Hr with bind ?i _ = _ => destruct i as [y|e'] eqn:Ei; [|discriminate] end.
      specialize (B (ex_intro _ y eq_refl)). injection B as ->. reflexivity.
    - rewrite mt_predicted_start.
      replace (match dG, dow, dT with DInt, DFloat, _ | DInt, _, DFloat => Raise TypeError | _, _, _ => Ok (mk_mtags dX dG dS dow dT dG) end)
        with (@Raise mtags TypeError) by (destruct dG, dow, dT; try reflexivity; discriminate P).
      cbn [bind]. split; [discriminate | reflexivity].
  Qed.
  Lemma d_mtd_fit_agrees trunc fuel (o : mtd T) data D W ow Ts ud uw up kw :
    let init := mc_init (mo_cfg o) in
    ~ mtd_fails init ud uw up data D W ow Ts ->
    d_mtd_fit_transform trunc fuel o data D W ow Ts ud uw up kw
    = let! r := mtd_fit_transform fuel o (val data) (oval D) (oval W) (oval ow) (oval Ts) ud uw up kw in
      Ok (mtd_starts init data D W ow Ts ud uw up, r).
  Proof.
    intros init H. unfold d_mtd_fit_transform, mtd_fit_transform. rewrite d_mtd_agrees by exact H.
    destruct (mtd_convex_coding _ _ _ _ _ _ _ _ _ _ _) as [r|e]; cbn [bind]; [|reflexivity].
    destruct (mo_ws (mr_obj r)); reflexivity.
  Qed.
  Lemma d_mtd_fit_fails trunc fuel (o : mtd T) data D W ow Ts ud uw up kw :
    let init := mc_init (mo_cfg o) in
    mtd_fails init ud uw up data D W ow Ts ->
    (forall x, d_mtd_fit_transform trunc fuel o data D W ow Ts ud uw up kw <> Ok x)
    /\ ((exists r, mtd_fit_transform fuel o (val data) (oval D) (oval W) (oval ow) (oval Ts) ud uw up kw = Ok r) ->
        (init <> InitCustom -> up = true -> dt data = DFloat) ->
        d_mtd_fit_transform trunc fuel o data D W ow Ts ud uw up kw = Raise TypeError).
  Proof.
    intros init H. unfold d_mtd_fit_transform, mtd_fit_transform.
    destruct (d_mtd_fails trunc fuel o data D W ow Ts ud uw up kw H) as [A B]. fold init in B.
    destruct (d_mtd_convex_coding _ _ _ _ _ _ _ _ _ _ _ _) as [x|e]; [destruct (A x); reflexivity|]. cbn [bind].
    split; [discriminate|]. intros [r Hr] hd.
    destruct (mtd_convex_coding _ _ _ _ _ _ _ _ _ _ _) as [y|e'] eqn:Ei; [|discriminate].
    specialize (B (ex_intro _ y eq_refl) hd). injection B as ->. reflexivity.
  Qed.
End Mtd.

(** ** GPNHConvexCodingCROM *)
Section Crom.
  Context {T : Type} {N : Num T}.

  Lemma ct_step dG dow dT : mt_predicted dG dow dT = Ok dG ->
    ct_update_parameters (mk_ctags dG dow dT)
    = match dow, dT with DFloat, DFloat => Ok (mk_ctags dG dow dT) | _, _ => Raise TypeError end.
  Proof. destruct dG, dow, dT; cbn; intros; try discriminate; reflexivity. Qed.
  Definition crom_pairs (fuel : nat) (c : mtd_cfg T) (k n : nat) (G : mat T) : @pairs ctags (cws T) :=
    [(ct_update_parameters, crom_update_parameters fuel c k n G)].

  (** the parameter fit: works for float arrays only *)
  Lemma d_crom_parameters_agrees trunc fuel c k n G tol m g :
    d_crom_fit_parameters trunc fuel c k n DFloat DFloat G tol m g
    = let! p := crom_fit_parameters fuel c k n G tol m g in Ok (mk_ctags DFloat DFloat DFloat, p).
  Proof.
    unfold d_crom_fit_parameters, crom_fit_parameters.
    destruct (initialize_parameters_random k (n_lags c) g) as [[ow Ts] g'].
    destruct (check_max_lag c); cbn [bind]; [|reflexivity]. cbn [mt_predicted promote inplace bind].
    change [typed ct_update_parameters (crom_update_parameters fuel c k n G)] with (typed_all (crom_pairs fuel c k n G)).
    rewrite iterate_settled by (intros u [<-|[]]; apply ct_step; reflexivity).
    change (plain_all (crom_pairs fuel c k n G)) with [crom_update_parameters fuel c k n G].
    unfold tag_run. destruct (iterate _ _ _ _ _ _) as [[[[w r] ni] l]|e]; reflexivity.
  Qed.
  Lemma d_crom_parameters_fails trunc fuel c k n dX dG G tol m g : dX = DInt \/ dG = DInt -> 1 <= m -> mc_lags c <> [] ->
    d_crom_fit_parameters trunc fuel c k n dX dG G tol m g = Raise TypeError.
  Proof.
    intros H Hm Hl. unfold d_crom_fit_parameters.
    destruct (initialize_parameters_random k (n_lags c) g) as [[ow Ts] g'].
    unfold check_max_lag. destruct (mc_lags c) as [|l0 lr]; [contradiction|]. cbn [bind].
    destruct m as [|m]; [lia|]. unfold iterate. cbn [iterate_loop run_updates snd].
    destruct dX, dG; try reflexivity. destruct H; discriminate.
  Qed.

  Lemma d_crom_fit_fails trunc fuel (o : crom T) data D W ud uw kw :
    dt data = DInt \/ gpnh_int_weights (gc_init (go_cfg (co_gpnh o))) ud uw W ->
    co_lags o <> [] ->
    (forall x, d_crom_fit_transform trunc fuel o data D W ud uw kw <> Ok x)
    /\ ((exists r, fit_transform fuel (co_gpnh o) (val data) (oval D) (oval W) ud uw kw = Ok r) ->
        d_crom_fit_transform trunc fuel o data D W ud uw kw = Raise TypeError).
  Proof.
    intros H Hl. unfold d_crom_fit_transform.
    destruct (d_fit_transform fuel (co_gpnh o) data D W ud uw kw) as [[t [r G]]|e] eqn:E; cbn [bind].
    - assert (~ gpnh_fails (gc_init (go_cfg (co_gpnh o))) ud uw data D W) as NF.
      { intros F. destruct (d_fit_fails fuel (co_gpnh o) data D W ud uw kw F) as [A _]. apply (A _ E). }
      rewrite d_fit_agrees in E by exact NF.
      destruct (fit_transform fuel (co_gpnh o) (val data) (oval D) (oval W) ud uw kw) as [[r' G']|e'] eqn:Ef; [|discriminate].
      cbn [bind] in E. injection E as <- <- <-.
      destruct (check_params _ _ _) as [[[k m] tol]|e] eqn:Ep; cbn [bind].
      + rewrite gt_initial_X, d_crom_parameters_fails; cbn [bind]; [split; [discriminate | reflexivity] | | |].
        * destruct H as [H|H]; [left; exact H | right; apply gt_initial_Gamma; exact H].
        * apply check_params_max in Ep; exact Ep.
        * cbn [crom_cfg mc_lags]. destruct (co_lags o); [contradiction | discriminate].
      + split; [discriminate|]. intros _. exfalso.
        unfold fit_transform, gpnh_convex_coding in Ef.
        destruct (check_params (resolve_components _ _) _ _) as [[[k m] tol]|e1] eqn:Ep1; cbn [bind] in Ef; [|discriminate].
        destruct (choose_initial _ _ _ _ _ _ _ _ _) as [[[D0 W0] g]|e1]; cbn [bind] in Ef; [|discriminate].
        destruct (gpnh_iterate _ _ _ _ _ _ _ _) as [[[[w2 cost] ni] l]|e1]; cbn [bind] in Ef; [|discriminate].
        cbn in Ef. injection Ef as <- <-. cbn in Ep. rewrite Ep1 in Ep. discriminate.
    - split; [discriminate|]. intros [r Hr].
      assert (gpnh_fails (gc_init (go_cfg (co_gpnh o))) ud uw data D W \/ ~ gpnh_fails (gc_init (go_cfg (co_gpnh o))) ud uw data D W) as [F|F].
      { unfold gpnh_fails. rewrite <- gt_initial_S with (W := W), <- gt_initial_Gamma with (data := data) (D := D).
        destruct ud, uw, (dtype_dec (gt_S (gt_initial (gc_init (go_cfg (co_gpnh o))) (dt data) (odt D) (odt W) true true)));
        repeat match goal with |- context[gt_S ?x] => destruct (gt_S x) | |- context[gt_Gamma ?x] => destruct (gt_Gamma x) end;
        intuition (try discriminate). }
      + destruct (d_fit_fails fuel (co_gpnh o) data D W ud uw kw F) as [_ B]. rewrite B in E by eauto.
        injection E as <-. reflexivity.
      + rewrite d_fit_agrees, Hr in E by exact F. discriminate.
  Qed.
  Lemma d_crom_fit_agrees trunc fuel (o : crom T) data D W ud uw kw :
    ~ gpnh_fails (gc_init (go_cfg (co_gpnh o))) ud uw data D W ->
    dt data = DFloat -> ~ gpnh_int_weights (gc_init (go_cfg (co_gpnh o))) ud uw W ->
    d_crom_fit_transform trunc fuel o data D W ud uw kw
    = let! r := crom_fit_transform fuel o (val data) (oval D) (oval W) ud uw kw in
      Ok (mk_ctags DFloat DFloat DFloat, r).
  Proof.
    intros NF HX HG. unfold d_crom_fit_transform, crom_fit_transform. rewrite d_fit_agrees by exact NF.
    destruct (fit_transform _ _ _ _ _ _ _ _) as [[r G]|e]; cbn [bind]; [|reflexivity].
    destruct (check_params _ _ _) as [[[k m] tol]|e]; cbn [bind]; [|reflexivity].
    rewrite gt_initial_X, HX.
    replace (gt_Gamma _) with DFloat.
    - rewrite d_crom_parameters_agrees. destruct (crom_fit_parameters _ _ _ _ _ _ _ _) as [[[[w g'] ni] l]|e]; reflexivity.
    - rewrite <- gt_initial_Gamma with (data := data) (D := D), HX in HG.
      destruct (gt_Gamma (gt_initial (gc_init (go_cfg (co_gpnh o))) DFloat (odt D) (odt W) ud uw)); tauto.
  Qed.
End Crom.
