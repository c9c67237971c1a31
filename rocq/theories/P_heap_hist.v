(** Programs that use the estimators: an array changes only when the program itself writes to it. *)
From Coq Require Import List Arith ZArith Bool Lia.
From Verif Require Import Num Mat Py M_random M_furthest M_gpnh M_aa M_mtd M_crom Heap
  M_heap_gpnh M_heap_aa M_heap_mtd M_heap_crom M_heap_hist Spec_heap Spec_heap_obj Spec_heap_hist
  P_heap_call P_heap_gpnh_call P_heap_aa_call P_heap_mtd_call P_heap_crom_call.
Import ListNotations.

Section PHist.
  Context {T : Type} {N : Num T}.
  Notation mem := (mem (arr T)).

  Lemma has_in (m : mem) a : has m a = true -> exists_in m a.
  Proof using. intros H. apply Nat.ltb_lt. exact H. Qed.

  (** one call on one object *)
  Definition call_ok (m : mem) (o : hobj T) (x : res nat * hobj T * mem) : Prop :=
    let '(r, o1, m1) := x in
    unchanged m m1 /\ (o_valid m o -> o_valid m1 o1) /\ (o_pure o -> o_pure o1) /\
    (forall a, r = Ok a -> fresh_for m a /\ exists_in m1 a).

  Lemma o_fit_ok fuel j o (m : mem) data d w ow Ts ud uw up kw : o_pure o -> exists_in m data ->
    call_ok m o (o_fit fuel j o m data d w ow Ts ud uw up kw).
  Proof using.
    intros HP Hx. destruct o as [o|o|kf o|o|o]; cbn [o_fit].
    - destruct (hg_fit_transform _ _ _ _ _ _ _ _ _ _) as [[r o1] m1] eqn:E.
      apply P_heap_gpnh_call.fit_unchanged in E as (A & B & C). split; [exact A|]. split; [exact B|]. split; [auto|].
      intros a Ha. destruct (C a Ha) as (C1 & C2 & _). auto.
    - destruct (ha_fit_transform _ _ _ _ _ _ _ _ _ _) as [[r o1] m1] eqn:E.
      apply P_heap_aa_call.fit_unchanged in E as (A & B & C). split; [exact A|]. split; [exact B|]. split; [auto|].
      intros a Ha. destruct (C a Ha) as (C1 & C2 & _). auto.
    - destruct (ha_arch_fit_transform _ _ _ _ _ _ _ _ _ _ _) as [[r o1] m1] eqn:E.
      apply arch_fit_unchanged in E as (A & B & C); [|exact HP|exact Hx].
      split; [exact A|]. split; [exact B|]. split; [auto|].
      intros a Ha. destruct (C a Ha) as (C1 & C2 & _). auto.
    - destruct (hm_fit_transform _ _ _ _ _ _ _ _ _ _ _ _ _) as [[r o1] m1] eqn:E.
      apply P_heap_mtd_call.fit_unchanged in E as (A & B & C). split; [exact A|]. split; [exact B|]. split; [auto|].
      intros a Ha. destruct (C a Ha) as (C1 & C2 & _). auto.
    - destruct (hc_fit_transform _ _ _ _ _ _ _ _ _ _ _) as [[r o1] m1] eqn:E.
      apply P_heap_crom_call.fit_unchanged in E as (A & B & C). repeat (split; [solve [auto]|]). exact C.
  Qed.
  Lemma o_transform_ok fuel j o (m : mem) data : o_pure o -> exists_in m data ->
    call_ok m o (o_transform fuel j o m data).
  Proof using.
    intros HP Hx. destruct o as [o|o|kf o|o|o]; cbn [o_transform].
    - destruct (hg_transform _ _ _ _ _) as [[r o1] m1] eqn:E.
      apply P_heap_gpnh_call.transform_unchanged in E as (A & B & C). repeat (split; [solve [auto]|]). exact C.
    - destruct (ha_transform _ _ _ _ _) as [[r o1] m1] eqn:E.
      apply P_heap_aa_call.transform_unchanged in E as (A & B & C). repeat (split; [solve [auto]|]). exact C.
    - destruct (ha_arch_transform _ _ _ _ _ _) as [[r o1] m1] eqn:E.
      apply arch_transform_unchanged in E as (A & B & C); [|exact HP|exact Hx]. repeat (split; [solve [auto]|]). exact C.
    - destruct (hm_transform _ _ _ _ _) as [[r o1] m1] eqn:E.
      apply P_heap_mtd_call.transform_unchanged in E as (A & B & C). repeat (split; [solve [auto]|]). exact C.
    - destruct (hc_transform _ _ _ _ _) as [[r o1] m1] eqn:E.
      apply P_heap_crom_call.transform_unchanged in E as (A & B & C). repeat (split; [solve [auto]|]). exact C.
  Qed.
  Lemma call_ok_raise (m : mem) o e : call_ok m o (Raise e, o, m).
  Proof using. split; [apply unchanged_refl|]. split; [auto|]. split; [auto|]. discriminate. Qed.
  Lemma o_predict_ok fuel j o (m : mem) data h : call_ok m o (o_predict fuel j o m data h).
  Proof using.
    destruct o as [o|o|kf o|o|o]; cbn [o_predict]; try apply call_ok_raise.
    - destruct (hm_predict _ _ _ _ _ _) as [[r o1] m1] eqn:E.
      apply P_heap_mtd_call.predict_unchanged in E as (A & B & C). repeat (split; [solve [auto]|]). exact C.
    - destruct (hc_predict _ _ _ _ _ _) as [[r o1] m1] eqn:E.
      apply P_heap_crom_call.predict_unchanged in E as (A & B & C). repeat (split; [solve [auto]|]). exact C.
  Qed.
  Lemma o_valid_unchanged (m m1 : mem) o : unchanged m m1 -> o_valid m o -> o_valid m1 o.
  Proof using.
    intros HU. destruct o; cbn; [apply g_valid_unchanged|apply a_valid_unchanged|apply a_valid_unchanged|apply m_valid_unchanged|apply c_valid_unchanged]; exact HU.
  Qed.
  Lemma o_abs_unchanged (m m1 : mem) o : unchanged m m1 -> o_valid m o -> o_abs m1 o = o_abs m o.
  Proof using.
    intros HU HV. destruct o; cbn in *; f_equal;
      [apply g_abs_unchanged|apply a_abs_unchanged|apply a_abs_unchanged|apply m_abs_unchanged|apply c_abs_unchanged]; assumption.
  Qed.
  Lemma o_inverse_ok o (m : mem) a : call_ok m o (o_inverse o m a).
  Proof using.
    unfold o_inverse. destruct (o_dict o) as [s|]; [|apply call_ok_raise].
    destruct (Nat.eqb _ _); [|apply call_ok_raise]. cbn [alloc].
    match goal with |- call_ok _ _ (_, _, ?M) => assert (HU : unchanged m M) by apply (unchanged_alloc m) end.
    split; [exact HU|]. split; [intros HV; eapply o_valid_unchanged; eassumption|]. split; [auto|].
    intros x Hx. injection Hx as <-. unfold fresh_for, exists_in. cbn. lia.
  Qed.

  Lemma o_valid_next (m m1 : mem) o : m_next m <= m_next m1 -> o_valid m o -> o_valid m1 o.
  Proof using.
    intros HU. destruct o as [o|o|kf o|o|o]; cbn;
      [| | | |intros [[H1 H2] H3]; split; [split; [intros a x E|intros x E]|intros a x E];
              [specialize (H1 a x E)|specialize (H2 x E)|specialize (H3 a x E)]; unfold exists_in in *; lia].
    all: (intros [H1 H2]; split; [intros a x E|intros x E];
      [specialize (H1 a x E)|specialize (H2 x E)]; unfold exists_in in *; lia).
  Qed.
  Lemma o_made_valid (m : mem) o : o_valid m (o_made o).
  Proof using. destruct o; cbn; repeat split; try (intros a x; discriminate); intros x; discriminate. Qed.
  Lemma o_made_pure o : o_pure o -> o_pure (o_made (T := T) o).
  Proof using. destruct o; cbn; auto. Qed.

  Lemma set_obj_Forall (P : hobj T -> Prop) l : forall i o, Forall P l -> P o -> Forall P (set_obj i o l).
  Proof using.
    induction l as [|x l IH]; intros [|i] o HF HP; cbn; auto; inversion HF; subst; constructor; auto.
  Qed.
  Lemma set_obj_nth l : forall i o k, k <> i -> nth_error (set_obj (T := T) i o l) k = nth_error l k.
  Proof using.
    induction l as [|x l IH]; intros [|i] o [|k] Hk; cbn; auto; congruence.
  Qed.

  (** one statement *)
  Record step_ok (w : world T) (c : hcall T) (x : res (option nat) * world T) : Prop := {
    so_ok : w_ok (snd x);
    so_next : m_next (w_mem w) <= m_next (w_mem (snd x));
    so_frame : forall a, exists_in (w_mem w) a -> ~ writes c a -> m_heap (w_mem (snd x)) a = m_heap (w_mem w) a;
    so_fresh : forall a, fst x = Ok (Some a) -> fresh_for (w_mem w) a /\ exists_in (w_mem (snd x)) a;
    so_objs : forall i, ~ calls c i -> i < length (w_objs w) -> nth_error (w_objs (snd x)) i = nth_error (w_objs w) i }.

  Lemma set_obj_length l : forall i o, length (set_obj (T := T) i o l) = length l.
  Proof using. induction l as [|x l IH]; intros [|i] o; cbn; auto. Qed.

  Lemma on_obj_ok (w : world T) i ok f c :
    w_ok w -> (forall k, calls c k <-> k = i) -> (forall a, ~ writes c a) ->
    (ok = true -> forall o, o_pure o -> call_ok (w_mem w) o (f o)) ->
    step_ok w c (let! a := fst (on_obj w i ok f) in Ok (Some a), snd (on_obj w i ok f)).
  Proof using.
    intros HW Hc Hn Hf. unfold on_obj.
    assert (Hno : step_ok w c (let! a := @Raise nat AssertionError in Ok (Some a), w)).
    { split; cbn; auto; try lia; discriminate. }
    destruct (nth_error (w_objs w) i) as [o|] eqn:Eo; [|exact Hno]. destruct ok; [|exact Hno]. clear Hno.
    assert (Ho : o_valid (w_mem w) o /\ o_pure o).
    { unfold w_ok in HW. rewrite Forall_forall in HW. apply HW. eapply nth_error_In. exact Eo. }
    specialize (Hf eq_refl o (proj2 Ho)). destruct (f o) as [[r o1] m1]. destruct Hf as (A & B & C & D).
    split; cbn [fst snd w_mem w_objs].
    - unfold w_ok. cbn [w_mem w_objs]. apply set_obj_Forall.
      + eapply Forall_impl; [|exact HW]. intros x [H1 H2]. split; [|exact H2]. eapply o_valid_unchanged; eassumption.
      + split; [apply B|apply C]; apply Ho.
    - apply A.
    - intros a Ha _. apply (unchanged_val _ _ _ A Ha).
    - intros a. destruct r as [b|e]; cbn; [|discriminate]. intros E. injection E as <-. apply D. reflexivity.
    - intros k Hk _. apply set_obj_nth. intros ->. apply Hk. apply Hc. reflexivity.
  Qed.

  Lemma h_step_ok fuel (w : world T) c : w_ok w -> c_pure c -> step_ok w c (h_step fuel w c).
  Proof using.
    intros HW HC.
    destruct c as [o|v|a v|i j data d wt ow Ts ud uw up kw|i j data|i j data h|i wt]; cbn [h_step].
    - split; cbn [fst snd w_mem w_objs]; auto; try discriminate.
      + unfold w_ok. cbn [w_mem w_objs]. apply Forall_app. split; [exact HW|]. constructor; [|constructor].
        split; [apply o_made_valid|apply o_made_pure; exact HC].
      + intros i _ Hi. apply nth_error_app1. exact Hi.
    - cbn [alloc]. split; cbn [fst snd w_mem w_objs m_next m_heap]; auto.
      + unfold w_ok. cbn [w_mem w_objs]. eapply Forall_impl; [|exact HW]. intros x [H1 H2]. split; [|exact H2].
        eapply o_valid_next; [|exact H1]. cbn. lia.
      + intros a Ha _. unfold exists_in in Ha. unfold hwrite. destruct (Nat.eqb_spec a (m_next (w_mem w))); [lia|reflexivity].
      + intros a E. injection E as <-. unfold fresh_for, exists_in. cbn. lia.
    - destruct (has (w_mem w) a).
      + split; cbn [fst snd w_mem w_objs m_next m_heap].
        * eapply Forall_impl; [|exact HW]. intros x [H1 H2]. split; [|exact H2].
          eapply o_valid_next; [|exact H1]. cbn. lia.
        * lia.
        * intros b Hb Hw. unfold hwrite. destruct (Nat.eqb_spec b a) as [->|]; [|reflexivity].
          exfalso. apply Hw. reflexivity.
        * discriminate.
        * reflexivity.
      + split; cbn; auto; discriminate.
    - apply on_obj_ok; [exact HW|split; intros ->; reflexivity|intros a H; exact H|].
      intros Hok o Ho. apply o_fit_ok; [exact Ho|]. apply has_in.
      repeat (apply andb_true_iff in Hok as [Hok _]). exact Hok.
    - apply on_obj_ok; [exact HW|split; intros ->; reflexivity|intros a H; exact H|].
      intros Hok o Ho. apply o_transform_ok; [exact Ho|]. apply has_in. exact Hok.
    - apply on_obj_ok; [exact HW|split; intros ->; reflexivity|intros a H; exact H|].
      intros Hok o Ho. apply o_predict_ok.
    - apply on_obj_ok; [exact HW|split; intros ->; reflexivity|intros a H; exact H|].
      intros Hok o Ho. apply o_inverse_ok.
  Qed.

  Lemma step_objs_le fuel (w : world T) c : length (w_objs w) <= length (w_objs (snd (h_step fuel w c))).
  Proof using.
    assert (H : forall i ok f, length (w_objs (snd (on_obj w i ok f))) = length (w_objs w)).
    { intros i ok f. unfold on_obj. destruct (nth_error _ _) as [o|]; [|reflexivity]. destruct ok; [|reflexivity].
      destruct (f o) as [[r o1] m1]. cbn. apply set_obj_length. }
    destruct c; cbn [h_step]; cbn [fst snd w_objs]; try (rewrite H; reflexivity).
    - rewrite app_length. lia.
    - cbn. lia.
    - destruct (has _ _); cbn; lia.
  Qed.

  (** whole programs *)
  Lemma h_run_frame fuel h : forall (w : world T) rs w', w_ok w -> Forall c_pure h -> h_run fuel w h = (rs, w') ->
    w_ok w' /\ m_next (w_mem w) <= m_next (w_mem w') /\
    forall a, exists_in (w_mem w) a -> (forall c, In c h -> ~ writes c a) -> m_heap (w_mem w') a = m_heap (w_mem w) a.
  Proof using.
    induction h as [|c h IH]; intros w rs w' HW HP H; cbn [h_run] in H.
    - injection H as <- <-. split; [exact HW|]. split; [lia|]. reflexivity.
    - inversion HP as [|? ? HC HP']; subst. pose proof (h_step_ok fuel w c HW HC) as HS.
      destruct (h_step fuel w c) as [r w1]. destruct (h_run fuel w1 h) as [rs' w2] eqn:E.
      injection H as <- <-. destruct HS as [S1 S2 S3 S4 S5]. cbn [fst snd] in *.
      destruct (IH _ _ _ S1 HP' E) as (A & B & C). split; [exact A|]. split; [lia|].
      intros a Ha Hn. rewrite C; [apply S3; [exact Ha|apply Hn; left; reflexivity]|unfold exists_in in *; lia|].
      intros c' Hc'. apply Hn. right. exact Hc'.
  Qed.

  Lemma h_run_app fuel h1 : forall (w : world T) h2, h_run fuel w (h1 ++ h2) =
    let '(r1, w1) := h_run fuel w h1 in let '(r2, w2) := h_run fuel w1 h2 in (r1 ++ r2, w2).
  Proof using.
    induction h1 as [|c h1 IH]; intros w h2; cbn [app h_run].
    - destruct (h_run fuel w h2). reflexivity.
    - destruct (h_step fuel w c) as [r w1]. rewrite IH. destruct (h_run fuel w1 h1) as [r1 w2].
      destruct (h_run fuel w2 h2). reflexivity.
  Qed.

  Lemma h_run_objs fuel h : forall (w : world T) rs w' i, w_ok w -> Forall c_pure h -> h_run fuel w h = (rs, w') ->
    i < length (w_objs w) -> (forall c, In c h -> ~ calls c i /\ forall a, ~ writes c a) ->
    holds w' i = holds w i.
  Proof using.
    induction h as [|c h IH]; intros w rs w' i HW HP H Hi Hn; cbn [h_run] in H.
    - injection H as <- <-. reflexivity.
    - inversion HP as [|? ? HC HP']; subst. pose proof (h_step_ok fuel w c HW HC) as HS.
      pose proof (step_objs_le fuel w c) as HL.
      destruct (h_step fuel w c) as [r w1]. destruct (h_run fuel w1 h) as [rs' w2] eqn:E.
      injection H as <- <-. destruct HS as [S1 S2 S3 S4 S5]. cbn [fst snd] in *.
      destruct (Hn c (or_introl eq_refl)) as [Hc Hw].
      rewrite (IH _ _ _ i S1 HP' E); [|lia|intros c' Hc'; apply Hn; right; exact Hc'].
      unfold holds. rewrite (S5 i Hc Hi). destruct (nth_error (w_objs w) i) as [o|] eqn:Eo; [|reflexivity].
      cbn. f_equal. apply o_abs_unchanged.
      + split; [exact S2|]. intros a Ha. apply S3; [exact Ha|apply Hw].
      + unfold w_ok in HW. rewrite Forall_forall in HW. apply HW. eapply nth_error_In. exact Eo.
  Qed.
End PHist.
