(** Lemmas about heap programs: a program without [Alias], started in a state whose attributes
    own distinct buffers allocated since [base], leaves all older buffers alone and computes what
    its value semantics says. *)
From Coq Require Import List Arith Lia.
From Verif Require Import Num Mat Py Heap.
Import ListNotations.

Section PHeap.
  Context {V nm R sc : Type} (nm_eq : forall x y : nm, {x = y} + {x <> y}) (rd : (nm -> V) -> R).
  Hypothesis Hrd : forall e e', (forall x, e x = e' x) -> rd e = rd e'.
  Notation prog := (prog V nm R sc).
  Notation hst := (hst V nm sc).
  Notation upd := (upd nm_eq).
  Notation h_new := (h_new nm_eq).
  Notation run_h := (run_h nm_eq rd).
  Notation run_e := (run_e nm_eq rd).

  Fixpoint noalias {A} (p : prog A) : Prop :=
    match p with
    | Ret _ | Throw _ => True
    | New _ _ k | Inplace _ _ k | SetSc _ k => noalias k
    | Alias _ _ _ => False
    | Look k => forall r s, noalias (k r s)
    end.

  (** the attributes in [P] have distinct buffers, all allocated since [base] *)
  Definition good (P : nm -> Prop) (base : nat) (st : hst) : Prop :=
    base <= h_next st /\
    (forall x, P x -> base <= h_attr st x < h_next st) /\
    (forall x y, P x -> P y -> h_attr st x = h_attr st y -> x = y).
  Definition frame (base : nat) (st st' : hst) : Prop :=
    h_next st <= h_next st' /\ forall a, a < base -> h_heap st' a = h_heap st a.

  Lemma frame_refl base st : frame base st st.
  Proof using. split; auto. Qed.
  Lemma frame_trans base st1 st2 st3 : frame base st1 st2 -> frame base st2 st3 -> frame base st1 st3.
  Proof using. intros [A B] [C D]. split; [lia|]. intros a Ha. rewrite D, B; auto. Qed.

  Lemma upd_same {B} (f : nm -> B) x b : upd f x b x = b.
  Proof using. unfold Heap.upd. destruct (nm_eq x x); congruence. Qed.
  Lemma upd_other {B} (f : nm -> B) x b y : y <> x -> upd f x b y = f y.
  Proof using. unfold Heap.upd. destruct (nm_eq y x); congruence. Qed.

  Lemma good_new P base st x v : good P base st -> good (fun y => y = x \/ P y) base (h_new x v st).
  Proof using.
    intros (H0 & H1 & H2). unfold good, Heap.h_new, Heap.upd; cbn [h_next h_attr]. split; [lia|]. split.
    - intros y Hy. destruct (nm_eq y x) as [->|Hn]; [lia|].
      destruct Hy as [Hy|Hy]; [congruence|]. specialize (H1 y Hy). lia.
    - intros y z Hy Hz. destruct (nm_eq y x) as [->|Hny], (nm_eq z x) as [->|Hnz]; auto.
      + intros E. destruct Hz as [Hz|Hz]; [congruence|]. specialize (H1 z Hz). lia.
      + intros E. destruct Hy as [Hy|Hy]; [congruence|]. specialize (H1 y Hy). lia.
      + intros E. destruct Hy as [Hy|Hy]; [congruence|]. destruct Hz as [Hz|Hz]; [congruence|].
        auto.
  Qed.
  Lemma good_weaken (P Q : nm -> Prop) base st : (forall x, Q x -> P x) -> good P base st -> good Q base st.
  Proof using. intros HQ (H0 & H1 & H2). split; [exact H0|]. split; auto. Qed.
  Lemma frame_new P base st x v : good P base st -> frame base st (h_new x v st).
  Proof using.
    intros (H0 & _). split; cbn; [lia|]. intros a Ha. unfold hwrite.
    destruct (Nat.eqb_spec a (h_next st)); [lia|reflexivity].
  Qed.
  Lemma val_new P base st x v y : good P base st -> y = x \/ P y ->
    val (h_new x v st) y = upd (val st) x v y.
  Proof using.
    intros (H0 & H1 & _) Hy. unfold val, Heap.h_new, Heap.upd, hwrite; cbn [h_heap h_attr].
    destruct (nm_eq y x); [rewrite Nat.eqb_refl; reflexivity|].
    destruct Hy as [Hy|Hy]; [congruence|]. specialize (H1 y Hy).
    destruct (Nat.eqb_spec (h_attr st y) (h_next st)); [lia|reflexivity].
  Qed.

  Lemma good_inplace P base st x v : good P base st -> good P base (h_inplace x v st).
  Proof using. intros H. exact H. Qed.
  Lemma frame_inplace (P : nm -> Prop) base st x v : P x -> good P base st -> frame base st (h_inplace x v st).
  Proof using.
    intros Hx (H0 & H1 & _). split; cbn; [lia|]. intros a Ha. unfold hwrite.
    specialize (H1 x Hx). destruct (Nat.eqb_spec a (h_attr st x)); [lia|reflexivity].
  Qed.
  Lemma val_inplace (P : nm -> Prop) base st x v y : P x -> P y -> good P base st ->
    val (h_inplace x v st) y = upd (val st) x v y.
  Proof using.
    intros Hx Hy (H0 & H1 & H2). unfold val, h_inplace, Heap.upd, hwrite; cbn [h_heap h_attr].
    destruct (nm_eq y x) as [->|Hn]; [rewrite Nat.eqb_refl; reflexivity|].
    destruct (Nat.eqb_spec (h_attr st y) (h_attr st x)) as [E|]; [|reflexivity].
    exfalso. apply Hn. apply H2; auto.
  Qed.

  Definition all (_ : nm) : Prop := True.

  (** The state [st] represents the values [e], [s]. *)
  Definition models (base : nat) (st : hst) (e : nm -> V) (s : sc) : Prop :=
    good all base st /\ (forall x, val st x = e x) /\ h_sc st = s.

  Lemma upd_ext {B} (f g : nm -> B) x b : (forall y, f y = g y) -> forall y, upd f x b y = upd g x b y.
  Proof using. intros H y. unfold Heap.upd. destruct (nm_eq y x); auto. Qed.

  (** The simulation theorem. *)
  Lemma run_sim {A} (p : prog A) : noalias p -> forall base st e s, models base st e s ->
    fst (run_h p st) = fst (run_e p e s) /\
    models base (snd (run_h p st)) (fst (snd (run_e p e s))) (snd (snd (run_e p e s))) /\
    frame base st (snd (run_h p st)).
  Proof using Hrd.
    induction p as [a|x|x v k IH|x v k IH|x y k IH|g k IH|k IH]; cbn [noalias]; intros Hn base st e s HM.
    - cbn. split; [reflexivity|]. split; [exact HM|apply frame_refl].
    - cbn. split; [reflexivity|]. split; [exact HM|apply frame_refl].
    - cbn [Heap.run_h Heap.run_e]. destruct HM as (HG & HV & HS).
      assert (Er : rd (val st) = rd e) by (apply Hrd; exact HV). rewrite Er, HS.
      set (val' := v (rd e) s).
      assert (HM' : models base (h_new x val' st) (upd e x val') s).
      { split; [|split].
        - eapply good_weaken; [|apply good_new; exact HG]. intros; right; exact I.
        - intros y. rewrite (val_new all base) by (auto; right; exact I). apply upd_ext. exact HV.
        - exact HS. }
      destruct (IH Hn _ _ _ _ HM') as (A1 & A2 & A3). split; [exact A1|]. split; [exact A2|].
      eapply frame_trans; [apply (frame_new all); exact HG|exact A3].
    - cbn [Heap.run_h Heap.run_e]. destruct HM as (HG & HV & HS).
      assert (Er : rd (val st) = rd e) by (apply Hrd; exact HV). rewrite Er, HS.
      set (val' := v (rd e) s).
      assert (HM' : models base (h_inplace x val' st) (upd e x val') s).
      { split; [exact HG|]. split; [|exact HS].
        intros y. rewrite (val_inplace all base) by (exact I || exact HG). apply upd_ext. exact HV. }
      destruct (IH Hn _ _ _ _ HM') as (A1 & A2 & A3). split; [exact A1|]. split; [exact A2|].
      eapply frame_trans; [apply (frame_inplace all); [exact I|exact HG]|exact A3].
    - contradiction.
    - cbn [Heap.run_h Heap.run_e]. destruct HM as (HG & HV & HS).
      assert (Er : rd (val st) = rd e) by (apply Hrd; exact HV). rewrite Er, HS.
      assert (HM' : models base (h_setsc (g (rd e) s) st) e (g (rd e) s)).
      { split; [exact HG|]. split; [exact HV|reflexivity]. }
      destruct (IH Hn _ _ _ _ HM') as (A1 & A2 & A3). split; [exact A1|]. split; [exact A2|].
      exact A3.
    - cbn [Heap.run_h Heap.run_e].
      assert (Er : rd (val st) = rd e) by (apply Hrd; apply HM). rewrite Er.
      assert (Es : h_sc st = s) by apply HM. rewrite Es. apply IH; auto.
  Qed.

  Lemma noalias_bind {A B} (p : prog A) (f : A -> prog B) :
    noalias p -> (forall a, noalias (f a)) -> noalias (pbind p f).
  Proof using. intros Hp Hf. induction p; cbn in *; auto; contradiction. Qed.

  Lemma run_e_bind {A B} (p : prog A) (f : A -> prog B) e s :
    run_e (pbind p f) e s =
    match run_e p e s with
    | (Ok a, (e', s')) => run_e (f a) e' s'
    | (Raise x, es) => (Raise x, es)
    end.
  Proof using.
    revert e s. induction p; intros e1 s1; cbn; auto.
  Qed.

  (** A block of assignments: what each one reads must have been assigned. *)
  Definition reads (P : nm -> Prop) (v : R -> sc -> V) : Prop :=
    forall e e' s, (forall x, P x -> e x = e' x) -> v (rd e) s = v (rd e') s.
  Fixpoint news_ok (P : nm -> Prop) (l : list (nm * (R -> sc -> V))) : Prop :=
    match l with
    | [] => True
    | xv :: l' => reads P (snd xv) /\ news_ok (fun y => y = fst xv \/ P y) l'
    end.
  Fixpoint adds (P : nm -> Prop) (l : list (nm * (R -> sc -> V))) : nm -> Prop :=
    match l with [] => P | xv :: l' => adds (fun y => y = fst xv \/ P y) l' end.

  Lemma news_sim l : forall (P : nm -> Prop) base st e s,
    news_ok P l -> good P base st -> (forall x, P x -> val st x = e x) -> h_sc st = s ->
    good (adds P l) base (h_news nm_eq rd l st) /\
    (forall x, adds P l x -> val (h_news nm_eq rd l st) x = e_news nm_eq rd l e s x) /\
    h_sc (h_news nm_eq rd l st) = s /\
    frame base st (h_news nm_eq rd l st).
  Proof using.
    unfold h_news, e_news.
    induction l as [|[x v] l IH]; cbn [news_ok adds fold_left fst snd]; intros P base st e s Hok HG HV HS.
    - split; [exact HG|]. split; [exact HV|]. split; [exact HS|apply frame_refl].
    - destruct Hok as [Hr Hok].
      assert (Ev : v (rd (val st)) (h_sc st) = v (rd e) s) by (rewrite HS; apply Hr; exact HV).
      rewrite Ev.
      destruct (IH (fun y => y = x \/ P y) base (h_new x (v (rd e) s) st) (upd e x (v (rd e) s)) s)
        as (A1 & A2 & A3 & A4); auto.
      + apply good_new. exact HG.
      + intros y Hy. rewrite (val_new P base) by auto. unfold Heap.upd.
        destruct (nm_eq y x); [reflexivity|]. destruct Hy as [Hy|Hy]; [congruence|auto].
      + split; [exact A1|]. split; [exact A2|]. split; [exact A3|].
        eapply frame_trans; [apply (frame_new P); exact HG|exact A4].
  Qed.
End PHeap.
