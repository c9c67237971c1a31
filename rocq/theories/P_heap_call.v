(** Lemmas shared by the calls of the three estimators on the heap. *)
From Coq Require Import List Arith ZArith Bool Lia.
From Verif Require Import Num Mat Py M_random M_gpnh M_mtd Heap Spec_heap P_heap.
Import ListNotations.

Section Mem.
  Context {V : Type}.
  Lemma unchanged_refl (m : mem V) : unchanged m m.
  Proof using. split; auto. Qed.
  Lemma unchanged_trans (m1 m2 m3 : mem V) : unchanged m1 m2 -> unchanged m2 m3 -> unchanged m1 m3.
  Proof using. intros [A B] [C D]. split; [lia|]. intros a Ha. rewrite D by lia. auto. Qed.
  Lemma unchanged_alloc (m : mem V) v : unchanged m (snd (alloc m v)).
  Proof using.
    split; cbn; [lia|]. intros a Ha. unfold hwrite. destruct (Nat.eqb_spec a (m_next m)); [lia|reflexivity].
  Qed.
  Lemma alloc_val (m : mem V) v : m_heap (snd (alloc m v)) (m_next m) = v.
  Proof using. cbn. unfold hwrite. rewrite Nat.eqb_refl. reflexivity. Qed.
  Lemma unchanged_val (m m' : mem V) a : unchanged m m' -> exists_in m a -> m_heap m' a = m_heap m a.
  Proof using. intros [_ H] Ha. apply H. exact Ha. Qed.
  Lemma unchanged_in (m m' : mem V) a : unchanged m m' -> exists_in m a -> exists_in m' a.
  Proof using. unfold exists_in. intros [H _] Ha. lia. Qed.
End Mem.

Section Given.
  Context {T : Type} {N : Num T}.
  Notation vals m := (option_map (fun a => am (m_heap m a))).
  Lemma given_W (m : mem (arr T)) a n k W :
    check_init_weights (vals m a) n k = Ok W -> exists x, a = Some x /\ am (m_heap m x) = W.
  Proof using.
    intros H. unfold check_init_weights in H. apply bind_ok in H as (M & HM & H).
    apply bind_ok in H as (? & _ & H). apply bind_ok in H as (? & _ & H). injection H as <-.
    destruct a as [y|]; cbn in HM; [|discriminate]. destruct (all_finite _) in HM; [|discriminate]. exists y. split; congruence.
  Qed.
  Lemma given_D (m : mem (arr T)) a n k W :
    check_init_dictionary (vals m a) n k = Ok W -> exists x, a = Some x /\ am (m_heap m x) = W.
  Proof using.
    intros H. unfold check_init_dictionary in H. apply bind_ok in H as (M & HM & H).
    apply bind_ok in H as (? & _ & H). injection H as <-.
    destruct a as [y|]; cbn in HM; [|discriminate]. destruct (all_finite _) in HM; [|discriminate]. exists y. split; congruence.
  Qed.
  Lemma given_aaD (m : mem (arr T)) a n k W :
    check_init_aa_dictionary (vals m a) n k = Ok W -> exists x, a = Some x /\ am (m_heap m x) = W.
  Proof using.
    intros H. unfold check_init_aa_dictionary in H. apply bind_ok in H as (M & HM & H).
    apply bind_ok in H as (? & _ & H). apply bind_ok in H as (? & _ & H). injection H as <-.
    destruct a as [y|]; cbn in HM; [|discriminate]. destruct (all_finite _) in HM; [|discriminate]. exists y. split; congruence.
  Qed.
  Lemma given_o (m : mem (arr T)) a p v :
    check_init_order_weights (option_map (fun a => av (m_heap m a)) a) p = Ok v ->
    exists x, a = Some x /\ av (m_heap m x) = v.
  Proof using.
    intros H. destruct a as [y|]; cbn in H; [|discriminate]. exists y. split; [reflexivity|].
    destruct (Nat.eqb _ _); [|discriminate]. apply bind_ok in H as (? & _ & H). congruence.
  Qed.
  Lemma given_T (m : mem (arr T)) a p k v :
    check_init_transition_matrices (option_map (fun a => a3 (m_heap m a)) a) p k = Ok v ->
    exists x, a = Some x /\ a3 (m_heap m x) = v.
  Proof using.
    intros H. destruct a as [y|]; cbn in H; [|discriminate]. exists y. split; [reflexivity|].
    destruct (andb _ _); [|discriminate]. destruct (forallb _ _); [|discriminate]. congruence.
  Qed.
End Given.
