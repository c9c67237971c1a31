(** FurthestSum with arbitrary exclusion lists: lemmas *)
From Coq Require Import List Arith Lia ZArith Bool.
From Verif Require Import Num Mat Py M_furthest P_lin P_furthest.
Import ListNotations.

Section Gen.
  Context {T : Type} {N : Num T}.

  Lemma fill_queue_short (D : mat T) start cand : forall slots, (slots < length cand)%nat -> fill_queue D start cand slots = Raise IndexError.
  Proof.
    intros slots H. destruct (fill_queue D start cand slots) as [[q u]|e] eqn:E.
    - apply fill_queue_fst in E. destruct E as [_ E]. lia.
    - apply fill_queue_raise in E. congruence.
  Qed.
  (** as many slots as candidates only for lists without repetitions and within range *)
  Lemma count_clean n k start exclude : (0 < k)%nat -> (0 <= start < Z.of_nat n)%Z ->
    (length (candidates n k start exclude) + length exclude + 1 <= n)%nat ->
    NoDup exclude /\ forall e, In e exclude -> (0 <= e < Z.of_nat n)%Z.
  Proof.
    intros Hk Hs H. unfold candidates in H. set (f := is_valid_candidate (repeat start k) exclude) in H.
    pose proof (filter_partition_length f (rng_idx n)) as Hp. rewrite length_rng_idx in Hp.
    set (F := filter (fun x => negb (f x)) (rng_idx n)) in *.
    assert (ND : NoDup F) by apply NoDup_filter, nodup_rng_idx.
    assert (L : (length (start :: exclude) <= length F)%nat) by (cbn [length]; lia).
    assert (I : incl F (start :: exclude)).
    { intros z Hz. apply filter_In in Hz. destruct Hz as [_ Hz]. unfold f, is_valid_candidate in Hz.
      apply negb_true_iff, andb_false_iff in Hz. rewrite !negb_false_iff, !existsb_Zeqb in Hz.
      destruct Hz as [Hz|Hz]; [left; symmetry; eapply repeat_spec; exact Hz | right; exact Hz]. }
    pose proof (NoDup_incl_NoDup ND L I) as ND'. pose proof (NoDup_length_incl ND L I) as I'. split; [inversion ND'; assumption|].
    intros e He. apply in_rng_idx. assert (J : In e F) by (apply I'; right; exact He). apply filter_In in J. apply J.
  Qed.
  (** the checks before the queue is filled *)
  Lemma checks_passed (D : mat T) nk start exclude extra : nr D = nc D -> (0 <= start < Z.of_nat (nr D))%Z -> ~ In start exclude -> (1 <= nk)%Z ->
    ((length exclude < nr D)%nat -> (nk <= Z.of_nat (nr D) - Z.of_nat (length exclude))%Z) ->
    furthest_sum D nk start exclude extra
    = (let k := Z.to_nat nk in
       let! qs := fill_queue D start (candidates (nr D) k start exclude) (nr D - length exclude - 1) in
       let '(q, unfilled) := qs in
       if andb (negb (Nat.eqb unfilled 0)) (orb (Nat.ltb 1 k) (0 <? extra)%Z) then Raise TypeError else
       let! r1 := greedy D (k - 1) 1 (repeat start k) q in
       let! r2 := extra_loop D k (Z.to_nat extra) 0 (fst r1) (snd r1) in
       Ok (fst r2)).
  Proof.
    intros Hsq Hs Hex Hnk Hf. unfold furthest_sum, furthest_sum_impl. rewrite Hsq, Nat.eqb_refl. rewrite <- Hsq.
    destruct (Z.eqb_spec nk 0); [lia|]. destruct (Z.leb_spec (Z.of_nat (nr D)) start); [lia|].
    replace (existsb (Z.eqb start) exclude) with false by (symmetry; apply existsb_Zeqb_f; exact Hex).
    replace (andb (Nat.ltb (length exclude) (nr D)) (Z.of_nat (nr D) - Z.of_nat (length exclude) <? nk)%Z) with false.
    2:{ symmetry. apply andb_false_iff. destruct (Nat.ltb_spec (length exclude) (nr D)) as [h|h]; [right; apply Z.ltb_ge; auto | left; reflexivity]. }
    destruct (Z.ltb_spec nk 0); [lia|]. reflexivity.
  Qed.
  Lemma exclude_too_many (D : mat T) nk start exclude extra : nr D = nc D -> (0 <= start < Z.of_nat (nr D))%Z -> ~ In start exclude -> (1 <= nk)%Z ->
    (length exclude < nr D)%nat -> (Z.of_nat (nr D) - Z.of_nat (length exclude) < nk)%Z -> furthest_sum D nk start exclude extra = Raise ValueError.
  Proof.
    intros Hsq Hs Hex Hnk Hl Hm. unfold furthest_sum, furthest_sum_impl. rewrite Hsq, Nat.eqb_refl. rewrite <- Hsq.
    destruct (Z.eqb_spec nk 0); [lia|]. destruct (Z.leb_spec (Z.of_nat (nr D)) start); [lia|].
    replace (existsb (Z.eqb start) exclude) with false by (symmetry; apply existsb_Zeqb_f; exact Hex).
    destruct (Nat.ltb_spec (length exclude) (nr D)); [|lia]. destruct (Z.ltb_spec (Z.of_nat (nr D) - Z.of_nat (length exclude)) nk); [reflexivity | lia].
  Qed.
  Lemma exclude_unclean (D : mat T) nk start exclude extra : nr D = nc D -> (0 <= start < Z.of_nat (nr D))%Z -> ~ In start exclude -> (1 <= nk)%Z ->
    ((length exclude < nr D)%nat -> (nk <= Z.of_nat (nr D) - Z.of_nat (length exclude))%Z) ->
    ~ (NoDup exclude /\ forall e, In e exclude -> (0 <= e < Z.of_nat (nr D))%Z) ->
    ~ (forall z, (0 <= z < Z.of_nat (nr D))%Z -> z <> start -> In z exclude) ->
    furthest_sum D nk start exclude extra = Raise IndexError.
  Proof.
    intros Hsq Hs Hex Hnk Hf Hc Ha. rewrite checks_passed by assumption. cbv zeta. set (C := candidates _ _ _ _).
    assert (Hk : (0 < Z.to_nat nk)%nat) by lia. assert (L : (0 < length C)%nat).
    { destruct C as [|c C'] eqn:EC; [|cbn; lia]. exfalso. apply Ha. intros z Hz Hzs. destruct (in_dec Z.eq_dec z exclude) as [I|I]; [exact I|]. exfalso.
      assert (J : In z C) by (apply in_candidates; auto). rewrite EC in J. destruct J. }
    assert (Q : ~ (length C + length exclude + 1 <= nr D)%nat) by (intros H; apply Hc; exact (count_clean _ _ _ _ Hk Hs H)).
    rewrite (fill_queue_short D start C) by lia. reflexivity.
  Qed.
  Lemma exclude_alone (D : mat T) nk start exclude extra : nr D = nc D -> (0 <= start < Z.of_nat (nr D))%Z -> ~ In start exclude -> (1 <= nk)%Z ->
    ~ (NoDup exclude /\ forall e, In e exclude -> (0 <= e < Z.of_nat (nr D))%Z) ->
    (forall z, (0 <= z < Z.of_nat (nr D))%Z -> z <> start -> In z exclude) ->
    furthest_sum D nk start exclude extra = if (nk =? 1)%Z then Ok [start] else Raise IndexError.
  Proof.
    intros Hsq Hs Hex Hnk Hc Ha. assert (Hk : (0 < Z.to_nat nk)%nat) by lia.
    assert (EC : candidates (nr D) (Z.to_nat nk) start exclude = []).
    { destruct (candidates _ _ _ _) as [|c C'] eqn:EC; [reflexivity|]. exfalso. assert (J : In c (candidates (nr D) (Z.to_nat nk) start exclude)) by (rewrite EC; left; reflexivity).
      apply in_candidates in J; [|exact Hk]. destruct J as (J1 & J2 & J3). apply J3, Ha; assumption. }
    assert (L : (nr D <= length exclude)%nat).
    { destruct (le_lt_dec (nr D) (length exclude)) as [h|h]; [exact h|]. exfalso. apply Hc. apply (count_clean (nr D) (Z.to_nat nk) start); [exact Hk | exact Hs|]. rewrite EC. cbn [length]. lia. }
    assert (E : furthest_sum D nk start exclude extra = (let! r1 := greedy D (Z.to_nat nk - 1) 1 (repeat start (Z.to_nat nk)) [] in
       let! r2 := extra_loop D (Z.to_nat nk) (Z.to_nat extra) 0 (fst r1) (snd r1) in Ok (fst r2))).
    { rewrite checks_passed by (assumption || lia). cbv zeta. rewrite EC. cbn [fill_queue bind]. replace (nr D - length exclude - 1)%nat with 0%nat by lia. reflexivity. }
    destruct (Z.eqb_spec nk 1) as [->|Hn].
    - change (Z.to_nat 1) with 1%nat in E. cbn [Nat.sub greedy bind fst snd repeat] in E.
      destruct (extra_loop_ok D 1 (Z.to_nat extra) 0 [start] []) as (r & Er). rewrite Er in E. cbn [bind] in E.
      pose proof E as E'. apply furthest_distinct in E'; [|lia]. destruct E' as (LL & _ & HI). rewrite E. f_equal.
      destruct (fst r) as [|a [|b l]]; cbn [length] in LL; try lia. f_equal.
      destruct (HI a (or_introl eq_refl)) as [R1 R2]. destruct (Z.eq_dec a start) as [->|Q]; [reflexivity|]. exfalso. apply R2, Ha; assumption.
    - rewrite E. destruct (Z.to_nat nk - 1)%nat as [|j] eqn:Ej; [lia|]. reflexivity.
  Qed.
End Gen.
