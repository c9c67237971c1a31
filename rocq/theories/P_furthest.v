(** Proofs about furthest_sum. *)
From Coq Require Import List Arith Lia ZArith Reals Lra Permutation Bool Sorted.
From Verif Require Import Num Mat Py Spec M_furthest P_lin.
Import ListNotations.

Section Gen.
  Context {T : Type} {N : Num T}.

  Lemma insert_entry_perm (x : @entry T) l : Permutation (insert_entry x l) (x :: l).
  Proof.
    induction l as [|y t IH]; cbn [insert_entry]; [reflexivity|].
    destruct (nleb _ _); [reflexivity|]. rewrite IH. apply perm_swap.
  Qed.
  Lemma sort_entries_perm (l : list (@entry T)) : Permutation (sort_entries l) l.
  Proof. induction l; cbn [sort_entries]; [reflexivity|]. rewrite insert_entry_perm, IHl; reflexivity. Qed.

  Lemma get_furthest_perm (q : list (@entry T)) i q' :
    get_furthest_index q = Ok (i, q') -> exists v, Permutation q ((i, v) :: q').
  Proof.
    unfold get_furthest_index. destruct (rev (sort_entries q)) as [|x r] eqn:E; [discriminate|].
    intros [= <- <-]. exists (snd x). rewrite <- surjective_pairing.
    rewrite <- (sort_entries_perm q). rewrite <- (rev_involutive (sort_entries q)), E. cbn [rev].
    rewrite Permutation_app_comm. reflexivity.
  Qed.
  Lemma get_furthest_nonempty (q : list (@entry T)) : q <> [] -> exists r, get_furthest_index q = Ok r.
  Proof.
    intros H. unfold get_furthest_index. destruct (rev (sort_entries q)) as [|x r] eqn:E; [|eauto].
    exfalso. apply H. apply (f_equal (@length _)) in E. rewrite rev_length, (Permutation_length (sort_entries_perm q)) in E.
    destruct q; [reflexivity | discriminate].
  Qed.
  Lemma get_furthest_raise (q : list (@entry T)) e : get_furthest_index q = Raise e -> q = [] /\ e = IndexError.
  Proof.
    intros H. destruct q as [|x q].
    - unfold get_furthest_index in H; cbn in H. split; congruence.
    - destruct (get_furthest_nonempty (x :: q)) as [r E]; [discriminate | congruence].
  Qed.
  Lemma upd_fst D new (q : list (@entry T)) : map fst (update_distance_sums D new q) = map fst q.
  Proof. unfold update_distance_sums. rewrite map_map. reflexivity. Qed.
  Lemma upd_length D new (q : list (@entry T)) : length (update_distance_sums D new q) = length q.
  Proof. apply map_length. Qed.

  (** ** lists *)
  Lemma set_nth_length {A} i (v : A) l : length (set_nth i v l) = length l.
  Proof. revert i; induction l as [|x l IH]; intros [|i]; cbn [set_nth length]; auto. Qed.
  Lemma set_nth_split {A} (v : A) pre old post :
    set_nth (length pre) v (pre ++ old :: post) = pre ++ v :: post.
  Proof. induction pre; cbn [length app set_nth]; [reflexivity | f_equal; assumption]. Qed.
  Lemma nth_split_eq {A} (l : list A) i d : i < length l ->
    exists pre post, l = pre ++ nth i l d :: post /\ length pre = i.
  Proof. intros H. destruct (nth_split l d H) as (l1 & l2 & E & L). exists l1, l2. auto. Qed.

  (** ** candidates *)
  Definition rng_idx (n : nat) : list Z := map Z.of_nat (seq 0 n).
  Lemma in_rng_idx n z : In z (rng_idx n) <-> (0 <= z < Z.of_nat n)%Z.
  Proof.
    unfold rng_idx. rewrite in_map_iff. split.
    - intros (i & <- & H). apply in_seq in H. lia.
    - intros H. exists (Z.to_nat z). split; [lia|]. apply in_seq; lia.
  Qed.
  Lemma nodup_rng_idx n : NoDup (rng_idx n).
  Proof.
    unfold rng_idx. apply FinFun.Injective_map_NoDup; [|apply seq_NoDup].
    intros a b H; lia.
  Qed.
  Lemma length_rng_idx n : length (rng_idx n) = n.
  Proof. unfold rng_idx. rewrite map_length, seq_length; reflexivity. Qed.

  Lemma existsb_Zeqb z l : existsb (Z.eqb z) l = true <-> In z l.
  Proof.
    rewrite existsb_exists. split.
    - intros (x & H & E). apply Z.eqb_eq in E. congruence.
    - intros H. exists z. split; [exact H | apply Z.eqb_refl].
  Qed.
  Lemma existsb_Zeqb_f z l : existsb (Z.eqb z) l = false <-> ~ In z l.
  Proof. rewrite <- existsb_Zeqb. destruct (existsb _ _); split; intros; congruence. Qed.

  Definition candidates n k start exclude : list Z :=
    filter (is_valid_candidate (repeat start k) exclude) (rng_idx n).
  Lemma in_candidates n k start exclude z : (0 < k)%nat ->
    In z (candidates n k start exclude) <-> (0 <= z < Z.of_nat n)%Z /\ z <> start /\ ~ In z exclude.
  Proof.
    intros Hk. unfold candidates. rewrite filter_In, in_rng_idx. unfold is_valid_candidate.
    rewrite andb_true_iff, !negb_true_iff, !existsb_Zeqb_f.
    assert (E : In z (repeat start k) <-> z = start).
    { split; [apply repeat_spec|]. intros ->. destruct k; [lia | left; reflexivity]. }
    rewrite E. tauto.
  Qed.
  Lemma nodup_candidates n k start exclude : NoDup (candidates n k start exclude).
  Proof. apply NoDup_filter, nodup_rng_idx. Qed.

  Lemma fill_queue_fst (D : mat T) start cand : forall slots q u,
    fill_queue D start cand slots = Ok (q, u) ->
    q = map (fun i => (i, mgetZ D i start)) cand /\ slots = (length cand + u)%nat.
  Proof.
    induction cand as [|i rest IH]; cbn [fill_queue]; intros slots q u H.
    - injection H as <- <-. auto.
    - destruct (start <? _)%Z; [discriminate|]. destruct slots as [|slots]; [discriminate|].
      apply bind_ok in H. destruct H as ((q1 & u1) & H1 & H2). injection H2 as <- <-. cbn [fst snd] in *.
      apply IH in H1. destruct H1 as [-> ->]. split; reflexivity.
  Qed.
  Lemma fill_queue_ok (D : mat T) start cand : (- Z.of_nat (nc D) <= start)%Z -> forall slots, (length cand <= slots)%nat ->
    fill_queue D start cand slots = Ok (map (fun i => (i, mgetZ D i start)) cand, slots - length cand).
  Proof.
    intros Hst. induction cand as [|i rest IH]; cbn [fill_queue length map]; intros slots H.
    - rewrite Nat.sub_0_r; reflexivity.
    - destruct (Z.ltb_spec start (- Z.of_nat (nc D))); [lia|]. destruct slots as [|slots]; [lia|].
      rewrite IH by lia. reflexivity.
  Qed.
  Lemma fill_queue_raise (D : mat T) start cand : forall slots e,
    fill_queue D start cand slots = Raise e -> e = IndexError.
  Proof.
    induction cand as [|i rest IH]; cbn [fill_queue]; intros slots e H; [discriminate|].
    destruct (start <? _)%Z; [congruence|]. destruct slots as [|slots]; [congruence|].
    destruct (fill_queue D start rest slots) eqn:E; cbn [bind] in H; [discriminate|].
    injection H as ->. eapply IH; exact E.
  Qed.

  (** ** greedy phase: the union of the selected prefix and the queue is preserved *)
  Lemma greedy_spec (D : mat T) todo : forall pre tail q sel' q',
    length tail = todo ->
    greedy D todo (length pre) (pre ++ tail) q = Ok (sel', q') ->
    Permutation (sel' ++ map fst q') (pre ++ map fst q) /\ length sel' = (length pre + todo)%nat.
  Proof.
    induction todo as [|todo IH]; cbn [greedy]; intros pre tail q sel' q' Ht H.
    - injection H as <- <-. destruct tail; [|discriminate]. rewrite app_nil_r. split; [reflexivity | lia].
    - apply bind_ok in H. destruct H as ((new & q1) & H1 & H2).
      destruct tail as [|old tail]; [discriminate|]. rewrite set_nth_split in H2.
      replace (pre ++ new :: tail) with ((pre ++ [new]) ++ tail) in H2 by (rewrite <- app_assoc; reflexivity).
      replace (S (length pre)) with (length (pre ++ [new])) in H2 by (rewrite app_length; cbn; lia).
      apply IH in H2; [|cbn in Ht; lia]. destruct H2 as [P L].
      apply get_furthest_perm in H1. destruct H1 as (v & H1). split.
      + rewrite P, upd_fst. rewrite <- app_assoc. cbn [app]. apply Permutation_app_head.
        apply (Permutation_map fst) in H1. cbn [map fst] in H1. symmetry; exact H1.
      + rewrite L, app_length; cbn; lia.
  Qed.
  Lemma greedy_ok (D : mat T) todo : forall pos sel q, (todo <= length q)%nat ->
    exists sel' q', greedy D todo pos sel q = Ok (sel', q') /\ (length q' + todo = length q)%nat.
  Proof.
    induction todo as [|todo IH]; cbn [greedy]; intros pos sel q H.
    - exists sel, q. split; [reflexivity | lia].
    - destruct (get_furthest_nonempty q) as ((new & q1) & E); [destruct q; [cbn in H; lia | discriminate]|].
      rewrite E; cbn [bind]. pose proof (get_furthest_perm _ _ _ E) as (v & P).
      apply Permutation_length in P. cbn [length] in P.
      destruct (IH (S pos) (set_nth pos new sel) (update_distance_sums D new q1)) as (s' & q' & H1 & H2).
      { rewrite upd_length; lia. }
      exists s', q'. split; [exact H1|]. rewrite upd_length in H2; lia.
  Qed.
  Lemma greedy_raise (D : mat T) todo : forall pos sel q e, greedy D todo pos sel q = Raise e -> e = IndexError.
  Proof.
    induction todo as [|todo IH]; cbn [greedy]; intros pos sel q e H; [discriminate|].
    destruct (get_furthest_index q) as [[new q1]|e1] eqn:E; cbn [bind] in H.
    - eapply IH; exact H.
    - apply get_furthest_raise in E. destruct E as [_ ->]. congruence.
  Qed.

  (** ** extra steps *)
  Lemma extra_step_spec (D : mat T) k i sel q sel' q' :
    (0 < k)%nat -> length sel = k -> extra_step D k i sel q = Ok (sel', q') ->
    Permutation (sel' ++ map fst q') (sel ++ map fst q) /\ length sel' = k.
  Proof.
    intros Hk Hl H. unfold extra_step in H.
    assert (Hu : (i mod k < length sel)%nat) by (rewrite Hl; apply Nat.mod_upper_bound; lia).
    destruct (nth_split_eq sel (i mod k) 0%Z Hu) as (pre & post & E & Lp).
    set (old := nth (i mod k) sel 0%Z) in *. cbv zeta in H.
    apply bind_ok in H. destruct H as ((new & q3) & H1 & H2). injection H2 as <- <-.
    apply get_furthest_perm in H1. destruct H1 as (v & P). apply (Permutation_map fst) in P.
    rewrite map_app, map_map in P. cbn [map fst] in P.
    rewrite upd_fst. rewrite E, <- Lp, set_nth_split. split.
    - rewrite <- !app_assoc. apply Permutation_app_head. cbn [app].
      transitivity (post ++ new :: map fst q3); [apply Permutation_middle|].
      rewrite <- P. transitivity (old :: post ++ map (fun x => fst x) q); [|reflexivity].
      rewrite app_assoc. symmetry. apply Permutation_cons_append.
    - rewrite <- Hl, E, !app_length. reflexivity.
  Qed.
  Lemma extra_step_ok (D : mat T) k i sel q : exists r, extra_step D k i sel q = Ok r.
  Proof.
    unfold extra_step. cbv zeta.
    match goal with |- context [get_furthest_index ?x] => destruct (get_furthest_nonempty x) as ((new & q3) & E) end.
    - intros E. apply app_eq_nil in E. destruct E; discriminate.
    - rewrite E. cbn [bind]. eauto.
  Qed.
  Lemma extra_loop_spec (D : mat T) k todo : forall i sel q sel' q',
    (0 < k)%nat -> length sel = k -> extra_loop D k todo i sel q = Ok (sel', q') ->
    Permutation (sel' ++ map fst q') (sel ++ map fst q) /\ length sel' = k.
  Proof.
    induction todo as [|todo IH]; cbn [extra_loop]; intros i sel q sel' q' Hk Hl H.
    - injection H as <- <-. split; [reflexivity | exact Hl].
    - apply bind_ok in H. destruct H as ((s1 & q1) & H1 & H2). cbn [fst snd] in H2.
      apply extra_step_spec in H1; [|assumption..]. destruct H1 as [P1 L1].
      apply IH in H2; [|assumption..]. destruct H2 as [P2 L2]. split; [rewrite P2; exact P1 | exact L2].
  Qed.
  Lemma extra_loop_ok (D : mat T) k todo : forall i sel q, exists r, extra_loop D k todo i sel q = Ok r.
  Proof.
    induction todo as [|todo IH]; cbn [extra_loop]; intros i sel q; [eauto|].
    destruct (extra_step_ok D k i sel q) as [r E]. rewrite E. cbn [bind]. apply IH.
  Qed.

  (** ** the whole routine *)
  Lemma furthest_inv (D : mat T) nk start exclude extra l :
    furthest_sum D nk start exclude extra = Ok l -> (nk <> 0)%Z ->
    exists k q u sel q1 q2, nk = Z.of_nat k /\ (0 < k)%nat /\ nr D = nc D
      /\ (start < Z.of_nat (nr D))%Z /\ ~ In start exclude
      /\ fill_queue D start (candidates (nr D) k start exclude) (nr D - length exclude - 1) = Ok (q, u)
      /\ (u = 0%nat \/ ((k <= 1)%nat /\ (extra <= 0)%Z))
      /\ greedy D (k - 1) 1 (repeat start k) q = Ok (sel, q1)
      /\ extra_loop D k (Z.to_nat extra) 0 sel q1 = Ok (l, q2).
  Proof.
    unfold furthest_sum, furthest_sum_impl. intros H Hnk.
    destruct (Nat.eqb_spec (nr D) (nc D)) as [Esq|]; [|discriminate].
    destruct (Z.eqb_spec nk 0); [contradiction|].
    destruct (Z.leb_spec (Z.of_nat (nr D)) start); [discriminate|].
    destruct (existsb (Z.eqb start) exclude) eqn:Ex; [discriminate|].
    destruct (_ && _) eqn:Efew; [discriminate|].
    destruct (Z.ltb_spec nk 0); [discriminate|].
    apply bind_ok in H. destruct H as ((q & u) & Hq & H).
    destruct (negb (u =? 0)%nat && _) eqn:Eu; [discriminate|].
    apply bind_ok in H. destruct H as ((sel & q1) & Hg & H).
    apply bind_ok in H. destruct H as ((l2 & q2) & He & H). injection H as <-. cbn [fst snd] in *.
    exists (Z.to_nat nk), q, u, sel, q1, q2.
    apply existsb_Zeqb_f in Ex.
    repeat split; try assumption; try lia.
    apply andb_false_iff in Eu. destruct Eu as [Eu|Eu].
    - left. apply negb_false_iff, Nat.eqb_eq in Eu. exact Eu.
    - right. apply orb_false_iff in Eu. destruct Eu as [E1 E2].
      apply Nat.ltb_ge in E1. apply Z.ltb_ge in E2. lia.
  Qed.

  (** the union invariant for a successful run *)
  Lemma furthest_union (D : mat T) nk start exclude extra l :
    furthest_sum D nk start exclude extra = Ok l -> (nk <> 0)%Z ->
    exists q2 : list (@entry T), Permutation (l ++ map fst q2) (start :: candidates (nr D) (Z.to_nat nk) start exclude)
      /\ Z.of_nat (length l) = nk /\ (start < Z.of_nat (nr D))%Z /\ ~ In start exclude /\ (0 < nk)%Z.
  Proof.
    intros H Hnk. destruct (furthest_inv _ _ _ _ _ _ H Hnk) as (k & q & u & sel & q1 & q2 & -> & Hk & Esq & Hst & Hex & Hf & Hu & Hg & He).
    rewrite Nat2Z.id. exists q2.
    apply fill_queue_fst in Hf. destruct Hf as [Eq _].
    destruct k as [|k']; [lia|]. replace (S k' - 1)%nat with k' in Hg by lia. cbn [repeat] in Hg.
    apply (greedy_spec D k' [start] (repeat start k')) in Hg; [|apply repeat_length]. destruct Hg as [Pg Lg].
    cbn [app] in Pg. cbn [length] in Lg.
    apply extra_loop_spec in He; [|lia|exact Lg]. destruct He as [Pe Le].
    repeat split; try assumption; try lia.
    rewrite Pe, Pg. apply perm_skip. rewrite Eq, map_map. cbn [fst]. rewrite map_id. reflexivity.
  Qed.

  Lemma nodup_app_l {A} (a b : list A) : NoDup (a ++ b) -> NoDup a.
  Proof.
    induction a as [|x a IH]; cbn [app]; intros H; [constructor|].
    inversion H as [|? ? Hn Hd]; subst. constructor; [|auto]. intros Hin; apply Hn, in_or_app; auto.
  Qed.

  Lemma furthest_distinct (D : mat T) nk start exclude extra l :
    (0 <= start)%Z -> furthest_sum D nk start exclude extra = Ok l ->
    Z.of_nat (length l) = nk /\ NoDup l /\
    (forall i, In i l -> (0 <= i < Z.of_nat (nr D))%Z /\ ~ In i exclude).
  Proof.
    intros Hs H. destruct (Z.eq_dec nk 0) as [->|Hnk].
    { unfold furthest_sum, furthest_sum_impl in H. destruct (Nat.eqb _ _); [|discriminate].
      cbn in H. injection H as <-. repeat split; try constructor; cbn in *; contradiction. }
    destruct (furthest_union _ _ _ _ _ _ H Hnk) as (q2 & P & L & Hst & Hex & Hpos).
    assert (Hk : (0 < Z.to_nat nk)%nat) by lia.
    assert (ND : NoDup (l ++ map fst q2)).
    { eapply Permutation_NoDup; [symmetry; exact P|]. constructor; [|apply nodup_candidates].
      rewrite in_candidates by exact Hk. tauto. }
    split; [exact L|]. split; [eapply nodup_app_l; exact ND|].
    intros i Hi. assert (Hin : In i (start :: candidates (nr D) (Z.to_nat nk) start exclude)).
    { eapply Permutation_in; [exact P|]. apply in_or_app; auto. }
    destruct Hin as [<-|Hin]; [split; [lia | exact Hex]|]. apply in_candidates in Hin; [|exact Hk]. tauto.
  Qed.

  (** counting *)
  Lemma filter_partition_length {A} (f : A -> bool) l :
    (length (filter f l) + length (filter (fun x => negb (f x)) l) = length l)%nat.
  Proof. induction l as [|x l IH]; cbn [filter length]; [reflexivity|]. destruct (f x); cbn [negb length]; lia. Qed.

  Lemma candidates_count_ge n k start exclude : (0 < k)%nat ->
    (n <= length (candidates n k start exclude) + length exclude + (if (0 <=? start)%Z then 1 else 0))%nat.
  Proof.
    intros Hk. unfold candidates.
    set (f := is_valid_candidate (repeat start k) exclude).
    pose proof (filter_partition_length f (rng_idx n)) as Hp. rewrite length_rng_idx in Hp.
    assert (Hle : (length (filter (fun x => negb (f x)) (rng_idx n)) <=
                   length ((if (0 <=? start)%Z then [start] else []) ++ exclude))%nat).
    { apply NoDup_incl_length; [apply NoDup_filter, nodup_rng_idx|].
      intros z Hz. apply filter_In in Hz. destruct Hz as [Hz Hf].
      apply in_rng_idx in Hz. unfold f, is_valid_candidate in Hf.
      apply negb_true_iff, andb_false_iff in Hf. rewrite !negb_false_iff, !existsb_Zeqb in Hf.
      apply in_or_app. destruct Hf as [Hf|Hf]; [left | right; exact Hf].
      apply repeat_spec in Hf. subst z. destruct (Z.leb_spec 0 start); [left; reflexivity | lia]. }
    rewrite app_length in Hle. destruct (0 <=? start)%Z; cbn [length] in Hle; lia.
  Qed.
  Lemma candidates_count n k start exclude : (0 < k)%nat -> (0 <= start < Z.of_nat n)%Z -> ~ In start exclude ->
    NoDup exclude -> (forall e, In e exclude -> (0 <= e < Z.of_nat n)%Z) ->
    (length (candidates n k start exclude) + length exclude + 1 = n)%nat.
  Proof.
    intros Hk Hs Hex Hnd Hr. unfold candidates.
    set (f := is_valid_candidate (repeat start k) exclude).
    pose proof (filter_partition_length f (rng_idx n)) as Hp. rewrite length_rng_idx in Hp.
    assert (P : Permutation (filter (fun x => negb (f x)) (rng_idx n)) (start :: exclude)).
    { apply NoDup_Permutation.
      - apply NoDup_filter, nodup_rng_idx.
      - constructor; assumption.
      - intros z. rewrite filter_In, in_rng_idx. unfold f, is_valid_candidate.
        rewrite negb_true_iff, andb_false_iff, !negb_false_iff, !existsb_Zeqb. cbn [In].
        split.
        + intros [_ [H|H]]; [left; symmetry; eapply repeat_spec; exact H | right; exact H].
        + intros [<-|H]; [split; [lia|left]; destruct k; [lia | left; reflexivity] | split; [apply Hr; exact H | right; exact H]]. }
    apply Permutation_length in P. cbn [length] in P. lia.
  Qed.

  Lemma furthest_negative_start (D : mat T) nk start exclude extra l :
    (start < 0)%Z -> (nk <> 0)%Z -> furthest_sum D nk start exclude extra = Ok l ->
    l = [start] /\ nk = 1%Z /\ (forall i, (0 <= i < Z.of_nat (nr D))%Z -> In i exclude).
  Proof.
    intros Hs Hnk H. pose proof (furthest_inv _ _ _ _ _ _ H Hnk) as (k & q & u & sel & q1 & q2 & -> & Hk & Esq & Hst & Hex & Hf & Hu & Hg & He).
    apply fill_queue_fst in Hf. destruct Hf as [Eq Es].
    pose proof (candidates_count_ge (nr D) k start exclude Hk) as Hc.
    destruct (Z.leb_spec 0 start); [lia|].
    assert (Hc0 : candidates (nr D) k start exclude = []).
    { destruct (candidates (nr D) k start exclude); [reflexivity|]. cbn [length] in *. lia. }
    pose proof (furthest_union _ _ _ _ _ _ H Hnk) as (q3 & P & L & _).
    rewrite Nat2Z.id, Hc0 in P.
    assert (Hlen : length l = 1%nat).
    { apply Permutation_length in P. rewrite app_length in P. cbn [length] in P. lia. }
    destruct l as [|x l]; [discriminate|]. destruct l; [|discriminate].
    cbn [app] in P. assert (x = start).
    { assert (Hi : In x [start]) by (eapply Permutation_in; [exact P | left; reflexivity]).
      destruct Hi as [->|[]]; reflexivity. }
    subst x. split; [reflexivity|]. split; [cbn in L; lia|].
    intros i Hi. destruct (in_dec Z.eq_dec i exclude); [assumption|]. exfalso.
    assert (Hin : In i (candidates (nr D) k start exclude)) by (apply in_candidates; [exact Hk | repeat split; try tauto; lia]).
    rewrite Hc0 in Hin. exact Hin.
  Qed.

  (** never raises under the documented conditions *)
  Lemma furthest_never_raises (D : mat T) nk start exclude extra :
    nr D = nc D -> (0 <= start < Z.of_nat (nr D))%Z -> ~ In start exclude -> NoDup exclude ->
    (forall e, In e exclude -> (0 <= e < Z.of_nat (nr D))%Z) ->
    (0 <= nk <= Z.of_nat (nr D) - Z.of_nat (length exclude))%Z ->
    exists l, furthest_sum D nk start exclude extra = Ok l.
  Proof.
    intros Hsq Hs Hex Hnd Hr Hnk. unfold furthest_sum, furthest_sum_impl.
    rewrite Hsq, Nat.eqb_refl. rewrite <- Hsq.
    destruct (Z.eqb_spec nk 0); [eauto|].
    destruct (Z.leb_spec (Z.of_nat (nr D)) start); [lia|].
    replace (existsb (Z.eqb start) exclude) with false by (symmetry; apply existsb_Zeqb_f; exact Hex).
    replace (Z.of_nat (nr D) - Z.of_nat (length exclude) <? nk)%Z with false by (symmetry; apply Z.ltb_ge; lia).
    rewrite andb_false_r. destruct (Z.ltb_spec nk 0); [lia|].
    assert (Hk : (0 < Z.to_nat nk)%nat) by lia.
    pose proof (candidates_count (nr D) (Z.to_nat nk) start exclude Hk Hs Hex Hnd Hr) as Hc.
    unfold candidates in Hc. unfold rng_idx in Hc.
    rewrite fill_queue_ok by lia. cbn [bind].
    replace (nr D - length exclude - 1 - _)%nat with 0%nat by lia. cbn [Nat.eqb negb andb].
    match goal with |- context [greedy D ?a ?b ?c ?d] => destruct (greedy_ok D a b c d) as (s' & q' & Eg & _) end.
    { rewrite map_length. lia. }
    rewrite Eg; cbn [bind fst snd].
    destruct (extra_loop_ok D (Z.to_nat nk) (Z.to_nat extra) 0 s' q') as (r & Er). rewrite Er. cbn [bind]. eauto.
  Qed.

  (** which errors occur *)
  Lemma furthest_nonsquare (D : mat T) nk start exclude extra :
    nr D <> nc D -> furthest_sum D nk start exclude extra = Raise ValueError.
  Proof. intros H; unfold furthest_sum. destruct (Nat.eqb_spec (nr D) (nc D)); [contradiction | reflexivity]. Qed.
  Lemma furthest_start_range (D : mat T) nk start exclude extra :
    nk <> 0%Z -> (Z.of_nat (nr D) <= start)%Z -> furthest_sum D nk start exclude extra = Raise ValueError.
  Proof.
    intros H1 H2; unfold furthest_sum, furthest_sum_impl. destruct (Nat.eqb _ _); [|reflexivity].
    destruct (Z.eqb_spec nk 0); [contradiction|]. destruct (Z.leb_spec (Z.of_nat (nr D)) start); [reflexivity | lia].
  Qed.
  Lemma furthest_start_excluded (D : mat T) nk start exclude extra :
    nk <> 0%Z -> In start exclude -> furthest_sum D nk start exclude extra = Raise ValueError.
  Proof.
    intros H1 H2; unfold furthest_sum, furthest_sum_impl. destruct (Nat.eqb _ _); [|reflexivity].
    destruct (Z.eqb_spec nk 0); [contradiction|]. destruct (_ <=? _)%Z; [reflexivity|].
    apply existsb_Zeqb in H2. rewrite H2. reflexivity.
  Qed.
  (** too few points: distinct allowed points are fewer than requested *)
  Lemma furthest_too_few (D : mat T) nk start exclude extra :
    (0 <= start)%Z -> (Z.of_nat (length (filter (fun i => negb (existsb (Z.eqb i) exclude)) (rng_idx (nr D)))) < nk)%Z ->
    exists e, furthest_sum D nk start exclude extra = Raise e.
  Proof.
    intros Hs H. destruct (furthest_sum D nk start exclude extra) as [l|e] eqn:E; [|eauto]. exfalso.
    apply furthest_distinct in E; [|exact Hs]. destruct E as (L & ND & Hin).
    assert ((length l <= length (filter (fun i => negb (existsb (Z.eqb i) exclude)) (rng_idx (nr D))))%nat).
    { apply NoDup_incl_length; [exact ND|]. intros i Hi. apply Hin in Hi. apply filter_In.
      rewrite in_rng_idx, negb_true_iff, existsb_Zeqb_f. exact Hi. }
    lia.
  Qed.
  Lemma furthest_negative_count (D : mat T) nk start exclude extra :
    (nk < 0)%Z -> furthest_sum D nk start exclude extra = Raise ValueError.
  Proof.
    intros H; unfold furthest_sum, furthest_sum_impl. destruct (Nat.eqb _ _); [|reflexivity].
    destruct (Z.eqb_spec nk 0); [lia|]. destruct (_ <=? _)%Z; [reflexivity|].
    destruct (existsb _ _); [reflexivity|]. destruct (_ && _); [reflexivity|].
    destruct (Z.ltb_spec nk 0); [reflexivity | lia].
  Qed.
End Gen.

(** ** the greedy property, over the reals *)
Local Open Scope R_scope.
Section Greedy.
  Variable D : mat R.
  Variables (start : Z) (exclude : list Z).
  Local Notation n := (nr D).
  Hypothesis Hsq : nr D = nc D.
  Hypothesis Hsym : forall i j, (i < n)%nat -> (j < n)%nat -> ent D i j = ent D j i.
  Definition allowedp (z : Z) : Prop := (0 <= z < Z.of_nat n)%Z /\ ~ In z exclude.
  Hypothesis Hst : allowedp start.

  Lemma mgetZ_ent i j : (0 <= i)%Z -> (0 <= j)%Z -> @mgetZ R Num_R D i j = ent D (Z.to_nat i) (Z.to_nat j).
  Proof.
    intros Hi Hj. unfold mgetZ, pyindex. destruct (Z.ltb_spec i 0), (Z.ltb_spec j 0); try lia. reflexivity.
  Qed.
  Lemma dsum_app c a b : dsum D c (a ++ b) = dsum D c a + dsum D c b.
  Proof. unfold dsum. induction a as [|x a IH]; cbn [app fold_right]; [lra|]. rewrite IH; lra. Qed.
  Lemma dsum_perm c a b : Permutation a b -> dsum D c a = dsum D c b.
  Proof. unfold dsum. induction 1; cbn [fold_right]; lra. Qed.

  Lemma sort_entries_sorted (q : list (@entry R)) :
    StronglySorted (fun a b : @entry R => snd a <= snd b) (sort_entries q).
  Proof.
    assert (I : forall x l, StronglySorted (fun a b : @entry R => snd a <= snd b) l ->
        StronglySorted (fun a b : @entry R => snd a <= snd b) (insert_entry x l)).
    { clear. intros x l H. induction H as [|y t Hs IH Hf]; cbn [insert_entry]; [repeat constructor|].
      numR. destruct (Rleb_spec (snd x) (snd y)).
      - constructor; [constructor; assumption|]. constructor; [assumption|].
        eapply Forall_impl; [|exact Hf]. intros a Ha; cbv beta in Ha; lra.
      - constructor; [exact IH|]. apply Forall_forall. intros z Hz.
        apply (Permutation_in _ (insert_entry_perm x t)) in Hz. destruct Hz as [<-|Hz]; [lra|].
        rewrite Forall_forall in Hf. apply Hf, Hz. }
    induction q; cbn [sort_entries]; [constructor | apply I; assumption].
  Qed.
  Lemma get_furthest_max (q : list (@entry R)) i q' :
    get_furthest_index q = Ok (i, q') ->
    exists v, Permutation q ((i, v) :: q') /\ (forall e, In e q -> snd e <= v).
  Proof.
    unfold get_furthest_index. intros H.
    pose proof (sort_entries_sorted q) as S. pose proof (sort_entries_perm q) as P.
    destruct (rev (sort_entries q)) as [|x r] eqn:E; [discriminate|]. injection H as <- <-.
    assert (Es : sort_entries q = rev r ++ [x]) by (rewrite <- (rev_involutive (sort_entries q)), E; reflexivity).
    exists (snd x). rewrite <- surjective_pairing. split.
    - rewrite <- P, Es. rewrite Permutation_app_comm. reflexivity.
    - intros e He. apply (Permutation_in _ (Permutation_sym P)) in He. rewrite Es in He, S.
      apply in_app_or in He. destruct He as [He|[<-|[]]]; [|lra].
      clear - S He. induction (rev r) as [|y l IH]; [contradiction|]. cbn [app] in S.
      inversion S as [|? ? S' F]; subst. destruct He as [<-|He]; [|auto].
      rewrite Forall_forall in F. apply F, in_or_app. right; left; reflexivity.
  Qed.

  (** queue invariant w.r.t. the selected points *)
  Definition qinv (sel : list Z) (q : list (@entry R)) : Prop :=
    (forall z, In z (sel ++ map fst q) <-> allowedp z) /\ NoDup (sel ++ map fst q)
    /\ (forall e, In e q -> snd e = dsum D (fst e) sel).

  Lemma ent_sym_Z a b : allowedp a -> allowedp b -> ent D (Z.to_nat a) (Z.to_nat b) = ent D (Z.to_nat b) (Z.to_nat a).
  Proof. intros [Ha _] [Hb _]. apply Hsym; lia. Qed.

  (** one "pop the furthest and update" step *)
  Lemma pop_step sel q new q' :
    qinv sel q -> get_furthest_index q = Ok (new, q') ->
    furthest D allowedp sel new /\ qinv (sel ++ [new]) (update_distance_sums D new q').
  Proof.
    intros (Hall & Hnd & Hval) H. apply get_furthest_max in H. destruct H as (v & P & Hmax).
    pose proof (Permutation_map fst P) as Pf. cbn [map fst] in Pf.
    assert (Pu : Permutation (sel ++ map fst q) (sel ++ new :: map fst q')) by (apply Permutation_app_head; exact Pf).
    assert (Hnd' : NoDup (sel ++ new :: map fst q')) by (eapply Permutation_NoDup; [exact Pu | exact Hnd]).
    assert (Hnew : allowedp new).
    { apply Hall. eapply Permutation_in; [symmetry; exact Pu|]. apply in_or_app; right; left; reflexivity. }
    assert (Hv : v = dsum D new sel).
    { apply (Hval (new, v)). eapply Permutation_in; [symmetry; exact P | left; reflexivity]. }
    split.
    - split; [exact Hnew|]. split.
      + intros Hin. apply NoDup_remove_2 in Hnd'. apply Hnd', in_or_app; left; exact Hin.
      + intros c' Hc' Hn. apply Hall in Hc'. apply in_app_or in Hc'. destruct Hc' as [Hc'|Hc']; [contradiction|].
        apply in_map_iff in Hc'. destruct Hc' as (e & <- & He). rewrite <- (Hval e He), <- Hv. apply Hmax, He.
    - unfold qinv. rewrite upd_fst, <- app_assoc. cbn [app]. split; [|split; [exact Hnd'|]].
      + intros z. rewrite <- Hall. split; intros Hz; (eapply Permutation_in; [|exact Hz]); [symmetry|]; exact Pu.
      + intros e He. unfold update_distance_sums in He. apply in_map_iff in He. destruct He as (e0 & <- & He0). cbn [fst snd].
        assert (He0q : In e0 q) by (eapply Permutation_in; [symmetry; exact P | right; exact He0]).
        rewrite (Hval e0 He0q), dsum_app. numR. f_equal.
        assert (Ha : allowedp (fst e0)) by (apply Hall, in_or_app; right; apply in_map; exact He0q).
        rewrite mgetZ_ent by (destruct Hnew, Ha; lia). rewrite ent_sym_Z by assumption. unfold dsum; cbn [fold_right]; lra.
  Qed.

  Lemma greedy_grown todo : forall pre tail q sel' q',
    length tail = todo -> grown D allowedp start pre -> qinv pre q ->
    greedy D todo (length pre) (pre ++ tail) q = Ok (sel', q') ->
    grown D allowedp start sel' /\ length sel' = (length pre + todo)%nat /\ qinv sel' q'.
  Proof.
    induction todo as [|todo IH]; cbn [greedy]; intros pre tail q sel' q' Ht Hg Hq H.
    - injection H as <- <-. destruct tail; [|discriminate]. rewrite app_nil_r. split; [exact Hg | split; [lia | exact Hq]].
    - apply bind_ok in H. destruct H as ((new & q1) & H1 & H2).
      destruct tail as [|old tail]; [discriminate|]. rewrite set_nth_split in H2.
      replace (pre ++ new :: tail) with ((pre ++ [new]) ++ tail) in H2 by (rewrite <- app_assoc; reflexivity).
      replace (S (length pre)) with (length (pre ++ [new])) in H2 by (rewrite app_length; cbn; lia).
      destruct (pop_step _ _ _ _ Hq H1) as [Hf Hq'].
      apply IH in H2; [|cbn in Ht; lia | constructor; assumption | exact Hq'].
      destruct H2 as (G & L & Q). split; [exact G | split; [|exact Q]].
      rewrite L, app_length; cbn; lia.
  Qed.

  Lemma fold_sum_others old sel : (forall s, In s sel -> allowedp s) -> allowedp old -> forall a,
    fold_left (fun acc index => if Z.eqb index old then acc else nadd acc (mgetZ D old index)) sel a
    = a + dsum D old (filter (fun z => negb (Z.eqb z old)) sel).
  Proof.
    intros Hs Ho. induction sel as [|x sel IH]; intros a; cbn [fold_left filter].
    - unfold dsum; cbn; lra.
    - rewrite IH by (intros; apply Hs; right; assumption). destruct (Z.eqb_spec x old); cbn [negb]; [reflexivity|].
      unfold dsum; cbn [fold_right]. numR. assert (allowedp x) by (apply Hs; left; reflexivity).
      rewrite mgetZ_ent by (destruct Ho, H; lia). lra.
  Qed.
  Lemma filter_others (pre post : list Z) old : NoDup (pre ++ old :: post) ->
    filter (fun z => negb (Z.eqb z old)) (pre ++ old :: post) = pre ++ post.
  Proof.
    intros H. apply NoDup_remove_2 in H. rewrite filter_app. cbn [filter]. rewrite Z.eqb_refl; cbn [negb].
    assert (G : forall l, ~ In old l -> filter (fun z => negb (Z.eqb z old)) l = l).
    { clear. induction l as [|x l IH]; cbn [filter]; intros H; [reflexivity|].
      destruct (Z.eqb_spec x old) as [->|]; [exfalso; apply H; left; reflexivity|]. cbn [negb]. rewrite IH; [reflexivity|].
      intros Hn; apply H; right; exact Hn. }
    rewrite !G; [reflexivity|..]; intros Hn; apply H, in_or_app; auto.
  Qed.

  Lemma qinv_perm a b q : Permutation a b -> qinv a q -> qinv b q.
  Proof.
    intros P (H1 & H2 & H3). split; [|split].
    - intros z. rewrite <- H1. split; intros Hz; (eapply Permutation_in; [|exact Hz]); apply Permutation_app_tail; [symmetry|]; exact P.
    - eapply Permutation_NoDup; [|exact H2]. apply Permutation_app_tail; exact P.
    - intros e He. rewrite (H3 e He). apply dsum_perm, P.
  Qed.

  Lemma extra_step_replaced k i sel q sel' q' : (0 < k)%nat -> length sel = k -> qinv sel q ->
    extra_step D k i sel q = Ok (sel', q') ->
    replaced D allowedp (i mod k) sel sel' /\ length sel' = k /\ qinv sel' q'.
  Proof.
    intros Hk Hl Hq H. unfold extra_step in H.
    assert (Hu : (i mod k < length sel)%nat) by (rewrite Hl; apply Nat.mod_upper_bound; lia).
    destruct (nth_split_eq sel (i mod k) 0%Z Hu) as (pre & post & E & Lp).
    set (old := nth (i mod k) sel 0%Z) in *. cbv zeta in H.
    apply bind_ok in H. destruct H as ((new & q3) & H1 & H2). injection H2 as <- <-.
    destruct Hq as (Hall & Hnd & Hval).
    assert (Hsel : forall s, In s sel -> allowedp s) by (intros s Hs; apply Hall, in_or_app; auto).
    assert (Hold : allowedp old) by (apply Hsel; rewrite E; apply in_or_app; right; left; reflexivity).
    rewrite fold_sum_others in H1 by assumption.
    assert (Hsnd : NoDup sel) by (eapply nodup_app_l; exact Hnd).
    rewrite E, filter_others in H1 by (rewrite <- E; exact Hsnd).
    match type of H1 with get_furthest_index (?a ++ [?b]) = _ => set (q1 := a) in H1; set (qold := b) in H1 end.
    assert (F1 : map fst q1 = map fst q) by (unfold q1; rewrite map_map; reflexivity).
    assert (PU : Permutation ((pre ++ post) ++ map fst (q1 ++ [qold])) (sel ++ map fst q)).
    { rewrite map_app, F1. cbn [map]. change (fst qold) with old. rewrite E. rewrite <- !app_assoc. apply Permutation_app_head.
      cbn [app]. rewrite app_assoc. symmetry. apply Permutation_cons_append. }
    assert (Q0 : qinv (pre ++ post) (q1 ++ [qold])).
    { split; [|split].
      - intros z. rewrite <- Hall. split; intros Hz; (eapply Permutation_in; [|exact Hz]); [|symmetry]; exact PU.
      - eapply Permutation_NoDup; [symmetry; exact PU | exact Hnd].
      - intros e He. apply in_app_or in He. destruct He as [He|[<-|[]]].
        + unfold q1 in He. apply in_map_iff in He. destruct He as (e0 & <- & He0). cbn [fst snd].
          rewrite (Hval e0 He0). assert (Ha : allowedp (fst e0)) by (apply Hall, in_or_app; right; apply in_map; exact He0).
          numR. rewrite mgetZ_ent by (destruct Ha, Hold; lia).
          rewrite E, !dsum_app. unfold dsum at 2; cbn [fold_right]. fold (dsum D (fst e0) post). lra.
        + unfold qold; cbn [fst snd]. numR. lra. }
    destruct (pop_step _ _ _ _ Q0 H1) as [Hf Hq'].
    rewrite <- Lp. rewrite E, set_nth_split. split; [|split].
    - exists pre, old, post, new. auto.
    - rewrite <- Hl, E, !app_length. reflexivity.
    - eapply qinv_perm; [|exact Hq']. rewrite <- app_assoc. apply Permutation_app_head.
      symmetry. apply Permutation_cons_append.
  Qed.

  Lemma extra_loop_refined k todo : forall i sel0 sel q sel' q',
    (0 < k)%nat -> length sel = k -> qinv sel q -> refined D allowedp k i sel0 sel ->
    extra_loop D k todo i sel q = Ok (sel', q') -> refined D allowedp k (i + todo) sel0 sel'.
  Proof.
    induction todo as [|todo IH]; cbn [extra_loop]; intros i sel0 sel q sel' q' Hk Hl Hq Hr H.
    - injection H as <- <-. rewrite Nat.add_0_r. exact Hr.
    - apply bind_ok in H. destruct H as ((s1 & q1) & H1 & H2). cbn [fst snd] in H2.
      destruct (extra_step_replaced _ _ _ _ _ _ Hk Hl Hq H1) as (R1 & L1 & Q1).
      replace (i + S todo)%nat with (S i + todo)%nat by lia.
      eapply IH; [exact Hk | exact L1 | exact Q1 | | exact H2]. econstructor; eassumption.
  Qed.
End Greedy.

Lemma furthest_greedy (D : mat R) nk start exclude extra l :
  (forall i j, (i < nr D)%nat -> (j < nr D)%nat -> ent D i j = ent D j i) ->
  (0 <= start)%Z -> (nk <> 0)%Z -> furthest_sum D nk start exclude extra = Ok l ->
  exists l0, grown D (allowedp D exclude) start l0 /\ Z.of_nat (length l0) = nk
    /\ refined D (allowedp D exclude) (Z.to_nat nk) (Z.to_nat extra) l0 l.
Proof.
  intros Hsym Hs Hnk H.
  destruct (furthest_inv _ _ _ _ _ _ H Hnk) as (k & q & u & sel & q1 & q2 & -> & Hk & Esq & Hst & Hex & Hf & Hu & Hg & He).
  apply fill_queue_fst in Hf. destruct Hf as [Eq _].
  assert (Ha : allowedp D exclude start) by (split; [lia | exact Hex]).
  assert (Q0 : qinv D exclude [start] q).
  { assert (F : map fst q = candidates (nr D) k start exclude) by (rewrite Eq, map_map; cbn [fst]; apply map_id).
    split; [|split].
    - intros z. cbn [app]. rewrite F. cbn [In]. rewrite in_candidates by exact Hk. unfold allowedp. split.
      + intros [<-|?]; [exact Ha | tauto].
      + intros [? ?]. destruct (Z.eq_dec start z); [left; assumption | right]. repeat split; try tauto; congruence.
    - cbn [app]. rewrite F. constructor; [|apply nodup_candidates]. rewrite in_candidates by exact Hk. tauto.
    - intros e He'. rewrite Eq in He'. apply in_map_iff in He'. destruct He' as (z & <- & Hz).
      apply in_candidates in Hz; [|exact Hk]. cbn [fst snd].
      rewrite mgetZ_ent by lia. unfold dsum; cbn [fold_right]; lra. }
  destruct k as [|k']; [lia|]. replace (S k' - 1)%nat with k' in Hg by lia. cbn [repeat] in Hg.
  apply (greedy_grown D start exclude Esq Hsym k' [start] (repeat start k')) in Hg;
    [|apply repeat_length | constructor | exact Q0].
  destruct Hg as (G & L & Q). cbn [length] in L.
  exists sel. split; [exact G|]. split; [lia|]. rewrite Nat2Z.id.
  eapply (extra_loop_refined D exclude Esq Hsym (S k') (Z.to_nat extra) 0 sel); try eassumption; try lia. constructor.
Qed.

(** the only exceptions of a FurthestSum run *)
Section Raises.
  Context {T : Type} {N : Num T}.
  Definition fs_exn (e : exn) : Prop := e = ValueError \/ e = IndexError \/ e = TypeError.
  Lemma get_furthest_index_raise (q : list (@entry T)) e : get_furthest_index q = Raise e -> e = IndexError.
  Proof. unfold get_furthest_index. destruct (rev _); congruence. Qed.
  Lemma furthest_sum_raise (D : mat T) nk start exclude extra e :
    furthest_sum D nk start exclude extra = Raise e -> fs_exn e.
  Proof.
    unfold fs_exn, furthest_sum, furthest_sum_impl. destruct (Nat.eqb _ _); [|intros [= <-]; auto].
    destruct (Z.eqb _ _); [discriminate|]. destruct (Z.leb _ _); [intros [= <-]; auto|].
    destruct (existsb _ _); [intros [= <-]; auto|]. destruct (andb _ _); [intros [= <-]; auto|].
    destruct (Z.ltb _ 0); [intros [= <-]; auto|]. cbv zeta.
    assert (F : forall cand slots e, fill_queue D start cand slots = Raise e -> e = IndexError).
    { induction cand as [|i c IH]; intros slots e0; cbn [fill_queue]; [discriminate|].
      destruct (Z.ltb _ _); [congruence|]. destruct slots; [congruence|].
      destruct (fill_queue D start c slots) eqn:E; cbn [bind]; [discriminate|]. intros [= <-]. eapply IH, E. }
    assert (G : forall todo pos sel q e, greedy D todo pos sel q = Raise e -> e = IndexError).
    { induction todo as [|todo IH]; intros pos sel q e0; cbn [greedy]; [discriminate|].
      destruct (get_furthest_index q) as [[a b]|] eqn:E; cbn [bind]; [apply IH|].
      intros [= <-]. eapply get_furthest_index_raise, E. }
    assert (X : forall k todo i sel q e, extra_loop D k todo i sel q = Raise e -> e = IndexError).
    { intros k. induction todo as [|todo IH]; intros i sel q e0; cbn [extra_loop]; [discriminate|].
      destruct (extra_step D k i sel q) as [[a b]|] eqn:E; cbn [bind]; [apply IH|].
      intros [= <-]. unfold extra_step in E. cbv zeta in E.
      destruct (get_furthest_index _) as [[a b]|] eqn:E2; cbn [bind] in E; [discriminate|].
      injection E as <-. eapply get_furthest_index_raise, E2. }
    destruct (fill_queue _ _ _ _) as [[q u]|e1] eqn:E1; cbn [bind]; [|intros [= <-]; right; left; eapply F, E1].
    destruct (andb _ _); [intros [= <-]; auto|].
    destruct (greedy _ _ _ _ _) as [[s1 q1]|e2] eqn:E2; cbn [bind]; [|intros [= <-]; right; left; eapply G, E2].
    destruct (extra_loop _ _ _ _ _ _) as [r|e3] eqn:E3; cbn [bind]; [discriminate|]. intros [= <-]. right; left; eapply X, E3.
  Qed.
End Raises.
