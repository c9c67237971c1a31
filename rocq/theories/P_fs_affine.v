(** FurthestSum on rescaled and shifted dissimilarities: lemmas *)
From Coq Require Import List Arith Lia ZArith Reals Lra Permutation Bool.
From Verif Require Import Num Mat Py Spec M_furthest P_lin P_furthest P_exclude.
Import ListNotations.
Local Open Scope R_scope.

Section Affine.
  Variables (D D' : mat R) (a b : R).
  Hypotheses (Ha : 0 < a) (Esq : nr D = nc D) (Er : nr D' = nr D) (Ec : nc D' = nc D).
  Hypothesis HD : forall i j, (i < nr D)%nat -> (j < nr D)%nat -> i <> j -> ent D' i j = a * ent D i j + b.

  Definition inr (z : Z) : Prop := (0 <= z < Z.of_nat (nr D))%Z.
  Definition sh (c : R) (e : @entry R) : @entry R := (fst e, a * snd e + c).
  Definition good (l : list Z) : Prop := NoDup l /\ forall z, In z l -> inr z.

  Lemma good_perm l l' : Permutation l l' -> good l -> good l'.
  Proof using. intros P [G1 G2]. split; [eapply Permutation_NoDup; eassumption|]. intros z Hz. apply G2. eapply Permutation_in; [symmetry; exact P | exact Hz]. Qed.
  Lemma get_affine i j : inr i -> inr j -> i <> j -> @mgetZ R Num_R D' i j = a * @mgetZ R Num_R D i j + b.
  Proof using HD Er Ec Esq.
    unfold inr. intros Hi Hj Hn. unfold mgetZ, pyindex. destruct (Z.ltb_spec i 0), (Z.ltb_spec j 0); try lia. rewrite !mget_ent. apply HD; lia.
  Qed.
  Lemma insert_sh c x l : @insert_entry R Num_R (sh c x) (map (sh c) l) = map (sh c) (insert_entry x l).
  Proof using Ha.
    induction l as [|y t IH]; [reflexivity|]. cbn [map insert_entry]. rewrite IH. cbn [sh snd fst]. numR.
    destruct (Rleb_spec (a * snd x + c) (a * snd y + c)), (Rleb_spec (snd x) (snd y)); try reflexivity; exfalso; nra.
  Qed.
  Lemma sort_sh c l : @sort_entries R Num_R (map (sh c) l) = map (sh c) (sort_entries l).
  Proof using Ha. induction l as [|x t IH]; [reflexivity|]. cbn [map sort_entries]. rewrite IH. apply insert_sh. Qed.
  Lemma furthest_sh c q : @get_furthest_index R Num_R (map (sh c) q)
    = match get_furthest_index q with Ok (i, q') => Ok (i, map (sh c) q') | Raise e => Raise e end.
  Proof using Ha.
    unfold get_furthest_index. rewrite sort_sh, <- map_rev. destruct (rev (sort_entries q)) as [|x r]; [reflexivity|]. cbn [map]. rewrite map_rev. reflexivity.
  Qed.
  Lemma upd_sh c new q : good (new :: map fst q) -> @update_distance_sums R Num_R D' new (map (sh c) q) = map (sh (c + b)) (update_distance_sums D new q).
  Proof using HD Er Ec Esq.
    intros [G1 G2]. unfold update_distance_sums. rewrite !map_map. apply map_ext_in. intros e He. unfold sh. cbn [fst snd]. f_equal. numR.
    assert (I : In (fst e) (map fst q)) by (apply in_map; exact He). rewrite get_affine; [ring | apply G2; left; reflexivity | apply G2; right; exact I|].
    intros ->. inversion G1; contradiction.
  Qed.
  Definition lift (r : res (list Z * list (@entry R))) (c : R) : res (list Z * list (@entry R)) :=
    match r with Ok (s, q) => Ok (s, map (sh c) q) | Raise e => Raise e end.

  Lemma greedy_sh todo : forall pre tail q, length tail = todo -> good (pre ++ map fst q) ->
    @greedy R Num_R D' todo (length pre) (pre ++ tail) (map (sh (b * INR (length pre))) q)
    = lift (greedy D todo (length pre) (pre ++ tail) q) (b * INR (length pre + todo)).
  Proof using Ha HD Er Ec Esq.
    induction todo as [|todo IH]; cbn [greedy]; intros pre tail q Ht G; [cbn [lift]; rewrite Nat.add_0_r; reflexivity|].
    rewrite furthest_sh. destruct (get_furthest_index q) as [[new q1]|e] eqn:E; cbn [bind]; [|reflexivity].
    destruct tail as [|old tail]; [discriminate|]. rewrite set_nth_split.
    replace (pre ++ new :: tail) with ((pre ++ [new]) ++ tail) by (rewrite <- app_assoc; reflexivity).
    apply get_furthest_perm in E. destruct E as (v & P). apply (Permutation_map fst) in P. cbn [map fst] in P.
    assert (G' : good (pre ++ new :: map fst q1)) by (eapply good_perm; [apply Permutation_app_head, P | exact G]).
    rewrite upd_sh.
    2:{ destruct G' as [N1 N2]. split; [|intros z Hz; apply N2, in_or_app; right; exact Hz].
        clear - N1. induction pre as [|x pre IH]; [exact N1|]. inversion N1; auto. }
    assert (L : length (pre ++ [new]) = S (length pre)) by (rewrite app_length; cbn; lia).
    replace (b * INR (length pre) + b) with (b * INR (length (pre ++ [new]))) by (rewrite L, S_INR; ring).
    rewrite <- L. rewrite IH; [|cbn in Ht; lia|].
    - f_equal. rewrite L. f_equal. f_equal. lia.
    - rewrite upd_fst, <- app_assoc. exact G'.
  Qed.
  Lemma others_sh old : inr old -> forall l, (forall z, In z l -> inr z) -> forall acc acc' m, acc' = a * acc + b * INR m ->
    fold_left (fun s index => if Z.eqb index old then s else nadd s (@mgetZ R Num_R D' old index)) l acc'
    = a * fold_left (fun s index => if Z.eqb index old then s else nadd s (@mgetZ R Num_R D old index)) l acc
      + b * INR (m + length (filter (fun z => negb (Z.eqb z old)) l)).
  Proof using HD Er Ec Esq.
    intros Ho. induction l as [|x l IH]; intros Hl acc acc' m E; [cbn; rewrite Nat.add_0_r; exact E|]. cbn [fold_left filter].
    destruct (Z.eqb_spec x old) as [->|Hx]; cbn [negb]; [apply IH; [intros; apply Hl; right; assumption | exact E]|].
    rewrite (IH (fun z Hz => Hl z (or_intror Hz)) (nadd acc (mgetZ D old x)) _ (S m)).
    - cbn [length]. do 3 f_equal. lia.
    - rewrite E, S_INR. numR. rewrite get_affine; [ring | exact Ho | apply Hl; left; reflexivity | congruence].
  Qed.
  Lemma extra_step_sh k i sel q : (0 < k)%nat -> length sel = k -> good (sel ++ map fst q) ->
    @extra_step R Num_R D' k i sel (map (sh (b * INR k)) q) = lift (extra_step D k i sel q) (b * INR k).
  Proof using Ha HD Er Ec Esq.
    intros Hk Hl G. unfold extra_step.
    assert (Hu : (i mod k < length sel)%nat) by (rewrite Hl; apply Nat.mod_upper_bound; lia).
    destruct (nth_split_eq sel (i mod k) 0%Z Hu) as (pre & post & E & Lp). set (old := nth (i mod k) sel 0%Z) in *. cbv zeta.
    assert (Io : In old sel) by (rewrite E; apply in_or_app; right; left; reflexivity).
    pose proof G as [N1 N2]. assert (Ro : inr old) by (apply N2, in_or_app; left; exact Io).
    assert (Dis : forall z, In z sel -> In z (map fst q) -> False).
    { clear - N1. induction sel as [|x sel IH]; cbn [app In]; intros z Hz Hq; [exact Hz|]. inversion N1 as [|? ? X1 X2]. destruct Hz as [->|Hz]; [apply X1, in_or_app; right; exact Hq | eapply IH; eassumption]. }
    assert (Cnt : S (length (filter (fun z => negb (Z.eqb z old)) sel)) = k).
    { assert (NS : NoDup sel) by (eapply nodup_app_l; exact N1). rewrite E in NS. apply NoDup_remove_2 in NS. rewrite <- Hl, E, filter_app. cbn [filter]. rewrite Z.eqb_refl. cbn [negb].
      assert (K : forall l, ~ In old l -> filter (fun z => negb (Z.eqb z old)) l = l).
      { clear. induction l as [|x l IH]; intros H; [reflexivity|]. cbn [filter]. destruct (Z.eqb_spec x old); [exfalso; apply H; left; assumption|]. cbn [negb]. f_equal. apply IH. intros C; apply H; right; exact C. }
      rewrite !K by (intros C; apply NS, in_or_app; auto). rewrite !app_length. cbn [length]. lia. }
    rewrite (others_sh old Ro sel (fun z Hz => N2 z (in_or_app _ _ _ (or_introl Hz))) n0 n0 0%nat) by (numR; cbn [INR]; ring).
    set (qi := fold_left _ sel n0). cbn [Nat.add]. set (m := length (filter _ sel)) in *.
    assert (Q : map (fun e : @entry R => (fst e, nsub (snd e) (@mgetZ R Num_R D' (fst e) old))) (map (sh (b * INR k)) q)
                = map (sh (b * INR m)) (map (fun e : @entry R => (fst e, nsub (snd e) (@mgetZ R Num_R D (fst e) old))) q)).
    { rewrite !map_map. apply map_ext_in. intros e He. assert (I : In (fst e) (map fst q)) by (apply in_map; exact He). unfold sh. cbn [fst snd]. f_equal.
      rewrite get_affine; [|apply N2, in_or_app; right; exact I | exact Ro | intros C; apply (Dis old Io); rewrite <- C; exact I]. rewrite <- Cnt, S_INR. numR. ring. }
    unfold entry in *. rewrite Q. clear Q. set (q1 := map _ q).
    pose proof (furthest_sh (b * INR m) (q1 ++ [(old, qi)])) as F. rewrite map_app in F. cbn [map] in F. unfold sh at 2 in F. cbn [fst snd] in F. unfold entry in F. rewrite F. clear F.
    destruct (get_furthest_index (q1 ++ [(old, qi)])) as [[new q3]|e] eqn:EF; cbn [bind]; [|reflexivity]. cbn [lift].
    apply get_furthest_perm in EF. destruct EF as (v & P). apply (Permutation_map fst) in P. rewrite map_app in P. unfold q1 in P. rewrite map_map in P. cbn [map fst] in P.
    rewrite upd_sh; [replace (b * INR m + b) with (b * INR k) by (rewrite <- Cnt, S_INR; ring); reflexivity|].
    eapply good_perm; [exact P|]. eapply good_perm; [apply Permutation_cons_append|]. split.
    - constructor; [intros C; exact (Dis old Io C)|]. clear - N1. induction sel as [|x sel IH]; [exact N1|]. inversion N1; auto.
    - intros z [<-|Hz]; [exact Ro | apply N2, in_or_app; right; exact Hz].
  Qed.
  Lemma extra_loop_sh k todo : forall i sel q, (0 < k)%nat -> length sel = k -> good (sel ++ map fst q) ->
    @extra_loop R Num_R D' k todo i sel (map (sh (b * INR k)) q) = lift (extra_loop D k todo i sel q) (b * INR k).
  Proof using Ha HD Er Ec Esq.
    induction todo as [|todo IH]; intros i sel q Hk Hl G; cbn [extra_loop]; [reflexivity|]. rewrite extra_step_sh by assumption.
    destruct (extra_step D k i sel q) as [[s1 q1]|e] eqn:E; cbn [lift bind fst snd]; [|reflexivity]. apply extra_step_spec in E; [|assumption..]. destruct E as [P L].
    apply IH; [exact Hk | exact L|]. eapply good_perm; [symmetry; exact P | exact G].
  Qed.
  Lemma fill_sh start cand : inr start -> (forall z, In z cand -> inr z /\ z <> start) -> forall slots,
    @fill_queue R Num_R D' start cand slots = match fill_queue D start cand slots with Ok (q, u) => Ok (map (sh b) q, u) | Raise e => Raise e end.
  Proof using HD Er Ec Esq.
    intros Hs. induction cand as [|i rest IH]; intros Hc slots; cbn [fill_queue]; [reflexivity|]. rewrite Ec. destruct (start <? _)%Z; [reflexivity|].
    destruct slots as [|slots]; [reflexivity|]. rewrite IH by (intros; apply Hc; right; assumption). destruct (fill_queue D start rest slots) as [[q u]|e]; cbn [bind]; [|reflexivity].
    cbn [fst snd map]. destruct (Hc i (or_introl eq_refl)) as [H1 H2]. rewrite get_affine by assumption. reflexivity.
  Qed.
  Lemma furthest_affine nk start exclude extra : (0 <= start)%Z ->
    @furthest_sum R Num_R D' nk start exclude extra = furthest_sum D nk start exclude extra.
  Proof using Ha HD Er Ec Esq.
    intros Hs. unfold furthest_sum, furthest_sum_impl. rewrite Er, Ec. destruct (Nat.eqb _ _); [|reflexivity]. destruct (Z.eqb_spec nk 0); [reflexivity|].
    destruct (Z.leb_spec (Z.of_nat (nr D)) start); [reflexivity|]. destruct (existsb (Z.eqb start) exclude) eqn:Ex; [reflexivity|]. destruct (andb _ _); [reflexivity|].
    destruct (Z.ltb_spec nk 0); [reflexivity|]. apply existsb_Zeqb_f in Ex. assert (Hk : (0 < Z.to_nat nk)%nat) by lia.
    fold (rng_idx (nr D)). fold (candidates (nr D) (Z.to_nat nk) start exclude). set (C := candidates _ _ _ _).
    assert (Rs : inr start) by (unfold inr; lia).
    assert (RC : forall z, In z C -> inr z /\ z <> start) by (intros z Hz; apply in_candidates in Hz; [|exact Hk]; unfold inr; tauto).
    rewrite fill_sh by assumption. destruct (fill_queue D start C _) as [[q u]|e] eqn:EF; cbn [bind]; [|reflexivity]. destruct (andb _ _); [reflexivity|].
    apply fill_queue_fst in EF. destruct EF as [Eq _]. assert (Fq : map fst q = C) by (rewrite Eq, map_map; cbn [fst]; apply map_id).
    assert (G : good ([start] ++ map fst q)).
    { rewrite Fq. split; [constructor; [intros I; apply RC in I; tauto | apply nodup_candidates]|]. intros z [<-|Hz]; [exact Rs | apply RC, Hz]. }
    destruct (Z.to_nat nk) as [|k'] eqn:Ek; [lia|]. replace (S k' - 1)%nat with k' by lia. cbn [repeat].
    pose proof (greedy_sh k' [start] (repeat start k') q (repeat_length _ _) G) as GS. cbn [length app] in GS. cbn [INR] in GS. rewrite Rmult_1_r in GS. rewrite GS.
    destruct (greedy D k' 1 (start :: repeat start k') q) as [[s1 q1]|e] eqn:EG; cbn [lift bind fst snd]; [|reflexivity].
    apply (greedy_spec D k' [start] (repeat start k')) in EG; [|apply repeat_length]. destruct EG as [P L]. cbn [length] in L.
    change (1 + k')%nat with (S k'). rewrite extra_loop_sh; [|lia | exact L | eapply good_perm; [symmetry; exact P | exact G]].
    destruct (extra_loop D (S k') (Z.to_nat extra) 0 s1 q1) as [[s2 q2]|e]; reflexivity.
  Qed.
End Affine.

(** with a negative start index the values of the matrix are never compared *)
Section NegativeStart.
  Context {T} {N : Num T}.
  Lemma extra_single (D : mat T) s todo : forall i, extra_loop D 1 todo i [s] [] = Ok ([s], []).
  Proof using.
    induction todo as [|todo IH]; intros i; cbn [extra_loop]; [reflexivity|].
    assert (E : extra_step D 1 i [s] [] = Ok ([s], [])).
    { unfold extra_step. rewrite Nat.mod_1_r. cbn [nth map app]. reflexivity. }
    rewrite E. cbn [bind fst snd]. apply IH.
  Qed.
  Lemma negative_start_any (D D' : mat T) nk start exclude extra : (start < 0)%Z -> nr D' = nr D -> nc D' = nc D ->
    furthest_sum D' nk start exclude extra = furthest_sum D nk start exclude extra.
  Proof using.
    intros Hs Er Ec. unfold furthest_sum, furthest_sum_impl. rewrite Er, Ec. destruct (Nat.eqb _ _); [|reflexivity]. destruct (Z.eqb_spec nk 0); [reflexivity|].
    destruct (_ <=? start)%Z; [reflexivity|]. destruct (existsb _ _); [reflexivity|]. destruct (andb _ _); [reflexivity|].
    destruct (Z.ltb_spec nk 0); [reflexivity|]. assert (Hk : (0 < Z.to_nat nk)%nat) by lia.
    fold (rng_idx (nr D)). fold (candidates (nr D) (Z.to_nat nk) start exclude). destruct (candidates _ _ _ _) as [|c C] eqn:EC.
    - cbn [fill_queue bind]. destruct (andb _ _); [reflexivity|]. destruct (Z.to_nat nk) as [|[|k]]; [lia| |reflexivity].
      cbn [Nat.sub greedy bind fst snd repeat]. rewrite !extra_single. reflexivity.
    - assert (L : (nr D - length exclude - 1 < length (c :: C))%nat).
      { assert (I : incl (rng_idx (nr D)) ((c :: C) ++ exclude)).
        { intros z Hz. apply in_or_app. destruct (in_dec Z.eq_dec z exclude) as [h|h]; [right; exact h|left]. rewrite <- EC. apply in_candidates; [exact Hk|].
          unfold rng_idx in Hz. apply in_map_iff in Hz. destruct Hz as (x & <- & Hx). apply in_seq in Hx. split; [lia|split; [lia | exact h]]. }
        apply NoDup_incl_length in I; [|unfold rng_idx; apply FinFun.Injective_map_NoDup; [intros x y; lia | apply seq_NoDup]].
        unfold rng_idx in I. rewrite map_length, seq_length, app_length in I. cbn [length] in *. lia. }
      rewrite !fill_queue_short by exact L. reflexivity.
  Qed.
End NegativeStart.
