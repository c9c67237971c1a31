(** Property theorems C51 - C53 (crom.py: k-means reduction with Markov transitions). *)
From Coq Require Import List Arith Lia ZArith Reals Lra Bool.
From Verif Require Import Num NumExt Mat Py Spec Spec_markov M_markov P_lin P_mat P_markov Props_base.
Import ListNotations.
Local Open Scope R_scope.

(** contract of sklearn's KMeans: as many centres as clusters, one label per sample, labels in range *)
Definition kmeans_answers {T} (ko : kmeans_oracle T) : Prop :=
  (forall calls k X sw c l inertia n_iter, ko_fit ko calls (PInt k) X sw = Ok (c, l, inertia, n_iter) ->
     Z.of_nat (nr c) = k /\ length l = nr X /\ forall x, In x l -> (x < nr c)%nat)
  /\ (forall c X sw l, ko_predict ko c X sw = Ok l -> length l = nr X /\ forall x, In x l -> (x < nr c)%nat).

(** an object after any history of successful calls that change it *)
Inductive call (T : Type) := CallFit (X : mat T) (sw : option (list T)) | CallFitPredict (X : mat T) (sw : option (list T)) | CallFitTransform (X : mat T) (sw : option (list T)).
Arguments CallFit {T}. Arguments CallFitPredict {T}. Arguments CallFitTransform {T}.
Definition do_call {T} {N : Num T} (ko : kmeans_oracle T) (o : crom T) (c : call T) : res (crom T) :=
  match c with
  | CallFit X sw => crom_fit ko o X sw
  | CallFitPredict X sw => let! (o', _) := crom_fit_predict ko o X sw in Ok o'
  | CallFitTransform X sw => let! (o', _) := crom_fit_transform ko o X sw in Ok o'
  end.
Fixpoint history {T} {N : Num T} (ko : kmeans_oracle T) (o : crom T) (cs : list (call T)) : res (crom T) :=
  match cs with [] => Ok o | c :: rest => let! o' := do_call ko o c in history ko o' rest end.

Definition crom_ok {T} {N : Num T} (K : nat) (o : crom T) : Prop :=
  co_n_clusters o = PInt (Z.of_nat K) /\
  match co_state o with
  | None => True
  | Some s => cs_transition s = transition_matrix (cs_labels s) K /\ (forall x, In x (cs_labels s) -> (x < K)%nat)
      /\ km_n_clusters (cs_kmeans s) = PInt (Z.of_nat K) /\ nr (km_centers (cs_kmeans s)) = K
  end.
Lemma fit_ok {T} {N : Num T} (ko : kmeans_oracle T) K o X sw o' : kmeans_answers ko -> co_n_clusters o = PInt (Z.of_nat K) -> crom_fit ko o X sw = Ok o' ->
  crom_ok K o' /\ exists s, co_state o' = Some s /\ length (cs_labels s) = nr X /\ km_labels (cs_kmeans s) = cs_labels s /\ km_centers (cs_kmeans s) = cs_centers s.
Proof.
  intros [HK _] Ho H. unfold crom_fit in H. apply bind_ok in H. destruct H as ((km & tm) & E & H). injection H as <-. unfold kmeans_markov_crom in E. apply bind_ok in E. destruct E as (km' & E & E').
  injection E' as <- <-. unfold km_fit in E. apply bind_ok in E. destruct E as ([[[c l] inertia] n_iter] & E & E'). injection E' as <-. rewrite Ho in E. pose proof (HK _ _ _ _ _ _ _ _ E) as (h1 & h2 & h3).
  assert (nr c = K) by lia. split.
  - split; [exact Ho|]. cbn [co_state cs_transition cs_labels cs_kmeans km_labels km_centers km_n_clusters]. rewrite H in *. auto.
  - eexists. split; [reflexivity|]. cbn. auto.
Qed.
Lemma refit_ok {T} {N : Num T} (ko : kmeans_oracle T) o X sw o' km : crom_refit ko o X sw = Ok (o', km) ->
  exists s s', co_state o = Some s /\ co_state o' = Some s' /\ co_n_clusters o' = co_n_clusters o
    /\ cs_transition s' = cs_transition s /\ cs_labels s' = cs_labels s /\ cs_centers s' = cs_centers s
    /\ cs_kmeans s' = km /\ km_n_clusters km = km_n_clusters (cs_kmeans s)
    /\ ko_fit ko (co_calls o) (km_n_clusters (cs_kmeans s)) X sw = Ok (km_centers km, km_labels km, km_inertia km, km_n_iter km).
Proof.
  unfold crom_refit. destruct (co_state o) as [s|]; [|discriminate]. intros H. apply bind_ok in H. destruct H as (km' & E & H). injection H as <- <-.
  unfold km_fit in E. apply bind_ok in E. destruct E as ([[[c l] inertia] n_iter] & E & E'). injection E' as <-. exists s. eexists. split; [reflexivity|]. split; [reflexivity|]. cbn. repeat (split; [reflexivity|]). exact E.
Qed.
Lemma call_refit {T} {N : Num T} (ko : kmeans_oracle T) o c o' : do_call ko o c = Ok o' ->
  match c with CallFit X sw => crom_fit ko o X sw = Ok o' | CallFitPredict X sw | CallFitTransform X sw => exists km, crom_refit ko o X sw = Ok (o', km) end.
Proof.
  destruct c as [X sw|X sw|X sw]; cbn [do_call]; [auto| |]; intros H; apply bind_ok in H; destruct H as ([o1 r] & E & H); injection H as ->.
  - unfold crom_fit_predict in E. apply bind_ok in E. destruct E as ([o2 km] & E & E'). injection E' as -> <-. eauto.
  - unfold crom_fit_transform in E. apply bind_ok in E. destruct E as ([o2 km] & E & E'). apply bind_ok in E'. destruct E' as (D & _ & E'). injection E' as -> <-. eauto.
Qed.
Lemma history_ok {T} {N : Num T} (ko : kmeans_oracle T) K : kmeans_answers ko -> forall cs o o', crom_ok K o -> history ko o cs = Ok o' -> crom_ok K o'.
Proof.
  intros HK cs. induction cs as [|c cs IH]; intros o o' I H; cbn [history] in H; [injection H as <-; exact I|]. apply bind_ok in H. destruct H as (o1 & E & H). apply (IH o1); [|exact H].
  apply call_refit in E. destruct c as [X sw|X sw|X sw].
  - apply (fit_ok ko K) in E; [apply E | exact HK | apply I].
  - destruct E as (km & E). apply refit_ok in E. destruct E as (s & s' & E1 & E2 & E3 & E4 & E5 & _ & E7 & E8 & E9). destruct I as [I1 I2]. rewrite E1 in I2. destruct I2 as (I2 & I3 & I4 & I5).
    split; [congruence|]. rewrite E2, E4, E5, E7, E8. rewrite I4 in E9. destruct HK as [HK _]. destruct (HK _ _ _ _ _ _ _ _ E9) as (h1 & _). split; [exact I2|]. split; [exact I3|]. split; [exact I4 | lia].
  - destruct E as (km & E). apply refit_ok in E. destruct E as (s & s' & E1 & E2 & E3 & E4 & E5 & _ & E7 & E8 & E9). destruct I as [I1 I2]. rewrite E1 in I2. destruct I2 as (I2 & I3 & I4 & I5).
    split; [congruence|]. rewrite E2, E4, E5, E7, E8. rewrite I4 in E9. destruct HK as [HK _]. destruct (HK _ _ _ _ _ _ _ _ E9) as (h1 & _). split; [exact I2|]. split; [exact I3|]. split; [exact I4 | lia].
Qed.
Lemma new_history_ok {T} {N : Num T} (ko : kmeans_oracle T) K cs o : kmeans_answers ko -> history ko (crom_new (PInt (Z.of_nat K))) cs = Ok o -> crom_ok K o.
Proof. intros HK H. apply (history_ok ko K HK cs (crom_new (PInt (Z.of_nat K)))) in H; [exact H|]. split; [reflexivity | exact I]. Qed.

(** ** C51: after fit, column k of the transition matrix holds the observed frequencies of the labels
    following label k *)
Theorem C51_transition_frequencies : forall (ko : kmeans_oracle R) o K X sw o', kmeans_answers ko ->
  co_n_clusters o = PInt (Z.of_nat K) -> crom_fit ko o X sw = Ok o' ->
  exists s, co_state o' = Some s /\ is_mat K K (cs_transition s) /\ length (cs_labels s) = nr X /\
    forall k, (k < K)%nat -> (exists t, (S t < nr X)%nat /\ nth t (cs_labels s) O = k) ->
      (forall j, (j < K)%nat -> ent (cs_transition s) j k * INR (visits (cs_labels s) k) = INR (transitions (cs_labels s) k j))
      /\ distribution K (fun j => ent (cs_transition s) j k).
Proof.
  intros ko o K X sw o' HK Ho H. destruct (fit_ok ko K o X sw o' HK Ho H) as [[_ I] (s & Es & Hl & _)]. rewrite Es in I. destruct I as (I1 & I2 & _).
  exists s. split; [exact Es|]. split; [rewrite I1; apply is_mat_mbuild|]. split; [exact Hl|]. intros k Hk Hv. rewrite <- Hl in Hv. apply visits_iff in Hv.
  assert (V : 0 < INR (visits (cs_labels s) k)) by (apply lt_0_INR; exact Hv).
  assert (EN : forall j, (j < K)%nat -> ent (cs_transition s) j k = INR (transitions (cs_labels s) k j) / INR (visits (cs_labels s) k)).
  { intros j Hj. rewrite I1. rewrite <- mget_ent. rewrite transition_entry by assumption. unfold nofnat. cbn [ndiv nofZ Num_R]. rewrite <- !INR_IZR_INZ. reflexivity. }
  split; [|split].
  - intros j Hj. rewrite EN by exact Hj. field. lra.
  - intros j Hj. rewrite EN by exact Hj. apply Rle_mult_inv_pos; [apply pos_INR | exact V].
  - rewrite (Sum_ext K _ (fun j => INR (transitions (cs_labels s) k j) / INR (visits (cs_labels s) k))) by (intros; apply EN; assumption).
    rewrite Sum_div, transitions_total by exact I2. field. lra.
Qed.
Print Assumptions C51_transition_frequencies.
(** the column of a cluster is NaN exactly when the cluster is not visited before the last sample *)
Theorem C51_unvisited_nan : forall (ko : kmeans_oracle ext) o K X sw o', kmeans_answers ko ->
  co_n_clusters o = PInt (Z.of_nat K) -> crom_fit ko o X sw = Ok o' ->
  exists s, co_state o' = Some s /\ forall j k, (j < K)%nat -> (k < K)%nat ->
    (mget (cs_transition s) j k = NaN <-> ~ exists t, (S t < nr X)%nat /\ nth t (cs_labels s) O = k)
    /\ (mget (cs_transition s) j k <> NaN -> mget (cs_transition s) j k = Fin (INR (transitions (cs_labels s) k j) / INR (visits (cs_labels s) k))).
Proof.
  intros ko o K X sw o' HK Ho H. destruct (fit_ok ko K o X sw o' HK Ho H) as [[_ I] (s & Es & Hl & _)]. rewrite Es in I. destruct I as (I1 & I2 & _).
  exists s. split; [exact Es|]. intros j k Hj Hk. rewrite I1, transition_entry, ediv_counts by assumption. rewrite <- Hl.
  pose proof (visits_iff (cs_labels s) k) as V. pose proof (transitions_le (cs_labels s) k j) as L. destruct (Nat.eqb_spec (visits (cs_labels s) k) 0) as [E|E].
  - destruct (Nat.eqb_spec (transitions (cs_labels s) k j) 0) as [_|C]; [|lia]. split; [|intros C; exfalso; apply C; reflexivity]. split; [intros _ C; apply V in C; lia | reflexivity].
  - split; [|intros _; reflexivity]. split; [discriminate|]. intros C. exfalso. apply C, V. lia.
Qed.
Print Assumptions C51_unvisited_nan.
(** labels 0 0 1 0 1 1: the labels after 0 are 0, 1, 1 and after 1 they are 0, 1; with a third cluster
    holding only the last sample the counts of its column are all zero *)
Example C51_example : map (fun k => map (transitions [0; 0; 1; 0; 1; 1]%nat k) [0; 1]%nat) [0; 1]%nat = [[1; 2]; [1; 1]]%nat
  /\ map (visits [0; 0; 1; 0; 1; 1]%nat) [0; 1]%nat = [3; 2]%nat /\ map (visits [0; 1; 2]%nat) [0; 1; 2]%nat = [1; 1; 0]%nat.
Proof. vm_compute. auto. Qed.
Definition em_oracle (T : Type) {N : Num T} : kmeans_oracle T := mk_ko
  (fun calls k X sw => match k with
     | PInt 2%Z => if Nat.eqb (nr X) 4 then Ok (mzeros 2 (nc X), match calls with O => [0; 1; 0; 0] | _ => [0; 0; 1; 1] end%nat, n0, 7%nat)
                   else if Nat.eqb (nr X) 2 then Ok (mzeros 2 (nc X), [0; 1]%nat, n0, 7%nat) else Raise ValueError
     | _ => Raise ValueError end)
  (fun c X sw => if Nat.eqb (nr c) 2 then Ok (map (fun t => (t mod 2)%nat) (seq 0 (nr X))) else Raise ValueError)
  (fun c X => Ok (mzeros (nr X) (nr c))).
Lemma em_answers T N : kmeans_answers (@em_oracle T N).
Proof.
  split.
  - intros calls k X sw c l i ni H. cbn [em_oracle ko_fit] in H. destruct k as [|[q|[q|q|]|]|q]; try discriminate.
    destruct (Nat.eqb_spec (nr X) 4) as [E|_]; [|destruct (Nat.eqb_spec (nr X) 2) as [E|_]; [|discriminate]]; injection H as <- <- <- <-; rewrite E; cbn [mzeros mbuild nr].
    + split; [reflexivity|]. destruct calls; (split; [reflexivity|]); intros x Hx; cbn in Hx; lia.
    + split; [reflexivity|]. split; [reflexivity|]. intros x Hx; cbn in Hx; lia.
  - intros c X sw l H. cbn [em_oracle ko_predict] in H. destruct (Nat.eqb_spec (nr c) 2) as [E|_]; [|discriminate]. injection H as <-. split; [rewrite map_length, seq_length; reflexivity|].
    intros x Hx. apply in_map_iff in Hx. destruct Hx as (t & <- & _). rewrite E. apply (Nat.mod_upper_bound t 2). lia.
Qed.
Example C51_fit_example : exists o', crom_fit (em_oracle R) (crom_new (PInt 2)) (mzeros 4 1) None = Ok o'
  /\ (exists s, co_state o' = Some s /\ ent (cs_transition s) 1 0 = 1 / 2 /\ ent (cs_transition s) 0 1 = 1)
  /\ exists o2 s, crom_fit (em_oracle ext) (crom_new (PInt 2)) (mzeros 2 1) None = Ok o2 /\ co_state o2 = Some s /\ mget (cs_transition s) 0 1 = NaN.
Proof.
  eexists. split; [reflexivity|]. split.
  - eexists. split; [reflexivity|]. split; unfold ent; cbn; field.
  - eexists _, _. split; [reflexivity|]. split; [reflexivity|]. cbn [cs_transition]. change (km_labels _) with [0; 1]%nat. rewrite transition_entry by (cbn; lia). rewrite ediv_counts. reflexivity.
Qed.

(** ** C52: prediction is h steps of that chain from the cluster of each sample, after any history of
    calls (the matrix is the one of the last fit, the clusters those of the last clustering) *)
Theorem C52_prediction : forall (ko : kmeans_oracle R) K cs o s X sw labels h, kmeans_answers ko ->
  history ko (crom_new (PInt (Z.of_nat K))) cs = Ok o -> co_state o = Some s ->
  (forall k, (k < K)%nat -> exists t, (S t < length (cs_labels s))%nat /\ nth t (cs_labels s) O = k) ->
  ko_predict ko (km_centers (cs_kmeans s)) X sw = Ok labels ->
  let P j k := INR (transitions (cs_labels s) k j) / INR (visits (cs_labels s) k) in
  exists L, crom_predict ko o X sw (PInt (Z.of_nat h)) = Ok L /\ is_mat (nr X) K L /\
    forall i, (i < nr X)%nat ->
      (forall j, (j < K)%nat -> ent L i j = chain K P h (one_hot (nth i labels O)) j) /\ distribution K (ent L i).
Proof.
  intros ko K cs o s X sw labels h HK H Es HV HL P. destruct (new_history_ok ko K cs o HK H) as [I1 I]. rewrite Es in I. destruct I as (I2 & I3 & _ & I5). destruct HK as [_ HP]. destruct (HP _ _ _ _ HL) as [Hl Hr].
  unfold crom_predict. rewrite Es, HL, I1. cbn [bind]. destruct (Z.ltb_spec (Z.of_nat K) 0); [lia|]. rewrite !Nat2Z.id. set (L0 := mbuild (length labels) K _).
  assert (EP : forall j k, (j < K)%nat -> (k < K)%nat -> ent (cs_transition s) j k = P j k).
  { intros j k Hj Hk. rewrite I2. rewrite <- mget_ent, transition_entry by assumption. unfold nofnat, P. cbn [ndiv nofZ Num_R]. rewrite <- !INR_IZR_INZ. reflexivity. }
  assert (DP : forall k, (k < K)%nat -> distribution K (fun j => P j k)).
  { intros k Hk. pose proof (proj2 (visits_iff (cs_labels s) k) (HV k Hk)) as V. apply lt_0_INR in V. split.
    - intros j _. apply Rle_mult_inv_pos; [apply pos_INR | exact V].
    - unfold P. rewrite Sum_div, transitions_total by exact I3. field. cbn in V. lra. }
  assert (S1 : nr (cs_transition s) = K /\ nc (cs_transition s) = K) by (rewrite I2; split; reflexivity). destruct S1 as [S1 S2].
  destruct (advance_chain (cs_transition s) h L0) as (L & E & A1 & A2 & A3 & A4); [congruence | exact (eq_sym S2)|].
  exists L. split; [exact E|]. split; [apply is_mat_wf; split; [rewrite A1; exact Hl | split; [rewrite A2; exact S2 | apply A3; right; apply wf_mbuild]]|].
  assert (CE : forall h x i, (i < K)%nat -> chain K (ent (cs_transition s)) h x i = chain K P h x i).
  { clear -EP. intros h x. induction h as [|h IH]; intros i Hi; cbn [chain]; [reflexivity|]. unfold chain_step. apply Sum_ext; intros k Hk. rewrite IH, EP by assumption. reflexivity. }
  intros i Hi. rewrite <- Hl in Hi.
  assert (CJ : forall j, (j < K)%nat -> ent L i j = chain K P h (one_hot (nth i labels O)) j).
  { intros j Hj. rewrite A4; [|exact Hi | rewrite S2; exact Hj]. rewrite S2, CE by exact Hj. apply chain_ext; [|exact Hj]. intros q Hq. unfold L0. rewrite ent_mbuild by assumption. unfold one_hot. rewrite Nat.eqb_sym. reflexivity. }
  split; [exact CJ|].
  assert (D : distribution K (chain K P h (one_hot (nth i labels O)))) by (apply chain_distribution; [exact DP | apply one_hot_distribution; rewrite <- I5; apply Hr, nth_In; exact Hi]).
  destruct D as [D1 D2]. split; [intros j Hj; rewrite CJ by exact Hj; apply D1; exact Hj|]. rewrite <- D2. apply Sum_ext; intros j Hj. apply CJ. exact Hj.
Qed.
Print Assumptions C52_prediction.
(** predicting a + b steps is predicting b steps and then a steps of the chain *)
Theorem C52_composition : forall (ko : kmeans_oracle R) K cs o s X sw a b L L', kmeans_answers ko ->
  history ko (crom_new (PInt (Z.of_nat K))) cs = Ok o -> co_state o = Some s ->
  (forall k, (k < K)%nat -> exists t, (S t < length (cs_labels s))%nat /\ nth t (cs_labels s) O = k) ->
  crom_predict ko o X sw (PInt (Z.of_nat (a + b))) = Ok L -> crom_predict ko o X sw (PInt (Z.of_nat b)) = Ok L' ->
  forall i j, (i < nr X)%nat -> (j < K)%nat -> ent L i j = chain K (ent (cs_transition s)) a (ent L' i) j.
Proof.
  intros ko K cs o s X sw a b L L' HK H Es HV E1 E2 i j Hi Hj.
  assert (HL : exists labels, ko_predict ko (km_centers (cs_kmeans s)) X sw = Ok labels).
  { unfold crom_predict in E1. rewrite Es in E1. apply bind_ok in E1. destruct E1 as (l & E1 & _). eauto. } destruct HL as (labels & HL).
  destruct (C52_prediction ko K cs o s X sw labels (a + b) HK H Es HV HL) as (M & F1 & _ & F2). destruct (C52_prediction ko K cs o s X sw labels b HK H Es HV HL) as (M' & G1 & _ & G2).
  rewrite E1 in F1. injection F1 as <-. rewrite E2 in G1. injection G1 as <-.
  destruct (F2 i Hi) as [F3 _]. rewrite F3 by exact Hj. rewrite chain_plus.
  destruct (new_history_ok ko K cs o HK H) as [_ I]. rewrite Es in I. destruct I as (I2 & _).
  assert (CE : forall h x y, (forall i, (i < K)%nat -> x i = y i) -> forall i, (i < K)%nat -> chain K (fun j k => INR (transitions (cs_labels s) k j) / INR (visits (cs_labels s) k)) h x i = chain K (ent (cs_transition s)) h y i).
  { clear -I2. intros h x y E. induction h as [|h IH]; intros i Hi; cbn [chain]; [apply E; exact Hi|]. unfold chain_step. apply Sum_ext; intros k Hk. rewrite IH by assumption. f_equal.
    rewrite I2. rewrite <- mget_ent, transition_entry by assumption. unfold nofnat. cbn [ndiv nofZ Num_R]. rewrite <- !INR_IZR_INZ. reflexivity. }
  apply CE; [|exact Hj]. intros q Hq. destruct (G2 i Hi) as [G3 _]. symmetry. apply G3. exact Hq.
Qed.
Print Assumptions C52_composition.
(** horizon 0, in any arithmetic: one-hot rows; so does any negative horizon; what is not a number is a TypeError *)
Theorem C52_horizon : forall (T : Type) (N : Num T) (ko : kmeans_oracle T) K o s X sw labels, co_n_clusters o = PInt (Z.of_nat K) -> co_state o = Some s ->
  ko_predict ko (km_centers (cs_kmeans s)) X sw = Ok labels ->
  (forall z, (z <= 0)%Z -> exists L, crom_predict ko o X sw (PInt z) = Ok L /\ nr L = length labels /\ nc L = K
     /\ forall i j, (i < length labels)%nat -> (j < K)%nat -> mget L i j = if Nat.eqb (nth i labels O) j then n1 else n0)
  /\ crom_predict ko o X sw PNone = Raise TypeError /\ crom_predict ko o X sw POther = Raise TypeError.
Proof.
  intros T N ko K o s X sw labels Ho Es HL. unfold crom_predict. rewrite Es, HL, Ho. cbn [bind]. destruct (Z.ltb_spec (Z.of_nat K) 0); [lia|]. split; [|split; reflexivity].
  intros z Hz. replace (Z.to_nat z) with 0%nat by lia. cbn [advance_labels]. rewrite Nat2Z.id. eexists. split; [reflexivity|]. split; [reflexivity|]. split; [reflexivity|].
  intros i j Hi Hj. rewrite mget_mbuild by assumption. reflexivity.
Qed.
Print Assumptions C52_horizon.
(** one cluster not visited before the last sample makes every prediction NaN, for every sample *)
Theorem C52_one_unvisited_all_nan : forall (ko : kmeans_oracle ext) K cs o s X sw labels h k, kmeans_answers ko ->
  history ko (crom_new (PInt (Z.of_nat K))) cs = Ok o -> co_state o = Some s ->
  (k < K)%nat -> ~ (exists t, (S t < length (cs_labels s))%nat /\ nth t (cs_labels s) O = k) ->
  ko_predict ko (km_centers (cs_kmeans s)) X sw = Ok labels -> (0 < h)%nat ->
  exists L, crom_predict ko o X sw (PInt (Z.of_nat h)) = Ok L /\ nr L = nr X /\ nc L = K /\
    forall i j, (i < nr X)%nat -> (j < K)%nat -> mget L i j = NaN.
Proof.
  intros ko K cs o s X sw labels h k HK H Es Hk HU HL Hh. destruct (new_history_ok ko K cs o HK H) as [I1 I]. rewrite Es in I. destruct I as (I2 & I3 & _). destruct HK as [_ HP]. destruct (HP _ _ _ _ HL) as [Hl _].
  unfold crom_predict. rewrite Es, HL, I1. cbn [bind]. destruct (Z.ltb_spec (Z.of_nat K) 0); [lia|]. rewrite !Nat2Z.id. destruct h as [|h]; [lia|]. set (L0 := mbuild (length labels) K _).
  assert (S1 : nr (cs_transition s) = K /\ nc (cs_transition s) = K) by (rewrite I2; split; reflexivity). destruct S1 as [S1 S2].
  destruct (advance_nan (cs_transition s) h nan_sticks_E L0 k) as (L & E & A1 & A2 & A3); [congruence | exact (eq_sym S2) | rewrite S2; exact Hk | |].
  - intros j Hj. rewrite S1 in Hj. rewrite I2, transition_entry, ediv_counts by assumption. pose proof (visits_iff (cs_labels s) k) as V. pose proof (transitions_le (cs_labels s) k j) as Le.
    destruct (Nat.eqb_spec (visits (cs_labels s) k) 0) as [E|E]; [|exfalso; apply HU, V; lia]. destruct (Nat.eqb_spec (transitions (cs_labels s) k j) 0); [reflexivity | lia].
  - exists L. split; [exact E|]. split; [rewrite A1; exact Hl|]. split; [congruence|]. intros i j Hi Hj. apply A3; [unfold L0; cbn; lia | rewrite S2; exact Hj].
Qed.
Print Assumptions C52_one_unvisited_all_nan.
Example C52_example : exists o s, history (em_oracle R) (crom_new (PInt (Z.of_nat 2))) [CallFit (mzeros 4 1) None; CallFitPredict (mzeros 4 1) None] = Ok o /\ co_state o = Some s
  /\ cs_labels s = [0; 1; 0; 0]%nat
  /\ (forall k, (k < 2)%nat -> exists t, (S t < length (cs_labels s))%nat /\ nth t (cs_labels s) O = k)
  /\ ko_predict (em_oracle R) (km_centers (cs_kmeans s)) (mzeros 3 1) None = Ok [0; 1; 0]%nat.
Proof.
  eexists _, _. split; [reflexivity|]. split; [reflexivity|]. split; [reflexivity|]. split; [|reflexivity].
  intros [|[|k]] Hk; [exists 0%nat | exists 1%nat | lia]; cbn; split; try reflexivity; lia.
Qed.
Example C52_nan_example : exists o s, history (em_oracle ext) (crom_new (PInt (Z.of_nat 2))) [CallFit (mzeros 2 1) None] = Ok o /\ co_state o = Some s
  /\ ~ (exists t, (S t < length (cs_labels s))%nat /\ nth t (cs_labels s) O = 1%nat)
  /\ ko_predict (em_oracle ext) (km_centers (cs_kmeans s)) (mzeros 3 1) None = Ok [0; 1; 0]%nat.
Proof.
  eexists _, _. split; [reflexivity|]. split; [reflexivity|]. split; [|reflexivity]. intros (t & Ht & E). cbn [cs_labels km_labels length] in Ht, E. destruct t as [|t]; [discriminate | lia].
Qed.

(** ** C53 (any arithmetic): fit_predict and fit_transform *)
(** before the first fit *)
Theorem C53_before_fit : forall (T : Type) (N : Num T) (ko : kmeans_oracle T) v X sw h,
  crom_fit_predict ko (crom_new v) X sw = Raise AttributeError /\ crom_fit_transform ko (crom_new v) X sw = Raise AttributeError
  /\ crom_predict ko (crom_new v) X sw h = Raise AttributeError /\ crom_transform ko (crom_new v) X = Raise AttributeError.
Proof. intros. repeat split; reflexivity. Qed.
Print Assumptions C53_before_fit.
(** after a fit, any number of them leaves the transition matrix, labels and centres of that fit, while
    the clustering used by predict is the one of the last call *)
Theorem C53_stale : forall (T : Type) (N : Num T) (ko : kmeans_oracle T) o X sw o1 s1 cs o2,
  crom_fit ko o X sw = Ok o1 -> co_state o1 = Some s1 ->
  Forall (fun c => match c with CallFit _ _ => False | _ => True end) cs -> history ko o1 cs = Ok o2 ->
  exists s2, co_state o2 = Some s2 /\ cs_transition s2 = cs_transition s1 /\ cs_labels s2 = cs_labels s1 /\ cs_centers s2 = cs_centers s1
    /\ (cs = [] -> s2 = s1)
    /\ forall cs' X' sw', cs = cs' ++ [CallFitPredict X' sw'] \/ cs = cs' ++ [CallFitTransform X' sw'] ->
         exists calls v, ko_fit ko calls v X' sw' = Ok (km_centers (cs_kmeans s2), km_labels (cs_kmeans s2), km_inertia (cs_kmeans s2), km_n_iter (cs_kmeans s2)).
Proof.
  intros T N ko o X sw o1 s1 cs o2 _ Es HF H. revert o2 H. induction cs as [|c cs IH] using rev_ind; intros o2 H.
  - injection H as <-. exists s1. do 4 (split; [auto|]). split; [auto|]. intros cs' X' sw' [C|C]; destruct cs'; discriminate.
  - assert (E : exists oi, history ko o1 cs = Ok oi /\ do_call ko oi c = Ok o2).
    { clear -H. revert o1 H. induction cs as [|a cs IH]; intros o1 H; cbn [app history] in *; apply bind_ok in H; destruct H as (x & E & H).
      - injection H as <-. eauto.
      - rewrite E. cbn [bind]. apply IH. exact H. }
    destruct E as (oi & E1 & E2). apply Forall_app in HF. destruct HF as [HF1 HF2]. apply Forall_inv in HF2. destruct (IH HF1 oi E1) as (si & Ei & I1 & I2 & I3 & _).
    apply call_refit in E2. assert (G : exists X0 sw0 km, (c = CallFitPredict X0 sw0 \/ c = CallFitTransform X0 sw0) /\ crom_refit ko oi X0 sw0 = Ok (o2, km)).
    { destruct c as [X0 sw0|X0 sw0|X0 sw0]; [contradiction| |]; destruct E2 as (km & E2); eauto 6. }
    destruct G as (X0 & sw0 & km & Hc & G). apply refit_ok in G. destruct G as (sa & sb & G1 & G2 & _ & G4 & G5 & G6 & G7 & _ & G9). rewrite Ei in G1. injection G1 as <-.
    exists sb. split; [exact G2|]. split; [congruence|]. split; [congruence|]. split; [congruence|]. split; [intros C; destruct cs; discriminate|].
    intros cs' X' sw' C. assert (X0 = X' /\ sw0 = sw').
    { destruct C as [C|C]; apply app_inj_tail in C; destruct C as [_ C]; destruct Hc as [Hc|Hc]; rewrite Hc in C; try discriminate; injection C; auto. }
    destruct H0 as [-> ->]. rewrite G7. eauto.
Qed.
Print Assumptions C53_stale.
(** fitted to labels 0 1 0 0, then refitted through fit_predict to labels 0 0 1 1: the matrix still says
    that every 1 is followed by 0 *)
Example C53_example : exists o1 s1 o2 s2, crom_fit (em_oracle R) (crom_new (PInt 2)) (mzeros 4 1) None = Ok o1 /\ co_state o1 = Some s1
  /\ history (em_oracle R) o1 [CallFitPredict (mzeros 4 1) None] = Ok o2 /\ co_state o2 = Some s2
  /\ km_labels (cs_kmeans s2) = [0; 0; 1; 1]%nat /\ cs_labels s2 = [0; 1; 0; 0]%nat
  /\ ent (cs_transition s2) 0 1 = 1 /\ transitions (km_labels (cs_kmeans s2)) 1 0 = 0%nat.
Proof.
  eexists _, _, _, _. split; [reflexivity|]. split; [reflexivity|]. split; [reflexivity|]. split; [reflexivity|]. split; [reflexivity|]. split; [reflexivity|]. split; [|reflexivity].
  unfold ent. cbn. field.
Qed.
