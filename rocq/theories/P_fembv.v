(** FEM-BV: meaning of the constraint matrices *)
From Coq Require Import List Arith ZArith Bool Reals Lra Lia.
From Verif Require Import Num Mat Py Lp M_random M_iter M_gpnh M_fembv Spec Spec_fembv P_lin P_random P_iter P_mat P_gpnh_run.
Import ListNotations.
Local Open Scope R_scope.

(** ** sparse matrices *)
Definition rowsum (l : list (nat * nat * R)) (v : list R) (i : nat) : R :=
  fold_right (fun e acc => (if Nat.eqb (fst (fst e)) i then snd e * at_ v (snd (fst e)) else 0) + acc) 0 l.
Lemma rowsum_app l l' v i : rowsum (l ++ l') v i = rowsum l v i + rowsum l' v i.
Proof. unfold rowsum. induction l as [|e l IH]; cbn; [lra|]. rewrite IH. lra. Qed.
Lemma csr_dot_rowsum (A : csr R) v i : Forall (fun e => (snd (fst e) < s_cols A)%nat) (s_entries A) ->
  csr_dot A v i = rowsum (s_entries A) v i.
Proof.
  unfold csr_dot, csr_at. generalize (s_entries A) as l. generalize (s_cols A) as m. intros m l H.
  induction H as [|[[r c] x] l Hc Hl IH]; cbn [fold_right].
  - apply Sum_zero. intros; lra.
  - change (rowsum ((r, c, x) :: l) v i) with ((if Nat.eqb r i then x * at_ v c else 0) + rowsum l v i).
    rewrite <- IH. cbn [fst snd] in *. rewrite (Sum_ext _ _ (fun j => (if Nat.eqb j c then (if Nat.eqb r i then x * at_ v j else 0) else 0)
       + fold_right (fun e acc => (if andb (Nat.eqb (fst (fst e)) i) (Nat.eqb (snd (fst e)) j) then snd e else 0) + acc) 0 l * at_ v j)).
    2:{ intros j Hj. rewrite (Nat.eqb_sym c j). destruct (Nat.eqb r i), (Nat.eqb j c); cbn [andb]; lra. }
    rewrite Sum_plus, (Sum_delta m c (fun j => if Nat.eqb r i then x * at_ v j else 0)) by exact Hc. reflexivity.
Qed.

Lemma flat_map_app2 {A B} (f : A -> list B) l l' : flat_map f (l ++ l') = flat_map f l ++ flat_map f l'.
Proof. induction l; cbn; [reflexivity|]. rewrite IHl, app_assoc. reflexivity. Qed.
Lemma flat_map_length_const {A B} (f : A -> list B) l m : (forall a, length (f a) = m) -> length (flat_map f l) = (length l * m)%nat.
Proof. intros H. induction l; cbn; [reflexivity|]. rewrite app_length, H, IHl. reflexivity. Qed.
Lemma combine_app {A B} (a a' : list A) (b b' : list B) : length a = length b -> combine (a ++ a') (b ++ b') = combine a b ++ combine a' b'.
Proof. revert b. induction a as [|x a IH]; intros [|y b]; cbn; try discriminate; [reflexivity|]. intros [= H]. rewrite IH by exact H. reflexivity. Qed.
Lemma combine_tab {A B} n (f : nat -> A) (g : nat -> B) : combine (tab n f) (tab n g) = tab n (fun e => (f e, g e)).
Proof.
  unfold tab. generalize 0%nat. induction n as [|n IH]; intros s; cbn; [reflexivity|]. rewrite IH. reflexivity.
Qed.
Lemma repeat_tab {A} (x : A) n : repeat x n = tab n (fun _ => x).
Proof. unfold tab. generalize 0%nat. induction n as [|n IH]; intros s; cbn; [reflexivity|]. rewrite (IH (S s)). reflexivity. Qed.
Lemma seq_tab b n : seq b n = tab n (fun e => (b + e)%nat).
Proof.
  unfold tab. revert b. induction n as [|n IH]; intros b; cbn [seq map]; [reflexivity|].
  rewrite Nat.add_0_r. f_equal. rewrite IH, <- (seq_shift n 0), map_map. apply map_ext. intros; lia.
Qed.

(** entries given group by group: group e is row (row e) with m entries *)
Definition grouped (row : nat -> nat) (m : nat) (col : nat -> nat -> nat) (val : nat -> nat -> R) (l : list nat) : list (nat * nat * R) :=
  flat_map (fun e => tab m (fun c => (row e, col e c, val e c))) l.
Lemma grouped_combine row m col val l :
  combine (combine (np_repeat (map row l) m) (flat_map (fun e => tab m (col e)) l)) (flat_map (fun e => tab m (val e)) l)
  = grouped row m col val l.
Proof.
  unfold np_repeat, grouped. induction l as [|e l IH]; [reflexivity|]. cbn [map flat_map].
  rewrite combine_app by (rewrite repeat_length, length_tab; reflexivity).
  rewrite combine_app by (rewrite combine_length, repeat_length, !length_tab; lia).
  rewrite IH, repeat_tab, !combine_tab. reflexivity.
Qed.
Lemma rowsum_tab_const m r (col : nat -> nat) (val : nat -> R) v i :
  rowsum (tab m (fun c => (r, col c, val c))) v i = if Nat.eqb r i then Sum m (fun c => val c * at_ v (col c)) else 0.
Proof.
  unfold tab. enough (H : forall s, rowsum (map (fun c => (r, col c, val c)) (seq s m)) v i
     = if Nat.eqb r i then Sum m (fun c => val (s + c)%nat * at_ v (col (s + c)%nat)) else 0) by (rewrite H; destruct (Nat.eqb r i); [|reflexivity]; apply Sum_ext; reflexivity).
  induction m as [|m IH]; intros s; cbn [seq map]; [destruct (Nat.eqb r i); reflexivity|].
  unfold rowsum in *. cbn [fold_right fst snd]. rewrite IH. destruct (Nat.eqb r i); [|lra].
  rewrite Sum_shift, Nat.add_0_r. f_equal. apply Sum_ext. intros c _. replace (S s + c)%nat with (s + S c)%nat by lia. reflexivity.
Qed.
Lemma rowsum_grouped b a m col val v i :
  rowsum (grouped (fun e => b + e)%nat m col val (seq 0 a)) v i
  = if andb (Nat.leb b i) (Nat.ltb i (b + a)) then Sum m (fun c => val (i - b)%nat c * at_ v (col (i - b)%nat c)) else 0.
Proof.
  induction a as [|a IH].
  - cbn [seq grouped flat_map rowsum fold_right]. destruct (Nat.leb_spec b i), (Nat.ltb_spec i (b + 0)); cbn [andb]; try reflexivity; lia.
  - rewrite seq_S. unfold grouped in *. rewrite flat_map_app2, rowsum_app, IH. cbn [flat_map Nat.add]. rewrite app_nil_r, rowsum_tab_const.
    destruct (Nat.eqb_spec (b + a) i) as [<-|Hne].
    + replace (b + a - b)%nat with a by lia.
      destruct (Nat.leb_spec b (b + a)), (Nat.ltb_spec (b + a) (b + a)), (Nat.ltb_spec (b + a) (b + S a)); cbn [andb]; try lia. lra.
    + destruct (Nat.leb_spec b i), (Nat.ltb_spec i (b + a)), (Nat.ltb_spec i (b + S a)); cbn [andb]; try lia; lra.
Qed.
Lemma grouped_cols row m col val l (q : nat) : (forall e c, In e l -> (c < m)%nat -> (col e c < q)%nat) ->
  Forall (fun x : nat * nat * R => (snd (fst x) < q)%nat) (grouped row m col val l).
Proof.
  intros H. apply Forall_forall. intros x Hx. unfold grouped in Hx. apply in_flat_map in Hx. destruct Hx as (e & He & Hx).
  apply in_tab in Hx. destruct Hx as (c & Hc & ->). apply H; assumption.
Qed.

(** two nested loops as one *)
Lemma flat_map_nested {B} (h : nat -> nat -> list B) k a : (0 < k)%nat ->
  flat_map (fun t => flat_map (h t) (seq 0 k)) (seq 0 a) = flat_map (fun e => h (e / k)%nat (e mod k)%nat) (seq 0 (a * k)).
Proof.
  intros Hk. induction a as [|a IH]; [reflexivity|]. rewrite seq_S, flat_map_app2, IH.
  replace (S a * k)%nat with (a * k + k)%nat by lia. rewrite seq_app, flat_map_app2. f_equal. cbn [flat_map Nat.add]. rewrite app_nil_r.
  rewrite (seq_tab (a * k) k). unfold tab. rewrite !flat_map_concat_map, map_map. f_equal. apply map_ext_in. intros i Hi. apply in_seq in Hi.
  f_equal; [rewrite Nat.div_add_l by lia; rewrite Nat.div_small by lia; lia | rewrite Nat.add_comm, Nat.mod_add by lia; symmetry; apply Nat.mod_small; lia].
Qed.
Lemma flat_map_single {B} (h : nat -> B) l : flat_map (fun e => [h e]) l = map h l.
Proof. induction l; cbn; [reflexivity|]. rewrite IHl. reflexivity. Qed.
Lemma flat_map_tab_nested {B} (h : nat -> nat -> B) k a : (0 < k)%nat ->
  flat_map (fun t => tab k (h t)) (seq 0 a) = tab (a * k) (fun e => h (e / k)%nat (e mod k)%nat).
Proof.
  intros Hk. transitivity (flat_map (fun t => flat_map (fun i => [h t i]) (seq 0 k)) (seq 0 a)).
  - apply flat_map_ext. intros t. symmetry. apply flat_map_single.
  - rewrite (flat_map_nested (fun t i => [h t i])) by exact Hk. apply flat_map_single.
Qed.
Lemma np_tile_flat {B} (l : list B) m : np_tile l m = flat_map (fun _ => l) (seq 0 m).
Proof.
  unfold np_tile. generalize 0%nat. induction m as [|m IH]; intros s; cbn [repeat concat seq flat_map]; [reflexivity|]. rewrite (IH (S s)). reflexivity.
Qed.
Lemma seq_grouped k a : seq 0 (a * k) = flat_map (fun t => tab k (fun i => t * k + i)%nat) (seq 0 a).
Proof.
  induction a as [|a IH]; [reflexivity|]. rewrite seq_S, flat_map_app2, <- IH. replace (S a * k)%nat with (a * k + k)%nat by lia.
  rewrite seq_app. f_equal. cbn [flat_map Nat.add]. rewrite app_nil_r. apply seq_tab.
Qed.
Lemma repeat_grouped {B} (x : B) k a : repeat x (a * k) = flat_map (fun _ => tab k (fun _ => x)) (seq 0 a).
Proof.
  generalize 0%nat. induction a as [|a IH]; intros s; [reflexivity|]. cbn [seq flat_map]. rewrite <- IH. cbn [Nat.mul]. rewrite repeat_app, repeat_tab. reflexivity.
Qed.

(** ** the constraint matrices *)
Lemma csr_matrix_ok {T} (coeffs : list T) rows cols r c :
  length rows = length coeffs -> length cols = length coeffs ->
  (forall i, In i rows -> (i < r)%nat) -> (forall j, In j cols -> (j < c)%nat) ->
  csr_matrix coeffs rows cols r c = Ok (mk_csr r c (combine (combine rows cols) coeffs)).
Proof.
  intros L1 L2 H1 H2. unfold csr_matrix. rewrite L1, L2, Nat.eqb_refl. cbn [andb].
  replace (forallb (fun i => Nat.ltb i r) rows) with true.
  2:{ symmetry. apply forallb_forall. intros i Hi. apply Nat.ltb_lt. auto. }
  replace (forallb (fun j => Nat.ltb j c) cols) with true.
  2:{ symmetry. apply forallb_forall. intros i Hi. apply Nat.ltb_lt. auto. }
  reflexivity.
Qed.
Lemma np_repeat_length {A} (l : list A) m : length (np_repeat l m) = (length l * m)%nat.
Proof. apply flat_map_length_const. intros; apply repeat_length. Qed.
Lemma in_np_repeat {A} (l : list A) m x : In x (np_repeat l m) -> In x l.
Proof. unfold np_repeat. intros H. apply in_flat_map in H. destruct H as (y & Hy & H). apply repeat_spec in H. congruence. Qed.
Lemma np_arange_tab lo hi : np_arange lo hi = map (fun e => lo + e)%nat (seq 0 (hi - lo)).
Proof. unfold np_arange. rewrite seq_tab. reflexivity. Qed.
Lemma at_repeat x n i : (i < n)%nat -> at_ (repeat x n) i = x.
Proof. intros H. unfold at_. rewrite repeat_tab, nth_tab by exact H. reflexivity. Qed.
Lemma grid_lt k n t i : (t < n)%nat -> (i < k)%nat -> (t * k + i < n * k)%nat.
Proof. intros. nia. Qed.

Lemma equality_ok (c : fembv_cfg R) k n : (0 < k)%nat ->
  exists A, equality_constraints c k n = Ok (A, repeat 1 n) /\ s_rows A = n
    /\ s_cols A = n_weight_parameters c k n
    /\ forall v i, (i < n)%nat -> csr_dot A v i = Sum k (fun j => at_ v (i * k + j)%nat).
Proof.
  intros Hk. unfold equality_constraints.
  assert (Hw : (n * k <= n_weight_parameters c k n)%nat) by (unfold n_weight_parameters; destruct (has_max_tv_norm_constraint c); lia).
  rewrite csr_matrix_ok.
  2:{ rewrite np_repeat_length, repeat_length. unfold np_arange. rewrite seq_length. lia. }
  2:{ rewrite repeat_length. unfold np_arange. rewrite seq_length. lia. }
  2:{ intros i Hi. apply in_np_repeat in Hi. unfold np_arange in Hi. apply in_seq in Hi. lia. }
  2:{ intros i Hi. unfold np_arange in Hi. apply in_seq in Hi. lia. }
  cbn [bind]. eexists. split; [reflexivity|]. split; [reflexivity|]. split; [reflexivity|]. intros v i Hi.
  assert (E : combine (combine (np_repeat (np_arange 0 n) k) (np_arange 0 (n * k))) (repeat n1 (n * k))
     = grouped (fun e => 0 + e)%nat k (fun t j => t * k + j)%nat (fun _ _ => 1) (seq 0 n)).
  { rewrite <- grouped_combine. f_equal; [f_equal|].
    - f_equal. rewrite np_arange_tab, Nat.sub_0_r. reflexivity.
    - unfold np_arange. rewrite Nat.sub_0_r. apply seq_grouped.
    - apply repeat_grouped. }
  rewrite csr_dot_rowsum; cbn [s_entries s_cols]; rewrite E.
  - rewrite rowsum_grouped. destruct (Nat.leb_spec 0 i), (Nat.ltb_spec i (0 + n)); cbn [andb]; try lia.
    apply Sum_ext. intros j Hj. rewrite Nat.sub_0_r. lra.
  - apply grouped_cols. intros e j He Hj. apply in_seq in He. pose proof (grid_lt k n e j). lia.
Qed.

(** non-negativity block *)
Lemma nonneg_entries nw : combine (combine (np_arange 0 nw) (np_arange 0 nw)) (repeat (nopp n1) nw)
  = grouped (fun e => 0 + e)%nat 1 (fun e _ => e) (fun _ _ => -1) (seq 0 nw).
Proof.
  unfold grouped, np_arange, tab. rewrite Nat.sub_0_r. cbn [seq map]. rewrite flat_map_single, (repeat_tab _ nw), seq_tab. cbn [Nat.add].
  rewrite !combine_tab. unfold tab. rewrite !map_map. reflexivity.
Qed.
Lemma inequality_plain_ok (c : fembv_cfg R) k n : has_max_tv_norm_constraint c = false ->
  exists A, inequality_constraints c k n = Ok (A, repeat 0 (k * n)) /\ s_rows A = (k * n)%nat
    /\ forall v i, (i < k * n)%nat -> csr_dot A v i = - at_ v i.
Proof.
  intros Htv. assert (Hw : n_weight_parameters c k n = (k * n)%nat) by (unfold n_weight_parameters; rewrite Htv; reflexivity).
  assert (E : inequality_constraints c k n = let! A_ub := csr_matrix (repeat (nopp n1) (k * n)) (np_arange 0 (k * n)) (np_arange 0 (k * n)) (k * n) (k * n) in Ok (A_ub, repeat n0 (k * n))).
  { unfold inequality_constraints. rewrite Htv, Hw. destruct (fc_max_tv_norm c); reflexivity. }
  rewrite E, csr_matrix_ok; try (unfold np_arange; rewrite ?seq_length, ?repeat_length; lia);
    try (intros i Hi; unfold np_arange in Hi; apply in_seq in Hi; lia).
  cbn [bind]. eexists. split; [reflexivity|]. split; [reflexivity|]. intros v i Hi.
  rewrite csr_dot_rowsum; cbn [s_entries s_cols]; rewrite nonneg_entries.
  - rewrite rowsum_grouped. destruct (Nat.leb_spec 0 i), (Nat.ltb_spec i (0 + k * n)); cbn [andb]; try lia.
    cbn [Sum]. rewrite Nat.sub_0_r. lra.
  - apply grouped_cols. intros e j He Hj. apply in_seq in He. lia.
Qed.

Definition tv_col (k n t i j : nat) : nat := nth j [(t + 1) * k + i; t * k + i; k * n + t * k + i]%nat 0%nat.
Lemma tab3 {B} (h : nat -> B) : tab 3 h = [h 0%nat; h 1%nat; h 2%nat].
Proof. reflexivity. Qed.
Lemma aux_entries b k n (x y z : R) : (0 < k)%nat ->
  combine (combine (np_repeat (seq b (k * (n - 1))) 3)
             (flat_map (fun t => flat_map (fun i => [(t + 1) * k + i; t * k + i; k * n + t * k + i]%nat) (seq 0 k)) (seq 0 (n - 1))))
          (np_tile [x; y; z] (k * (n - 1)))
  = grouped (fun e => b + e)%nat 3 (fun e j => tv_col k n (e / k) (e mod k) j) (fun _ j => nth j [x; y; z] 0) (seq 0 (k * (n - 1))).
Proof.
  intros Hk. rewrite flat_map_nested by exact Hk. rewrite np_tile_flat, <- grouped_combine.
  rewrite (Nat.mul_comm (n - 1) k). rewrite (seq_tab b). reflexivity.
Qed.
Lemma tv_entries b k n m :
  combine (combine (np_repeat (seq b k) m) (flat_map (fun i => map (fun t => k * n + t * k + i)%nat (seq 0 m)) (seq 0 k))) (repeat n1 (k * m))
  = grouped (fun e => b + e)%nat m (fun i t => k * n + t * k + i)%nat (fun _ _ => 1) (seq 0 k).
Proof.
  rewrite <- grouped_combine. f_equal; [f_equal|]; [f_equal; apply seq_tab | apply repeat_grouped].
Qed.

Lemma inequality_tv_ok (c : fembv_cfg R) k n C : (0 < k)%nat -> (0 < n)%nat -> fc_max_tv_norm c = Some C -> has_max_tv_norm_constraint c = true ->
  let K := (k * (n - 1))%nat in let nw := (k * n + K)%nat in
  exists A b, inequality_constraints c k n = Ok (A, b) /\ s_rows A = (nw + 2 * K + k)%nat /\
    forall v,
      (forall i, (i < nw)%nat -> csr_dot A v i = - at_ v i /\ at_ b i = 0)
      /\ (forall e, (e < K)%nat -> let t := (e / k)%nat in let i := (e mod k)%nat in
            (csr_dot A v (nw + e) = at_ v ((t + 1) * k + i)%nat - at_ v (t * k + i)%nat - at_ v (k * n + t * k + i)%nat /\ at_ b (nw + e) = 0)
            /\ (csr_dot A v (nw + K + e) = at_ v (t * k + i)%nat - at_ v ((t + 1) * k + i)%nat - at_ v (k * n + t * k + i)%nat /\ at_ b (nw + K + e) = 0))
      /\ (forall i, (i < k)%nat -> csr_dot A v (nw + 2 * K + i) = Sum (n - 1) (fun t => at_ v (k * n + t * k + i)%nat) /\ at_ b (nw + 2 * K + i) = C).
Proof.
  intros Hk Hn HC Htv K nw.
  assert (Hw : n_weight_parameters c k n = nw) by (unfold n_weight_parameters; rewrite Htv; reflexivity).
  set (L := flat_map (fun t => flat_map (fun i => [(t + 1) * k + i; t * k + i; k * n + t * k + i]%nat) (seq 0 k)) (seq 0 (n - 1))).
  set (TC := flat_map (fun i => map (fun t => k * n + t * k + i)%nat (seq 0 (n - 1))) (seq 0 k)).
  assert (E : inequality_constraints c k n =
    let! A_ub := csr_matrix (repeat (nopp n1) nw ++ (np_tile [n1; nopp n1; nopp n1] K ++ np_tile [nopp n1; n1; nopp n1] K) ++ repeat n1 K)
      (np_arange 0 nw ++ np_repeat (np_arange nw (nw + 2 * k * (n - 1))) 3 ++ np_repeat (np_arange (nw + 2 * k * (n - 1)) (nw + 2 * k * (n - 1) + k)) (n - 1))
      (np_arange 0 nw ++ np_tile L 2 ++ TC) (nw + 2 * k * (n - 1) + k) nw in
    Ok (A_ub, (repeat n0 nw ++ repeat n0 (2 * k * (n - 1))) ++ repeat C k)).
  { unfold inequality_constraints. rewrite HC, Htv, Hw. reflexivity. }
  replace (2 * k * (n - 1))%nat with (2 * K)%nat in E by (unfold K; lia).
  assert (LL : length L = (K * 3)%nat).
  { unfold L. rewrite flat_map_nested by exact Hk. rewrite (flat_map_length_const _ _ 3), seq_length by reflexivity. unfold K. lia. }
  assert (LT : forall a b d : R, length (np_tile [a; b; d] K) = (K * 3)%nat).
  { intros. rewrite np_tile_flat, (flat_map_length_const _ _ 3), seq_length by reflexivity. reflexivity. }
  assert (LC : length TC = K).
  { unfold TC. rewrite (flat_map_length_const _ _ (n - 1)%nat), seq_length; [reflexivity|]. intros; rewrite map_length, seq_length. reflexivity. }
  assert (BL : forall j, In j L -> (j < nw)%nat).
  { intros j Hj. unfold L in Hj. apply in_flat_map in Hj. destruct Hj as (t & Ht & Hj). apply in_flat_map in Hj. destruct Hj as (i & Hi & Hj).
    apply in_seq in Ht. apply in_seq in Hi. pose proof (grid_lt k n (t + 1) i). pose proof (grid_lt k n t i). pose proof (grid_lt k (n - 1) t i).
    destruct Hj as [<-|[<-|[<-|[]]]]; unfold nw, K; lia. }
  assert (BT : forall j, In j TC -> (j < nw)%nat).
  { intros j Hj. unfold TC in Hj. apply in_flat_map in Hj. destruct Hj as (i & Hi & Hj). apply in_map_iff in Hj. destruct Hj as (t & <- & Ht).
    apply in_seq in Ht. apply in_seq in Hi. pose proof (grid_lt k (n - 1) t i). unfold nw, K; lia. }
  assert (T2 : np_tile L 2 = L ++ L) by (unfold np_tile; cbn; rewrite app_nil_r; reflexivity).
  rewrite csr_matrix_ok in E.
  2:{ rewrite !app_length, !np_repeat_length, !repeat_length, !LT. unfold np_arange. rewrite !seq_length.
      replace (nw - 0)%nat with nw by lia. replace (nw + 2 * K - nw)%nat with (2 * K)%nat by lia. replace (nw + 2 * K + k - (nw + 2 * K))%nat with k by lia. change (k * (n - 1))%nat with K. lia. }
  2:{ rewrite T2, !app_length, LL, LC, !repeat_length, !LT. unfold np_arange. rewrite seq_length. lia. }
  2:{ intros i Hi. rewrite !in_app_iff in Hi. destruct Hi as [Hi|[Hi|Hi]]; [|apply in_np_repeat in Hi ..]; unfold np_arange in Hi; apply in_seq in Hi; lia. }
  2:{ intros j Hj. rewrite T2, !in_app_iff in Hj. destruct Hj as [Hj|[[Hj|Hj]|Hj]]; auto. unfold np_arange in Hj; apply in_seq in Hj; lia. }
  cbn [bind] in E. eexists. eexists. split; [exact E|]. split; [reflexivity|].
  assert (En : combine (combine (np_arange 0 nw ++ np_repeat (np_arange nw (nw + 2 * K)) 3 ++ np_repeat (np_arange (nw + 2 * K) (nw + 2 * K + k)) (n - 1))
        (np_arange 0 nw ++ np_tile L 2 ++ TC))
        (repeat (nopp n1) nw ++ (np_tile [n1; nopp n1; nopp n1] K ++ np_tile [nopp n1; n1; nopp n1] K) ++ repeat n1 K)
     = grouped (fun e => 0 + e)%nat 1 (fun e _ => e) (fun _ _ => -1) (seq 0 nw)
       ++ (grouped (fun e => nw + e)%nat 3 (fun e j => tv_col k n (e / k) (e mod k) j) (fun _ j => nth j [1; -1; -1] 0) (seq 0 K)
           ++ grouped (fun e => (nw + K) + e)%nat 3 (fun e j => tv_col k n (e / k) (e mod k) j) (fun _ j => nth j [-1; 1; -1] 0) (seq 0 K))
       ++ grouped (fun e => (nw + 2 * K) + e)%nat (n - 1) (fun i t => k * n + t * k + i)%nat (fun _ _ => 1) (seq 0 k)).
  { unfold np_arange. rewrite Nat.sub_0_r. replace (nw + 2 * K - nw)%nat with (K + K)%nat by lia. replace (nw + 2 * K + k - (nw + 2 * K))%nat with k by lia.
    rewrite T2, seq_app. unfold np_repeat at 1. rewrite flat_map_app2. fold (@np_repeat nat (seq nw K) 3) (@np_repeat nat (seq (nw + K) K) 3).
    rewrite combine_app by reflexivity. rewrite combine_app by (rewrite combine_length, seq_length, repeat_length; lia).
    rewrite combine_app by (rewrite !app_length, !np_repeat_length, !seq_length, LL; reflexivity).
    rewrite combine_app by (rewrite combine_length, !app_length, !np_repeat_length, !seq_length, LL, !LT; lia).
    rewrite (combine_app (np_repeat (seq nw K) 3)) by (rewrite np_repeat_length, seq_length, LL; reflexivity).
    rewrite (combine_app (combine (np_repeat (seq nw K) 3) L)) by (rewrite combine_length, np_repeat_length, seq_length, LL, LT; lia).
    f_equal; [|f_equal; [f_equal|]].
    - rewrite <- nonneg_entries. unfold np_arange. rewrite Nat.sub_0_r. reflexivity.
    - apply (aux_entries nw k n); exact Hk.
    - apply (aux_entries (nw + K) k n); exact Hk.
    - apply tv_entries. }
  assert (F : Forall (fun x : nat * nat * R => (snd (fst x) < nw)%nat)
     (grouped (fun e => 0 + e)%nat 1 (fun e _ => e) (fun _ _ => -1) (seq 0 nw)
       ++ (grouped (fun e => nw + e)%nat 3 (fun e j => tv_col k n (e / k) (e mod k) j) (fun _ j => nth j [1; -1; -1] 0) (seq 0 K)
           ++ grouped (fun e => (nw + K) + e)%nat 3 (fun e j => tv_col k n (e / k) (e mod k) j) (fun _ j => nth j [-1; 1; -1] 0) (seq 0 K))
       ++ grouped (fun e => (nw + 2 * K) + e)%nat (n - 1) (fun i t => k * n + t * k + i)%nat (fun _ _ => 1) (seq 0 k))).
  { assert (A3 : forall e j, In e (seq 0 K) -> (j < 3)%nat -> (tv_col k n (e / k) (e mod k) j < nw)%nat).
    { intros e j He Hj. apply in_seq in He. apply BL. unfold L. rewrite flat_map_nested by exact Hk. apply in_flat_map. exists e.
      split; [apply in_seq; unfold K in He; lia|]. unfold tv_col. apply nth_In. cbn [length]. lia. }
    apply Forall_app. split; [apply grouped_cols; intros e j He _; apply in_seq in He; lia|].
    apply Forall_app. split; [apply Forall_app; split; apply grouped_cols; exact A3|].
    apply grouped_cols. intros e j He Hj. apply BT. unfold TC. apply in_flat_map. exists e. split; [exact He|]. apply in_map_iff. exists j.
    split; [reflexivity|]. apply in_seq. lia. }
  intros v.
  assert (Dot : forall i, csr_dot (mk_csr (nw + 2 * K + k) nw (combine (combine (np_arange 0 nw ++ np_repeat (np_arange nw (nw + 2 * K)) 3 ++ np_repeat (np_arange (nw + 2 * K) (nw + 2 * K + k)) (n - 1))
        (np_arange 0 nw ++ np_tile L 2 ++ TC))
        (repeat (nopp n1) nw ++ (np_tile [n1; nopp n1; nopp n1] K ++ np_tile [nopp n1; n1; nopp n1] K) ++ repeat n1 K))) v i
     = (if andb (Nat.leb 0 i) (Nat.ltb i (0 + nw)) then Sum 1 (fun _ => -1 * at_ v (i - 0)) else 0)
       + ((if andb (Nat.leb nw i) (Nat.ltb i (nw + K)) then Sum 3 (fun j => nth j [1; -1; -1] 0 * at_ v (tv_col k n ((i - nw) / k) ((i - nw) mod k) j)) else 0)
          + (if andb (Nat.leb (nw + K) i) (Nat.ltb i ((nw + K) + K)) then Sum 3 (fun j => nth j [-1; 1; -1] 0 * at_ v (tv_col k n ((i - (nw + K)) / k) ((i - (nw + K)) mod k) j)) else 0))
       + (if andb (Nat.leb (nw + 2 * K) i) (Nat.ltb i ((nw + 2 * K) + k)) then Sum (n - 1) (fun t => 1 * at_ v (k * n + t * k + (i - (nw + 2 * K)))%nat) else 0)).
  { intros i. rewrite csr_dot_rowsum; cbn [s_entries s_cols]; rewrite En; [|exact F].
    rewrite !rowsum_app, !rowsum_grouped. lra. }
  split; [|split].
  - intros i Hi. split.
    + rewrite Dot. destruct (Nat.leb_spec 0 i), (Nat.ltb_spec i (0 + nw)), (Nat.leb_spec nw i), (Nat.leb_spec (nw + K) i), (Nat.leb_spec (nw + 2 * K) i); cbn [andb]; try lia.
      cbn [Sum]. rewrite Nat.sub_0_r. lra.
    + unfold at_. rewrite app_nth1 by (rewrite app_length, !repeat_length; lia). rewrite app_nth1 by (rewrite repeat_length; lia). apply (at_repeat 0 nw i Hi).
  - intros e He t i. split; split.
    + rewrite Dot. destruct (Nat.ltb_spec (nw + e) (0 + nw)), (Nat.leb_spec nw (nw + e)), (Nat.ltb_spec (nw + e) (nw + K)), (Nat.leb_spec (nw + K) (nw + e)), (Nat.leb_spec (nw + 2 * K) (nw + e)); try lia.
      rewrite andb_false_r. cbn [andb]. replace (nw + e - nw)%nat with e by lia. cbn [Sum nth tv_col]. unfold tv_col; cbn [nth]. fold t i. lra.
    + unfold at_. rewrite app_nth1 by (rewrite app_length, !repeat_length; lia). rewrite app_nth2 by (rewrite repeat_length; lia).
      rewrite repeat_length. replace (nw + e - nw)%nat with e by lia. apply (at_repeat 0 (2 * K) e). lia.
    + rewrite Dot. destruct (Nat.ltb_spec (nw + K + e) (0 + nw)), (Nat.leb_spec nw (nw + K + e)), (Nat.ltb_spec (nw + K + e) (nw + K)), (Nat.leb_spec (nw + K) (nw + K + e)), (Nat.ltb_spec (nw + K + e) (nw + K + K)), (Nat.leb_spec (nw + 2 * K) (nw + K + e)); try lia.
      rewrite !andb_false_r. cbn [andb]. replace (nw + K + e - (nw + K))%nat with e by lia. cbn [Sum nth]. unfold tv_col; cbn [nth]. fold t i. lra.
    + unfold at_. rewrite app_nth1 by (rewrite app_length, !repeat_length; lia). rewrite app_nth2 by (rewrite repeat_length; lia).
      rewrite repeat_length. replace (nw + K + e - nw)%nat with (K + e)%nat by lia. apply (at_repeat 0 (2 * K) (K + e)). lia.
  - intros i Hi. split.
    + rewrite Dot. destruct (Nat.ltb_spec (nw + 2 * K + i) (0 + nw)), (Nat.ltb_spec (nw + 2 * K + i) (nw + K)), (Nat.ltb_spec (nw + 2 * K + i) (nw + K + K)), (Nat.leb_spec (nw + 2 * K) (nw + 2 * K + i)), (Nat.ltb_spec (nw + 2 * K + i) (nw + 2 * K + k)); try lia.
      rewrite !andb_false_r. cbn [andb]. replace (nw + 2 * K + i - (nw + 2 * K))%nat with i by lia.
      rewrite (Sum_ext _ _ (fun t => at_ v (k * n + t * k + i)%nat)) by (intros; lra). lra.
    + unfold at_. rewrite app_nth2 by (rewrite app_length, !repeat_length; lia). rewrite app_length, !repeat_length.
      replace (nw + 2 * K + i - (nw + 2 * K))%nat with i by lia. apply (at_repeat C k i Hi).
Qed.
