(** NaN absorbs: sums, the projection, the line search and the iteration. *)
From Coq Require Import List Arith Lia ZArith Reals Lra Bool.
From Verif Require Import Num NumExt Mat Py Spec_nan M_simplex M_spg M_iter M_random.
From Verif Require Import P_lin P_simplex P_spg P_iter P_mtd_pred.
Import ListNotations.

Lemma mget_entry M i j : @mget ext Num_E M i j = cell M i j.
Proof. reflexivity. Qed.
Lemma sum_nan n f i : (i < n)%nat -> f i = NaN -> @nsum ext Num_E n f = NaN.
Proof. intros H E. apply (nsum_nan n f nan_sticks_E); [lia|]. exists i. auto. Qed.
Lemma add_nan_l x : eadd NaN x = NaN. Proof. reflexivity. Qed.
Lemma add_nan_r x : eadd x NaN = NaN. Proof. destruct x; reflexivity. Qed.
Lemma mul_nan_r x : emul x NaN = NaN. Proof. destruct x; reflexivity. Qed.
Lemma ltb_nan_r x : eltb x NaN = false. Proof. destruct x; reflexivity. Qed.
Lemma leb_nan_r x : @nleb ext Num_E x NaN = false. Proof. destruct x; reflexivity. Qed.
Lemma div_nan_l x : ediv NaN x = NaN. Proof. destruct x; reflexivity. Qed.

Lemma mmul_nan_l A B i j l : (i < nr A)%nat -> (j < nc B)%nat -> (l < nc A)%nat -> cell A i l = NaN -> cell (@mmul ext Num_E A B) i j = NaN.
Proof. intros Hi Hj Hl E. rewrite <- mget_entry. unfold mmul. rewrite mget_mbuild by assumption. apply (sum_nan _ _ l Hl). rewrite mget_entry, E. reflexivity. Qed.
Lemma mmul_nan_r A B i j l : (i < nr A)%nat -> (j < nc B)%nat -> (l < nc A)%nat -> cell B l j = NaN -> cell (@mmul ext Num_E A B) i j = NaN.
Proof. intros Hi Hj Hl E. rewrite <- mget_entry. unfold mmul. rewrite mget_mbuild by assumption. apply (sum_nan _ _ l Hl). rewrite (mget_entry B), E. apply mul_nan_r. Qed.
Lemma mtr_entry A i j : (i < nc A)%nat -> (j < nr A)%nat -> cell (@mtr ext Num_E A) i j = cell A j i.
Proof. intros. rewrite <- !mget_entry. unfold mtr. rewrite mget_mbuild by assumption. reflexivity. Qed.
Lemma madd_entry A B i j : (i < nr A)%nat -> (j < nc A)%nat -> cell (@madd ext Num_E A B) i j = eadd (cell A i j) (cell B i j).
Proof. intros. rewrite <- !mget_entry. unfold madd, mmap2. rewrite mget_mbuild by assumption. reflexivity. Qed.
Lemma msub_entry A B i j : (i < nr A)%nat -> (j < nc A)%nat -> cell (@msub ext Num_E A B) i j = eadd (cell A i j) (eopp (cell B i j)).
Proof. intros. rewrite <- !mget_entry. unfold msub, mmap2. rewrite mget_mbuild by assumption. reflexivity. Qed.
Lemma mscale_entry c A i j : (i < nr A)%nat -> (j < nc A)%nat -> cell (@mscale ext Num_E c A) i j = emul c (cell A i j).
Proof. intros. rewrite <- !mget_entry. unfold mscale, mmap. rewrite mget_mbuild by assumption. reflexivity. Qed.
Lemma mscale_nan c A i j : (i < nr A)%nat -> (j < nc A)%nat -> cell A i j = NaN -> cell (@mscale ext Num_E c A) i j = NaN.
Proof. intros Hi Hj E. rewrite mscale_entry, E by assumption. apply mul_nan_r. Qed.
Lemma mnorm_nan A i j : (i < nr A)%nat -> (j < nc A)%nat -> cell A i j = NaN -> @mnorm ext Num_E A = NaN.
Proof.
  intros Hi Hj E. unfold mnorm, minner. rewrite (sum_nan _ _ i Hi); [reflexivity|]. apply (sum_nan _ _ j Hj). rewrite mget_entry, E. reflexivity.
Qed.
Lemma mtrace_nan A i : (i < nr A)%nat -> (i < nc A)%nat -> cell A i i = NaN -> @mtrace ext Num_E A = NaN.
Proof. intros Hi Hj E. unfold mtrace. apply (sum_nan _ _ i); [lia|]. exact E. Qed.
Lemma msum_nan A i j : (i < nr A)%nat -> (j < nc A)%nat -> cell A i j = NaN -> @msum ext Num_E A = NaN.
Proof. intros Hi Hj E. unfold msum. apply (sum_nan _ _ i Hi). apply (sum_nan _ _ j Hj). exact E. Qed.

(** ** sorting and projecting *)
Definition is_nan (x : ext) : {x = NaN} + {x <> NaN}.
Proof. destruct x; [right|right|right|left]; congruence. Defined.
Lemma nisnan_E x : @nisnan ext Num_E x = if is_nan x then true else false.
Proof.
  destruct x as [x| | |]; try reflexivity. unfold nisnan. cbn. destruct (Req_EM_T x x); [reflexivity|contradiction].
Qed.
Lemma insert_into x l : exists l', @insert ext Num_E x (l ++ [NaN]) = l' ++ [NaN].
Proof.
  induction l as [|y l (l' & IH)].
  - exists [x]. cbn [app insert]. rewrite (nisnan_E NaN), orb_true_r. reflexivity.
  - cbn [app insert]. destruct (orb _ _).
    + exists (x :: y :: l). reflexivity.
    + rewrite IH. exists (y :: l'). reflexivity.
Qed.
Lemma insert_nan l : ~ In NaN l -> @insert ext Num_E NaN l = l ++ [NaN].
Proof.
  induction l as [|y l IH]; intros H; [reflexivity|]. cbn [insert]. rewrite nisnan_E. destruct (is_nan y) as [->|Hy]; [exfalso; apply H; left; reflexivity|].
  change (@nleb ext Num_E NaN y) with false. cbn [orb app]. rewrite IH; [reflexivity|]. intros I. apply H. right. exact I.
Qed.
Lemma in_insert x y l : In x (@insert ext Num_E y l) -> x = y \/ In x l.
Proof.
  induction l as [|z l IH]; cbn [insert]; [intros [<-|[]]; auto|]. destruct (orb _ _).
  - intros [<-|I]; auto.
  - intros [<-|I]; [right; left; reflexivity|]. destruct (IH I); [auto|right; right; assumption].
Qed.
Lemma in_sort x l : In x (@np_sort ext Num_E l) -> In x l.
Proof. induction l as [|y l IH]; cbn [np_sort]; [auto|]. intros I. apply in_insert in I. destruct I as [->|I]; [left|right]; auto. Qed.
Lemma in_nan_dec (l : list ext) : In NaN l \/ ~ In NaN l.
Proof.
  induction l as [|x l [IH|IH]]; [right; intros []|left; right; exact IH|]. destruct (is_nan x) as [->|H]; [left; left; reflexivity|].
  right. intros [E|I]; [congruence|contradiction].
Qed.
Lemma sort_nan l : In NaN l -> exists l', @np_sort ext Num_E l = l' ++ [NaN].
Proof.
  induction l as [|x l IH]; [intros []|]. cbn [np_sort]. intros I. destruct (in_nan_dec l) as [H|H].
  - destruct (IH H) as (l' & ->). apply insert_into.
  - destruct I as [->|I]; [|contradiction]. exists (@np_sort ext Num_E l). apply insert_nan. intros J. apply H, in_sort, J.
Qed.
Lemma t_hat_at_nan l k : (0 < k <= S (length l))%nat -> @t_hat_at ext Num_E (l ++ [NaN]) k = NaN.
Proof.
  intros Hk. unfold t_hat_at, vsum. rewrite skipn_length, app_length. cbn [length].
  rewrite (sum_nan _ _ (k - 1)); [reflexivity|lia|]. unfold vget. rewrite skipn_app.
  replace (length l + 1 - k - length l)%nat with 0%nat by lia. cbn [skipn]. rewrite app_nth2; rewrite skipn_length; [|lia].
  replace (k - 1 - (length l - (length l + 1 - k)))%nat with 0%nat by lia. reflexivity.
Qed.
Lemma t_hat_loop_nan l left : forall k, (0 < k)%nat -> (k + left <= S (length l))%nat -> @t_hat_loop ext Num_E (l ++ [NaN]) left k = NaN.
Proof.
  induction left as [|left IH]; intros k H0 H; cbn [t_hat_loop]; rewrite t_hat_at_nan by lia; rewrite leb_nan_r; [reflexivity|]. apply IH; lia.
Qed.
Lemma project_nan v : In NaN v -> @simplex_project_vector ext Num_E v = map (fun _ => Fin 0) v.
Proof.
  intros I. unfold simplex_project_vector. destruct (sort_nan v I) as (l & ->). unfold t_hat. rewrite app_length. cbn [length].
  replace (length l + 1)%nat with (S (length l)) by lia. rewrite t_hat_loop_nan by lia. apply map_ext. intros x. cbn [nsub Num_E eopp]. rewrite add_nan_r. reflexivity.
Qed.
Lemma project_rows_nan A i j : (i < nr A)%nat -> (j < nc A)%nat -> @wf ext A -> (exists l, (l < nc A)%nat /\ cell A i l = NaN) ->
  cell (@simplex_project_rows ext Num_E A) i j = Fin 0.
Proof.
  intros Hi Hj W (l & Hl & E). rewrite <- mget_entry, project_rows_eq by exact W. rewrite mget_mbuild by assumption. rewrite project_nan.
  - unfold vget. rewrite nth_indep with (d' := Fin 0) by (rewrite map_length, length_mrow; exact Hj). apply (map_nth (fun _ => Fin 0) _ (Fin 0)).
  - rewrite <- E, <- mget_entry, <- (vget_mrow A i l Hl). unfold vget. apply nth_In. rewrite length_mrow. exact Hl.
Qed.
(** one projected step on a row that is real so far and has NaN in the gradient gives zeros *)
Lemma projected_step_zero A al Gr i j x : (i < nr A)%nat -> (j < nc A)%nat -> nr Gr = nr A -> nc Gr = nc A -> (exists l, (l < nc A)%nat /\ cell Gr i l = NaN) ->
  cell A i j = Fin x -> cell (@madd ext Num_E A (@msub ext Num_E (@simplex_project_rows ext Num_E (@msub ext Num_E A (@mscale ext Num_E al Gr))) A)) i j = Fin 0.
Proof.
  intros Hi Hj E1 E2 (l & Hl & EN) EA. set (B := @msub ext Num_E A (@mscale ext Num_E al Gr)).
  assert (WB : @wf ext B) by apply wf_mbuild. destruct (project_rows_shape B WB) as (_ & Pr & Pc).
  rewrite madd_entry, msub_entry by (rewrite ?Pr, ?Pc; assumption). rewrite project_rows_nan; try assumption.
  - rewrite EA. cbn. f_equal. ring.
  - exists l. split; [exact Hl|]. unfold B. rewrite msub_entry by assumption. rewrite mscale_nan; [apply add_nan_r|rewrite E1; assumption|rewrite E2; assumption|exact EN].
Qed.

(** ** line search, iteration *)
Lemma ls_nan {St} fuel p (cost : St -> ext) trial full mem cc inm : mem <> [] -> cost full = NaN ->
  exists mem', @line_search ext Num_E St fuel p cost trial full mem cc inm = Ok (full, n1, mem') /\ mem' <> [].
Proof.
  intros Hm E. unfold line_search. destruct mem as [|m0 rest]; [contradiction|].
  assert (Q : exists f, mem_max (rest ++ [cc]) = Some f) by (destruct rest as [|a l]; cbn [app]; apply mem_max_cons). destruct Q as (f & ->).
  exists (rest ++ [cc]). split; [|destruct rest; discriminate].
  assert (B : forall f fa, @backtrack ext Num_E St fuel p cost trial inm cc f fa full n1 (cost full) = Ok (full, n1)).
  { intros f0 fa. rewrite E. destruct fuel; cbn [backtrack]; change (@nltb ext Num_E) with eltb; rewrite ltb_nan_r; reflexivity. }
  rewrite B. reflexivity.
Qed.
Lemma run_updates_bad {St} (cost : St -> ext) bad us : (forall c, bad c = false) -> forall st c,
  @run_updates ext St cost bad us st c = run_updates cost (fun _ => false) us st c.
Proof.
  intros H. induction us as [|u us IH]; intros st c; [reflexivity|]. cbn [run_updates]. destruct (u st); cbn [bind]; [|reflexivity]. rewrite H. apply IH.
Qed.
Lemma iterate_nan {St} (cost : St -> ext) mono us tol (P Q : St -> Prop) m st :
  (forall s, P s -> cost s = NaN) -> (forall s, Q s -> P s) ->
  (forall s, P s -> exists s', run_updates cost (fun _ => false) us s NaN = Ok (s', NaN) /\ Q s') ->
  P st -> (0 < m)%nat ->
  exists st', @iterate ext Num_E St cost (cost_increased mono) us tol m st = Ok (st', NaN, (m - 1)%nat, repeat NaN (S m)) /\ Q st'.
Proof.
  intros HC HQ HU HP Hm. unfold iterate. rewrite (HC st HP).
  assert (L : forall left n s log, P s -> (0 < left)%nat -> exists st', @iterate_loop ext Num_E St cost (cost_increased mono) us tol left n s NaN log = Ok (st', NaN, (n + left - 1)%nat, log ++ repeat NaN left) /\ Q st').
  { induction left as [|left IH]; intros n s log Hs Hl; [lia|]. cbn [iterate_loop]. rewrite run_updates_bad by reflexivity.
    destruct (HU s Hs) as (s' & -> & Hs'). cbn [bind]. change (@nltb ext Num_E (nabs (nsub NaN NaN)) tol) with false. cbn iota.
    destruct left as [|left].
    - exists s'. cbn [iterate_loop repeat]. split; [|exact Hs']. cbn [Nat.pred]. replace (n + 1 - 1)%nat with n by lia. reflexivity.
    - destruct (IH (S n) s' (log ++ [NaN]) (HQ _ Hs') ltac:(lia)) as (st' & E & Hst'). exists st'. split; [|exact Hst'].
      rewrite E. rewrite <- app_assoc. cbn [app repeat]. replace (S n + S left - 1)%nat with (n + S (S left) - 1)%nat by lia. reflexivity. }
  destruct (L m 0%nat st [NaN] HP Hm) as (st' & E & H). exists st'. split; [|exact H]. rewrite E. reflexivity.
Qed.
Lemma enabled_run {St} (cost : St -> ext) flag (u : St -> res St) us s s' : (flag = true -> u s = Ok s') -> (flag = false -> s' = s) -> cost s' = NaN ->
  run_updates cost (fun _ => false) (enabled flag u ++ us) s NaN = run_updates cost (fun _ => false) us s' NaN.
Proof.
  intros H1 H2 HC. destruct flag; cbn [enabled app]; [|rewrite H2 by reflexivity; reflexivity]. cbn [run_updates]. rewrite H1 by reflexivity. cbn [bind]. rewrite HC. reflexivity.
Qed.

(** ** drawn and accepted arrays are real *)
Lemma fin_sum n f : (0 < n)%nat -> (forall i, (i < n)%nat -> exists x, f i = Fin x /\ (0 < x)%R) -> exists x, @nsum ext Num_E n f = Fin x /\ (0 < x)%R.
Proof.
  induction n as [|n IH]; intros Hn H; [lia|]. cbn [nsum]. destruct (H n ltac:(lia)) as (y & -> & Hy). destruct n as [|n].
  - exists (0 + y)%R. split; [reflexivity|lra].
  - destruct IH as (x & -> & Hx); [lia|intros; apply H; lia|]. exists (x + y)%R. split; [reflexivity|lra].
Qed.
Lemma drawn_real r c g i j : good_draws g -> (i < r)%nat -> (j < c)%nat -> exists x, cell (fst (@right_stochastic_matrix ext Num_E r c g)) i j = Fin x.
Proof.
  intros HG Hi Hj. unfold right_stochastic_matrix. cbn [draw_uniform_mat fst]. rewrite <- mget_entry, mget_mbuild by assumption.
  rewrite mget_mbuild by assumption. destruct (HG (r_pos g + i * c + j)%nat) as (x & -> & _). rewrite vget_tab by exact Hi.
  destruct (fin_sum c (fun l => mget (mbuild r c (fun i j : nat => r_uniform g (r_pos g + i * c + j))) i l)) as (y & -> & Hy); [lia| |].
  - intros l Hl. rewrite mget_mbuild by assumption. destruct (HG (r_pos g + i * c + l)%nat) as (z & -> & Hz). exists z. split; [reflexivity|lra].
  - exists (x / y)%R. cbn. destruct (Req_EM_T y 0); [lra|reflexivity].
Qed.
Lemma finite_E x : @nfinite ext Num_E x = true <-> exists r, x = Fin r.
Proof.
  unfold nfinite. destruct x as [x| | |]; [|cbn; split; [discriminate|intros (r & [=])]..]. cbn. split.
  - intros _. exists x. reflexivity.
  - intros _. destruct (Req_EM_T (x + - x) 0) as [|H]; [reflexivity|]. exfalso. apply H. ring.
Qed.
Lemma all_finite_entry M i j : @all_finite ext Num_E M = true -> (i < nr M)%nat -> (j < nc M)%nat -> exists x, cell M i j = Fin x.
Proof.
  unfold all_finite. rewrite forallb_forall. intros H Hi Hj. specialize (H i ltac:(apply in_seq; lia)). cbv beta in H. rewrite forallb_forall in H.
  specialize (H j ltac:(apply in_seq; lia)). apply finite_E in H. exact H.
Qed.
Lemma all_finite_nan M i j : nan_at M i j -> @all_finite ext Num_E M = false.
Proof.
  intros (Hi & Hj & E). destruct (all_finite M) eqn:A; [|reflexivity]. destruct (all_finite_entry M i j A Hi Hj) as (x & Ex). congruence.
Qed.
Lemma check_weights_real a r c M i j : @check_init_weights ext Num_E a r c = Ok M -> (i < r)%nat -> (j < c)%nat -> exists x, cell M i j = Fin x.
Proof.
  unfold check_init_weights, check_array. destruct a as [A|]; cbn [bind]; [|discriminate]. destruct (all_finite A) eqn:F; cbn [bind]; [|discriminate].
  unfold check_array_shape. destruct (andb _ _) eqn:E; cbn [bind]; [|discriminate]. destruct (check_unit_row_sums A); cbn [bind]; [|discriminate]. intros [= <-].
  apply andb_prop in E. destruct E as [E1 E2]. apply Nat.eqb_eq in E1, E2. subst. apply all_finite_entry, F.
Qed.
