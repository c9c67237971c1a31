(** FEMBVVARX from two objects that differ in what an earlier fit left behind. *)
From Coq Require Import List Arith Lia ZArith Reals Lra.
From Verif Require Import Num Mat Py M_furthest M_iter M_fembv M_varx P_lin P_iter P_varx P_varx_run.
Import ListNotations.

Definition vsim {T} {N : Num T} (memory : list Z) (p q : vparams T) : Prop :=
  vp_X p = vp_X q /\ vp_u p = vp_u q /\ vp_models p = vp_models q /\ vp_mu p = vp_mu q
  /\ ((0 < mem_max memory)%nat -> vp_A p = vp_A q) /\ (vp_u p <> None -> vp_B0 p = vp_B0 q).
Definition res_rel {A} (Rel : A -> A -> Prop) (x y : res A) : Prop :=
  match x, y with Ok a, Ok b => Rel a b | Raise e, Raise e' => e = e' | _, _ => False end.
Lemma update_one_sim {T} {N : Num T} lstsq inv memory (G : mat T) i p q : vsim memory p q -> res_rel (vsim memory) (varx_update_one lstsq inv memory G i p) (varx_update_one lstsq inv memory G i q).
Proof.
  intros (S1 & S2 & S3 & S4 & S5 & S6). unfold varx_update_one. rewrite S3. destruct (nth_error (vp_models q) i) as [m|]; [|reflexivity].
  destruct (varx_fit lstsq inv m _) as [m'|e]; cbn [bind]; [|reflexivity].
  assert (HM : (0 < Z.to_nat (nth i memory 0%Z))%nat -> (0 < mem_max memory)%nat).
  { intros Hp. destruct (le_lt_dec (length memory) i) as [L|L]; [rewrite nth_overflow in Hp by exact L; cbn in Hp; lia|].
    pose proof (zmax_ge memory _ (nth_In memory 0%Z L)). unfold mem_max. lia. }
  assert (B : forall A1 A2, ((0 < mem_max memory)%nat -> A1 = A2) ->
    res_rel (vsim memory)
     (let! B0 := match vp_u p with None => Ok (vp_B0 p) | Some _ => match vp_B0 p, vx_B0 m' with Some B0, Some B0_i => Ok (Some (set_nth i B0_i B0)) | _, _ => Raise TypeError end end in
      Ok (mk_vparams (vp_X p) (vp_u p) (set_nth i m' (vp_models q)) (mbuild (nr (vp_mu p)) (nc (vp_mu p)) (fun j f => if Nat.eqb j i then vget (vx_mu m') f else mget (vp_mu p) j f)) A1 B0))
     (let! B0 := match vp_u q with None => Ok (vp_B0 q) | Some _ => match vp_B0 q, vx_B0 m' with Some B0, Some B0_i => Ok (Some (set_nth i B0_i B0)) | _, _ => Raise TypeError end end in
      Ok (mk_vparams (vp_X q) (vp_u q) (set_nth i m' (vp_models q)) (mbuild (nr (vp_mu q)) (nc (vp_mu q)) (fun j f => if Nat.eqb j i then vget (vx_mu m') f else mget (vp_mu q) j f)) A2 B0))).
  { intros A1 A2 HA. rewrite S1, S4, S2 in *. destruct (vp_u q) as [U|].
    - rewrite S6 by discriminate. destruct (vp_B0 q) as [B0|]; [|reflexivity]. destruct (vx_B0 m') as [Bi|]; [|reflexivity]. cbn [bind res_rel].
      do 4 (split; [reflexivity|]). split; [exact HA | reflexivity].
    - cbn [bind res_rel]. do 4 (split; [reflexivity|]). split; [exact HA | cbn [vp_u]; congruence]. }
  destruct (Nat.ltb_spec 0 (Z.to_nat (nth i memory 0%Z))) as [Hp|Hp].
  - rewrite S5 by (apply HM; exact Hp). destruct (vp_A q) as [A|]; [|reflexivity]. destruct (vx_A m') as [Ai|]; [|reflexivity]. cbn [bind]. apply B. reflexivity.
  - cbn [bind]. apply B. exact S5.
Qed.
Lemma update_sim {T} {N : Num T} lstsq inv memory (G : mat T) p q : vsim memory p q -> res_rel (vsim memory) (varx_update lstsq inv memory G p) (varx_update lstsq inv memory G q).
Proof.
  intros H. unfold varx_update. assert (E : vp_models p = vp_models q) by apply H. rewrite E. clear E. generalize (seq 0 (length (vp_models q))) as l. intros l. revert p q H. induction l as [|i l IH]; intros p q' H; cbn [varx_update_from]; [exact H|].
  pose proof (update_one_sim lstsq inv memory G i p q' H) as S. destruct (varx_update_one lstsq inv memory G i p) as [p1|], (varx_update_one lstsq inv memory G i q') as [q1|]; cbn [res_rel] in S; try contradiction; cbn [bind]; [apply IH; exact S | exact S].
Qed.
Definition wsim {T} {N : Num T} (memory : list Z) (w v : fws T (vparams T)) : Prop :=
  vsim memory (f_params w) (f_params v) /\ f_Gamma w = f_Gamma v /\ f_Eta w = f_Eta v /\ f_cons w = f_cons v /\ f_calls w = f_calls v.
Lemma distance_sim {T} {N : Num T} memory (p q : vparams T) : vsim memory p q -> varx_distance memory p = varx_distance memory q.
Proof. intros (S1 & S2 & S3 & _). unfold varx_distance. rewrite S1, S3. reflexivity. Qed.
Lemma cost_sim {T} {N : Num T} lstsq inv memory (w v : fws T (vparams T)) : wsim memory w v -> fembv_cost (varx_class lstsq inv memory) w = fembv_cost (varx_class lstsq inv memory) v.
Proof. intros (S & G & _). unfold fembv_cost. cbn [varx_class cl_distance]. rewrite G, (distance_sim _ _ _ S). reflexivity. Qed.
Lemma run_updates_sim {T} {N : Num T} {St} (cost : St -> T) bad (Rel : St -> St -> Prop) us : (forall a b, Rel a b -> cost a = cost b) ->
  (forall u, In u us -> forall a b, Rel a b -> res_rel Rel (u a) (u b)) ->
  forall a b c, Rel a b -> res_rel (fun x y => Rel (fst x) (fst y) /\ snd x = snd y) (run_updates cost bad us a c) (run_updates cost bad us b c).
Proof.
  intros HC. induction us as [|u us IH]; intros HU a b c H; cbn [run_updates]; [split; [exact H | reflexivity]|].
  pose proof (HU u (or_introl eq_refl) a b H) as S. destruct (u a) as [a1|], (u b) as [b1|]; cbn [res_rel] in S; try contradiction; cbn [bind]; [|exact S].
  rewrite (HC a1 b1 S). destruct (bad (cost b1)); [reflexivity|]. apply IH; [|exact S]. intros u' Hu. apply HU. right. exact Hu.
Qed.
Lemma iterate_sim {T} {N : Num T} {St} (cost : St -> T) bad (Rel : St -> St -> Prop) us tol m a b : (forall a b, Rel a b -> cost a = cost b) ->
  (forall u, In u us -> forall a b, Rel a b -> res_rel Rel (u a) (u b)) -> Rel a b ->
  res_rel (fun x y => Rel (fst (fst (fst x))) (fst (fst (fst y))) /\ snd (fst (fst x)) = snd (fst (fst y)) /\ snd (fst x) = snd (fst y) /\ snd x = snd y)
    (iterate cost bad us tol m a) (iterate cost bad us tol m b).
Proof.
  intros HC HU H. unfold iterate. rewrite <- (HC a b H). generalize [cost a] as log. generalize (cost a) as c. generalize 0%nat as n. revert a b H.
  induction m as [|m IH]; intros a b H n c log; cbn [iterate_loop]; [cbn; auto|].
  pose proof (run_updates_sim cost (bad n c) Rel us HC HU a b c H) as S.
  destruct (run_updates cost (bad n c) us a c) as [[a1 c1]|], (run_updates cost (bad n c) us b c) as [[b1 c2]|]; cbn [res_rel] in S; try contradiction; cbn [bind]; [|exact S].
  cbn [fst snd] in S. destruct S as [S ->]. destruct (nltb _ tol); [cbn; auto | apply IH; exact S].
Qed.
