(** Properties of the convex coding and archetypal classes about array mutation and aliasing: C57.

    Here the estimators run on a heap of arrays: every attribute, argument and result is the
    address of an array, assignments alias, and in-place operations write to the heap. *)
From Coq Require Import List Arith ZArith QArith Qabs Bool Lia.
From Verif Require Import Num Mat Py M_random M_furthest M_spg M_gpnh M_aa M_mtd M_crom Heap
  M_heap_gpnh M_heap_aa M_heap_mtd M_heap_crom M_heap_hist Spec_heap Spec_heap_obj Spec_heap_hist
  P_heap_call P_heap_gpnh_call P_heap_aa_call P_heap_mtd_call P_heap_crom_call P_heap_hist Props_base Props_gpnh Props_aa Props_mtd.
Import ListNotations.
Local Open Scope nat_scope.

(** ** C57 (any arithmetic) *)

(** Whatever program uses the estimators (any objects, any calls in any order, with or without
    exceptions), an array that exists at some point keeps its contents until the program itself
    writes to it. *)
Theorem C57_arrays_keep_contents : forall (T : Type) (N : Num T) fuel (h : list (hcall T)) (w w' : world T) outcomes,
  w_ok w -> Forall c_pure h -> h_run fuel w h = (outcomes, w') ->
  forall a, exists_in (w_mem w) a -> (forall c, In c h -> ~ writes c a) ->
    exists_in (w_mem w') a /\ m_heap (w_mem w') a = m_heap (w_mem w) a.
Proof.
  intros T N fuel h w w' rs HW HP H a Ha Hn. destruct (h_run_frame fuel h w rs w' HW HP H) as (_ & B & C).
  split; [unfold exists_in in *; lia | apply C; assumption].
Qed.
Print Assumptions C57_arrays_keep_contents.

(** The array a call returns is a new one: it is none of the arrays the program had before the
    call (in particular no argument and no earlier result), and nothing the program does later
    changes it, except writing to it. *)
Theorem C57_results_are_new : forall (T : Type) (N : Num T) fuel (h1 h2 : list (hcall T)) c (w w1 w2 w3 : world T) o1 o2 a,
  w_ok w -> Forall c_pure (h1 ++ c :: h2) ->
  h_run fuel w h1 = (o1, w1) -> h_step fuel w1 c = (Ok (Some a), w2) -> h_run fuel w2 h2 = (o2, w3) ->
  (forall c', In c' h2 -> ~ writes c' a) ->
  fresh_for (w_mem w1) a /\ exists_in (w_mem w2) a /\ m_heap (w_mem w3) a = m_heap (w_mem w2) a.
Proof.
  intros T N fuel h1 h2 c w w1 w2 w3 o1 o2 a HW HP H1 Hc H2 Hn.
  apply Forall_app in HP as [P1 P2]. inversion P2 as [|? ? P3 P4]; subst.
  destruct (h_run_frame fuel h1 w o1 w1 HW P1 H1) as (W1 & _ & _).
  pose proof (h_step_ok fuel w1 c W1 P3) as [S1 S2 S3 S4 S5]. rewrite Hc in *. cbn [fst snd] in *.
  destruct (S4 a eq_refl) as [F E]. destruct (h_run_frame fuel h2 w2 o2 w3 S1 P4 H2) as (_ & _ & C).
  split; [exact F|]. split; [exact E|]. apply C; assumption.
Qed.
Print Assumptions C57_results_are_new.

(** The values an object holds are changed only by calls on that object, as long as the program
    writes to no array (the weights returned by fit_transform and the fitted dictionary_ are the
    object's own arrays, so the program can change the object by writing to them). *)
Theorem C57_objects_independent : forall (T : Type) (N : Num T) fuel (h : list (hcall T)) (w w' : world T) outcomes i,
  w_ok w -> Forall c_pure h -> h_run fuel w h = (outcomes, w') -> i < length (w_objs w) ->
  (forall c, In c h -> ~ calls c i /\ forall a, ~ writes c a) ->
  holds w' i = holds w i.
Proof. intros T N fuel h w w' rs i HW HP H Hi Hn. exact (h_run_objs fuel h w rs w' i HW HP H Hi Hn). Qed.
Print Assumptions C57_objects_independent.

(** The program starts with nothing. *)
Definition w_empty {T} : world T := mk_world (mk_mem (fun _ => AM (mkmat 0 0 [])) 0) [].
Theorem C57_every_program : forall (T : Type) (N : Num T) fuel (h1 h2 : list (hcall T)) (w1 w2 : world T) o1 o2,
  Forall c_pure (h1 ++ h2) -> h_run fuel w_empty h1 = (o1, w1) -> h_run fuel w1 h2 = (o2, w2) ->
  forall a, exists_in (w_mem w1) a -> (forall c, In c h2 -> ~ writes c a) ->
    m_heap (w_mem w2) a = m_heap (w_mem w1) a.
Proof.
  intros T N fuel h1 h2 w1 w2 o1 o2 HP H1 H2 a Ha Hn. apply Forall_app in HP as [P1 P2].
  assert (W0 : w_ok (T := T) w_empty) by constructor.
  destruct (h_run_frame fuel h1 _ o1 w1 W0 P1 H1) as (W1 & _ & _).
  apply (h_run_frame fuel h2 w1 o2 w2 W1 P2 H2); assumption.
Qed.
Print Assumptions C57_every_program.

(** With all this aliasing and in-place writing the classes still compute what the models of the
    other properties compute on values. *)
Theorem C57_gpnh_fit_transform : forall (T : Type) (N : Num T) fuel junk (o o1 : hgpnh T) (m m1 : mem (arr T)) data dictionary weights ud uw kw r,
  exists_in m data -> arg_in m dictionary -> arg_in m weights -> g_valid m o ->
  hg_fit_transform fuel junk o m data dictionary weights ud uw kw = (r, o1, m1) ->
  let value a := am (m_heap m a) in
  match fit_transform fuel (g_abs m o) (value data) (option_map value dictionary) (option_map value weights) ud uw kw with
  | Ok (run, W) => exists a, r = Ok a /\ am (m_heap m1 a) = W /\ g_abs m1 o1 = gr_obj run
  | Raise e => r = Raise e
  end.
Proof. intros. eapply P_heap_gpnh_call.fit_sim; eassumption. Qed.
Print Assumptions C57_gpnh_fit_transform.
Theorem C57_gpnh_transform : forall (T : Type) (N : Num T) fuel junk (o o1 : hgpnh T) (m m1 : mem (arr T)) data r,
  exists_in m data -> g_valid m o -> hg_transform fuel junk o m data = (r, o1, m1) ->
  match transform fuel (g_abs m o) (am (m_heap m data)) with
  | Ok (run, W) => exists a, r = Ok a /\ am (m_heap m1 a) = W /\ g_abs m1 o1 = gr_obj run
  | Raise e => r = Raise e
  end.
Proof. intros. eapply P_heap_gpnh_call.transform_sim; eassumption. Qed.
Print Assumptions C57_gpnh_transform.
Theorem C57_aa_fit_transform : forall (T : Type) (N : Num T) fuel junk (o o1 : haa T) (m m1 : mem (arr T)) kernel dictionary weights ud uw kw r,
  exists_in m kernel -> arg_in m dictionary -> arg_in m weights -> a_valid m o ->
  ha_fit_transform fuel junk o m kernel dictionary weights ud uw kw = (r, o1, m1) ->
  let value a := am (m_heap m a) in
  match aa_fit_transform fuel (a_abs m o) (value kernel) (option_map value dictionary) (option_map value weights) ud uw kw with
  | Ok (run, W) => exists a, r = Ok a /\ am (m_heap m1 a) = W /\ a_abs m1 o1 = ar_obj run
  | Raise e => r = Raise e
  end.
Proof. intros. eapply P_heap_aa_call.fit_sim; eassumption. Qed.
Print Assumptions C57_aa_fit_transform.
Theorem C57_aa_transform : forall (T : Type) (N : Num T) fuel junk (o o1 : haa T) (m m1 : mem (arr T)) kernel r,
  exists_in m kernel -> a_valid m o -> ha_transform fuel junk o m kernel = (r, o1, m1) ->
  match aa_transform fuel (a_abs m o) (am (m_heap m kernel)) with
  | Ok (run, W) => exists a, r = Ok a /\ am (m_heap m1 a) = W /\ a_abs m1 o1 = ar_obj run
  | Raise e => r = Raise e
  end.
Proof. intros. eapply P_heap_aa_call.transform_sim; eassumption. Qed.
Print Assumptions C57_aa_transform.
Theorem C57_arch_fit_transform : forall (T : Type) (N : Num T) fuel junk kf kernel_of (o o1 : haa T) (m m1 : mem (arr T)) data dictionary weights ud uw kw r,
  kernel_pure kf -> kernel_gives kf kernel_of ->
  exists_in m data -> arg_in m dictionary -> arg_in m weights -> a_valid m o ->
  ha_arch_fit_transform fuel junk kf o m data dictionary weights ud uw kw = (r, o1, m1) ->
  let value a := am (m_heap m a) in
  match arch_fit_transform fuel kernel_of (a_abs m o) (value data) (option_map value dictionary) (option_map value weights) ud uw kw with
  | Ok (run, W) => exists a, r = Ok a /\ am (m_heap m1 a) = W /\ a_abs m1 o1 = ar_obj run
  | Raise e => r = Raise e
  end.
Proof. intros. eapply arch_fit_sim; eassumption. Qed.
Print Assumptions C57_arch_fit_transform.
Theorem C57_arch_transform : forall (T : Type) (N : Num T) fuel junk kf kernel_of (o o1 : haa T) (m m1 : mem (arr T)) data r,
  kernel_pure kf -> kernel_gives kf kernel_of ->
  exists_in m data -> a_valid m o -> ha_arch_transform fuel junk kf o m data = (r, o1, m1) ->
  match arch_transform fuel kernel_of (a_abs m o) (am (m_heap m data)) with
  | Ok (run, W) => exists a, r = Ok a /\ am (m_heap m1 a) = W /\ a_abs m1 o1 = ar_obj run
  | Raise e => r = Raise e
  end.
Proof. intros. eapply arch_transform_sim; eassumption. Qed.
Print Assumptions C57_arch_transform.
Theorem C57_mtd_fit_transform : forall (T : Type) (N : Num T) fuel junk (o o1 : hmtd T) (m m1 : mem (arr T)) data dictionary weights ow Ts ud uw up kw r,
  exists_in m data -> arg_in m dictionary -> arg_in m weights -> arg_in m ow -> arg_in m Ts -> m_valid m o ->
  hm_fit_transform fuel junk o m data dictionary weights ow Ts ud uw up kw = (r, o1, m1) ->
  let value a := am (m_heap m a) in
  match mtd_fit_transform fuel (m_abs m o) (value data) (option_map value dictionary) (option_map value weights)
          (option_map (fun a => av (m_heap m a)) ow) (option_map (fun a => a3 (m_heap m a)) Ts) ud uw up kw with
  | Ok (run, W) => exists a, r = Ok a /\ am (m_heap m1 a) = W /\ m_abs m1 o1 = mr_obj run
  | Raise e => r = Raise e
  end.
Proof. intros. eapply P_heap_mtd_call.fit_sim; eassumption. Qed.
Print Assumptions C57_mtd_fit_transform.
Theorem C57_mtd_transform : forall (T : Type) (N : Num T) fuel junk (o o1 : hmtd T) (m m1 : mem (arr T)) data r,
  exists_in m data -> m_valid m o -> hm_transform fuel junk o m data = (r, o1, m1) ->
  match mtd_transform fuel (m_abs m o) (am (m_heap m data)) with
  | Ok (run, W) => exists a, r = Ok a /\ am (m_heap m1 a) = W /\ m_abs m1 o1 = mr_obj run
  | Raise e => r = Raise e
  end.
Proof. intros. eapply P_heap_mtd_call.transform_sim; eassumption. Qed.
Print Assumptions C57_mtd_transform.
Theorem C57_mtd_predict : forall (T : Type) (N : Num T) fuel junk (o o1 : hmtd T) (m m1 : mem (arr T)) data horizon r,
  exists_in m data -> m_valid m o -> hm_predict fuel junk o m data horizon = (r, o1, m1) ->
  match mtd_predict fuel (m_abs m o) (am (m_heap m data)) horizon with
  | Ok (run, Y) => exists a, r = Ok a /\ am (m_heap m1 a) = Y /\ m_abs m1 o1 = mr_obj run
  | Raise e => r = Raise e
  end.
Proof. intros. eapply P_heap_mtd_call.predict_sim; eassumption. Qed.
Print Assumptions C57_mtd_predict.
Theorem C57_crom_fit_transform : forall (T : Type) (N : Num T) fuel gjunk junk (o o1 : hcrom T) (m m1 : mem (arr T)) data dictionary weights ud uw kw r,
  exists_in m data -> arg_in m dictionary -> arg_in m weights -> c_valid m o ->
  hc_fit_transform fuel gjunk junk o m data dictionary weights ud uw kw = (r, o1, m1) ->
  let value a := am (m_heap m a) in
  match crom_fit_transform fuel (c_abs m o) (value data) (option_map value dictionary) (option_map value weights) ud uw kw with
  | Ok (run, W) => exists a, r = Ok a /\ am (m_heap m1 a) = W /\ c_abs m1 o1 = cr_obj run
  | Raise e => r = Raise e
  end.
Proof. intros. eapply P_heap_crom_call.fit_sim; eassumption. Qed.
Print Assumptions C57_crom_fit_transform.
Theorem C57_crom_transform : forall (T : Type) (N : Num T) fuel gjunk (o o1 : hcrom T) (m m1 : mem (arr T)) data r,
  exists_in m data -> c_valid m o -> hc_transform fuel gjunk o m data = (r, o1, m1) ->
  match crom_transform fuel (c_abs m o) (am (m_heap m data)) with
  | Ok (o2, _, W) => exists a, r = Ok a /\ am (m_heap m1 a) = W /\ c_abs m1 o1 = o2
  | Raise e => r = Raise e
  end.
Proof. intros. eapply P_heap_crom_call.transform_sim; eassumption. Qed.
Print Assumptions C57_crom_transform.
Theorem C57_crom_predict : forall (T : Type) (N : Num T) fuel gjunk (o o1 : hcrom T) (m m1 : mem (arr T)) data horizon r,
  exists_in m data -> c_valid m o -> hc_predict fuel gjunk o m data horizon = (r, o1, m1) ->
  match crom_predict fuel (c_abs m o) (am (m_heap m data)) horizon with
  | Ok (o2, _, Y) => exists a, r = Ok a /\ am (m_heap m1 a) = Y /\ c_abs m1 o1 = o2
  | Raise e => r = Raise e
  end.
Proof. intros. eapply P_heap_crom_call.predict_sim; eassumption. Qed.
Print Assumptions C57_crom_predict.
Theorem C57_inverse_transform : forall (T : Type) (N : Num T) (o o1 : hobj T) (m m1 : mem (arr T)) weights r,
  o_inverse o m weights = (r, o1, m1) ->
  let W := am (m_heap m weights) in
  match (match o_abs m o with
         | FGpnh g => inverse_transform g W
         | FAA g => aa_inverse_transform g W
         | FMtd g => mtd_inverse_transform g W
         | FCrom g => inverse_transform (co_gpnh g) W
         end) with
  | Ok Y => exists a, r = Ok a /\ m_heap m1 a = AM Y /\ o1 = o
  | Raise e => r = Raise e /\ o1 = o
  end.
Proof.
  intros T N o o1 m m1 a r H W. unfold o_inverse in H.
  destruct o as [o|o|kf o|o|o]; cbn [o_abs o_dict] in *;
    unfold inverse_transform, aa_inverse_transform, mtd_inverse_transform, g_abs, a_abs, m_abs, c_abs, g_abs;
    cbn [go_ws ao_ws mo_ws co_gpnh];
    [destruct (ho_attr o) as [x|]|destruct (hk_attr o) as [x|]|destruct (hk_attr o) as [x|]|destruct (hq_attr o) as [x|]|destruct (ho_attr (hc_gpnh o)) as [x|]];
    cbn [option_map] in *; try (injection H as <- <- <-; auto; fail).
  all: cbn [w_S a_C m_S g_ws a_ws m_ws f_S t_C q_S g_rd a_rd m_rd]; fold W in H.
  all: destruct (Nat.eqb _ _); [|injection H as <- <- <-; auto].
  all: cbn [alloc] in H; injection H as <- <- <-; eexists; split; [reflexivity|split; [|reflexivity]].
  all: cbn [m_heap]; unfold hwrite; rewrite Nat.eqb_refl; reflexivity.
Qed.
Print Assumptions C57_inverse_transform.

(** A program on rational numbers: the caller makes data, an initial dictionary and initial
    weights, fits one object of every class with them, transforms, predicts and fits again. *)
Definition Num_Q_demo : Num Q :=
  {| n0 := 0; n1 := 1; nadd a b := Qred (a + b); nsub a b := Qred (a - b); nmul a b := Qred (a * b);
     ndiv a b := Qred (a / b); nopp a := Qred (- a); nabs := Qabs; nsqrt a := a; nleb := Qle_bool;
     nltb a b := negb (Qle_bool b a); neqb := Qeq_bool; nnan := 0; nofZ := inject_Z |}%Q.
Definition eh_ls : ls_params Q := (mk_ls (1#10000) (1#1000) 1000 (1#10) (9#10) (1#1000000000000))%Q.
Definition eh_rng : rng Q := mkrng (fun _ => 1%Q) (fun _ => 1%Q) (fun n => n) 0.
Definition eh_junk : junk Q := let J := AM (mkmat 1 1 [[7]])%Q in mk_junk (fun _ => J) (fun _ => J) (fun _ => J) (fun _ => J).
Definition eh_gpnh : hgpnh Q := mk_hgpnh (mk_gpnh_cfg 0%Q InitCustom (PInt 0) (PInt 2) eh_ls 1 true)
  (PInt 2) eh_rng None (mk_gsc 0 0 [] [])%Q None None None None.
Definition eh_aa : haa Q := mk_haa (mk_aa_cfg 0%Q InitCustom (PInt 0) (PInt 2) eh_ls 1 true)
  (PInt 2) true eh_rng None (mk_asc 0 0 0 0 [] [] [])%Q None None None None.
Definition eh_mtd : hmtd Q := mk_hmtd (mk_mtd_cfg [1; 2] 0%Q 0%Q InitRandom (PInt 0) (PInt 2) eh_ls 1 true)
  (PInt 2) eh_rng None (mk_msc 0 0 0 [] [] [])%Q None None None None.
Definition eh_crom : hcrom Q := mk_hcrom (mk_hgpnh (mk_gpnh_cfg 0%Q InitRandom (PInt 0) (PInt 2) eh_ls 1 true)
  (PInt 2) eh_rng None (mk_gsc 0 0 [] [])%Q None None None None) [1; 2]%Z None (mk_csc 0%Q []).
Definition eh_m2 (a b c d : Z) : mat Q := mkmat 2 2 [[inject_Z a; inject_Z b]; [inject_Z c; inject_Z d]].
(** a kernel function that returns its argument: the object then works on the caller's array *)
Definition eh_kf : option (mem (arr Q) -> nat -> nat * mem (arr Q)) := Some (fun m a => (a, m)).
Definition eh_start : list (hcall Q) :=
  [CMake (OGpnh eh_gpnh); CMake (OKernel eh_aa); CMake (OArch eh_kf eh_aa); CMake (OMtd eh_mtd); CMake (OCrom eh_crom);
   CArray (AM (eh_m2 4 0 0 4)); CArray (AM (eh_m2 1 0 0 1)); CArray (AM (eh_m2 0 1 1 0));
   CArray (AM (mkmat 4 2 [[4; 0]; [0; 4]; [4; 0]; [0; 4]]%Q)); CArray (AV [1; 0]%Q); CArray (A3 [eh_m2 0 1 1 0; eh_m2 0 1 1 0]);
   CFit 0 eh_junk 0 (Some 0) (Some 2) None None false true true None].
Definition eh_later : list (hcall Q) :=
  [CFit 1 eh_junk 0 (Some 1) (Some 2) None None true true true None;
   CFit 2 eh_junk 0 (Some 1) (Some 2) None None true true true None;
   CFit 3 eh_junk 3 (Some 0) None (Some 4) (Some 5) false true false None;
   CTransform 3 eh_junk 3; CPredict 3 eh_junk 3 1;
   CFit 4 eh_junk 3 None None None None true true true None; CTransform 4 eh_junk 3; CPredict 4 eh_junk 3 1; CInverse 0 1; CTransform 0 eh_junk 0;
   CWrite 0 (AM (eh_m2 1 2 3 4))].
Definition eh_w1 := snd (@h_run Q Num_Q_demo 50 w_empty eh_start).
Definition eh_run2 := @h_run Q Num_Q_demo 50 eh_w1 eh_later.
Example C57_example_hypotheses : Forall c_pure (eh_start ++ eh_later)
  /\ (forall a, 1 <= a -> forall c, In c eh_later -> ~ writes c a)
  /\ exists_in (w_mem eh_w1) 1 /\ exists_in (w_mem eh_w1) 2 /\ 0 < length (w_objs eh_w1).
Proof.
  split; [|split].
  - repeat (constructor; cbn; auto).
  - intros a Ha c Hc Hw. repeat (destruct Hc as [<-|Hc]; [cbn in Hw; try contradiction; lia|]). contradiction.
  - split; [|split]; [apply Nat.ltb_lt | apply Nat.ltb_lt | apply Nat.ltb_lt]; vm_compute; reflexivity.
Qed.
Print Assumptions C57_example_hypotheses.
(** The calls return (the InitCustom object refuses transform), and the arrays are as they were;
    the first object's weights, which the fit changed from the given ones, are kept. *)
Example C57_example :
  map (fun o => match o with Ok (Some _) => true | _ => false end) (fst eh_run2) = [true; true; true; true; true; true; true; true; true; false; false]
  /\ (exists a, nth_error (fst (@h_run Q Num_Q_demo 50 w_empty eh_start)) 11 = Some (Ok (Some a))
        /\ m_heap (w_mem (snd eh_run2)) a = m_heap (w_mem eh_w1) a
        /\ m_heap (w_mem eh_w1) a <> m_heap (w_mem eh_w1) 2)
  /\ m_heap (w_mem (snd eh_run2)) 1 = AM (eh_m2 1 0 0 1) /\ m_heap (w_mem (snd eh_run2)) 2 = AM (eh_m2 0 1 1 0).
Proof.
  split; [vm_compute; reflexivity|]. split.
  - match goal with |- context [nth_error ?l ?n] => let v := eval vm_compute in (nth_error l n) in
      match v with Some (Ok (Some ?a)) => exists a end end.
    split; [vm_compute; reflexivity|]. split; [vm_compute; reflexivity|]. vm_compute. discriminate.
  - split; vm_compute; reflexivity.
Qed.
(** the refinement theorems apply to the objects of that program *)
Example C57_example_objects : w_ok eh_w1.
Proof.
  destruct (@h_run Q Num_Q_demo 50 w_empty eh_start) as [rs w] eqn:E. unfold eh_w1. rewrite E.
  apply (@h_run_frame Q Num_Q_demo 50 eh_start w_empty rs w); [constructor| |exact E].
  apply (Forall_app c_pure eh_start eh_later). apply C57_example_hypotheses.
Qed.
