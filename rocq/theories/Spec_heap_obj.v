(** Reading an object of the heap model: the object of the functional model that has the values
    of its arrays. *)
From Coq Require Import List Arith.
From Verif Require Import Num Mat Py M_gpnh M_aa M_mtd M_crom Heap M_heap_gpnh M_heap_aa M_heap_mtd M_heap_crom Spec_heap.

Section Abs.
  Context {T : Type} {N : Num T}.
  Definition g_abs (m : mem (arr T)) (o : hgpnh T) : gpnh T :=
    mk_gpnh (ho_cfg o) (ho_n_components o) (ho_rng o)
      (option_map (fun a => g_ws (g_rd (fun x => m_heap m (a x))) (ho_sc o)) (ho_attr o))
      (option_map (fun a => am (m_heap m a)) (ho_dictionary_ o))
      (ho_cost_ o) (ho_n_iter_ o) (ho_n_components_ o).
  (** the arrays an object refers to exist *)
  Definition g_valid (m : mem (arr T)) (o : hgpnh T) : Prop :=
    (forall a x, ho_attr o = Some a -> exists_in m (a x)) /\ arg_in m (ho_dictionary_ o).

  Definition a_abs (m : mem (arr T)) (o : haa T) : aa T :=
    mk_aa (hk_cfg o) (hk_n_components o) (hk_seeded o) (hk_rng o)
      (option_map (fun a => a_ws (a_rd (fun x => m_heap m (a x))) (hk_sc o)) (hk_attr o))
      (option_map (fun a => am (m_heap m a)) (hk_dictionary_ o))
      (hk_cost_ o) (hk_n_iter_ o) (hk_n_components_ o).
  Definition a_valid (m : mem (arr T)) (o : haa T) : Prop :=
    (forall a x, hk_attr o = Some a -> exists_in m (a x)) /\ arg_in m (hk_dictionary_ o).
  Definition m_abs (m : mem (arr T)) (o : hmtd T) : mtd T :=
    mk_mtd (hq_cfg o) (hq_n_components o) (hq_rng o)
      (option_map (fun a => m_ws (m_rd (fun x => m_heap m (a x))) (hq_sc o)) (hq_attr o))
      (option_map (fun a => am (m_heap m a)) (hq_dictionary_ o))
      (hq_cost_ o) (hq_n_iter_ o) (hq_n_components_ o).
  Definition m_valid (m : mem (arr T)) (o : hmtd T) : Prop :=
    (forall a x, hq_attr o = Some a -> exists_in m (a x)) /\ arg_in m (hq_dictionary_ o).
  Definition c_abs (m : mem (arr T)) (o : hcrom T) : crom T :=
    mk_crom (g_abs m (hc_gpnh o)) (hc_lags o)
      (option_map (fun a => (av (m_heap m (a yow)), a3 (m_heap m (a yT)))) (hc_attr o)).
  Definition c_valid (m : mem (arr T)) (o : hcrom T) : Prop :=
    g_valid m (hc_gpnh o) /\ forall a x, hc_attr o = Some a -> exists_in m (a x).
  (** A kernel_func argument writes to no existing array and returns an array: a new one or an
      existing one, such as its argument.  [kernel_gives]: the contents it returns. *)
  Definition kernel_pure (kf : option (mem (arr T) -> nat -> nat * mem (arr T))) : Prop :=
    match kf with
    | None => True
    | Some f => forall m a, exists_in m a -> unchanged m (snd (f m a)) /\ exists_in (snd (f m a)) (fst (f m a))
    end.
  Definition kernel_gives (kf : option (mem (arr T) -> nat -> nat * mem (arr T))) (g : option (mat T -> mat T)) : Prop :=
    match kf, g with
    | None, None => True
    | Some f, Some g => forall m a, exists_in m a -> am (m_heap (snd (f m a)) (fst (f m a))) = g (am (m_heap m a))
    | _, _ => False
    end.
End Abs.
