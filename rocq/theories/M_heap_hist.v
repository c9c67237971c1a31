(** Programs that use the estimators: any number of objects of the five classes, arrays of the
    caller, and calls in any order; the caller may also write into any array, including arrays
    returned by earlier calls. *)
From Coq Require Import List Arith ZArith Bool.
From Verif Require Import Num Mat Py M_random M_furthest M_gpnh M_aa M_mtd M_crom Heap M_heap_gpnh M_heap_aa M_heap_mtd M_heap_crom.
Import ListNotations.

Section Hist.
  Context {T : Type} {N : Num T}.

  (** GPNHConvexCoding, KernelAA, ArchetypalAnalysis (with its kernel_func), MTDConvexCoding,
      GPNHConvexCodingCROM *)
  Inductive hobj :=
  | OGpnh (o : hgpnh T)
  | OKernel (o : haa T)
  | OArch (kf : option (mem (arr T) -> nat -> nat * mem (arr T))) (o : haa T)
  | OMtd (o : hmtd T)
  | OCrom (o : hcrom T).

  (** A constructor call: the given parameters and no arrays (gpnh_convex_coding.py:149-213,
      archetypal_analysis.py:291-341, 908-911, mtd_convex_coding.py:192-268,
      gpnh_convex_coding_crom.py:74-100). *)
  Definition o_made (o : hobj) : hobj :=
    match o with
    | OGpnh o => OGpnh (mk_hgpnh (ho_cfg o) (ho_n_components o) (ho_rng o) None (ho_sc o) None None None None)
    | OKernel o => OKernel (mk_haa (hk_cfg o) (hk_n_components o) (hk_seeded o) (hk_rng o) None (hk_sc o) None None None None)
    | OArch kf o => OArch kf (mk_haa (hk_cfg o) (hk_n_components o) (hk_seeded o) (hk_rng o) None (hk_sc o) None None None None)
    | OMtd o => OMtd (mk_hmtd (hq_cfg o) (hq_n_components o) (hq_rng o) None (hq_sc o) None None None None)
    | OCrom o => let g := hc_gpnh o in
                 OCrom (mk_hcrom (mk_hgpnh (ho_cfg g) (ho_n_components g) (ho_rng g) None (ho_sc g) None None None None)
                                 (hc_lags o) None (hc_sc o))
    end.

  (** contents of uninitialised arrays (np.empty_like) *)
  Record junk := mk_junk { j_g : gname -> arr T; j_a : aname -> arr T; j_m : mname -> arr T; j_c : pname -> arr T }.

  (** One statement of the program.  [i] numbers the objects in the order of their creation. *)
  Inductive hcall :=
  | CMake (o : hobj)                                        (* obj = Class(...) *)
  | CArray (v : arr T)                                      (* a = np.array(...) *)
  | CWrite (a : nat) (v : arr T)                            (* a[...] = ... *)
  | CFit (i : nat) (j : junk) (data : nat) (dictionary weights ow Ts : option nat) (upd_d upd_w upd_p : bool)
         (kw : option fs_kwargs)                            (* obj.fit_transform(...) *)
  | CTransform (i : nat) (j : junk) (data : nat)            (* obj.transform(data) *)
  | CPredict (i : nat) (j : junk) (data : nat) (horizon : Z)(* obj.predict(data, horizon) *)
  | CInverse (i : nat) (weights : nat).                     (* obj.inverse_transform(weights) *)

  Record world := mk_world { w_mem : mem (arr T); w_objs : list hobj }.

  (** A program can only mention arrays that exist. *)
  Definition has (m : mem (arr T)) (a : nat) : bool := Nat.ltb a (m_next m).
  Definition has_arg (m : mem (arr T)) (a : option nat) : bool := match a with Some a => has m a | None => true end.

  Definition o_fit (fuel : nat) (j : junk) (o : hobj) (m : mem (arr T)) (data : nat)
             (dictionary weights ow Ts : option nat) (upd_d upd_w upd_p : bool) (kw : option fs_kwargs)
    : res nat * hobj * mem (arr T) :=
    match o with
    | OGpnh o => let '(r, o1, m1) := hg_fit_transform fuel (j_g j) o m data dictionary weights upd_d upd_w kw in
                 (r, OGpnh o1, m1)
    | OKernel o => let '(r, o1, m1) := ha_fit_transform fuel (j_a j) o m data dictionary weights upd_d upd_w kw in
                   (r, OKernel o1, m1)
    | OArch kf o => let '(r, o1, m1) := ha_arch_fit_transform fuel (j_a j) kf o m data dictionary weights upd_d upd_w kw in
                    (r, OArch kf o1, m1)
    | OMtd o => let '(r, o1, m1) := hm_fit_transform fuel (j_m j) o m data dictionary weights ow Ts upd_d upd_w upd_p kw in
                (r, OMtd o1, m1)
    | OCrom o => let '(r, o1, m1) := hc_fit_transform fuel (j_g j) (j_c j) o m data dictionary weights upd_d upd_w kw in
                 (r, OCrom o1, m1)
    end.
  Definition o_transform (fuel : nat) (j : junk) (o : hobj) (m : mem (arr T)) (data : nat)
    : res nat * hobj * mem (arr T) :=
    match o with
    | OGpnh o => let '(r, o1, m1) := hg_transform fuel (j_g j) o m data in (r, OGpnh o1, m1)
    | OKernel o => let '(r, o1, m1) := ha_transform fuel (j_a j) o m data in (r, OKernel o1, m1)
    | OArch kf o => let '(r, o1, m1) := ha_arch_transform fuel (j_a j) kf o m data in (r, OArch kf o1, m1)
    | OMtd o => let '(r, o1, m1) := hm_transform fuel (j_m j) o m data in (r, OMtd o1, m1)
    | OCrom o => let '(r, o1, m1) := hc_transform fuel (j_g j) o m data in (r, OCrom o1, m1)
    end.
  (** only MTDConvexCoding (mtd_convex_coding.py:913-966) and GPNHConvexCodingCROM
      (gpnh_convex_coding_crom.py:369-426) have predict *)
  Definition o_predict (fuel : nat) (j : junk) (o : hobj) (m : mem (arr T)) (data : nat) (horizon : Z)
    : res nat * hobj * mem (arr T) :=
    match o with
    | OMtd o => let '(r, o1, m1) := hm_predict fuel (j_m j) o m data horizon in (r, OMtd o1, m1)
    | OCrom o => let '(r, o1, m1) := hc_predict fuel (j_g j) o m data horizon in (r, OCrom o1, m1)
    | o => (Raise AttributeError, o, m)
    end.
  (** the dictionary attribute an inverse_transform multiplies with (gpnh_convex_coding.py:696,
      archetypal_analysis.py:819, mtd_convex_coding.py:982) *)
  Definition o_dict (o : hobj) : option nat :=
    match o with
    | OGpnh o => option_map (fun a => a gS) (ho_attr o)
    | OKernel o | OArch _ o => option_map (fun a => a aC) (hk_attr o)
    | OMtd o => option_map (fun a => a xS) (hq_attr o)
    | OCrom o => option_map (fun a => a gS) (ho_attr (hc_gpnh o))
    end.
  Definition o_inverse (o : hobj) (m : mem (arr T)) (weights : nat) : res nat * hobj * mem (arr T) :=
    match o_dict o with
    | None => (Raise TypeError, o, m)
    | Some s =>
        let W := am (m_heap m weights) in
        let S := am (m_heap m s) in
        if Nat.eqb (nc W) (nr S)
        then let '(Y, m1) := alloc m (AM (mmul W S)) in (Ok Y, o, m1)
        else (Raise ValueError, o, m)
    end.

  Fixpoint set_obj (i : nat) (o : hobj) (l : list hobj) : list hobj :=
    match i, l with
    | _, [] => []
    | O, _ :: l => o :: l
    | S i, x :: l => x :: set_obj i o l
    end.
  (** a method call on object [i]; without such an object or with arguments that do not exist
      there is no such program, and nothing happens *)
  Definition on_obj (w : world) (i : nat) (ok : bool) (f : hobj -> res nat * hobj * mem (arr T)) : res nat * world :=
    match nth_error (w_objs w) i, ok with
    | Some o, true => let '(r, o1, m1) := f o in (r, mk_world m1 (set_obj i o1 (w_objs w)))
    | _, _ => (Raise AssertionError, w)
    end.

  (** The outcome of a statement: the array it returns or makes, if any. *)
  Definition h_step (fuel : nat) (w : world) (c : hcall) : res (option nat) * world :=
    let m := w_mem w in
    let some (x : res nat * world) := (let! a := fst x in Ok (Some a), snd x) in
    match c with
    | CMake o => (Ok None, mk_world m (w_objs w ++ [o_made o]))
    | CArray v => let '(a, m1) := alloc m v in (Ok (Some a), mk_world m1 (w_objs w))
    | CWrite a v => if has m a then (Ok None, mk_world (mk_mem (hwrite (m_heap m) a v) (m_next m)) (w_objs w))
                    else (Raise AssertionError, w)
    | CFit i j data d wt ow Ts ud uw up kw =>
        some (on_obj w i (has m data && has_arg m d && has_arg m wt && has_arg m ow && has_arg m Ts)
               (fun o => o_fit fuel j o m data d wt ow Ts ud uw up kw))
    | CTransform i j data => some (on_obj w i (has m data) (fun o => o_transform fuel j o m data))
    | CPredict i j data h => some (on_obj w i (has m data) (fun o => o_predict fuel j o m data h))
    | CInverse i wt => some (on_obj w i (has m wt) (fun o => o_inverse o m wt))
    end.
  (** A program, with the outcomes of its statements; an exception is caught and the program
      goes on. *)
  Fixpoint h_run (fuel : nat) (w : world) (h : list hcall) : list (res (option nat)) * world :=
    match h with
    | [] => ([], w)
    | c :: h => let '(r, w1) := h_step fuel w c in
                let '(rs, w2) := h_run fuel w1 h in (r :: rs, w2)
    end.
End Hist.
Arguments hobj : clear implicits.
Arguments hcall : clear implicits.
Arguments world : clear implicits.
Arguments junk : clear implicits.
