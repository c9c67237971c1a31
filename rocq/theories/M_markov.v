(** Model of src/reor/crom.py: k-means reduction with a Markov chain on the clusters.

    sklearn.cluster.KMeans is an oracle: fitting answers cluster centres, one label per sample, the
    inertia and the number of iterations, predicting answers labels, both may raise; its [nat]
    argument counts the fits, so that two fits of the same data may differ.
    Simplifications: warnings (division by zero) are dropped. *)
From Coq Require Import List Arith ZArith Bool.
From Verif Require Import Num Mat Py.
Import ListNotations.

Section Markov.
  Context {T : Type} {N : Num T}.
  Local Open Scope num_scope.

  Record kmeans_model := mk_km { km_n_clusters : pyval T; km_centers : mat T; km_labels : list nat; km_inertia : T; km_n_iter : nat }.
  Record kmeans_oracle := mk_ko {
    ko_fit : nat -> pyval T -> mat T -> option (list T) -> res (mat T * list nat * T * nat);
    ko_predict : mat T -> mat T -> option (list T) -> res (list nat);
    ko_transform : mat T -> mat T -> res (mat T) }.

  (** np.array(labels == j, dtype='i8'): crom.py:54, 56 *)
  Definition indicator (labels : list nat) (j : nat) : list nat := map (fun l => if Nat.eqb l j then 1%nat else 0%nat) labels.
  (** (Tj[1:] * Tk[:-1]).sum(): crom.py:57 *)
  Definition lagged_sum (Tj Tk : list nat) : nat := list_sum (map (fun p => (fst p * snd p)%nat) (combine (skipn 1 Tj) (removelast Tk))).
  (** crom.py:50-59; the quotient of the integers 0 and 0 is NaN *)
  Definition transition_matrix (labels : list nat) (n_clusters : nat) : mat T :=
    mbuild n_clusters n_clusters (fun j k =>
      let Tj := indicator labels j in
      let Tk := indicator labels k in
      let n_jk := lagged_sum Tj Tk in
      let n_k := list_sum (removelast Tk) in
      nofnat n_jk / nofnat n_k).

  Section Oracle.
    Variable ko : kmeans_oracle.

    (** KMeans(n_clusters=...).fit(X, sample_weight) *)
    Definition km_fit (calls : nat) (n_clusters : pyval T) (X : mat T) (sw : option (list T)) : res kmeans_model :=
      let! (c, l, inertia, n_iter) := ko_fit ko calls n_clusters X sw in
      Ok (mk_km n_clusters c l inertia n_iter).

    (** crom.py:42-61; the number of clusters is the number of centres *)
    Definition kmeans_markov_crom (calls : nat) (X : mat T) (n_clusters : pyval T) (sw : option (list T)) : res (kmeans_model * mat T) :=
      let! km := km_fit calls n_clusters X sw in
      Ok (km, transition_matrix (km_labels km) (nr (km_centers km))).

    (** the attributes set by fit *)
    Record crom_state := mk_cs {
      cs_centers : mat T; cs_labels : list nat; cs_inertia : T; cs_n_iter : nat; cs_kmeans : kmeans_model; cs_transition : mat T }.
    Record crom := mk_crom { co_n_clusters : pyval T; co_calls : nat; co_state : option crom_state }.
    (** crom.py:102-104 *)
    Definition crom_new (n_clusters : pyval T) : crom := mk_crom n_clusters 0 None.
    (** crom.py:122-134 *)
    Definition crom_fit (o : crom) (X : mat T) (sw : option (list T)) : res crom :=
      let! (km, tm) := kmeans_markov_crom (co_calls o) X (co_n_clusters o) sw in
      Ok (mk_crom (co_n_clusters o) (S (co_calls o)) (Some (mk_cs (km_centers km) (km_labels km) (km_inertia km) (km_n_iter km) km tm))).

    (** self.kmeans_ refitted in place, with the number of clusters it was built with; nothing else changes *)
    Definition crom_refit (o : crom) (X : mat T) (sw : option (list T)) : res (crom * kmeans_model) :=
      match co_state o with
      | None => Raise AttributeError                        (* self.kmeans_ *)
      | Some s =>
          let! km := km_fit (co_calls o) (km_n_clusters (cs_kmeans s)) X sw in
          Ok (mk_crom (co_n_clusters o) (S (co_calls o))
                (Some (mk_cs (cs_centers s) (cs_labels s) (cs_inertia s) (cs_n_iter s) km (cs_transition s))), km)
      end.
    (** crom.py:154 *)
    Definition crom_fit_predict (o : crom) X sw : res (crom * list nat) :=
      let! (o', km) := crom_refit o X sw in Ok (o', km_labels km).
    (** crom.py:174 *)
    Definition crom_fit_transform (o : crom) X sw : res (crom * mat T) :=
      let! (o', km) := crom_refit o X sw in
      let! D := ko_transform ko (km_centers km) X in Ok (o', D).
    (** crom.py:240 *)
    Definition crom_transform (o : crom) X : res (mat T) :=
      match co_state o with None => Raise AttributeError | Some s => ko_transform ko (km_centers (cs_kmeans s)) X end.

    (** crom.py:221-222 *)
    Fixpoint advance_labels (h : nat) (tm L : mat T) : res (mat T) :=
      match h with
      | O => Ok L
      | S h' => if negb (Nat.eqb (nc L) (nc tm)) then Raise ValueError else advance_labels h' tm (mmul L (mtr tm))
      end.
    (** crom.py:206-224; [horizon == 0] holds for the float 0.0 too; a negative horizon gives an empty range *)
    Definition crom_predict (o : crom) (X : mat T) (sw : option (list T)) (horizon : pyval T) : res (mat T) :=
      match co_state o with
      | None => Raise AttributeError
      | Some s =>
          let! initial := ko_predict ko (km_centers (cs_kmeans s)) X sw in
          match co_n_clusters o with
          | PInt z =>
              if (z <? 0)%Z then Raise ValueError else
              let labels := mbuild (length initial) (Z.to_nat z) (fun t i => if Nat.eqb (nth t initial O) i then n1 else n0) in
              match horizon with
              | PInt h => advance_labels (Z.to_nat h) (cs_transition s) labels
              | PFloat x => if neqb x n0 then Ok labels else Raise TypeError
              | _ => Raise TypeError
              end
          | _ => Raise TypeError                            (* shape of np.zeros *)
          end
      end.
  End Oracle.
End Markov.
Arguments kmeans_model T : clear implicits.
Arguments kmeans_oracle T : clear implicits.
Arguments crom_state T : clear implicits.
Arguments crom T : clear implicits.
