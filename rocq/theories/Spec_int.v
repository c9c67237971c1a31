(** Specification vocabulary for integer data: the conversion from floating-point numbers to integers,
    and the k-means cost with integer distances.  Independent of the model. *)
From Coq Require Import List Reals.
From Verif Require Import Num Mat Spec Spec_fembv.
Local Open Scope R_scope.

(** rounding towards zero *)
Definition toward_zero (x : R) : R := if Rle_dec 0 x then IZR (Int_part x) else - IZR (Int_part (- x)).
(** the k-means cost when squared distances are stored as integers *)
Definition truncated_kmeans_cost (X G Theta : mat R) : R :=
  Sum (nr G) (fun t => Sum (nc G) (fun j => ent G t j * toward_zero (centroid_dist2 X Theta t j))).
(** every entry is an integer *)
Definition integral (A : mat R) : Prop := forall i j, exists z, ent A i j = IZR z.
