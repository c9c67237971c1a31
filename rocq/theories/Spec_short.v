(** Series shorter than the largest lag.  Vocabulary. *)
From Coq Require Import List Arith Reals.
From Verif Require Import Num Mat Py M_random M_gpnh M_mtd.
Import ListNotations.

(** the settings of an MTD estimator that GPNH convex coding has too *)
Definition plain_settings (c : mtd_cfg R) : gpnh_cfg R :=
  mk_gpnh_cfg (mc_eps_states c) (mc_init c) (mc_tolerance c) (mc_max_iterations c) (mc_ls c) (mc_memory c) (mc_monotone c).
(** [og] is a GPNH estimator with those settings, the same number of components and the same generator *)
Definition plain_twin (og : gpnh R) (o : mtd R) : Prop :=
  go_cfg og = plain_settings (mo_cfg o) /\ go_n_components og = mo_n_components o /\ go_rng og = mo_rng o.
(** the two runs report the same *)
Definition same_run (rg : gpnh_run R) (r : mtd_run R) : Prop :=
  mr_cost r = gr_cost rg /\ mr_n_iter r = gr_n_iter rg /\ mr_log r = gr_log rg /\ mr_warned r = gr_warned rg.
(** the starting values are drawn *)
Definition drawn_start (i : init_method) : Prop := i = InitNone \/ i = InitRandom \/ i = InitFurthestSum.
(** the parameters found in an object *)
Definition has_parameters (o : mtd R) (ow : list R) (Ts : list (mat R)) : Prop :=
  exists w, mo_ws o = Some w /\ m_order_weights w = ow /\ m_transition_matrices w = Ts.
