(** Vocabulary of the property that without a social coefficient the topology does not matter (C79). *)
From Coq Require Import String ZArith List Arith Bool.
From Verif Require Import Prelude F64 Num Handlers Swarms Operators Generators Topology Optimizers Spec SpecHandlers SpecMirror SpecTame.
Import ListNotations.
Local Open Scope string_scope.
Local Open Scope list_scope.

(** The same matrix up to the signs of zeros. *)
Definition same_matrix (X X' : fmatrix) : Prop := Forall2 (Forall2 same) X X'.
(** The social coefficient is zero and stays zero. *)
Definition no_social (c : config) : Prop := c_oh c = [] /\ exists z, num_of (N := F64num) (c_options c) "c2" = Ok z /\ feq z fzero = true.
(** The social draws are finite numbers. *)
Definition finite_social_draws (e : env) : Prop := forall t i j r, entry (vd_u2 (e_vel e t)) i j = Some r -> ffinite r = true.
(** The same objective, which does not look at the signs of zeros, the same cognitive draws and
    the same draws of the boundary handler. Social draws and neighbours may be different. *)
Definition same_but_social (e e' : env) : Prop :=
  (forall i X X', same_matrix X X' -> e_obj e' i X' = e_obj e i X) /\ (forall i, vd_u1 (e_vel e' i) = vd_u1 (e_vel e i)) /\
  (forall i, e_bh e' i = e_bh e i) /\ (forall m, e_tree e' m = e_tree e m) /\ finite_social_draws e /\ finite_social_draws e'.
(** No coordinate exceeds half of the largest numbers in magnitude. *)
Definition no_overflow (h : list fmatrix) : Prop := forall X, In X h -> forall i j x, entry X i j = Some x -> within 1022 x.
(** The particles went the same ways and found the same. *)
Definition same_ways (o o' : ostate) : Prop :=
  Forall2 same_matrix (o_pos_history o) (o_pos_history o') /\ Forall2 same_matrix (o_velocity_history o) (o_velocity_history o') /\
  o_mean_pbest_history o' = o_mean_pbest_history o /\
  same_matrix (s_position (o_swarm o)) (s_position (o_swarm o')) /\ same_matrix (s_velocity (o_swarm o)) (s_velocity (o_swarm o')) /\
  same_matrix (s_pbest_pos (o_swarm o)) (s_pbest_pos (o_swarm o')) /\ s_pbest_cost (o_swarm o') = s_pbest_cost (o_swarm o).
