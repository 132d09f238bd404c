(** Vocabulary of the property that a call forgets the earlier ones (C78). *)
From Coq Require Import String ZArith List Arith Bool.
From Verif Require Import Prelude F64 Num Handlers Swarms Operators Generators Topology Optimizers.
Import ListNotations.
Local Open Scope list_scope.

(** A new object put where this one stands: the same positions, velocities, options and
    topology, but no personal bests, no swarm best and no histories. *)
Definition restarted (o : ostate) : ostate :=
  let s := o_swarm o in
  mkOstate (mkSwarm (N := F64num) (s_position s) (s_velocity s) (s_n s) (s_d s) (s_options s) (s_position s) (BPEmpty (N := F64num)) [] finf false [])
    (o_top o) None None [] [] [] [] [].
(** The same, with the best cost and position of the swarm kept. *)
Definition restarted_with_best (o : ostate) : ostate :=
  let s := o_swarm o in
  with_swarm (restarted o) (set_best (o_swarm (restarted o)) (s_best_pos s) (s_best_cost s) (s_best_np s)).
(** Every cost of the first evaluation is below infinity (in particular, none is NaN). *)
Definition starts_below_inf (e : env) (pool : option nat) (o : ostate) : Prop :=
  forall cost, compute_objective_function pool (e_obj e 0) (s_position (o_swarm o)) = Ok cost -> Forall (fun x => flt x finf = true) cost.
(** The two calls, from [o] to [o1] and from [p] to [p1], added the same records. *)
Definition same_new_records (o o1 p p1 : ostate) : Prop :=
  exists hc hm hn hp hv,
    (o_cost_history o1 = o_cost_history o ++ hc /\ o_cost_history p1 = o_cost_history p ++ hc) /\
    (o_mean_pbest_history o1 = o_mean_pbest_history o ++ hm /\ o_mean_pbest_history p1 = o_mean_pbest_history p ++ hm) /\
    (o_mean_neighbor_history o1 = o_mean_neighbor_history o ++ hn /\ o_mean_neighbor_history p1 = o_mean_neighbor_history p ++ hn) /\
    (o_pos_history o1 = o_pos_history o ++ hp /\ o_pos_history p1 = o_pos_history p ++ hp) /\
    (o_velocity_history o1 = o_velocity_history o ++ hv /\ o_velocity_history p1 = o_velocity_history p ++ hv).
