(** Vocabulary of the property that a neighbourhood of everybody is a star (C77). *)
From Coq Require Import String ZArith List Arith Bool.
From Verif Require Import Prelude F64 Num Handlers Swarms Operators Generators Topology Optimizers Spec SpecMirror SpecShuffle.
Import ListNotations.
Local Open Scope string_scope.
Local Open Scope list_scope.
Local Open Scope nat_scope.

(** The same arguments given to another class of optimizer. *)
Definition with_kind (c : config) (k : opt_kind) : config :=
  mkConfig k (c_n c) (c_d c) (c_options c) (c_bounds c) (c_clamp c) (c_center c) (c_ftol c) (c_ftol_iter c) (c_init c) (c_bh c) (c_vh c) (c_oh c).
(** Nearest-neighbour queries for [n] neighbours among [n] particles are answered, as the
    contract of such a query demands. *)
Definition queries_all (e : env) (p : Z) (n : nat) : Prop :=
  forall t X, length X = n -> exists rows dist, te_knn (e_top e t) p n X = Ok rows /\ knn_contract dist n X rows.
(** With [n] particles in [d] dimensions, the topology makes everybody a neighbour of everybody:
    a ring of [n] neighbours, a lattice whose ball has [n] points, too few particles for a
    pyramid, or a random graph of degree [n - 1]. *)
Definition sees_everybody (c : config) (e : env) (n d : nat) (k : topo_kind) : Prop :=
  match k with
  | Star => False
  | Ring => 2 <= n /\ (c_kind c = LocalBest \/ c_kind c = General) /\
      exists p, int_option c "p" p /\ int_option c "k" (Z.of_nat n) /\ queries_all e p n
  | VonNeumann => 2 <= n /\ c_kind c = General /\
      exists p r, int_option c "p" p /\ int_option c "r" (Z.of_nat r) /\ counts_ball d r n /\ queries_all e p n
  | Pyramid => 1 <= n <= d
  | Random => 1 <= n /\ c_kind c = General /\ int_option c "k" (Z.of_nat (n - 1)) /\
      forall t, choice_ok n (n - 1) (te_choice (e_top e t))
  end.
(** The two swarms went the same way: positions, velocities, personal bests and their means are
    identical, best costs are equal. *)
Definition same_course (o o' : ostate) : Prop :=
  o_pos_history o' = o_pos_history o /\ o_velocity_history o' = o_velocity_history o /\
  o_mean_pbest_history o' = o_mean_pbest_history o /\
  Forall2 same (o_cost_history o) (o_cost_history o') /\ Forall2 same (o_mean_neighbor_history o) (o_mean_neighbor_history o') /\
  s_position (o_swarm o') = s_position (o_swarm o) /\ s_velocity (o_swarm o') = s_velocity (o_swarm o) /\
  s_pbest_pos (o_swarm o') = s_pbest_pos (o_swarm o) /\ s_pbest_cost (o_swarm o') = s_pbest_cost (o_swarm o) /\
  s_current_cost (o_swarm o') = s_current_cost (o_swarm o) /\ s_options (o_swarm o') = s_options (o_swarm o) /\
  same (s_best_cost (o_swarm o)) (s_best_cost (o_swarm o')).
(** Equal costs and the same position, or the same exception. *)
Definition same_result (r r' : res (f64 * frow)) : Prop :=
  match r, r' with
  | Ok (cost, pos), Ok (cost', pos') => same cost cost' /\ pos' = pos
  | Err x, Err x' => x' = x
  | _, _ => False
  end.
