(** Two runs whose rows are related by [re]: vocabulary of C74 and C75. *)
From Coq Require Import String ZArith List Arith Bool.
From Verif Require Import Prelude F64 Num Handlers Swarms Operators Generators Topology Optimizers.
Import ListNotations.
Local Open Scope list_scope.

Definition maybe {A B} (R : A -> B -> Prop) (x : option A) (y : option B) : Prop :=
  match x, y with Some a, Some b => R a b | None, None => True | _, _ => False end.
Section Like.
(** Number of dimensions, and how the rows (positions, velocities) of the two runs are related. *)
Variable d : nat.
Variable re : frow -> frow -> Prop.
Definition best_like (b b' : fbestpos) : Prop :=
  match b, b' with
  | BPEmpty, BPEmpty => True
  | BPVec v, BPVec v' => re v v'
  | BPMat m, BPMat m' => Forall2 re m m'
  | _, _ => False
  end.
Definition swarm_like (s s' : fswarm) : Prop :=
  Forall2 re (s_position s) (s_position s') /\ Forall2 re (s_velocity s) (s_velocity s') /\ s_n s' = s_n s /\ s_d s = d /\ s_d s' = d /\ s_options s' = s_options s /\
  Forall2 re (s_pbest_pos s) (s_pbest_pos s') /\ best_like (s_best_pos s) (s_best_pos s') /\ s_pbest_cost s' = s_pbest_cost s /\
  s_best_cost s' = s_best_cost s /\ s_best_np s' = s_best_np s /\ s_current_cost s' = s_current_cost s.
(** Positions, velocities and their histories are related; costs and neighbours are the same. *)
Definition state_like (o o' : ostate) : Prop :=
  swarm_like (o_swarm o) (o_swarm o') /\ o_top o' = o_top o /\ maybe (Forall2 re) (o_bmem o) (o_bmem o') /\ maybe (Forall2 re) (o_vmem o) (o_vmem o') /\
  o_cost_history o' = o_cost_history o /\ o_mean_pbest_history o' = o_mean_pbest_history o /\ o_mean_neighbor_history o' = o_mean_neighbor_history o /\
  Forall2 (Forall2 re) (o_pos_history o) (o_pos_history o') /\ Forall2 (Forall2 re) (o_velocity_history o) (o_velocity_history o').
(** The same cost and related positions, or the same exception. *)
Definition result_like (r r' : res (f64 * frow)) : Prop :=
  match r, r' with
  | Ok (cost, pos), Ok (cost', pos') => cost' = cost /\ re pos pos'
  | Err x, Err x' => x' = x
  | _, _ => False
  end.
(** Both objects are built, in related states, or both attempts raise the same exception. *)
Definition built_like (r r' : res ostate) : Prop :=
  match r, r' with Ok o, Ok o' => state_like o o' | Err x, Err x' => x' = x | _, _ => False end.
End Like.
