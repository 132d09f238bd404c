(** Vocabulary of the property about objectives that return one number (C90). *)
From Coq Require Import String ZArith List Arith Bool.
From Verif Require Import Prelude F64 Num Np Handlers Swarms Operators Generators Topology Optimizers Broadcast.
Import ListNotations.
Local Open Scope list_scope.

(** Equal up to [swarm.current_cost]. *)
Definition but_cost (o1 o2 : ostate) : Prop :=
  (exists cs, o_swarm o1 = set_current_cost (o_swarm o2) cs) /\ o_top o1 = o_top o2 /\ o_bmem o1 = o_bmem o2 /\ o_vmem o1 = o_vmem o2 /\
  o_cost_history o1 = o_cost_history o2 /\ o_mean_pbest_history o1 = o_mean_pbest_history o2 /\ o_mean_neighbor_history o1 = o_mean_neighbor_history o2 /\
  o_pos_history o1 = o_pos_history o2 /\ o_velocity_history o1 = o_velocity_history o2.
(** The same outcome, and the same object up to [swarm.current_cost]. *)
Definition same_run (r1 r2 : ostate * res (f64 * frow)) : Prop := snd r1 = snd r2 /\ but_cost (fst r1) (fst r2).
(** [g] returns for each of [n] particles what [f] returns once, and what [f] returns otherwise. *)
Definition repeats (n : nat) (f : nat -> fmatrix -> res given) (g : nat -> fmatrix -> res (list f64)) : Prop := forall i X,
  (forall x, f i X = Ok (Single x) \/ f i X = Ok (Array [x]) -> g i X = Ok (repeat x n)) /\
  (forall l, length l <> 1 -> f i X = Ok (Array l) -> g i X = Ok l) /\
  (forall x, f i X = Err x -> g i X = Err x).
(** The environment [e] with another objective. *)
Definition asking (e : env) (g : nat -> fmatrix -> res (list f64)) : env := mkEnv g (e_vel e) (e_bh e) (e_oh e) (e_top e) (e_bits e) (e_exp e) (e_tree e).
(** Nothing but the personal best costs and [current_cost] has changed. *)
Definition untouched (o' o : ostate) : Prop :=
  s_position (o_swarm o') = s_position (o_swarm o) /\ s_velocity (o_swarm o') = s_velocity (o_swarm o) /\ s_pbest_pos (o_swarm o') = s_pbest_pos (o_swarm o) /\
  s_best_pos (o_swarm o') = s_best_pos (o_swarm o) /\ s_best_cost (o_swarm o') = s_best_cost (o_swarm o) /\ s_options (o_swarm o') = s_options (o_swarm o) /\ o_top o' = o_top o /\
  o_cost_history o' = o_cost_history o /\ o_mean_pbest_history o' = o_mean_pbest_history o /\ o_mean_neighbor_history o' = o_mean_neighbor_history o /\
  o_pos_history o' = o_pos_history o /\ o_velocity_history o' = o_velocity_history o.
