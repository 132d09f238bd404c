(** Vocabulary of the property that only the order of the costs matters (C56). *)
From Coq Require Import String ZArith List Arith Bool.
From Verif Require Import Prelude F64 Num Handlers Swarms Operators Generators Topology Optimizers Spec SpecLike.
Import ListNotations.
Local Open Scope list_scope.

(** [C x x']: where the one objective gives x, the other may give x'. All comparisons between costs come out alike; [inf], the cost of an unevaluated particle, belongs to [inf]. *)
Definition order_alike (C : f64 -> f64 -> Prop) : Prop :=
  C finf finf /\ forall x x' y y', C x x' -> C y y' -> fle x' y' = fle x y.
Section Rank.
Variable C : f64 -> f64 -> Prop.
(** The two objectives raise the same exceptions and rank all positions alike. *)
Definition ranks_alike (f f' : fmatrix -> res (list f64)) : Prop :=
  forall X, match f X, f' X with Ok l, Ok l' => Forall2 C l l' | Err x, Err x' => x' = x | _, _ => False end.
Definition ranked_env (e e' : env) : Prop :=
  (forall i, ranks_alike (e_obj e i) (e_obj e' i)) /\ (forall i, e_vel e' i = e_vel e i) /\ (forall i, e_bh e' i = e_bh e i) /\ (forall i, e_oh e' i = e_oh e i) /\
  (forall i, e_top e' i = e_top e i) /\ (forall i, e_bits e' i = e_bits e i) /\ (forall x, e_exp e' x = e_exp e x).
(** The same swarm, except for the costs. *)
Definition swarm_ranked (s s' : fswarm) : Prop :=
  s_position s' = s_position s /\ s_velocity s' = s_velocity s /\ s_n s' = s_n s /\ s_d s' = s_d s /\ s_options s' = s_options s /\
  s_pbest_pos s' = s_pbest_pos s /\ s_best_pos s' = s_best_pos s /\ s_best_np s' = s_best_np s /\
  Forall2 C (s_pbest_cost s) (s_pbest_cost s') /\ C (s_best_cost s) (s_best_cost s') /\ Forall2 C (s_current_cost s) (s_current_cost s').
Definition state_ranked (o o' : ostate) : Prop :=
  swarm_ranked (o_swarm o) (o_swarm o') /\ o_top o' = o_top o /\ o_bmem o' = o_bmem o /\ o_vmem o' = o_vmem o /\
  Forall2 C (o_cost_history o) (o_cost_history o') /\ Forall2 C (o_mean_neighbor_history o) (o_mean_neighbor_history o') /\
  o_pos_history o' = o_pos_history o /\ o_velocity_history o' = o_velocity_history o.
(** The same position at the other cost, or the same exception. *)
Definition result_ranked (r r' : res (f64 * frow)) : Prop :=
  match r, r' with
  | Ok (cost, pos), Ok (cost', pos') => C cost cost' /\ pos' = pos
  | Err x, Err x' => x' = x
  | _, _ => False
  end.
Definition ranked_call (k k' : call) : Prop := ranked_env (k_env k) (k_env k') /\ k_pool k' = k_pool k /\ k_iters k' = k_iters k.
End Rank.
