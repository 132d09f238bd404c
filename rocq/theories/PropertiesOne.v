(** Swarms of one dimension that know no best position (C88). *)
From Coq Require Import String ZArith List Arith Bool.
From Verif Require Import Prelude F64 Num Np Handlers Swarms Operators Generators Topology Optimizers OneDim
  Spec SpecHandlers SpecRun SpecOne OneFacts Demo ExamplesOne.
Import ListNotations.
Local Open Scope string_scope.
Local Open Scope list_scope.
Local Open Scope nat_scope.

(** *** C88: one dimension and no best position *)
(** The model agrees with [optimize] wherever that one says anything. *)
Theorem C88_agrees : forall c e pool iters o, (s_d (o_swarm o) = 1 -> shaped (c_n c) 1 (o_swarm o)) -> snd (optimize c e pool iters o) <> Err Unmodelled -> optimize_one c e pool iters o = optimize c e pool iters o.
Proof. exact one_agrees. Qed.
Print Assumptions C88_agrees.
(** A star in one dimension whose first evaluation finds nothing below infinity: ValueError, and the velocities are gone. *)
Theorem C88_first : forall c top dr o e iters, construct c top dr = Ok o -> t_kind top = Star -> c_d c = 1 -> 1 <= c_n c -> shaped_draws (c_n c) 1 dr -> (forall p, c_init c = Some p -> is_matrix (c_n c) 1 p) ->
  orderly c -> keeps_shape c -> drawn (c_n c) e 0 -> finds_nothing (c_n c) e 0 -> 1 <= iters ->
  exists o', optimize_one c e None iters o = (o', Err ValueError) /\ ruined (c_n c) o' /\ s_position (o_swarm o') = s_position (o_swarm o).
Proof. exact one_first. Qed.
Print Assumptions C88_first.
(** From then on every call raises, whatever the objective returns. *)
Theorem C88_forever : forall n c calls o, 1 <= n -> c_kind c <> Binary -> c_vh c <> "adjust" -> 1 <= c_ftol_iter c -> ruined n o ->
  ruined n (after c calls o) /\ s_position (o_swarm (after c calls o)) = s_position (o_swarm o) /\ forall e pool iters, 1 <= iters -> exists x, snd (optimize_one c e pool iters (after c calls o)) = Err x.
Proof. exact one_forever. Qed.
Print Assumptions C88_forever.
(** "adjust" computes the velocities anew: all iterations are made, and only the result is missing. *)
Theorem C88_adjust : forall c top dr o e iters, construct c top dr = Ok o -> t_kind top = Star -> c_d c = 1 -> 1 <= c_n c -> shaped_draws (c_n c) 1 dr -> (forall p, c_init c = Some p -> is_matrix (c_n c) 1 p) ->
  orderly c -> c_vh c = "adjust" -> c_bounds c = None -> c_clamp c = None -> (forall j, drawn (c_n c) e j /\ finds_nothing (c_n c) e j) ->
  exists o', optimize_one c e None iters o = (o', Err AttributeError) /\ length (o_pos_history o') = iters /\ shaped (c_n c) 1 (o_swarm o').
Proof. exact one_adjust. Qed.
Print Assumptions C88_adjust.
Example C88_agrees_example : exists c top dr o e o' v, construct c top dr = Ok o /\ s_d (o_swarm o) = 1 /\ shaped (c_n c) 1 (o_swarm o) /\ optimize c e None 4 o = (o', Ok v).
Proof. exact agrees_demo. Qed.
Example C88_first_example : exists c top dr o e, construct c top dr = Ok o /\ t_kind top = Star /\ c_d c = 1 /\ 1 <= c_n c /\ shaped_draws (c_n c) 1 dr /\ (forall p, c_init c = Some p -> is_matrix (c_n c) 1 p) /\ orderly c /\ keeps_shape c /\
  drawn (c_n c) e 0 /\ finds_nothing (c_n c) e 0.
Proof. exact first_demo. Qed.
Example C88_forever_example : exists c top dr o0 e o, construct c top dr = Ok o0 /\ optimize_one c e None 4 o0 = (o, Err ValueError) /\ c_kind c <> Binary /\ c_vh c <> "adjust" /\ 1 <= c_ftol_iter c /\ ruined 3 o.
Proof. exact forever_demo. Qed.
Example C88_adjust_example : exists c top dr o e, construct c top dr = Ok o /\ t_kind top = Star /\ c_d c = 1 /\ 1 <= c_n c /\ shaped_draws (c_n c) 1 dr /\ (forall p, c_init c = Some p -> is_matrix (c_n c) 1 p) /\ orderly c /\ c_vh c = "adjust" /\
  c_bounds c = None /\ c_clamp c = None /\ forall j, drawn (c_n c) e j /\ finds_nothing (c_n c) e j.
Proof. exact adjust_demo. Qed.
(** In two dimensions the next call can succeed. *)
Example C88_two_dimensions_example : exists c top dr o e o1 e' o2 v, construct c top dr = Ok o /\ c_d c = 2 /\ optimize_one c e None 4 o = (o1, Err ValueError) /\ optimize_one c e' None 4 o1 = (o2, Ok v).
Proof. exact two_dimensions. Qed.
