(** The units of the dimensions do not matter (C84). *)
From Coq Require Import String ZArith Reals List Arith Bool.
From Flocq Require Import Core.
From Verif Require Import Prelude F64 F64Facts Num Np Handlers Swarms Operators Generators Topology Optimizers
  Spec SpecDyn SpecLike SpecScale Scale Demo ExamplesMirror ExamplesScale.
Import ListNotations.
Local Open Scope string_scope.
Local Open Scope list_scope.
Local Open Scope nat_scope.

(** *** C84: measuring the dimensions in other units gives the same run in those units *)
(** Optimizers built with the first positions and velocities in the two units are in corresponding states. *)
Theorem C84_construct : forall ks c c' top dr dr' o o', scaled_config ks c c' -> construct c top dr = Ok o -> construct c' top dr' = Ok o' ->
  Forall2 (scaled ks) (s_position (o_swarm o)) (s_position (o_swarm o')) -> Forall2 (scaled ks) (s_velocity (o_swarm o)) (s_velocity (o_swarm o')) ->
  state_like (length ks) (scaled ks) o o' /\ moderate_bests o.
Proof. exact scale_construct. Qed.
Print Assumptions C84_construct.
(** Not one bit of a cost differs, and the positions differ by the factors exactly; an exception is the same. The last part lets the theorem be used again for the next call. *)
Theorem C84_optimize : forall ks c c' e e' pool iters o o', factors ks -> scaled_config ks c c' -> scaled_env ks e e' -> c_kind c <> Binary -> c_bh c <> "shrink" -> NoDup (dkeys (c_options c)) ->
  moderate_draws e -> moderate_coefficients c e iters -> few_reflections c e -> state_like (length ks) (scaled ks) o o' -> moderate_bests o -> moderate_record (fst (optimize c e pool iters o)) ->
  state_like (length ks) (scaled ks) (fst (optimize c e pool iters o)) (fst (optimize c' e' pool iters o')) /\
  result_like (scaled ks) (snd (optimize c e pool iters o)) (snd (optimize c' e' pool iters o')) /\
  forall cost pos, snd (optimize c e pool iters o) = Ok (cost, pos) -> moderate_bests (fst (optimize c e pool iters o)).
Proof. exact scale_optimize. Qed.
Print Assumptions C84_optimize.
(** Which numbers are moderate. *)
Theorem C84_moderate : forall x, ffinite x = true -> FR x = 0%R \/ (bpow radix2 (-347) <= Rabs (FR x) <= bpow radix2 400)%R -> moderate x.
Proof. exact moderate_range. Qed.
Print Assumptions C84_moderate.
(** With velocities near the least positive number the runs differ. *)
Theorem C84_underflow_refuted : exists ks c e o o' q q' v v',
  factors ks /\ scaled_config ks c c /\ scaled_env ks e e /\ c_kind c <> Binary /\ c_bh c <> "shrink" /\ NoDup (dkeys (c_options c)) /\ moderate_draws e /\ moderate_coefficients c e 1 /\ few_reflections c e /\
  state_like (length ks) (scaled ks) o o' /\ moderate_bests o /\ optimize c e None 1 o = (q, Ok v) /\ optimize c e None 1 o' = (q', Ok v') /\ ~ Forall2 (scaled ks) (s_position (o_swarm q)) (s_position (o_swarm q')).
Proof. exact scale_underflow. Qed.
Print Assumptions C84_underflow_refuted.
Example C84_example : exists ks c c' e e' o o' dr q cost pos,
  factors ks /\ (forall k, In k ks -> k <> 0%Z) /\ scaled_config ks c c' /\ scaled_env ks e e' /\ c_kind c <> Binary /\ c_bh c <> "shrink" /\ NoDup (dkeys (c_options c)) /\ moderate_draws e /\ moderate_coefficients c e 4 /\ few_reflections c e /\
  construct c star dr = Ok o /\ construct c' star dr = Ok o' /\ state_like (length ks) (scaled ks) o o' /\ moderate_bests o /\ optimize c e None 4 o = (q, Ok (cost, pos)) /\ moderate_record q /\ feq (nth 0 pos fzero) fzero = false /\
  exists x v, In (x, v) (combine (o_pos_history q) (tl (o_velocity_history q))) /\ any_out (N := F64num) (map2 (map2 fadd) x v) m_bounds = true /\ c_bounds c = Some m_bounds.
Proof. exact scale_demo. Qed.
