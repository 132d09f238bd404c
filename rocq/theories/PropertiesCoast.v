(** A swarm without attraction coasts (C80). *)
From Coq Require Import String ZArith List Arith Bool.
From Verif Require Import Prelude F64 Num Np Handlers Swarms Operators Generators Topology Optimizers
  Spec SpecHandlers SpecOpts SpecDyn SpecMirror SpecTame SpecAlone SpecCoast Coast Demo ExamplesCoast.
Import ListNotations.
Local Open Scope string_scope.
Local Open Scope list_scope.
Local Open Scope nat_scope.

(** *** C80: a swarm without attraction coasts, and stops if and only if the inertia is at most one half *)
(** Every velocity is the inertia weight times the one before, up to the sign of a zero and the velocity limits. *)
Theorem C80_coasts : forall c e pool iters o o' r, Fresh c o -> c_kind c <> Binary -> c_vh c = "unmodified" -> NoDup (dkeys (c_options c)) -> no_pull c e iters -> finite_draws e ->
  pool <> Some 0 -> optimize c e pool iters o = (o', r) -> no_overflow (o_pos_history o') ->
  (forall V, nth_error (o_velocity_history o') 0 = Some V -> V = s_velocity (o_swarm o)) /\
  forall t V V' i j v, nth_error (o_velocity_history o') t = Some V -> nth_error (o_velocity_history o') (S t) = Some V' -> entry V i j = Some v ->
    exists w raw v', coefficient c e iters t "w" w /\ same (fmul w v) raw /\ clamped (c_clamp c) j raw v' /\ entry V' i j = Some v'.
Proof. exact coast_equation. Qed.
Print Assumptions C80_coasts.
(** With an inertia of at most one no particle ever gets faster. *)
Theorem C80_slows : forall c e pool iters o o' r, Fresh c o -> c_kind c <> Binary -> c_vh c = "unmodified" -> NoDup (dkeys (c_options c)) -> no_pull c e iters -> finite_draws e -> may_stop c ->
  inertia c e iters (fun w => fle (fabs w) fone = true) -> finite_matrix (s_velocity (o_swarm o)) -> pool <> Some 0 -> optimize c e pool iters o = (o', r) -> no_overflow (o_pos_history o') ->
  forall s t V V' i j v, s <= t -> nth_error (o_velocity_history o') s = Some V -> nth_error (o_velocity_history o') t = Some V' -> entry V i j = Some v ->
    exists v', entry V' i j = Some v' /\ ffinite v' = true /\ fle (fabs v') (fabs v) = true.
Proof. exact coast_slows. Qed.
Print Assumptions C80_slows.
(** Three particles under velocity limits, still moving in the last iteration. *)
Example C80_example : exists c e o z v V y, Fresh c o /\ c_kind c <> Binary /\ c_vh c = "unmodified" /\ c_clamp c <> None /\ NoDup (dkeys (c_options c)) /\ no_pull c e 4 /\ finite_draws e /\ may_stop c /\
  inertia c e 4 (fun w => fle (fabs w) fone = true) /\ finite_matrix (s_velocity (o_swarm o)) /\ optimize c e None 4 o = (z, Ok v) /\ no_overflow (o_pos_history z) /\
  nth_error (o_velocity_history z) 3 = Some V /\ entry V 0 0 = Some y /\ feq y fzero = false.
Proof. exact coast_demo. Qed.
(** With an inertia of at most one half all velocities are zero from the iteration with index 2099 on, and particles inside the bounds stay where they are. *)
Theorem C80_rest : forall c e pool iters o o' r, Fresh c o -> c_kind c <> Binary -> c_vh c = "unmodified" -> NoDup (dkeys (c_options c)) -> no_pull c e iters -> finite_draws e -> may_stop c ->
  inertia c e iters (fun w => fle (fabs w) (fdec 1 2) = true) -> finite_matrix (s_velocity (o_swarm o)) -> pool <> Some 0 -> optimize c e pool iters o = (o', r) -> no_overflow (o_pos_history o') ->
  (forall t V i j v, (2099 <= Z.of_nat t)%Z -> nth_error (o_velocity_history o') t = Some V -> entry V i j = Some v -> feq v fzero = true) /\
  forall s t X X' i x, (2098 <= Z.of_nat s)%Z -> s <= t -> nth_error (o_pos_history o') s = Some X -> nth_error (o_pos_history o') t = Some X' -> nth_error X i = Some x -> is_inside c x ->
    exists x', nth_error X' i = Some x' /\ Forall2 same x x'.
Proof. exact coast_rest. Qed.
Print Assumptions C80_rest.
(** A run of 2101 iterations in which a velocity with index 2098 is still not zero: the number cannot be lowered. *)
Example C80_example_rest : exists c e o z v s V y V' y', Fresh c o /\ c_kind c <> Binary /\ c_vh c = "unmodified" /\ c_bounds c <> None /\ NoDup (dkeys (c_options c)) /\ no_pull c e (Z.to_nat 2101) /\ finite_draws e /\ may_stop c /\
  inertia c e (Z.to_nat 2101) (fun w => fle (fabs w) (fdec 1 2) = true) /\ finite_matrix (s_velocity (o_swarm o)) /\ optimize c e None (Z.to_nat 2101) o = (z, Ok v) /\ no_overflow (o_pos_history z) /\
  Z.of_nat s = 2098%Z /\ nth_error (o_velocity_history z) s = Some V /\ entry V 0 0 = Some y /\ feq y fzero = false /\ nth_error (o_velocity_history z) (S s) = Some V' /\ entry V' 0 0 = Some y'.
Proof. exact rest_demo. Qed.
(** With an inertia of more than one half a velocity that is not zero at the start never becomes zero, however long the run. *)
Theorem C80_restless : forall c e pool iters o o' r, Fresh c o -> c_kind c <> Binary -> c_vh c = "unmodified" -> c_clamp c = None -> NoDup (dkeys (c_options c)) -> no_pull c e iters -> finite_draws e ->
  inertia c e iters (fun w => flt (fdec 1 2) (fabs w) = true) -> pool <> Some 0 -> optimize c e pool iters o = (o', r) -> no_overflow (o_pos_history o') ->
  forall t V i j v, nth_error (o_velocity_history o') t = Some V -> entry (s_velocity (o_swarm o)) i j = Some v -> feq v fzero = false ->
    exists v', entry V i j = Some v' /\ feq v' fzero = false.
Proof. exact coast_restless. Qed.
Print Assumptions C80_restless.
(** The least positive number times 9/10 is the least positive number. *)
Example C80_example_restless : exists c e o z v u V y, Fresh c o /\ c_kind c <> Binary /\ c_vh c = "unmodified" /\ c_clamp c = None /\ NoDup (dkeys (c_options c)) /\ no_pull c e 4 /\ finite_draws e /\
  inertia c e 4 (fun w => flt (fdec 1 2) (fabs w) = true) /\ optimize c e None 4 o = (z, Ok v) /\ no_overflow (o_pos_history z) /\ entry (s_velocity (o_swarm o)) 0 0 = Some u /\ feq u fzero = false /\
  nth_error (o_velocity_history z) 3 = Some V /\ entry V 0 0 = Some y /\ feq y (fofZe 1 (-1074)) = true.
Proof. exact restless_demo. Qed.
