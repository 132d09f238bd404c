(** Termination of [optimize] (C83). *)
From Coq Require Import String ZArith List Arith Bool Reals.
From Flocq Require Import Core IEEE754.BinarySingleNaN.
From Verif Require Import Prelude F64 F64Facts Num Np Handlers Swarms Operators Generators Topology Optimizers Spec SpecHandlers SpecDyn SpecTame SpecReflect
  Demo ExamplesHandlers ExamplesMotion RunMain ExamplesTame ReflectEnd ExamplesReflect.
Import ListNotations.
Local Open Scope string_scope.
Local Open Scope list_scope.
Local Open Scope nat_scope.

(** *** C83: a call of optimize() ends *)
(** One call of the reflective handler in float64: the number of passes, and where the coordinates are put. *)
Theorem C83_reflective : forall n d (b : bounds F64num) pos k, is_matrix n d pos -> box_dim d b -> b_arr b = true ->
  (forall i j x l u, entry pos i j = Some x -> column b j l u -> fisnan x = true \/
     within 1020 x /\ roomy l u (Rabs (FR x) + Rabs (FR l) + Rabs (FR u)) /\ (4 * (Rabs (FR x) + Rabs (FR l) + Rabs (FR u)) <= INR k * (FR u - FR l))%R) ->
  exists pos', is_matrix n d pos' /\
    (forall ug ul fuel mem, k <= fuel -> bh_call "reflective" (mkBhDraws ug ul fuel) mem b pos = Ok (pos', mem)) /\
    forall i j x l u, entry pos i j = Some x -> column b j l u -> exists x', entry pos' i j = Some x' /\ (fisnan x = true -> x' = x) /\
      (fisnan x = false -> fle l x' = true /\ fle x' u = true /\
         exists r, mirror_image (FR l) (FR u) (FR x) r /\ (Rabs (FR x' - r) <= INR k * (3 * bpow radix2 (-53) * (Rabs (FR x) + Rabs (FR l) + Rabs (FR u))))%R).
Proof. exact reflective_ends. Qed.
Print Assumptions C83_reflective.
Example C83_reflective_example : exists pos : matrix F64num, is_matrix 1 2 pos /\ box_dim 2 d_bounds /\ b_arr d_bounds = true /\
  (exists i j x l u, entry pos i j = Some x /\ column d_bounds j l u /\ flt u x = true) /\
  forall i j x l u, entry pos i j = Some x -> column d_bounds j l u -> fisnan x = true \/
    within 1020 x /\ roomy l u (Rabs (FR x) + Rabs (FR l) + Rabs (FR u)) /\ (4 * (Rabs (FR x) + Rabs (FR l) + Rabs (FR u)) <= INR 19 * (FR u - FR l))%R.
Proof. exact reflective_call. Qed.
(** Whole runs with any other handler, without bounds, or of the binary optimizer. *)
Theorem C83_other : forall c e pool iters o o' r, callbacks_end e -> c_kind c = Binary \/ c_bounds c = None \/ c_bh c <> "reflective" -> optimize c e pool iters o = (o', r) -> ~ endless r.
Proof. exact other_ends. Qed.
Print Assumptions C83_other.
Example C83_other_example : forall bh, In bh tame_strategies -> exists o o' v, callbacks_end m_e /\ optimize (m_c bh "unmodified" None) m_e None 4 o = (o', Ok v) /\ Fresh (m_c bh "unmodified" None) o.
Proof. exact other_run. Qed.
(** Whole runs with the reflective handler and a velocity clamp. *)
Theorem C83_run : forall c e pool iters o o' r b cl k, callbacks_end e -> c_kind c <> Binary -> c_bh c = "reflective" -> c_vh c = "unmodified" \/ c_vh c = "invert" \/ c_vh c = "adjust" ->
  c_bounds c = Some b -> c_clamp c = Some cl -> box_dim (c_d c) b -> b_arr b = true -> roomy_run b cl k -> (forall t, k <= bd_fuel (e_bh e t)) ->
  is_matrix (c_n c) (c_d c) (s_position (o_swarm o)) -> none_outside b (s_position (o_swarm o)) ->
  optimize c e pool iters o = (o', r) -> ~ endless r.
Proof. exact reflective_run_ends. Qed.
Print Assumptions C83_run.
Example C83_run_example : exists c e o o' v b cl, callbacks_end e /\ c_kind c <> Binary /\ c_bh c = "reflective" /\ c_vh c = "unmodified" /\ c_bounds c = Some b /\ c_clamp c = Some cl /\
  box_dim (c_d c) b /\ b_arr b = true /\ roomy_run b cl 32 /\ (forall t, 32 <= bd_fuel (e_bh e t)) /\
  is_matrix (c_n c) (c_d c) (s_position (o_swarm o)) /\ none_outside b (s_position (o_swarm o)) /\ optimize c e None 4 o = (o', Ok v).
Proof. exact ending_run. Qed.
(** In that run particles do leave the box: without a pass of the loop it does not get on. *)
Example C83_run_reflects : match d_run (u_c m_options (Some d_bounds) (Some en_clamp) "reflective") star m_cd en_short None 4 with Err OutOfFuel => true | _ => false end = true.
Proof. exact en_needs. Qed.
(** Without the clamp the run in the unit interval with inertia 1e30 never ends. *)
Theorem C83_unclamped_refuted : exists c top dr o, construct c top dr = Ok o /\ c_bh c = "reflective" /\ c_clamp c = None /\ (forall j l u, (exists b, c_bounds c = Some b /\ column b j l u) -> l = F 0 /\ u = F 1) /\
  forall fuel, exists e, callbacks_end e /\ (forall t, bd_fuel (e_bh e t) = fuel) /\ unit_velocity_draws e /\ forall iters, 0 < iters -> endless (snd (optimize c e None iters o)).
Proof. exact endless_run. Qed.
Print Assumptions C83_unclamped_refuted.
