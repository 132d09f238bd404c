(** Without a social coefficient the topology does not matter (C79). *)
From Coq Require Import String ZArith List Arith Bool.
From Verif Require Import Prelude F64 Num Np Handlers Swarms Operators Generators Topology Optimizers
  Spec SpecHandlers SpecMirror SpecTame SpecEverybody SpecAlone Alone Demo ExamplesAlone.
Import ListNotations.
Local Open Scope string_scope.
Local Open Scope list_scope.
Local Open Scope nat_scope.

(** *** C79: without a social coefficient the topology does not matter *)
Theorem C79_alone : forall c kd top top' dr e e' pool iters o o' z z' p p' y y', c_kind c <> Binary -> kd <> Binary -> c_bh c <> "shrink" -> c_ftol c = fninf -> no_social c -> same_but_social e e' ->
  construct c top dr = Ok o -> construct (with_kind c kd) top' dr = Ok o' ->
  optimize c e pool iters o = (z, Ok (y, p)) -> optimize (with_kind c kd) e' pool iters o' = (z', Ok (y', p')) -> no_overflow (o_pos_history z) ->
  same_ways z z' /\ Forall2 same p p'.
Proof. exact topology_idle. Qed.
Print Assumptions C79_alone.
(** A star and a ring under other social draws; the best cost improves. *)
Example C79_example : exists c kd top top' dr e e' o o' z z' y p y' p', c_kind c <> Binary /\ kd <> Binary /\ c_bh c <> "shrink" /\ c_ftol c = fninf /\ no_social c /\ same_but_social e e' /\
  construct c top dr = Ok o /\ construct (with_kind c kd) top' dr = Ok o' /\ t_kind top = Star /\ t_kind top' = Ring /\ optimize c e None 4 o = (z, Ok (y, p)) /\ optimize (with_kind c kd) e' None 4 o' = (z', Ok (y', p')) /\ no_overflow (o_pos_history z) /\
  exists a b, nth_error (o_cost_history z) 0 = Some a /\ nth_error (o_cost_history z) 3 = Some b /\ flt b a = true.
Proof. exact alone_demo. Qed.
(** With a social coefficient, and with overflowing differences, it does. *)
Theorem C79_social_refuted : exists c kd top top' dr e o o' z z' y p y' p', c_kind c <> Binary /\ kd <> Binary /\ c_bh c <> "shrink" /\ c_ftol c = fninf /\ c_oh c = [] /\ same_but_social e e /\
  construct c top dr = Ok o /\ construct (with_kind c kd) top' dr = Ok o' /\ optimize c e None 4 o = (z, Ok (y, p)) /\ optimize (with_kind c kd) e None 4 o' = (z', Ok (y', p')) /\ no_overflow (o_pos_history z) /\ ~ same_ways z z'.
Proof. exact social_parts. Qed.
Print Assumptions C79_social_refuted.
Theorem C79_overflow_refuted : exists c kd top top' dr e o o' z z' y p y' p', c_kind c <> Binary /\ kd <> Binary /\ c_bh c <> "shrink" /\ c_ftol c = fninf /\ no_social c /\ same_but_social e e /\
  construct c top dr = Ok o /\ construct (with_kind c kd) top' dr = Ok o' /\ optimize c e None 4 o = (z, Ok (y, p)) /\ optimize (with_kind c kd) e None 4 o' = (z', Ok (y', p')) /\ ~ same_ways z z'.
Proof. exact overflow_parts. Qed.
Print Assumptions C79_overflow_refuted.
