(** Bounds of one element, and plain numbers as bounds (C87). *)
From Coq Require Import String ZArith List Arith Bool.
From Verif Require Import Prelude F64 Num Np Handlers Swarms Operators Generators Topology Optimizers SmallBounds
  Spec SpecHandlers SpecSmall SmallFacts Demo ExamplesSmall.
Import ListNotations.
Local Open Scope string_scope.
Local Open Scope list_scope.
Local Open Scope nat_scope.

(** *** C87: bounds that numpy repeats over the dimensions *)
(** Numbers as bounds are accepted only together with [init_pos]. *)
Theorem C87_construct : forall c b top dr o, construct_small c b top dr = Ok o <-> construct (spelled c b) top dr = Ok o /\ (sb_form b = FOne \/ c_kind c = Binary \/ c_init c <> None).
Proof. exact spelled_construct. Qed.
Print Assumptions C87_construct.
(** "nearest" always, and "random" with arrays of one element: the run with the bounds written out. *)
Theorem C87_free : forall c b e pool iters o, carefree c b -> optimize_small c b e pool iters o = optimize (spelled c b) e pool iters o.
Proof. exact spelled_free. Qed.
Print Assumptions C87_free.
(** All others: that run, or an exception whose cause is the last move, after a part of it. *)
Theorem C87_agrees : forall c b e pool iters o,
  optimize_small c b e pool iters o = optimize (spelled c b) e pool iters o \/
  exists o' x, optimize_small c b e pool iters o = (o', Err x) /\
    ((hopeless c b /\ x = TypeError) \/ exists j0, fragile c b j0 x /\ strays b j0 (s_position (o_swarm o')) (s_velocity (o_swarm o'))) /\
    forall o2 v, optimize (spelled c b) e pool iters o = (o2, Ok v) -> records_begin o' o2.
Proof. exact spelled_agrees. Qed.
Print Assumptions C87_agrees.
(** A call that returns has made no such move. *)
Theorem C87_inside : forall c b e pool iters o o' r j0 x, optimize_small c b e pool iters o = (o', Ok r) -> fragile c b j0 x ->
  exists ps vs, o_pos_history o' = o_pos_history o ++ ps /\ o_velocity_history o' = o_velocity_history o ++ vs /\
    forall t p v, nth_error ps t = Some p -> nth_error vs (S t) = Some v -> ~ strays b j0 p v.
Proof. exact small_inside. Qed.
Print Assumptions C87_inside.
(** With numbers "random", "shrink" and "intermediate" never work. *)
Theorem C87_hopeless : forall c b e pool iters o, hopeless c b -> 1 <= iters -> 1 <= c_ftol_iter c ->
  exists o' x, optimize_small c b e pool iters o = (o', Err x) /\ s_position (o_swarm o') = s_position (o_swarm o) /\ (forall o2 v, optimize (spelled c b) e pool iters o = (o2, Ok v) -> x = TypeError).
Proof. exact spelled_hopeless. Qed.
Print Assumptions C87_hopeless.
Example C87_free_example : exists c b top dr e o o' v, construct_small c b top dr = Ok o /\ c_d c = 2 /\ carefree c b /\ sb_form b = FOne /\ optimize_small c b e None 4 o = (o', Ok v).
Proof. exact free_demo. Qed.
Example C87_inside_example : exists c b top dr e o o' v, construct_small c b top dr = Ok o /\ c_d c = 2 /\ fragile c b 1 IndexError /\ sb_form b = FScalar /\ optimize_small c b e None 4 o = (o', Ok v).
Proof. exact inside_demo. Qed.
Example C87_index_example : exists c b top dr e o o' o2 v, construct_small c b top dr = Ok o /\ c_d c = 2 /\ fragile c b 1 IndexError /\ optimize_small c b e None 4 o = (o', Err IndexError) /\ optimize (spelled c b) e None 4 o = (o2, Ok v).
Proof. exact index_demo. Qed.
Example C87_type_example : exists c b top dr e o o' o2 v, construct_small c b top dr = Ok o /\ c_d c = 2 /\ fragile c b 0 TypeError /\ optimize_small c b e None 4 o = (o', Err TypeError) /\ optimize (spelled c b) e None 4 o = (o2, Ok v).
Proof. exact type_demo. Qed.
Example C87_hopeless_example : exists c b top dr e o o2 v, construct_small c b top dr = Ok o /\ c_d c = 2 /\ hopeless c b /\ 1 <= c_ftol_iter c /\ optimize (spelled c b) e None 4 o = (o2, Ok v).
Proof. exact hopeless_demo. Qed.
