(** Objectives that return arrays of several axes (C91). *)
From Coq Require Import String ZArith List Arith Bool.
From Verif Require Import Prelude F64 Num Np Handlers Swarms Operators Generators Topology Optimizers Broadcast Axes
  Spec SpecHandlers SpecRun SpecBroadcast SpecAxes AxesFacts Demo ExamplesAxes.
Import ListNotations.
Local Open Scope string_scope.
Local Open Scope list_scope.
Local Open Scope nat_scope.

(** *** C91: costs of several axes *)
(** The first iteration raises, with and without a pool, and little has changed. *)
Theorem C91_raises : forall c e f pool iters o, 2 <= c_n c -> 2 <= c_d c -> c_n c <> c_d c -> pool <> Some 0 -> 1 <= iters -> shaped (c_n c) (c_d c) (o_swarm o) -> s_d (o_swarm o) = c_d c ->
  (forall X, exists a, f 0 X = Ok a /\ 2 <= length (a_shape a)) ->
  snd (optimize_array c e f pool iters o) = Err ValueError /\ untouched (fst (optimize_array c e f pool iters o)) o.
Proof. exact axes_raise. Qed.
Print Assumptions C91_raises.
(** The same in any later iteration, as long as the arrays have their shapes: nothing but [swarm.current_cost] is written. *)
Theorem C91_later : forall c e f pool i o q, 2 <= c_n c -> 2 <= c_d c -> c_n c <> c_d c -> shaped (c_n c) (c_d c) (o_swarm o) -> s_d (o_swarm o) = c_d c -> length (s_pbest_cost (o_swarm o)) = c_n c ->
  (forall X, exists a, f i X = Ok a /\ 2 <= length (a_shape a)) -> exists o', evaluate_array c e f pool i o q = Raise o' ValueError /\ but_cost o' o.
Proof. exact axes_any. Qed.
Print Assumptions C91_later.
(** Not so with as many dimensions as particles, or with one: then a column of costs makes the personal bests arrays of three and two axes. *)
Theorem C91_square : forall n, 2 <= n -> pbest_shapes n [n; 1] [n] [n; n] [n; n] = Ok ([n; n; n], [n; n]) /\ pbest_shapes 1 [n; 1] [n] [n; 1] [n; 1] = Ok ([n; n; n], [n; n]).
Proof. exact shapes_square. Qed.
Print Assumptions C91_square.
(** The rule for shapes used above is numpy's. *)
Theorem C91_fits : forall a b, (fits a b -> exists r, broadcast a b = Ok r /\ combined a b r) /\ (~ fits a b -> broadcast a b = Err ValueError).
Proof. exact broadcast_spec. Qed.
Print Assumptions C91_fits.
(** On costs of one axis it says of [compute_pbest] what C90 says. *)
Theorem C91_shapes : forall (s : fswarm) n d, 2 <= n -> is_matrix n d (s_position s) -> is_matrix n d (s_pbest_pos s) -> length (s_pbest_cost s) = n ->
  match compute_pbest_given s with
  | Ok (pp, pc) => pbest_shapes d [length (s_current_cost s)] [n] [n; d] [n; d] = Ok (matrix_shape pp, [length pc])
  | Err x => pbest_shapes d [length (s_current_cost s)] [n] [n; d] [n; d] = Err x
  end.
Proof. exact shapes_agree. Qed.
Print Assumptions C91_shapes.
(** Results of no or one axis are treated as in C90. *)
Theorem C91_plain : forall c e f g pool iters o, plainly f g -> optimize_array c e f pool iters o = optimize_given c e g pool iters o.
Proof. exact array_plain. Qed.
Print Assumptions C91_plain.
Example C91_raises_example : exists c top dr o (f : nat -> fmatrix -> res ndarray), construct c top dr = Ok o /\ 2 <= c_n c /\ 2 <= c_d c /\ c_n c <> c_d c /\ shaped (c_n c) (c_d c) (o_swarm o) /\ s_d (o_swarm o) = c_d c /\
  (forall X, exists a, f 0 X = Ok a /\ a_shape a = [length X; 1] /\ length (a_entries a) = length X).
Proof. exact axes_demo. Qed.
Example C91_fits_example : fits [3; 1] [4] /\ ~ fits [5; 2; 3] [3; 2].
Proof. exact fits_demo. Qed.
Example C91_shapes_example : exists c top dr o s, construct c top dr = Ok o /\ s = set_current_cost (set_pbest_cost (o_swarm o) (repeat finf 3)) [fone] /\ is_matrix 3 2 (s_position s) /\ is_matrix 3 2 (s_pbest_pos s) /\ length (s_pbest_cost s) = 3.
Proof. exact shapes_demo. Qed.
Example C91_plain_example : exists c top dr e f g o o' cost pos, construct c top dr = Ok o /\ plainly f g /\ optimize_array c e f None 5 o = (o', Ok (cost, pos)).
Proof. exact plain_demo. Qed.
Example C91_later_example : exists c top dr o e v, construct c top dr = Ok o /\ 2 <= c_n c /\ 2 <= c_d c /\ c_n c <> c_d c /\ (exists o', optimize c e None 4 o = (o', Ok v) /\ shaped (c_n c) (c_d c) (o_swarm o') /\ s_d (o_swarm o') = c_d c /\ length (s_pbest_cost (o_swarm o')) = c_n c).
Proof. exact later_demo. Qed.
