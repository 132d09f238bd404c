(** Which types of [init_pos] an optimizer works with (C85). *)
From Coq Require Import String ZArith List Arith Bool.
From Verif Require Import Prelude F64 Num Np Handlers Swarms Operators Generators Topology Optimizers DType
  Spec SpecHandlers SpecDType DTypeFacts Demo ExamplesDType.
Import ListNotations.
Local Open Scope string_scope.
Local Open Scope list_scope.
Local Open Scope nat_scope.

(** *** C85: integer and boolean arrays as [init_pos] *)
(** Floats always, and integers in BinaryPSO: the run of the other files. *)
Theorem C85_plain : forall c k e pool iters o d, t_pos d <> TBool -> (c_kind c = Binary \/ t_pos d = TFlt) ->
  fst (fst (optimize_dt c k e pool iters o d)) = fst (optimize c e pool iters o) /\ snd (optimize_dt c k e pool iters o d) = snd (optimize c e pool iters o).
Proof. exact types_plain. Qed.
Print Assumptions C85_plain.
(** Integers with "adjust", without a clamp or with one of integers: the same run. *)
Theorem C85_adjust : forall c k e pool iters o t d, c_kind c <> Binary -> c_vh c = "adjust" -> c_clamp c = None \/ dc_clamp k <> TFlt -> at_rest c d (s_position (o_swarm o)) -> t_pos t = TInt ->
  fst (fst (optimize_dt c k e pool iters o t)) = fst (optimize c e pool iters o) /\ snd (optimize_dt c k e pool iters o t) = snd (optimize c e pool iters o).
Proof. exact types_adjust. Qed.
Print Assumptions C85_adjust.
(** All others: no call returns, and the swarm does not move. *)
Theorem C85_refused : forall c k e pool iters o d, 1 <= iters -> 1 <= c_ftol_iter c -> refused c k d ->
  exists o' d' x, optimize_dt c k e pool iters o d = (o', d', Err x) /\ s_position (o_swarm o') = s_position (o_swarm o).
Proof. exact types_stuck. Qed.
Print Assumptions C85_refused.
(** If the same values as floats give a result, it is a TypeError, after one evaluation. *)
Theorem C85_type_error : forall c k e pool iters o d o2 v, 1 <= iters -> 1 <= c_ftol_iter c -> refused c k d -> optimize c e pool iters o = (o2, Ok v) ->
  exists o' d', optimize_dt c k e pool iters o d = (o', d', Err TypeError) /\ s_position (o_swarm o') = s_position (o_swarm o) /\ one_entry o o' o2.
Proof. exact types_error. Qed.
Print Assumptions C85_type_error.
(** For a new object: exactly when a call returns what it would return for floats. *)
Theorem C85_exactly : forall c k e pool iters top dr o o2 v it, construct c top dr = Ok o -> 1 <= iters -> optimize c e pool iters o = (o2, Ok v) ->
  (c_vh c = "adjust" -> exists d, at_rest c d (s_position (o_swarm o))) ->
  (snd (optimize_dt c k e pool iters o (new_types c it)) = Ok v <-> c_init c = None \/ it = TFlt \/ (it = TInt /\ takes_integers c k)).
Proof. exact types_exactly. Qed.
Print Assumptions C85_exactly.
Example C85_example : exists c k e top dr o o2 v, construct c top dr = Ok o /\ c_init c <> None /\ 1 <= c_ftol_iter c /\ refused c k (new_types c TInt) /\ optimize c e None 4 o = (o2, Ok v).
Proof. exact refused_demo. Qed.
Example C85_bool_example : exists c k e top dr o o2 v, construct c top dr = Ok o /\ c_kind c = Binary /\ refused c k (new_types c TBool) /\ t_pos (new_types c TInt) <> TBool /\ optimize c e None 4 o = (o2, Ok v).
Proof. exact bool_demo. Qed.
Example C85_adjust_example : exists c k e top dr o o2 v, construct c top dr = Ok o /\ c_kind c <> Binary /\ c_vh c = "adjust" /\ c_clamp c = None /\ c_bounds c <> None /\ at_rest c 2 (s_position (o_swarm o)) /\
  t_pos (new_types c TInt) = TInt /\ takes_integers c k /\ optimize c e None 4 o = (o2, Ok v).
Proof. exact adjust_demo. Qed.
