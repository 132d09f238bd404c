(** A call forgets what earlier calls found (C78). *)
From Coq Require Import String ZArith List Arith Bool.
From Verif Require Import Prelude F64 Num Np Handlers Swarms Operators Generators Topology Optimizers
  Spec SpecRun SpecForget Forget Demo ExamplesForget.
Import ListNotations.
Local Open Scope string_scope.
Local Open Scope list_scope.
Local Open Scope nat_scope.

(** *** C78: another call is a fresh start at the current positions *)
Theorem C78_forgets : forall c e pool iters o o1 r p1 r', t_kind (o_top o) <> Star -> shaped (c_n c) (c_d c) (o_swarm o) -> starts_below_inf e pool o -> 0 < iters ->
  optimize c e pool iters o = (o1, r) -> optimize c e pool iters (restarted o) = (p1, r') ->
  r' = r /\ same_new_records o o1 (restarted o) p1 /\ s_position (o_swarm p1) = s_position (o_swarm o1) /\ s_velocity (o_swarm p1) = s_velocity (o_swarm o1) /\
  (forall v, r = Ok v -> o_swarm p1 = o_swarm o1 /\ o_top p1 = o_top o1).
Proof. exact forgets. Qed.
Print Assumptions C78_forgets.
(** A ring after one call; the next call returns a worse cost than the one remembered. *)
Example C78_example : exists c top dr o0 e1 e o v0 o1 v, construct c top dr = Ok o0 /\ optimize c e1 None 3 o0 = (o, Ok v0) /\ t_kind (o_top o) <> Star /\ shaped (c_n c) (c_d c) (o_swarm o) /\ starts_below_inf e None o /\
  optimize c e None 3 o = (o1, Ok v) /\ flt (s_best_cost (o_swarm o)) (fst v) = true.
Proof. exact forget_demo. Qed.
(** The star remembers its best, and nothing else. *)
Theorem C78_keeps_only_best : forall c e pool iters o o1 r p1 r', shaped (c_n c) (c_d c) (o_swarm o) -> starts_below_inf e pool o -> 0 < iters ->
  optimize c e pool iters o = (o1, r) -> optimize c e pool iters (restarted_with_best o) = (p1, r') ->
  r' = r /\ same_new_records o o1 (restarted_with_best o) p1 /\ s_position (o_swarm p1) = s_position (o_swarm o1) /\ s_velocity (o_swarm p1) = s_velocity (o_swarm o1) /\
  (forall v, r = Ok v -> o_swarm p1 = o_swarm o1 /\ o_top p1 = o_top o1).
Proof. exact keeps_only_best. Qed.
Print Assumptions C78_keeps_only_best.
Theorem C78_star_refuted : exists c top dr o0 e1 e o v0 o1 v w, construct c top dr = Ok o0 /\ optimize c e1 None 3 o0 = (o, Ok v0) /\ shaped (c_n c) (c_d c) (o_swarm o) /\ starts_below_inf e None o /\
  optimize c e None 3 o = (o1, Ok v) /\ snd (optimize c e None 3 (restarted o)) = Ok w /\ flt (fst v) (fst w) = true.
Proof. exact star_remembers. Qed.
Print Assumptions C78_star_refuted.
(** A first cost of infinity leaves the old personal best in place. *)
Theorem C78_infinite_refuted : exists c top dr o0 e1 e o v0 o1 v w, construct c top dr = Ok o0 /\ optimize c e1 None 3 o0 = (o, Ok v0) /\ t_kind top <> Star /\ shaped (c_n c) (c_d c) (o_swarm o) /\
  (forall i X, e_obj e i X = Ok (map (fun _ => finf) X)) /\
  optimize c e None 3 o = (o1, Ok v) /\ snd (optimize c e None 3 (restarted o)) = Ok w /\ snd v <> snd w.
Proof. exact inf_remembers. Qed.
Print Assumptions C78_infinite_refuted.
