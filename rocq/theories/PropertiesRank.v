(** Only the order of the costs matters: any pair of objectives, and any number of calls (C56). *)
From Coq Require Import String ZArith List Arith Bool.
From Verif Require Import Prelude F64 Num Np Handlers Swarms Operators Generators Topology Optimizers
  Spec SpecRank Rank Demo ExamplesRank.
Import ListNotations.
Local Open Scope string_scope.
Local Open Scope list_scope.
Local Open Scope nat_scope.

(** *** C56: two objectives that rank all positions alike *)
(** A new optimizer is alike to itself. *)
Theorem C56_start : forall C c o, order_alike C -> Fresh c o -> state_ranked C o o.
Proof. exact rank_start. Qed.
Print Assumptions C56_start.
(** Neither objective need be a function of the other's costs. *)
Theorem C56_pair : forall C c e e' pool iters o o', order_alike C -> c_ftol c = fninf -> ranked_env C e e' -> state_ranked C o o' ->
  state_ranked C (fst (optimize c e pool iters o)) (fst (optimize c e' pool iters o')) /\ result_ranked C (snd (optimize c e pool iters o)) (snd (optimize c e' pool iters o')).
Proof. exact rank_optimize. Qed.
Print Assumptions C56_pair.
Theorem C56_session : forall C c calls calls' o o' o1, order_alike C -> c_ftol c = fninf -> Forall2 (ranked_call C) calls calls' -> state_ranked C o o' -> Session c o calls o1 ->
  exists o1', Session c o' calls' o1' /\ state_ranked C o1 o1'.
Proof. exact rank_session. Qed.
Print Assumptions C56_session.
Example C56_session_example : exists C c calls calls' o o' o1, order_alike C /\ c_ftol c = fninf /\ Forall2 (ranked_call C) calls calls' /\ state_ranked C o o' /\ Session c o calls o1 /\
  length calls = 2 /\ (match o_cost_history o1 with [a; b; _; _; d] => feq a (F 3) && feq b (F 2) && flt d (F 2) | _ => false end) = true /\ C (F 3) (F 1000).
Proof. exact rank_demo. Qed.
