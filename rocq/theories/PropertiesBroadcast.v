(** Objectives that return one number for the whole swarm (C90). *)
From Coq Require Import String ZArith List Arith Bool.
From Verif Require Import Prelude F64 Num Np Handlers Swarms Operators Generators Topology Optimizers Broadcast
  Spec SpecHandlers SpecRun SpecBroadcast BroadcastFacts Demo ExamplesBroadcast.
Import ListNotations.
Local Open Scope string_scope.
Local Open Scope list_scope.
Local Open Scope nat_scope.

(** *** C90: one number for all particles *)
(** Without a pool nothing is raised: the number counts for every particle. Arrays of other lengths are treated as in the other properties. *)
Theorem C90_once : forall c e f g iters o, 2 <= c_n c -> repeats (c_n c) f g -> same_run (optimize_given c e f None iters o) (optimize c (asking e g) None iters o).
Proof. exact given_once. Qed.
Print Assumptions C90_once.
(** So all personal best costs stay equal, the personal best positions are those of one whole recorded swarm, and the first particle's is returned. *)
Theorem C90_first : forall c e f iters o o' cost pos, 2 <= c_n c -> (forall i X, exists x, f i X = Ok (Single x) \/ f i X = Ok (Array [x])) ->
  optimize_given c e f None iters o = (o', Ok (cost, pos)) ->
  nth_error (s_pbest_pos (o_swarm o')) 0 = Some pos /\
  exists x, s_pbest_cost (o_swarm o') = repeat x (c_n c) /\ (x = finf \/ In (s_pbest_pos (o_swarm o')) (o_pos_history o')).
Proof. exact given_first. Qed.
Print Assumptions C90_first.
(** With a pool, numbers cannot be concatenated. *)
Theorem C90_number_pool : forall c e f k iters o, k <> 0 -> 1 <= iters -> (forall i X, exists x, f i X = Ok (Single x)) ->
  snd (optimize_given c e f (Some k) iters o) = Err ValueError /\ untouched (fst (optimize_given c e f (Some k) iters o)) o.
Proof. exact given_number_pool. Qed.
Print Assumptions C90_number_pool.
(** Arrays of one element with one process: as without a pool. *)
Theorem C90_one_process : forall c e f v iters o, 2 <= c_n c -> (forall i X, f i X = Ok (Array [v i X])) ->
  same_run (optimize_given c e f (Some 1) iters o) (optimize c (asking e (fun i X => Ok (repeat (v i X) (c_n c)))) None iters o).
Proof. exact given_one_process. Qed.
Print Assumptions C90_one_process.
(** With as many processes as particles each particle gets its own cost. *)
Theorem C90_each_process : forall c e f v iters o, 2 <= c_n c -> (forall i X, f i X = Ok (Array [v i X])) ->
  same_run (optimize_given c e f (Some (c_n c)) iters o) (optimize c (asking e (fun i X => Ok (map (fun r => v i [r]) X))) None iters o).
Proof. exact given_each_process. Qed.
Print Assumptions C90_each_process.
(** With any other number of processes the first iteration raises. *)
Theorem C90_other_pool : forall c e f v k iters o, 2 <= c_n c -> k <> 0 -> k <> 1 -> k <> c_n c -> 1 <= iters -> (forall i X, f i X = Ok (Array [v i X])) ->
  snd (optimize_given c e f (Some k) iters o) = Err ValueError /\ untouched (fst (optimize_given c e f (Some k) iters o)) o.
Proof. exact given_other_pool. Qed.
Print Assumptions C90_other_pool.
Example C90_once_example : exists c top dr e f g o o' cost pos, construct c top dr = Ok o /\ 2 <= c_n c /\ repeats (c_n c) f g /\ (forall i X, exists x, f i X = Ok (Single x)) /\ optimize_given c e f None 5 o = (o', Ok (cost, pos)).
Proof. exact once_demo. Qed.
Example C90_one_process_example : exists c top dr e f v o o' cost pos, construct c top dr = Ok o /\ 2 <= c_n c /\ (forall i X, f i X = Ok (Array [v i X])) /\ optimize_given c e f (Some 1) 5 o = (o', Ok (cost, pos)).
Proof. exact one_demo. Qed.
Example C90_each_process_example : exists c top dr e f v o o' cost pos, construct c top dr = Ok o /\ 2 <= c_n c /\ (forall i X, f i X = Ok (Array [v i X])) /\ optimize_given c e f (Some (c_n c)) 5 o = (o', Ok (cost, pos)).
Proof. exact each_demo. Qed.
Example C90_pool_example : exists c top dr o (f g : nat -> fmatrix -> res given) v k, construct c top dr = Ok o /\ 2 <= c_n c /\ k <> 0 /\ k <> 1 /\ k <> c_n c /\ (forall i X, f i X = Ok (Array [v i X])) /\ (forall i X, exists x, g i X = Ok (Single x)).
Proof. exact pool_demo. Qed.
