(** Objectives that write into the array they are given (C81). *)
From Coq Require Import String ZArith List Arith Bool.
From Verif Require Import Prelude F64 Num Np Handlers Swarms Operators Generators Topology Optimizers
  Spec SpecHandlers Heap SpecHeap HeapWrite SpecWrite WriteRun Demo ExamplesHeap ExamplesWrite.
Import ListNotations.
Local Open Scope string_scope.
Local Open Scope list_scope.
Local Open Scope nat_scope.

(** *** C81: what an objective writes into its argument becomes the swarm *)
(** The histories hold the arrays as the objective left them, the swarm moves on from there, and the personal bests are rows of them, compared by the costs returned. *)
Theorem C81_written : forall c top dr init h0 h x e wr iters h' x' r,
  init_at h0 init (c_init c) -> h_construct c top dr init h0 = (h, Ok x) -> w_optimize c e wr None iters h x = (h', (x', r)) ->
  exists o P C, Rep h' x' o /\ given e wr (unhandled c) P (o_pos_history o) (o_velocity_history o) C /\
    (forall p, nth_error P 0 = Some p -> nth_error h (hs_position (hs x)) = Some p) /\
    (forall v y, r = Ok (v, y) -> leader (s_pbest_pos (o_swarm o)) (s_pbest_cost (o_swarm o)) y /\
       forall X a z0 z w, nth_error (o_pos_history o) 0 = Some X -> nth_error X a = Some z0 ->
         nth_error (s_pbest_pos (o_swarm o)) a = Some z -> nth_error (s_pbest_cost (o_swarm o)) a = Some w -> best_of_run (o_pos_history o) C a z0 z w).
Proof. exact written. Qed.
Print Assumptions C81_written.
(** The position returned is one the objective has left, never one it has overwritten. *)
Theorem C81_returned : forall c top dr init h0 h x e wr iters h' x' v y,
  init_at h0 init (c_init c) -> h_construct c top dr init h0 = (h, Ok x) -> w_optimize c e wr None iters h x = (h', (x', Ok (v, y))) ->
  exists o t p, Rep h' x' o /\ nth_error (o_pos_history o) t = Some (wr t p) /\ In y (wr t p).
Proof. exact returned_written. Qed.
Print Assumptions C81_returned.
(** The array passed as [init_pos] is written in the first iteration, and no other array of the caller is. *)
Theorem C81_init_array : forall c top dr a m h0 h x e wr iters h' x' r,
  nth_error h0 a = Some m -> c_init c = Some m -> h_construct c top dr (Some a) h0 = (h, Ok x) -> 0 < iters -> w_optimize c e wr None iters h x = (h', (x', r)) ->
  nth_error h' a = Some (wr 0 m) /\ untouched_but a h0 h'.
Proof. exact init_written. Qed.
Print Assumptions C81_init_array.
(** The objective of the run repairs its argument, and the caller's array is repaired with it. *)
Example C81_example : exists c e wr a m h0 h x h' x' v y, nth_error h0 a = Some m /\ c_init c = Some m /\ unhandled c /\ h_construct c star (d_cd 0 3 2) (Some a) h0 = (h, Ok x) /\
  w_optimize c e wr None 3 h x = (h', (x', Ok (v, y))) /\ (exists m', nth_error h' a = Some m' /\ fmat_eqb m' m = false) /\ wx_in y = true /\ length (h_pos_history x') = 3.
Proof. exact wx_demo. Qed.
(** With a pool what the workers write is lost. *)
Theorem C81_pool : forall c e wr n iters h x, w_optimize c e wr (Some n) iters h x = h_optimize c e (Some n) iters h x.
Proof. exact w_pool. Qed.
Print Assumptions C81_pool.
(** An objective that writes nothing gives the runs of C50. *)
Theorem C81_quiet : forall c e wr pool iters h x, (forall i p, wr i p = p) -> w_optimize c e wr pool iters h x = h_optimize c e pool iters h x.
Proof. exact w_quiet. Qed.
Print Assumptions C81_quiet.
(** After a call that stopped early the next call writes into the last array of the history. *)
Theorem C81_history_refuted : ~ (forall c top dr init h0 h x e wr1 wr2 n1 n2 h1 x1 r1 h2 x2 r2, init_at h0 init (c_init c) -> h_construct c top dr init h0 = (h, Ok x) ->
  w_optimize c e wr1 None n1 h x = (h1, (x1, Ok r1)) -> w_optimize c e wr2 None n2 h1 x1 = (h2, (x2, Ok r2)) ->
  forall a m, In a (h_pos_history x1) -> nth_error h1 a = Some m -> nth_error h2 a = Some m).
Proof. exact history_rewritten. Qed.
Print Assumptions C81_history_refuted.
