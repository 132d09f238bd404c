(** No dimension is special (C74). *)
From Coq Require Import String ZArith List Arith Bool Permutation.
From Verif Require Import Prelude F64 Num Np Handlers Swarms Operators Generators Topology Optimizers
  Spec SpecLike SpecReorder Reorder Demo ExamplesReorder.
Import ListNotations.
Local Open Scope string_scope.
Local Open Scope list_scope.
Local Open Scope nat_scope.

(** *** C74: reordering the dimensions reorders the run *)
Theorem C74_construct : forall order c c' top dr dr', Permutation order (seq 0 (length order)) -> config_like order c c' -> draws_like order dr dr' ->
  built_like (length order) (reordered order) (construct c top dr) (construct c' top dr').
Proof. exact reorder_construct. Qed.
Print Assumptions C74_construct.
Theorem C74_reset : forall order c c' dr dr' o o', Permutation order (seq 0 (length order)) -> config_like order c c' -> draws_like order dr dr' -> state_like (length order) (reordered order) o o' ->
  built_like (length order) (reordered order) (reset c dr o) (reset c' dr' o').
Proof. exact reorder_reset. Qed.
Print Assumptions C74_reset.
(** The same cost and the reordered position, or the same exception, whatever happens; all recorded costs agree. *)
Theorem C74_optimize : forall order c c' e e' pool iters o o', Permutation order (seq 0 (length order)) -> config_like order c c' -> env_like order e e' -> c_bh c <> "shrink" ->
  state_like (length order) (reordered order) o o' ->
  state_like (length order) (reordered order) (fst (optimize c e pool iters o)) (fst (optimize c' e' pool iters o')) /\
  result_like (reordered order) (snd (optimize c e pool iters o)) (snd (optimize c' e' pool iters o')).
Proof. exact reorder_optimize. Qed.
Print Assumptions C74_optimize.
Theorem C74_session : forall order c c' calls calls' o o' o1, Permutation order (seq 0 (length order)) -> config_like order c c' -> c_bh c <> "shrink" ->
  Forall2 (call_like order) calls calls' -> state_like (length order) (reordered order) o o' -> Session c o calls o1 -> exists o1', Session c' o' calls' o1' /\ state_like (length order) (reordered order) o1 o1'.
Proof. exact reorder_session. Qed.
Print Assumptions C74_session.
(** The boundary strategy "shrink" is excluded for a reason: the sign of a zero may depend on the order. *)
Theorem C74_shrink_refuted : exists order dr mem mem' b (x x' p p' : fmatrix) m m',
  Permutation order (seq 0 (length order)) /\ bounds_like order b b /\ columns order mem mem' /\ columns order x x' /\
  bh_call (N := F64num) "shrink" dr (Some mem) b x = Ok (p, m) /\ bh_call (N := F64num) "shrink" dr (Some mem') b x' = Ok (p', m') /\ ~ columns order p p'.
Proof. exact shrink_order. Qed.
Print Assumptions C74_shrink_refuted.
Example C74_example : exists order c c' e e' o o' dr dr' q cost pos a b,
  Permutation order (seq 0 (length order)) /\ order <> seq 0 (length order) /\ config_like order c c' /\ env_like order e e' /\ c_bh c <> "shrink" /\ draws_like order dr dr' /\
  construct c star dr = Ok o /\ construct c' star dr' = Ok o' /\ state_like (length order) (reordered order) o o' /\ optimize c e None 4 o = (q, Ok (cost, pos)) /\ pos = [a; b] /\ feq a b = false.
Proof. exact reorder_demo. Qed.
