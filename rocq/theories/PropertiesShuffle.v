(** No particle is special (C76). *)
From Coq Require Import String ZArith List Arith Bool Permutation.
From Verif Require Import Prelude F64 Num Np Handlers Swarms Operators Generators Topology Optimizers
  Spec SpecLike SpecMirror SpecShuffle Shuffle Demo ExamplesShuffle.
Import ListNotations.
Local Open Scope string_scope.
Local Open Scope list_scope.
Local Open Scope nat_scope.

(** *** C76: renumbering the particles renumbers the run *)
Theorem C76_construct : forall order c p top top' dr dr', Permutation (seq 0 (length order)) order -> init_shuffled order (c_init c) p -> topology_shuffled order top top' -> draws_shuffled order dr dr' ->
  built_shuffled order (construct c top dr) (construct (with_init c p) top' dr').
Proof. exact shuffle_construct. Qed.
Print Assumptions C76_construct.
Theorem C76_reset : forall order c p dr dr' o o', Permutation (seq 0 (length order)) order -> init_shuffled order (c_init c) p -> draws_shuffled order dr dr' -> state_shuffled order o o' ->
  built_shuffled order (reset c dr o) (reset (with_init c p) dr' o').
Proof. exact shuffle_reset. Qed.
Print Assumptions C76_reset.
Theorem C76_optimize : forall order c p e e' iters o o', Permutation (seq 0 (length order)) order -> c_n c = length order -> env_shuffled order e e' -> 0 < iters ->
  state_shuffled order o o' -> untied e (skipn (length (o_pos_history o)) (o_pos_history (fst (optimize c e None iters o)))) ->
  state_shuffled order (fst (optimize c e None iters o)) (fst (optimize (with_init c p) e' None iters o')) /\
  result_shuffled (snd (optimize c e None iters o)) (snd (optimize (with_init c p) e' None iters o')).
Proof. exact shuffle_optimize. Qed.
Print Assumptions C76_optimize.
Example C76_example : exists order c p top top' dr dr' e e' o o' q cost pos, Permutation (seq 0 (length order)) order /\ order <> seq 0 (length order) /\ c_n c = length order /\ env_shuffled order e e' /\
  init_shuffled order (c_init c) p /\ topology_shuffled order top top' /\ draws_shuffled order dr dr' /\ construct c top dr = Ok o /\ construct (with_init c p) top' dr' = Ok o' /\ state_shuffled order o o' /\
  optimize c e None 4 o = (q, Ok (cost, pos)) /\ untied e (skipn (length (o_pos_history o)) (o_pos_history q)) /\ length (o_pos_history q) = 4 /\
  exists a b m, s_best_pos (o_swarm q) = BPMat (a :: b :: m) /\ feq (nth 0 a fzero) (nth 0 b fzero) = false.
Proof. exact shuffle_demo. Qed.
(** With tied costs the particle of the lower number wins. *)
Theorem C76_ties_refuted : exists order c p e e' o o', Permutation (seq 0 (length order)) order /\ c_n c = length order /\ env_shuffled order e e' /\ state_shuffled order o o' /\
  (forall i X, exists cs, e_obj e i X = Ok cs /\ Forall (fun x => x = fone) cs) /\
  ~ result_shuffled (snd (optimize c e None 1 o)) (snd (optimize (with_init c p) e' None 1 o')).
Proof. exact shuffle_ties. Qed.
Print Assumptions C76_ties_refuted.
