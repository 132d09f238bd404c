(** A neighbourhood of everybody is a star (C77). *)
From Coq Require Import String ZArith List Arith Bool.
From Verif Require Import Prelude F64 Num Np Handlers Swarms Operators Generators Topology Optimizers
  Spec SpecMirror SpecShuffle SpecEverybody Everybody Demo ExamplesEverybody.
Import ListNotations.
Local Open Scope string_scope.
Local Open Scope list_scope.
Local Open Scope nat_scope.

(** *** C77: a topology in which everybody sees everybody runs like the star *)
Theorem C77_optimize : forall c kd top top' dr e iters o o', c_kind c <> Binary -> kd <> Binary ->
  construct c top dr = Ok o -> construct (with_kind c kd) top' dr = Ok o' -> t_kind top = Star -> t_nb top' = None -> s_n (o_swarm o) = c_n c ->
  sees_everybody (with_kind c kd) e (c_n c) (s_d (o_swarm o)) (t_kind top') ->
  untied e (o_pos_history (fst (optimize c e None iters o))) ->
  same_course (fst (optimize c e None iters o)) (fst (optimize (with_kind c kd) e None iters o')) /\
  same_result (snd (optimize c e None iters o)) (snd (optimize (with_kind c kd) e None iters o')).
Proof. exact everybody_star. Qed.
Print Assumptions C77_optimize.
(** For each of the four other topologies, two objects that meet the hypotheses. *)
Example C77_example : forall k, k <> Star -> exists c kd dr e top top' o o' q cost pos, c_kind c <> Binary /\ kd <> Binary /\ construct c top dr = Ok o /\ construct (with_kind c kd) top' dr = Ok o' /\
  t_kind top = Star /\ t_nb top' = None /\ t_kind top' = k /\ s_n (o_swarm o) = c_n c /\ sees_everybody (with_kind c kd) e (c_n c) (s_d (o_swarm o)) k /\
  optimize c e None 4 o = (q, Ok (cost, pos)) /\ length (o_pos_history q) = 4 /\ untied e (o_pos_history q) /\
  exists a b, nth_error (o_cost_history q) 0 = Some a /\ nth_error (o_cost_history q) 3 = Some b /\ flt b a = true.
Proof. exact everybody_demo. Qed.
(** With tied costs the star keeps its old leader and the ring takes the first. *)
Theorem C77_ties_refuted : exists c kd top top' dr e iters o o', c_kind c <> Binary /\ kd <> Binary /\ construct c top dr = Ok o /\ construct (with_kind c kd) top' dr = Ok o' /\
  t_kind top = Star /\ t_nb top' = None /\ s_n (o_swarm o) = c_n c /\ sees_everybody (with_kind c kd) e (c_n c) (s_d (o_swarm o)) (t_kind top') /\
  (forall i X, exists cs, e_obj e i X = Ok cs /\ Forall (fun x => x = fone \/ x = F 2) cs) /\
  ~ same_course (fst (optimize c e None iters o)) (fst (optimize (with_kind c kd) e None iters o')).
Proof. exact ties_part. Qed.
Print Assumptions C77_ties_refuted.
