(** Vocabulary of the property about swarms of one dimension (C88). *)
From Coq Require Import String ZArith List Arith Bool.
From Verif Require Import Prelude F64 Num Handlers Swarms Operators Generators Topology Optimizers OneDim Spec SpecHandlers SpecRun.
Import ListNotations.
Local Open Scope string_scope.
Local Open Scope list_scope.

(** Positions of shape (n, 1), velocities of shape (n, 0). *)
Definition ruined (n : nat) (o : ostate) : Prop := s_d (o_swarm o) = 1 /\ is_matrix n 1 (s_position (o_swarm o)) /\ s_velocity (o_swarm o) = repeat [] n.
(** A call and the state after several. *)
Record attempt : Type := mkAttempt { a_env : env; a_pool : option nat; a_iters : nat }.
Fixpoint after (c : config) (l : list attempt) (o : ostate) : ostate :=
  match l with [] => o | a :: l' => after c l' (fst (optimize_one c (a_env a) (a_pool a) (a_iters a) o)) end.
(** Settings with which nothing else goes wrong. *)
Definition orderly (c : config) : Prop :=
  c_kind c <> Binary /\ c_oh c = [] /\ (forall k, In k ["c1"; "c2"; "w"] -> exists v, num_of (N := F64num) (c_options c) k = Ok v) /\
  (forall cl, c_clamp c = Some cl -> length (fst cl) = 1 /\ length (snd cl) = 1).
Definition keeps_shape (c : config) : Prop :=
  c_vh c = "unmodified" \/ ((c_vh c = "invert" \/ c_vh c = "zero") /\ exists b, c_bounds c = Some b /\ length (b_lb b) = 1 /\ length (b_ub b) = 1).
(** The random draws of iteration [i] have the shape of the swarm. *)
Definition drawn (n : nat) (e : env) (i : nat) : Prop := is_matrix n 1 (vd_u1 (e_vel e i)) /\ is_matrix n 1 (vd_u2 (e_vel e i)).
(** Iteration [i] finds nothing below infinity. *)
Definition finds_nothing (n : nat) (e : env) (i : nat) : Prop := forall X, is_matrix n 1 X -> exists cs, e_obj e i X = Ok cs /\ length cs = n /\ forall v, In v cs -> flt v finf = false.
