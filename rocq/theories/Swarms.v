(** Model of /repo/pyswarms/backend/swarms.py. *)
From Coq Require Import String List Arith Bool.
From Verif Require Import Prelude Num Np Handlers.
Import ListNotations.

Section Swarms.
Context {N : Num}.

(** [swarm.best_pos]: the default [np.array([])], one vector shared by all particles, or
    one row per particle. (swarms.py:92-96.) *)
Inductive bestpos : Type :=
| BPEmpty
| BPVec (v : row N)
| BPMat (m : matrix N).

(** swarms.py:84-109.  [s_best_np] is [true] once [best_cost] is a numpy scalar (the default
    [np.inf] is a Python float, which has no [copy] method). *)
Record swarm : Type := mkSwarm {
  s_position : matrix N;
  s_velocity : matrix N;
  s_n : nat;
  s_d : nat;
  s_options : options N;
  s_pbest_pos : matrix N;
  s_best_pos : bestpos;
  s_pbest_cost : list N;
  s_best_cost : N;
  s_best_np : bool;
  s_current_cost : list N
}.

(** swarms.py:111-121: [Swarm(position, velocity, options=options)] with the defaults;
    [inf] is [np.inf]. The dimension is [position.shape[1]]. *)
Definition new_swarm (inf : N) (d : nat) (pos vel : matrix N) (o : options N) : swarm :=
  {| s_position := pos; s_velocity := vel; s_n := length pos; s_d := d; s_options := o;
     s_pbest_pos := pos; s_best_pos := BPEmpty; s_pbest_cost := []; s_best_cost := inf;
     s_best_np := false; s_current_cost := [] |}.

(** Attribute assignments [swarm.x = ...]. (e.g. global_best.py:246.) *)
Definition set_position (s : swarm) (p : matrix N) : swarm :=
  mkSwarm p (s_velocity s) (s_n s) (s_d s) (s_options s) (s_pbest_pos s) (s_best_pos s)
    (s_pbest_cost s) (s_best_cost s) (s_best_np s) (s_current_cost s).
(** e.g. global_best.py:243 *)
Definition set_velocity (s : swarm) (v : matrix N) : swarm :=
  mkSwarm (s_position s) v (s_n s) (s_d s) (s_options s) (s_pbest_pos s) (s_best_pos s)
    (s_pbest_cost s) (s_best_cost s) (s_best_np s) (s_current_cost s).
(** e.g. global_best.py:239 *)
Definition set_options (s : swarm) (o : options N) : swarm :=
  mkSwarm (s_position s) (s_velocity s) (s_n s) (s_d s) o (s_pbest_pos s) (s_best_pos s)
    (s_pbest_cost s) (s_best_cost s) (s_best_np s) (s_current_cost s).
(** e.g. global_best.py:209 *)
Definition set_current_cost (s : swarm) (c : list N) : swarm :=
  mkSwarm (s_position s) (s_velocity s) (s_n s) (s_d s) (s_options s) (s_pbest_pos s)
    (s_best_pos s) (s_pbest_cost s) (s_best_cost s) (s_best_np s) c.
(** e.g. global_best.py:210 *)
Definition set_pbest (s : swarm) (p : matrix N) (c : list N) : swarm :=
  mkSwarm (s_position s) (s_velocity s) (s_n s) (s_d s) (s_options s) p
    (s_best_pos s) c (s_best_cost s) (s_best_np s) (s_current_cost s).
(** e.g. global_best.py:204 *)
Definition set_pbest_cost (s : swarm) (c : list N) : swarm := set_pbest s (s_pbest_pos s) c.
(** e.g. global_best.py:213 *)
Definition set_best (s : swarm) (p : bestpos) (c : N) (np : bool) : swarm :=
  mkSwarm (s_position s) (s_velocity s) (s_n s) (s_d s) (s_options s) (s_pbest_pos s)
    p (s_pbest_cost s) c np (s_current_cost s).

End Swarms.
Arguments swarm _ : clear implicits.
Arguments bestpos _ : clear implicits.
