(** What C50 says about references: which arrays an object holds, which arrays a piece of code
    leaves alone, and the calls a user can make in a row. *)
From Coq Require Import String ZArith List Arith Bool.
From Verif Require Import Prelude F64 Num Np Handlers Swarms Operators Generators Topology Optimizers Heap.
Import ListNotations.
Local Open Scope list_scope.

(** Every array existing in [h] still exists in [h'] and has the same entries. *)
Definition untouched (h h' : heap) : Prop := forall a m, nth_error h a = Some m -> nth_error h' a = Some m.
(** The same with one exception. *)
Definition untouched_but (x : addr) (h h' : heap) : Prop := forall a m, a <> x -> nth_error h a = Some m -> nth_error h' a = Some m.

Definition at_mem (h : heap) (mem : option addr) (vm : option fmatrix) : Prop :=
  match mem, vm with
  | None, None => True
  | Some a, Some m => nth_error h a = Some m
  | _, _ => False
  end.
Definition at_addr (h : heap) (a : addr) (m : fmatrix) : Prop := nth_error h a = Some m.
(** The optimizer object [ho] in heap [h] holds the values [o]. *)
Record Rep (h : heap) (x : hstate) (o : ostate) : Prop := mkRep {
  rep_swarm : swarm_at h (hs x) = Ok (o_swarm o);
  rep_top : h_top x = o_top o;
  rep_bmem : at_mem h (h_bmem x) (o_bmem o);
  rep_vmem : at_mem h (h_vmem x) (o_vmem o);
  rep_cost : h_cost_history x = o_cost_history o;
  rep_mean : h_mean_pbest_history x = o_mean_pbest_history o;
  rep_neigh : h_mean_neighbor_history x = o_mean_neighbor_history o;
  rep_pos : Forall2 (at_addr h) (h_pos_history x) (o_pos_history o);
  rep_vel : Forall2 (at_addr h) (h_velocity_history x) (o_velocity_history o) }.

(** The array given as [init_pos] is the one the configuration speaks of. *)
Definition init_at (h : heap) (init : option addr) (ip : option fmatrix) : Prop := at_mem h init ip.
(** Calls of [optimize] and [reset] in a row; a call may end with an exception. *)
Inductive HSession (c : config) (init : option addr) (h : heap) (x : hstate) : heap -> hstate -> Prop :=
| HSession_nil : HSession c init h x h x
| HSession_optimize : forall h1 x1 e pool iters h2 x2 r, HSession c init h x h1 x1 ->
    h_optimize c e pool iters h1 x1 = (h2, (x2, r)) -> HSession c init h x h2 x2
| HSession_reset : forall h1 x1 dr h2 x2, HSession c init h x h1 x1 ->
    h_reset c dr init x1 h1 = (h2, Ok x2) -> HSession c init h x h2 x2.
