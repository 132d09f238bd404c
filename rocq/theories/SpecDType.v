(** Vocabulary of the property about the types of [init_pos] (C85). *)
From Coq Require Import String ZArith List Arith Bool.
From Verif Require Import Prelude F64 Num Handlers Swarms Operators Generators Topology Optimizers DType Spec SpecHandlers.
Import ListNotations.
Local Open Scope string_scope.
Local Open Scope list_scope.

(** [hq] ends with the first new entry of [h']. *)
Definition first_only {A : Type} (h hq h' : list A) : Prop := exists x rest, hq = h ++ [x] /\ h' = h ++ x :: rest.
(** The call that went from [o] to [q] recorded exactly the first entry of the one that went from [o] to [o']. *)
Definition one_entry (o q o' : ostate) : Prop :=
  first_only (o_cost_history o) (o_cost_history q) (o_cost_history o') /\ first_only (o_mean_pbest_history o) (o_mean_pbest_history q) (o_mean_pbest_history o') /\
  first_only (o_mean_neighbor_history o) (o_mean_neighbor_history q) (o_mean_neighbor_history o') /\
  first_only (o_pos_history o) (o_pos_history q) (o_pos_history o') /\ first_only (o_velocity_history o) (o_velocity_history q) (o_velocity_history o').
(** A swarm of integers that can take a step: the next positions are not computed from the velocity, or the velocity consists of integers. *)
Definition takes_integers (c : config) (k : dconf) : Prop :=
  c_kind c = Binary \/ (c_vh c = "adjust" /\ (c_clamp c = None \/ dc_clamp k <> TFlt)).
(** Positions with which no step is possible. *)
Definition refused (c : config) (k : dconf) (d : dtypes) : Prop :=
  (t_pos d = TBool /\ t_pbest d = TBool) \/ (t_pos d = TInt /\ ~ takes_integers c k).
(** "adjust" with a clamp around zero keeps a swarm where it is, inside the bounds (C23). *)
Definition at_rest (c : config) (d : nat) (x : fmatrix) : Prop :=
  (forall cl, c_clamp c = Some cl -> forall j a b, clamp_column cl j a b -> fle a fzero = true /\ fle fzero b = true) /\
  (forall b, c_bounds c = Some b -> box_dim d b /\ none_outside b x) /\
  (exists n, is_matrix n d x) /\ (forall i j y, entry x i j = Some y -> ffinite y = true).
