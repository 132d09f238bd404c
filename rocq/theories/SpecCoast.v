(** Vocabulary of the property about a swarm without attraction (C80). *)
From Coq Require Import String ZArith List Arith Bool.
From Verif Require Import Prelude F64 Num Handlers Swarms Operators Generators Topology Optimizers Spec SpecHandlers SpecMirror SpecOpts SpecDyn.
Import ListNotations.
Local Open Scope string_scope.
Local Open Scope list_scope.

(** Neither the own best nor that of the others attracts: both coefficients are zero in every iteration. *)
Definition no_pull (c : config) (e : env) (iters : nat) : Prop :=
  forall t v, coefficient c e iters t "c1" v \/ coefficient c e iters t "c2" v -> feq v fzero = true.
(** The inertia weight of every iteration. *)
Definition inertia (c : config) (e : env) (iters : nat) (P : f64 -> Prop) : Prop := forall t w, coefficient c e iters t "w" w -> P w.
(** The draws are finite numbers. *)
Definition finite_draws (e : env) : Prop :=
  forall t i j r, entry (vd_u1 (e_vel e t)) i j = Some r \/ entry (vd_u2 (e_vel e t)) i j = Some r -> ffinite r = true.
(** The velocity limits allow standing still. *)
Definition may_stop (c : config) : Prop :=
  match c_clamp c with None => True | Some cl => forall j a b, clamp_column cl j a b -> fle a fzero = true /\ fle fzero b = true end.
(** No component is infinite or NaN. *)
Definition finite_matrix (V : fmatrix) : Prop := forall i j v, entry V i j = Some v -> ffinite v = true.
(** A particle within the bounds, if there are any. *)
Definition is_inside (c : config) (x : frow) : Prop :=
  match c_bounds c with None => True | Some b => box_dim (N := F64num) (length x) b /\ good b x end.
