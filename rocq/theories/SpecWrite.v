(** What C81 says about objectives that write into their argument. *)
From Coq Require Import String ZArith List Arith Bool.
From Verif Require Import Prelude F64 Num Np Handlers Swarms Operators Generators Topology Optimizers Heap HeapWrite Spec SpecHandlers.
Import ListNotations.
Local Open Scope list_scope.

(** [p] is [X] moved by [V], entry by entry. *)
Definition moved (X V p : fmatrix) : Prop :=
  forall i j x v, entry X i j = Some x -> entry V i j = Some v -> entry p i j = Some (fadd x v).
(** The iterations of a call: the objective was given [P], left [X] in the array, and answered [C];
    [V] are the velocities. *)
Record given (e : env) (wr : writer) (free : Prop) (P X V : list fmatrix) (C : list (list f64)) : Prop := mkGiven {
  gv_len : length X = length P;
  gv_vlen : length V = length P;
  gv_clen : length C = length P;
  gv_left : forall t p, nth_error P t = Some p -> nth_error X t = Some (wr t p);
  gv_cost : forall t p, nth_error P t = Some p -> exists cs, e_obj e t p = Ok cs /\ nth_error C t = Some cs;
  gv_move : free -> forall t p Y W, nth_error P (S t) = Some p -> nth_error X t = Some Y -> nth_error V (S t) = Some W -> moved Y W p }.
(** No bounds, and not the binary optimizer. *)
Definition unhandled (c : config) : Prop := c_bounds c = None /\ c_kind c <> Binary.
(** [x] is the row of a particle whose best cost no other particle's best is below. *)
Definition leader (pp : fmatrix) (pc : list f64) (x : frow) : Prop :=
  exists j v, nth_error pp j = Some x /\ nth_error pc j = Some v /\ forall j' w, nth_error pc j' = Some w -> flt w v = false.
