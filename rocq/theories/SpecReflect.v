(** What C83 says about termination. *)
From Coq Require Import String ZArith List Arith Bool Reals.
From Flocq Require Import Core IEEE754.BinarySingleNaN.
From Verif Require Import Prelude F64 F64Facts Num Np Handlers Swarms Operators Generators Topology Optimizers Spec SpecHandlers SpecTame.
Local Open Scope R_scope.

(** [OutOfFuel] stands for a loop that has not ended; nothing the caller passes in claims that of itself. *)
Definition endless {A : Type} (r : res A) : Prop := r = Err OutOfFuel.
Definition callbacks_end (e : env) : Prop :=
  (forall i X, ~ endless (e_obj e i X)) /\
  (forall i p k X, ~ endless (te_knn (e_top e i) p k X)) /\
  (forall i X, ~ endless (te_delaunay (e_top e i) X)).
(** An interval that is not narrow compared with magnitudes up to [m]. *)
Definition roomy (l u : f64) (m : R) : Prop :=
  within 1018 l /\ within 1018 u /\ flt l u = true /\ m <= bpow radix2 51 * (FR u - FR l).
(** The same for a column of the bounds and of the clamp; [k] reflections are enough there. *)
Definition roomy_run (b : bounds F64num) (cl : clamp_t F64num) (k : nat) : Prop :=
  forall j l u a z, column b j l u -> clamp_column cl j a z ->
    let m := Rabs (FR l) + Rabs (FR u) + Rabs (FR a) + Rabs (FR z) in
    within 1018 a /\ within 1018 z /\ fle a z = true /\ roomy l u (3 * m) /\ 12 * m <= INR k * (FR u - FR l).
(** [r] is obtained from [x] by reflections at [l] and [u]. *)
Definition mirror_image (l u x r : R) : Prop :=
  exists z : Z, r = x + IZR z * (2 * (u - l)) \/ r = 2 * l - x + IZR z * (2 * (u - l)).
