(** Vocabulary of the properties about overflow. *)
From Coq Require Import ZArith Reals String List Bool.
From Flocq Require Import Core.
From Verif Require Import Prelude F64 F64Facts Num Handlers Swarms Operators Optimizers SpecHandlers SpecDyn.
Import ListNotations.
Local Open Scope string_scope.

(** Finite, and at most [2^e] in magnitude. *)
Definition within (e : Z) (x : f64) : Prop := ffinite x = true /\ (Rabs (FR x) <= bpow radix2 e)%R.
(** The coefficients in use never exceed [w], [c1] and [c2] in magnitude. *)
Definition coefficients_below (c : config) (e : env) (iters : nat) (w c1 c2 : f64) : Prop :=
  forall t v, (coefficient c e iters t "w" v -> ffinite v = true /\ fle (fabs v) w = true) /\
              (coefficient c e iters t "c1" v -> ffinite v = true /\ fle (fabs v) c1 = true) /\
              (coefficient c e iters t "c2" v -> ffinite v = true /\ fle (fabs v) c2 = true).
(** All draws of the velocity update come from [0,1). *)
Definition unit_velocity_draws (e : env) : Prop :=
  forall t i j r, entry (vd_u1 (e_vel e t)) i j = Some r \/ entry (vd_u2 (e_vel e t)) i j = Some r ->
    fle fzero r = true /\ flt r fone = true.

(** Ordered bounds (a clamp) of which no end exceeds [2^k] in magnitude. *)
Definition small_box (k : Z) (b : bounds F64num) : Prop :=
  forall j l u, column b j l u -> within k l /\ within k u /\ fle l u = true.
Definition small_clamp (k : Z) (cl : clamp_t F64num) : Prop :=
  forall j l u, clamp_column cl j l u -> within k l /\ within k u /\ fle l u = true.
(** One clamp interval per dimension. *)
Definition clamp_dim (d : nat) (cl : clamp_t F64num) : Prop := length (fst cl) = d /\ length (snd cl) = d.
(** The coefficients in use never exceed [2^k] in magnitude. *)
Definition small_coefficients (k : Z) (c : config) (e : env) (iters : nat) : Prop :=
  forall t key v, In key ["w"; "c1"; "c2"] -> coefficient c e iters t key v -> within k v.
(** Every entry of the matrix is a finite number. *)
Definition all_finite (m : list (list f64)) : Prop := forall i j x, entry m i j = Some x -> ffinite x = true.
(** Every entry is finite and at most [k * 2^m] in magnitude. *)
Definition at_most (k m : Z) (X : list (list f64)) : Prop :=
  forall i j x, entry X i j = Some x -> ffinite x = true /\ (Rabs (FR x) <= IZR k * bpow radix2 m)%R.
(** Every entry lies between [-v] and [v]. *)
Definition speed_below (v : f64) (m : list (list f64)) : Prop :=
  forall i j x, entry m i j = Some x -> ffinite x = true /\ fle (fabs x) v = true.
(** The exact value of the velocity update, and how far rounding may lead away from it. *)
Definition exact_velocity (w c1 c2 r1 r2 x v p g : f64) : R :=
  (FR w * FR v + FR c1 * FR r1 * (FR p - FR x) + FR c2 * FR r2 * (FR g - FR x))%R.
Definition rounding_slack (w c1 c2 r1 r2 x v p g : f64) : R :=
  (8 * bpow radix2 (-53) * (Rabs (FR w * FR v) + Rabs (FR c1 * FR r1) * Rabs (FR p - FR x) + Rabs (FR c2 * FR r2) * Rabs (FR g - FR x)) +
   bpow radix2 (-1070) * (1 + Rabs (FR c1 * FR r1) + Rabs (FR p - FR x) + Rabs (FR c2 * FR r2) + Rabs (FR g - FR x)))%R.
(** The velocity was not cut by the clamp. *)
Definition unclipped (cl : option (clamp_t F64num)) (j : nat) (v : f64) : Prop :=
  match cl with
  | None => True
  | Some cl => exists a b, clamp_column cl j a b /\ fle a b = true /\ flt a v = true /\ flt v b = true
  end.
