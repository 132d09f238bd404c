(** Vocabulary of the property that the units of the dimensions do not matter (C84). *)
From Coq Require Import String ZArith Reals List Arith Bool.
From Flocq Require Import Core.
From Verif Require Import Prelude F64 F64Facts Num Handlers Swarms Operators Generators Topology Optimizers Spec SpecHandlers SpecDyn SpecLike.
Import ListNotations.
Local Open Scope string_scope.
Local Open Scope list_scope.

(** [y] is the number [x] measured in a unit that is [2^k] times smaller. *)
Definition rescaled (k : Z) (x y : f64) : Prop := ffinite x = true /\ ffinite y = true /\ FR y = (bpow radix2 k * FR x)%R.
(** [ks] gives the change of the unit for every dimension. *)
Fixpoint scaled (ks : list Z) (r r' : frow) : Prop :=
  match ks, r, r' with
  | [], [], [] => True
  | k :: ks, x :: r, x' :: r' => rescaled k x x' /\ scaled ks r r'
  | _, _, _ => False
  end.
(** A finite multiple of [2^l] that is at most [2^m] in magnitude. *)
Definition grid (l m : Z) (x : f64) : Prop :=
  ffinite x = true /\ (exists z, FR x = IZR z * bpow radix2 l)%R /\ (Rabs (FR x) <= bpow radix2 m)%R.
(** Neither huge nor tiny: far from overflow, and without digits below [2^-400]. *)
Definition moderate (x : f64) : Prop := grid (-400) 400 x.
Section Scale.
Variable ks : list Z.
Definition scaled_bounds (b b' : bounds F64num) : Prop :=
  scaled ks (b_lb b) (b_lb b') /\ scaled ks (b_ub b) (b_ub b') /\ b_arr b' = b_arr b /\
  Forall moderate (b_lb b) /\ Forall moderate (b_ub b) /\ Forall2 (fun l u => flt l u = true) (b_lb b) (b_ub b).
Definition scaled_clamp (c c' : clamp_t F64num) : Prop :=
  scaled ks (fst c) (fst c') /\ scaled ks (snd c) (snd c') /\ Forall moderate (fst c) /\ Forall moderate (snd c).
(** The same optimizer in the new units. *)
Definition scaled_config (c c' : config) : Prop :=
  c_kind c' = c_kind c /\ c_n c' = c_n c /\ c_d c = length ks /\ c_d c' = length ks /\ c_options c' = c_options c /\ maybe scaled_bounds (c_bounds c) (c_bounds c') /\
  maybe scaled_clamp (c_clamp c) (c_clamp c') /\ c_ftol c' = c_ftol c /\ c_ftol_iter c' = c_ftol_iter c /\
  c_bh c' = c_bh c /\ c_vh c' = c_vh c /\ c_oh c' = c_oh c.
(** The problem in the new units, the same draws; the neighbours asked for are the same. *)
Definition scaled_env (e e' : env) : Prop :=
  (forall i X X', Forall2 (scaled ks) X X' -> e_obj e' i X' = e_obj e i X) /\
  (forall i, e_vel e' i = e_vel e i) /\ (forall i, e_bh e' i = e_bh e i) /\ (forall i, e_oh e' i = e_oh e i) /\
  (forall i, (forall p k X X', Forall2 (scaled ks) X X' -> te_knn (e_top e' i) p k X' = te_knn (e_top e i) p k X) /\
             (forall X X', Forall2 (scaled ks) X X' -> te_delaunay (e_top e' i) X' = te_delaunay (e_top e i) X) /\ te_choice (e_top e' i) = te_choice (e_top e i)) /\
  (forall m, e_tree e' m = e_tree e m).
(** The units change by factors from [2^-100] to [2^100]. *)
Definition factors : Prop := Forall (fun k => -100 <= k <= 100)%Z ks.
End Scale.
(** The draws are multiples of [2^-60] between -1 and 1 (numpy's are multiples of [2^-53]). *)
Definition moderate_draws (e : env) : Prop :=
  (forall t i j r, entry (vd_u1 (e_vel e t)) i j = Some r \/ entry (vd_u2 (e_vel e t)) i j = Some r -> grid (-60) 0 r) /\
  (forall t r, In r (bd_greater (e_bh e t)) \/ In r (bd_lower (e_bh e t)) -> grid (-60) 0 r).
(** The coefficients in use are multiples of [2^-60] and at most [2^60] in magnitude. *)
Definition moderate_coefficients (c : config) (e : env) (iters : nat) : Prop :=
  forall t key v, In key ["w"; "c1"; "c2"] -> coefficient c e iters t key v -> grid (-60) 60 v.
(** All recorded positions and velocities are moderate. *)
Definition moderate_record (o : ostate) : Prop :=
  forall X, In X (o_pos_history o) \/ In X (o_velocity_history o) -> Forall (Forall moderate) X.
(** The bests with which a call begins: as in a new object, or moderate. *)
Definition moderate_bests (o : ostate) : Prop :=
  (s_pbest_pos (o_swarm o) = s_position (o_swarm o) \/ Forall (Forall moderate) (s_pbest_pos (o_swarm o))) /\
  match s_best_pos (o_swarm o) with BPEmpty => True | BPVec v => Forall moderate v | BPMat m => Forall (Forall moderate) m end.
(** At most 400 reflections per call of "reflective". *)
Definition few_reflections (c : config) (e : env) : Prop := c_bh c = "reflective" -> forall i, (bd_fuel (e_bh e i) <= 400)%nat.
