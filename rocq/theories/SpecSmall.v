(** Vocabulary of the property about bounds of one element and numbers as bounds (C87). *)
From Coq Require Import String ZArith List Arith Bool.
From Verif Require Import Prelude F64 Num Handlers Swarms Operators Generators Topology Optimizers SmallBounds Spec SpecHandlers.
Import ListNotations.
Local Open Scope string_scope.
Local Open Scope list_scope.

(** The settings with the lower bound [lo] in every one of the dimensions, and the upper bound [hi]. *)
Definition spelled (c : config) (s : small) : config :=
  {| c_kind := c_kind c; c_n := c_n c; c_d := c_d c; c_options := c_options c;
     c_bounds := Some (mkBounds (N := F64num) (map (fun _ => sb_lo s) (seq 0 (c_d c))) (map (fun _ => sb_hi s) (seq 0 (c_d c))) true);
     c_clamp := c_clamp c; c_center := c_center c; c_ftol := c_ftol c; c_ftol_iter := c_ftol_iter c; c_init := c_init c; c_bh := c_bh c; c_vh := c_vh c; c_oh := c_oh c |}.
(** A move by [v] from [x] that leaves the bounds in a dimension with number [j0] or higher. *)
Definition strays (s : small) (j0 : nat) (x v : fmatrix) : Prop :=
  exists i j a b, j0 <= j /\ entry x i j = Some a /\ entry v i j = Some b /\ (flt (fadd a b) (sb_lo s) = true \/ flt (sb_hi s) (fadd a b) = true).
(** The strategies that do not index the bounds. *)
Definition carefree (c : config) (s : small) : Prop := c_kind c = Binary \/ c_bh c = "nearest" \/ (c_bh c = "random" /\ sb_form s = FOne).
(** Those that never work. *)
Definition hopeless (c : config) (s : small) : Prop := c_kind c <> Binary /\ sb_form s = FScalar /\ (c_bh c = "random" \/ c_bh c = "shrink" \/ c_bh c = "intermediate").
(** Those that work until a particle leaves the bounds, and how: the first dimension that must not be left, and the exception. *)
Definition fragile (c : config) (s : small) (j0 : nat) (x : exn) : Prop :=
  c_kind c <> Binary /\
  ((j0 = 1 /\ x = IndexError /\ (c_bh c = "periodic" \/ (sb_form s = FOne /\ (c_bh c = "reflective" \/ c_bh c = "shrink" \/ c_bh c = "intermediate")))) \/
   (j0 = 0 /\ x = TypeError /\ sb_form s = FScalar /\ c_bh c = "reflective")).
(** The histories of [o'] begin with those of [o]. *)
Definition continues {A : Type} (h h' : list A) : Prop := exists r, h' = h ++ r.
Definition records_begin (o o' : ostate) : Prop :=
  continues (o_cost_history o) (o_cost_history o') /\ continues (o_mean_pbest_history o) (o_mean_pbest_history o') /\ continues (o_mean_neighbor_history o) (o_mean_neighbor_history o') /\
  continues (o_pos_history o) (o_pos_history o') /\ continues (o_velocity_history o) (o_velocity_history o').
