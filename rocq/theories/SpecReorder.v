(** Vocabulary of the property that no dimension is special (C74). *)
From Coq Require Import String ZArith List Arith Bool Permutation.
From Verif Require Import Prelude F64 Num Handlers Swarms Operators Generators Topology Optimizers Spec SpecLike.
Import ListNotations.
Local Open Scope list_scope.

Section Reorder.
(** Dimension [j] of the second run is dimension [nth j order] of the first. *)
Variable order : list nat.
Definition reordered {A} (r r' : list A) : Prop :=
  length r = length order /\ length r' = length order /\
  forall j k, nth_error order j = Some k -> nth_error r' j = nth_error r k.
(** Every particle's row is reordered in the same way. *)
Definition columns {A} (m m' : list (list A)) : Prop := Forall2 reordered m m'.
Definition bounds_like (b b' : bounds F64num) : Prop :=
  reordered (b_lb b) (b_lb b') /\ reordered (b_ub b) (b_ub b') /\ b_arr b' = b_arr b.
Definition clamp_like (c c' : clamp_t F64num) : Prop := reordered (fst c) (fst c') /\ reordered (snd c) (snd c').
(** The same optimizer with its dimensions in the other order. *)
Definition config_like (c c' : config) : Prop :=
  c_kind c' = c_kind c /\ c_n c' = c_n c /\ c_d c = length order /\ c_d c' = length order /\ c_options c' = c_options c /\ maybe bounds_like (c_bounds c) (c_bounds c') /\
  maybe clamp_like (c_clamp c) (c_clamp c') /\ reordered (c_center c) (c_center c') /\ c_ftol c' = c_ftol c /\ c_ftol_iter c' = c_ftol_iter c /\
  maybe columns (c_init c) (c_init c') /\ c_bh c' = c_bh c /\ c_vh c' = c_vh c /\ c_oh c' = c_oh c.
(** The same problem and the same draws with the dimensions in the other order; neighbours do not depend on the order. *)
Definition env_like (e e' : env) : Prop :=
  (forall i X X', columns X X' -> e_obj e' i X' = e_obj e i X) /\
  (forall i, columns (vd_u1 (e_vel e i)) (vd_u1 (e_vel e' i)) /\ columns (vd_u2 (e_vel e i)) (vd_u2 (e_vel e' i))) /\
  (forall i, reordered (bd_greater (e_bh e i)) (bd_greater (e_bh e' i)) /\ reordered (bd_lower (e_bh e i)) (bd_lower (e_bh e' i)) /\
             bd_fuel (e_bh e' i) = bd_fuel (e_bh e i)) /\
  (forall i, e_oh e' i = e_oh e i) /\
  (forall i, (forall p k X X', columns X X' -> te_knn (e_top e' i) p k X' = te_knn (e_top e i) p k X) /\
             (forall X X', columns X X' -> te_delaunay (e_top e' i) X' = te_delaunay (e_top e i) X) /\ te_choice (e_top e' i) = te_choice (e_top e i)) /\
  (forall i, reordered (e_bits e i) (e_bits e' i)) /\
  (forall x, e_exp e' x = e_exp e x) /\ (forall m, e_tree e' m = e_tree e m).
Definition draws_like (d d' : create_draws) : Prop :=
  columns (cd_pos d) (cd_pos d') /\ columns (cd_bits d) (cd_bits d') /\ columns (cd_vel d) (cd_vel d').
(** Calls of [optimize] that differ in the order of the dimensions only. *)
Definition call_like (k k' : call) : Prop := env_like (k_env k) (k_env k') /\ k_pool k' = k_pool k /\ k_iters k' = k_iters k.
End Reorder.
