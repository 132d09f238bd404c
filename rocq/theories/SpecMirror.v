(** Vocabulary of the property that no direction is special (C75). *)
From Coq Require Import String ZArith List Arith Bool.
From Verif Require Import Prelude F64 Num Handlers Swarms Operators Generators Topology Optimizers Spec SpecLike.
Import ListNotations.
Local Open Scope list_scope.

(** Equal numbers; the sign of a zero does not count. *)
Definition same (x y : f64) : Prop := feq x y = true \/ (fisnan x = true /\ fisnan y = true).
(** The coordinate is the same, or, in a mirrored dimension, the opposite one. *)
Definition turned (m : bool) (x y : f64) : Prop := same (if m then fopp x else x) y.
(** [flips] tells for every dimension whether it is mirrored. *)
Fixpoint mirrored (flips : list bool) (r r' : frow) : Prop :=
  match flips, r, r' with
  | [], [], [] => True
  | m :: flips, x :: r, x' :: r' => turned m x x' /\ mirrored flips r r'
  | _, _, _ => False
  end.
(** Intervals [lo, hi]: a mirrored interval is [-hi, -lo]. No interval is inverted. *)
Fixpoint mirrored_box (flips : list bool) (lo hi lo' hi' : frow) : Prop :=
  match flips, lo, hi, lo', hi' with
  | [], [], [], [], [] => True
  | m :: flips, l :: lo, h :: hi, l' :: lo', h' :: hi' =>
      (if m then same (fopp h) l' /\ same (fopp l) h' else same l l' /\ same h h') /\ flt h l = false /\ mirrored_box flips lo hi lo' hi'
  | _, _, _, _, _ => False
  end.
Section Mirror.
Variable flips : list bool.
Definition mirrored_bounds (b b' : bounds F64num) : Prop := mirrored_box flips (b_lb b) (b_ub b) (b_lb b') (b_ub b') /\ b_arr b' = b_arr b.
Definition mirrored_clamp (c c' : clamp_t F64num) : Prop := mirrored_box flips (fst c) (snd c) (fst c') (snd c').
(** The same optimizer in the mirrored space. *)
Definition mirrored_config (c c' : config) : Prop :=
  c_kind c' = c_kind c /\ c_n c' = c_n c /\ c_d c = length flips /\ c_d c' = length flips /\ c_options c' = c_options c /\ maybe mirrored_bounds (c_bounds c) (c_bounds c') /\
  maybe mirrored_clamp (c_clamp c) (c_clamp c') /\ c_ftol c' = c_ftol c /\ c_ftol_iter c' = c_ftol_iter c /\
  c_bh c' = c_bh c /\ c_vh c' = c_vh c /\ c_oh c' = c_oh c.
(** The mirrored problem, the same draws; neighbours do not depend on the direction. *)
Definition mirrored_env (e e' : env) : Prop :=
  (forall i X X', Forall2 (mirrored flips) X X' -> e_obj e' i X' = e_obj e i X) /\
  (forall i, e_vel e' i = e_vel e i) /\ (forall i, bd_fuel (e_bh e' i) = bd_fuel (e_bh e i)) /\ (forall i, e_oh e' i = e_oh e i) /\
  (forall i, (forall p k X X', Forall2 (mirrored flips) X X' -> te_knn (e_top e' i) p k X' = te_knn (e_top e i) p k X) /\
             (forall X X', Forall2 (mirrored flips) X X' -> te_delaunay (e_top e' i) X' = te_delaunay (e_top e i) X) /\ te_choice (e_top e' i) = te_choice (e_top e i)) /\
  (forall m, e_tree e' m = e_tree e m).
Definition mirrored_call (k k' : call) : Prop := mirrored_env (k_env k) (k_env k') /\ k_pool k' = k_pool k /\ k_iters k' = k_iters k.
End Mirror.
