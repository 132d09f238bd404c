(** Vocabulary of the property that no particle is special (C76). *)
From Coq Require Import String ZArith List Arith Bool Permutation.
From Verif Require Import Prelude F64 Num Handlers Swarms Operators Generators Topology Optimizers Spec SpecLike SpecMirror.
Import ListNotations.
Local Open Scope list_scope.

Section Shuffle.
(** Particle [j] of the second run is particle [nth j order] of the first. *)
Variable order : list nat.
Definition shuffled {A} (l l' : list A) : Prop :=
  length l = length order /\ Forall2 (fun i x => nth_error l i = Some x) order l'.
(** Costs are not known before the first evaluation. *)
Definition costs_shuffled (l l' : list f64) : Prop := (l = [] /\ l' = []) \/ shuffled l l'.
Definition best_shuffled (b b' : fbestpos) : Prop :=
  match b, b' with
  | BPEmpty, BPEmpty => True
  | BPVec v, BPVec v' => v' = v
  | BPMat m, BPMat m' => shuffled m m'
  | _, _ => False
  end.
(** The same particles under their new numbers, in any order. *)
Definition renumbered (row row' : list nat) : Prop :=
  Forall (fun j => (j < length order)%nat) row' /\ Permutation row (map (fun j => nth j order j) row').
(** Every particle has the same neighbours. *)
Definition hoods_shuffled (rows rows' : list (list nat)) : Prop := exists moved, shuffled rows moved /\ Forall2 renumbered moved rows'.
Definition topology_shuffled (t t' : topology) : Prop :=
  t_kind t' = t_kind t /\ t_static t' = t_static t /\
  maybe (fun nb nb' => hoods_shuffled (nb_rows nb) (nb_rows nb') /\ nb_ndim nb' = nb_ndim nb) (t_nb t) (t_nb t').
Definition swarm_shuffled (s s' : fswarm) : Prop :=
  shuffled (s_position s) (s_position s') /\ shuffled (s_velocity s) (s_velocity s') /\ s_n s = length order /\ s_n s' = length order /\ s_d s' = s_d s /\
  s_options s' = s_options s /\ shuffled (s_pbest_pos s) (s_pbest_pos s') /\ best_shuffled (s_best_pos s) (s_best_pos s') /\
  costs_shuffled (s_pbest_cost s) (s_pbest_cost s') /\ same (s_best_cost s) (s_best_cost s') /\ s_best_np s' = s_best_np s /\
  costs_shuffled (s_current_cost s) (s_current_cost s').
(** The mean of the personal bests is left out: its summands come in another order. *)
Definition state_shuffled (o o' : ostate) : Prop :=
  swarm_shuffled (o_swarm o) (o_swarm o') /\ topology_shuffled (o_top o) (o_top o') /\ maybe shuffled (o_bmem o) (o_bmem o') /\ maybe shuffled (o_vmem o) (o_vmem o') /\
  Forall2 same (o_cost_history o) (o_cost_history o') /\ Forall2 same (o_mean_neighbor_history o) (o_mean_neighbor_history o') /\
  Forall2 shuffled (o_pos_history o) (o_pos_history o') /\ Forall2 shuffled (o_velocity_history o) (o_velocity_history o').
(** The same problem; every particle is dealt its own draws and has its own neighbours. *)
Definition outcome_shuffled (r r' : res (list f64)) : Prop :=
  match r, r' with Ok l, Ok l' => shuffled l l' | Err x, Err x' => x' = x | _, _ => False end.
Definition hood_shuffled (r r' : res (list (list nat))) : Prop :=
  match r, r' with Ok l, Ok l' => hoods_shuffled l l' | Err x, Err x' => x' = x | _, _ => False end.
Definition env_shuffled (e e' : env) : Prop :=
  (forall i X X', shuffled X X' -> outcome_shuffled (e_obj e i X) (e_obj e' i X')) /\
  (forall i, shuffled (vd_u1 (e_vel e i)) (vd_u1 (e_vel e' i)) /\ shuffled (vd_u2 (e_vel e i)) (vd_u2 (e_vel e' i))) /\
  (forall i, e_bh e' i = e_bh e i) /\ (forall i, e_oh e' i = e_oh e i) /\ (forall i, e_bits e' i = e_bits e i) /\ (forall x, e_exp e' x = e_exp e x) /\
  (forall i p k X X', shuffled X X' -> hood_shuffled (te_knn (e_top e i) p k X) (te_knn (e_top e' i) p k X')) /\
  (forall i X X', shuffled X X' -> hood_shuffled (te_delaunay (e_top e i) X) (te_delaunay (e_top e' i) X')) /\
  (forall i, hoods_shuffled (te_choice (e_top e i)) (te_choice (e_top e' i))).
Definition result_shuffled (r r' : res (f64 * frow)) : Prop :=
  match r, r' with
  | Ok (cost, pos), Ok (cost', pos') => same cost cost' /\ pos' = pos
  | Err x, Err x' => x' = x
  | _, _ => False
  end.
(** Rows of one length, as in every two-dimensional array. *)
Definition rect {A} (m : list (list A)) : Prop := exists d, Forall (fun r => length r = d) m.
(** Every particle is dealt its own first position and velocity, at random or by the caller. *)
Definition draws_shuffled (d d' : create_draws) : Prop :=
  shuffled (cd_pos d) (cd_pos d') /\ rect (cd_pos d) /\ shuffled (cd_bits d) (cd_bits d') /\ rect (cd_bits d) /\ shuffled (cd_vel d) (cd_vel d').
Definition init_shuffled (p p' : option fmatrix) : Prop := maybe (fun m m' => shuffled m m' /\ rect m) p p'.
(** Both objects are built, in states that differ in the numbers of the particles only, or both attempts raise the same exception. *)
Definition built_shuffled (r r' : res ostate) : Prop :=
  match r, r' with Ok o, Ok o' => state_shuffled o o' | Err x, Err x' => x' = x | _, _ => False end.
End Shuffle.
(** [p] was evaluated to [c] in the run that recorded the positions [h]. *)
Definition evaluated (e : env) (h : list fmatrix) (p : frow) (c : f64) : Prop :=
  exists t X cs i, nth_error h t = Some X /\ e_obj e t X = Ok cs /\ nth_error X i = Some p /\ nth_error cs i = Some c.
(** All costs are below infinity, and different positions have different costs. *)
Definition untied (e : env) (h : list fmatrix) : Prop :=
  (forall p c, evaluated e h p c -> flt c finf = true) /\ (forall p c p' c', evaluated e h p c -> evaluated e h p' c' -> feq c c' = true -> p = p').
(** The same optimizer with other initial positions. *)
Definition with_init (c : config) (p : option fmatrix) : config :=
  mkConfig (c_kind c) (c_n c) (c_d c) (c_options c) (c_bounds c) (c_clamp c) (c_center c) (c_ftol c) (c_ftol_iter c) p (c_bh c) (c_vh c) (c_oh c).
