(** Vocabulary of further properties of whole runs (C62-). *)
From Coq Require Import String ZArith List Arith Bool Reals Permutation.
From Flocq Require Import Core.
From Verif Require Import Prelude F64 F64Facts Num Handlers Swarms Operators Generators Topology Optimizers Spec SpecHandlers SpecDyn.
Import ListNotations.
Local Open Scope string_scope.
Local Open Scope list_scope.
Local Open Scope nat_scope.

(** All particles have the value [x] in dimension [j]. *)
Definition column_all (m : list (list f64)) (j : nat) (x : f64) : Prop := forall i y, entry m i j = Some y -> feq y x = true.
Definition best_column (b : fbestpos) (j : nat) (x : f64) : Prop := forall i y, best_entry (N := F64num) b i j = Some y -> feq y x = true.
(** The clamp of dimension [j] allows velocity zero. *)
Definition holds_zero (cl : option (clamp_t F64num)) (j : nat) : Prop :=
  match cl with None => True | Some cl => exists a b, clamp_column cl j a b /\ fle a fzero = true /\ fle fzero b = true end.
(** [x] is admissible in dimension [j], and boundary handling is per dimension. *)
Definition keeps (c : config) (j : nat) (x : f64) : Prop :=
  match c_bounds c with None => True | Some b => c_bh c = "nearest" /\ exists l u, column b j l u /\ fle l x = true /\ fle x u = true end.
(** The coefficients in use are finite numbers. *)
Definition finite_coefficients (c : config) (e : env) (iters : nat) : Prop :=
  forall t key v, In key ["w"; "c1"; "c2"] -> coefficient c e iters t key v -> ffinite v = true.

(** The objective is asked for [X] at once, or, with a process pool, for contiguous blocks of its rows. *)
Definition same_answers (e e' : env) (pool : option nat) (t : nat) (X : fmatrix) : Prop :=
  match pool with
  | None => e_obj e t X = e_obj e' t X
  | Some _ => forall a b z, X = a ++ b ++ z -> e_obj e t b = e_obj e' t b
  end.
(** The two environments cannot be told apart in iteration [t] by somebody who asks the objective about [X] only. *)
Definition same_iteration (e e' : env) (pool : option nat) (t : nat) (X : fmatrix) : Prop :=
  same_answers e e' pool t X /\ e_vel e t = e_vel e' t /\ e_bh e t = e_bh e' t /\ e_oh e t = e_oh e' t /\
  e_top e t = e_top e' t /\ e_bits e t = e_bits e' t.

(** The summation order adds every summand exactly once. *)
Fixpoint leaves (t : sumtree) : list nat := match t with Leaf i => [i] | Node a b => leaves a ++ leaves b end.
Definition proper_sum (t : sumtree) (n : nat) : Prop := Permutation (leaves t) (seq 0 n).
(** Exact mean, and mean magnitude. *)
Definition rsum (l : list R) : R := fold_right Rplus 0%R l.
Definition exact_mean (ys : list f64) : R := (rsum (map (fun y => FR y) ys) / INR (length ys))%R.
Definition mean_magnitude (ys : list f64) : R := (rsum (map (fun y => Rabs (FR y)) ys) / INR (length ys))%R.

(** What the constructors ask of their arguments. *)
Definition accepts (c : config) : Prop :=
  (c_kind c = LocalBest \/ c_kind c = Binary -> dget (c_options c) "k" <> None /\ dget (c_options c) "p" <> None) /\
  0 < c_ftol_iter c /\
  (forall cl, c_clamp c = Some cl -> length (fst cl) = c_d c /\ length (snd cl) = c_d c) /\
  (c_kind c = Binary -> forall p, c_init c = Some p -> two_valued p) /\
  (c_kind c <> Binary -> forall b p, c_bounds c = Some b -> c_init c = Some p ->
     length (b_lb b) = length (b_ub b) /\ Forall (fun r => length r = length (b_lb b)) p /\ all_inside b p) /\
  (c_kind c <> Binary -> forall b, c_bounds c = Some b -> c_init c = None ->
     box_dim (c_d c) b /\ forall j l u, column b j l u -> ffinite (fsub u l) = true) /\
  (c_kind c <> Binary -> c_init c = None -> length (c_center c) = c_d c).

(** Entry [t] of [B] is the least of all costs given up to iteration [t], or infinity when there was none below. *)
Definition running_min (h : list fmatrix) (C : list (list f64)) (B : list f64) : Prop :=
  length B = length h /\
  forall t b, nth_error B t = Some b ->
    (forall a t' x w, t' <= t -> evaluated h C a t' x w -> flt w b = false) /\
    (b = finf \/ exists a t' x, t' <= t /\ evaluated h C a t' x b).

(** The matrices of a swarm all have [n] rows of length [d]. *)
Definition shaped (n d : nat) (s : fswarm) : Prop :=
  is_matrix n d (s_position s) /\ is_matrix n d (s_velocity s) /\ is_matrix n d (s_pbest_pos s).
(** The random generators deliver matrices of the requested shape. *)
Definition shaped_draws (n d : nat) (dr : create_draws) : Prop :=
  is_matrix n d (cd_pos dr) /\ is_matrix n d (cd_bits dr) /\ is_matrix n d (cd_vel dr).
