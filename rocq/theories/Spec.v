(** Vocabulary of the property statements.  Nothing here uses the helper functions of the
    model: only its data types and the public operations [construct], [reset] and
    [optimize]. *)
From Coq Require Import String ZArith List Arith Bool Reals.
From Flocq Require Import IEEE754.BinarySingleNaN.
From Verif Require Import Prelude F64 Num Handlers Swarms Generators Topology Optimizers.
Import ListNotations.
Local Open Scope nat_scope.

(** *** Evaluations of a run *)

(** The objective [f] scored the matrix [X] with [cs]: in one call, or (process pool) by
    scoring consecutive blocks of rows. *)
Definition scores (f : fmatrix -> res (list f64)) (pool : option nat) (X : fmatrix) (cs : list f64) : Prop :=
  match pool with
  | None => f X = Ok cs
  | Some _ => exists blocks parts, concat blocks = X /\ concat parts = cs /\
                Forall2 (fun b r => f b = Ok r) blocks parts
  end.

(** [h]: the position matrices of a call in order; [C]: the cost vectors the objective
    returned for them. *)
Definition logged (e : env) (pool : option nat) (h : list fmatrix) (C : list (list f64)) : Prop :=
  length C = length h /\
  forall t X cs, nth_error h t = Some X -> nth_error C t = Some cs -> scores (e_obj e t) pool X cs.

(** In iteration [t], particle [a] was at [x] and was given the cost [v]. *)
Definition evaluated (h : list fmatrix) (C : list (list f64)) (a t : nat) (x : frow) (v : f64) : Prop :=
  exists X cs, nth_error h t = Some X /\ nth_error C t = Some cs /\
               nth_error X a = Some x /\ nth_error cs a = Some v.

(** Every iteration evaluated every one of [n] particles. *)
Definition all_evaluated (n : nat) (h : list fmatrix) (C : list (list f64)) : Prop :=
  forall t a, t < length h -> a < n -> exists x v, evaluated h C a t x v.

(** [(x, v)] is the first best evaluation of particle [a], or [(x0, +inf)] when no
    evaluation was below infinity. *)
Definition best_of_run (h : list fmatrix) (C : list (list f64)) (a : nat) (x0 x : frow) (v : f64) : Prop :=
  (v = finf /\ x = x0 /\ forall t y w, evaluated h C a t y w -> flt w finf = false) \/
  (flt v finf = true /\
   exists t, evaluated h C a t x v /\
     (forall t' y w, evaluated h C a t' y w -> flt w v = false) /\
     (forall t' y w, t' < t -> evaluated h C a t' y w -> flt v w = true \/ fisnan w = true)).

(** *** Optimizer objects *)

(** Just built, or just reset. *)
Inductive Fresh (c : config) : ostate -> Prop :=
| Fresh_construct : forall top dr o, construct c top dr = Ok o -> Fresh c o
| Fresh_reset : forall dr o0 o, reset c dr o0 = Ok o -> Fresh c o.

(** Any sequence of calls, whether they return or raise. *)
Inductive Reachable (c : config) : ostate -> Prop :=
| Reach_construct : forall top dr o, construct c top dr = Ok o -> Reachable c o
| Reach_reset : forall dr o0 o, Reachable c o0 -> reset c dr o0 = Ok o -> Reachable c o
| Reach_optimize : forall e pool iters o0 o r,
    Reachable c o0 -> optimize c e pool iters o0 = (o, r) -> Reachable c o.

(** *** Sequences *)
Definition nonincreasing (l : list f64) : Prop :=
  forall i j x y, i < j -> nth_error l i = Some x -> nth_error l j = Some y -> flt x y = false.

(** Every particle is in somebody's neighbour list. *)
Definition covers (n : nat) (rows : list (list nat)) : Prop :=
  forall a, a < n -> exists r, In r rows /\ In a r.

(** The options give [key] the integer value [z]. *)
Definition int_option (c : config) (key : string) (z : Z) : Prop := dget (c_options c) key = Some (PInt z).
(** Every particle's neighbours are all particles, in order. *)
Definition complete (n : nat) (rows : list (list nat)) : Prop :=
  length rows = n /\ forall i row, nth_error rows i = Some row -> length row = n /\ forall j, j < n -> nth_error row j = Some j.

(** [j] is the first entry of the neighbour list [row] whose cost, [v], is least. *)
Definition leads (cost : list f64) (row : list nat) (j : nat) (v : f64) : Prop :=
  exists q, nth_error row q = Some j /\ nth_error cost j = Some v /\
    forall q' k w, nth_error row q' = Some k -> nth_error cost k = Some w -> fle v w = true /\ (q' < q -> flt v w = true).

(** *** Boxes *)

(** Coordinatewise [lo <= x <= hi] (false on NaN). *)
Definition inside (lo hi : list f64) (r : list f64) : Prop :=
  length r = length lo /\
  forall j x l u, nth_error r j = Some x -> nth_error lo j = Some l -> nth_error hi j = Some u ->
    fle l x = true /\ fle x u = true.
(** No coordinate strictly outside (a NaN is neither inside nor outside). *)
Definition not_outside (lo hi : list f64) (r : list f64) : Prop :=
  length r = length lo /\
  forall j x l u, nth_error r j = Some x -> nth_error lo j = Some l -> nth_error hi j = Some u ->
    flt x l = false /\ flt u x = false.

(** *** Early stopping *)

(** Best cost before iteration [t] of a call that started with best cost [b0] and recorded
    the best costs [B]. *)
Definition cost_before (b0 : f64) (B : list f64) (t : nat) : option f64 :=
  match t with O => Some b0 | S s => nth_error B s end.
(** Iteration [t] changed the best cost by less than [ftol * (1 + |previous|)]. *)
Definition stalled (ftol b0 : f64) (B : list f64) (t : nat) : Prop :=
  exists prev cur, cost_before b0 B t = Some prev /\ nth_error B t = Some cur /\
    flt (fabs (fsub cur prev)) (fmul ftol (fadd fone (fabs prev))) = true.
(** The documented criterion: the last [m] iterations up to [t] have all stalled. *)
Definition window (ftol : f64) (m : nat) (b0 : f64) (B : list f64) (t : nat) : Prop :=
  m <= t /\ forall s, s <= t -> t < s + m -> stalled ftol b0 B s.

(** *** Several calls in a row *)
Record call : Type := mkCall { k_env : env; k_pool : option nat; k_iters : nat }.
Inductive Session (c : config) : ostate -> list call -> ostate -> Prop :=
| Session_nil : forall o, Session c o [] o
| Session_snoc : forall o l o1 k o2 r, Session c o l o1 ->
    optimize c (k_env k) (k_pool k) (k_iters k) o1 = (o2, r) -> Session c o (l ++ [k]) o2.

(** The neighbour queries on the position matrices [h] of a call left no particle out. *)
Definition queries_cover (n : nat) (e : env) (h : list fmatrix) : Prop :=
  forall t X p k rows, nth_error h t = Some X ->
    te_knn (e_top e t) p k X = Ok rows \/ te_delaunay (e_top e t) X = Ok rows -> covers n rows.

(** Contract of a [k]-nearest-neighbour query for the distance [dist]. *)
Definition knn_contract (dist : frow -> frow -> R) (k : nat) (X : fmatrix) (rows : list (list nat)) : Prop :=
  length rows = length X /\
  forall i row xi, nth_error rows i = Some row -> nth_error X i = Some xi ->
    NoDup row /\ length row = k /\ (forall j, In j row -> j < length X) /\
    forall j m xj xm, In j row -> ~ In m row -> nth_error X j = Some xj -> nth_error X m = Some xm ->
      (dist xi xj <= dist xi xm)%R.
(** No [k+1] particles share a position. *)
Definition at_most_coincide (dist : frow -> frow -> R) (k : nat) (X : fmatrix) : Prop :=
  forall i xi l, nth_error X i = Some xi -> NoDup l ->
    (forall j, In j l -> exists xj, nth_error X j = Some xj /\ dist xi xj = 0%R) -> length l <= k.

(** The objective raised [x] on [X] (on one of the blocks of rows, with a process pool). *)
Definition raises (f : fmatrix -> res (list f64)) (pool : option nat) (X : fmatrix) (x : exn) : Prop :=
  match pool with
  | None => f X = Err x
  | Some _ => exists b, (exists u v, X = u ++ b ++ v) /\ f b = Err x
  end.

(** *** Lattice points *)
Fixpoint l1norm (v : list Z) : Z := match v with [] => 0%Z | z :: r => (Z.abs z + l1norm r)%Z end.
(** [m] is the number of points of Z^d at L1 distance at most [r] from the origin. *)
Definition counts_ball (d r m : nat) : Prop :=
  exists l : list (list Z), NoDup l /\ length l = m /\
    forall v, In v l <-> (length v = d /\ (l1norm v <= Z.of_nat r)%Z).

(** *** Graphs on [0..n-1] *)
Inductive path (n : nat) (adj : nat -> nat -> bool) (i : nat) : nat -> Prop :=
| path_refl : path n adj i i
| path_step : forall j k, path n adj i j -> k < n -> adj j k = true \/ adj k j = true -> path n adj i k.
(** Row [i] of [choice]: [k] distinct indices different from [i]. *)
Definition choice_ok (n k : nat) (choice : list (list nat)) : Prop :=
  length choice = n /\
  forall i row, nth_error choice i = Some row ->
    NoDup row /\ length row = k /\ forall j, In j row -> j < n /\ j <> i.

(** *** Row-wise objectives and sequences of calls *)
(** [f] scores each particle on its own: entry [a] of the answer is [g] of row [a]. *)
Definition rowwise (f : fmatrix -> res (list f64)) : Prop :=
  exists g : frow -> res f64, forall X, f X = mapM g X.

(** Results of a sequence of [optimize] calls, and the object afterwards. *)
Fixpoint play (c : config) (o : ostate) (calls : list call) : list (res (f64 * frow)) * ostate :=
  match calls with
  | [] => ([], o)
  | k :: r => let (o1, x) := optimize c (k_env k) (k_pool k) (k_iters k) o in
              let (xs, o2) := play c o1 r in (x :: xs, o2)
  end.
(** Everything a user sees of an optimizer: swarm and histories. *)
Definition observe (o : ostate) :=
  (o_swarm o, o_cost_history o, o_mean_pbest_history o, o_mean_neighbor_history o,
   o_pos_history o, o_velocity_history o).

(** L1 distance of two rows, over the reals. *)
Fixpoint l1dist (a b : frow) : R :=
  match a, b with
  | x :: a', y :: b' => (Rabs (BinarySingleNaN.B2R x - BinarySingleNaN.B2R y) + l1dist a' b')%R
  | _, _ => 0%R
  end.

(** The same environment with other neighbour queries. *)
Definition with_tops (e : env) (f : nat -> topo_env) : env :=
  mkEnv (e_obj e) (e_vel e) (e_bh e) (e_oh e) f (e_bits e) (e_exp e) (e_tree e).
(** No NaN in a list. *)
Definition no_nan (l : list f64) : Prop := forall v, In v l -> fisnan v = false.
