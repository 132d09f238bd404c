(** Vocabulary of the equations of motion. *)
From Coq Require Import String ZArith List Arith Bool Sorted.
From Verif Require Import Prelude F64 Num Handlers Swarms Operators Generators Topology Optimizers Spec SpecHandlers SpecOpts.
Import ListNotations.
Local Open Scope string_scope.
Local Open Scope list_scope.
Local Open Scope nat_scope.

(** What has been recorded up to and including iteration [t]. *)
Definition so_far {A} (t : nat) (l : list A) : list A := firstn (S t) l.

(** Value of a coefficient in iteration [t] of [iters]: the configured one, or the one its
    schedule gives for the configured one. *)
Definition coefficient (c : config) (e : env) (iters t : nat) (key : string) (v : f64) : Prop :=
  (dget (c_oh c) key = None /\ exists q, dget (c_options c) key = Some q /\ v = pnum q) \/
  (exists s, dget (c_oh c) key = Some s /\
     new_value (N := F64num) (e_oh e t) (c_options c) (mkOk (Some (Z.of_nat t)) (Some (Z.of_nat iters)) None None None None) key s v).

(** [y]: the least cost of all evaluations, at [x]; among equals the earliest iteration, and
    in it the particle with the lowest index. *)
Definition swarm_best (h : list fmatrix) (C : list (list f64)) (x : frow) (y : f64) : Prop :=
  exists a s, evaluated h C a s x y /\ (forall a' s' z w, evaluated h C a' s' z w -> flt w y = false) /\
    forall a' s' z w, evaluated h C a' s' z w -> s' < s \/ (s' = s /\ a' < a) -> flt y w = true \/ fisnan w = true.

(** Dimension [j] of the velocity [raw] after the clamp. *)
Definition clamped (cl : option (clamp_t F64num)) (j : nat) (raw v : f64) : Prop :=
  match cl with
  | None => v = raw
  | Some cl => forall a b, clamp_column cl j a b -> fle a b = true -> cut a b raw v
  end.
(** Dimension [j] of a particle that moved to [y] and ended at [x]. *)
Definition placed (c : config) (j : nat) (y x : f64) : Prop :=
  match c_bounds c with
  | None => x = y
  | Some b => c_bh c = "nearest" -> forall l u, column b j l u -> fle l u = true -> projection l u y x
  end.

(** The neighbour lists that a query with the answers [te] gives on the positions [X].
    (C31 says what [random_adj] returns.) *)
Definition queried (c : config) (te : topo_env) (o : ostate) (X : fmatrix) (rows : list (list nat)) : Prop :=
  match t_kind (o_top o) with
  | Star => False
  | Ring => exists p k, int_option c "p" p /\ int_option c "k" k /\ te_knn te p (Z.to_nat k) X = Ok rows
  | VonNeumann => exists p r m, int_option c "p" p /\ int_option c "r" (Z.of_nat r) /\
                    counts_ball (s_d (o_swarm o)) r m /\ te_knn te p m X = Ok rows
  | Pyramid => te_delaunay te X = Ok rows
  | Random => exists k adj, int_option c "k" k /\
                random_adj 1 (s_n (o_swarm o)) k (te_choice te) = Ok adj /\
                forall i row, nth_error rows i = Some row -> StronglySorted lt row /\
                  forall j, In j row <-> j < s_n (o_swarm o) /\ adj i j = true
  end.
(** The neighbour lists in use in iteration [t] of a call on [o] whose positions were [h]: those
    of this iteration, or for a static topology the stored ones, or else those of the first
    iteration. *)
Definition neighbour_lists (c : config) (e : env) (o : ostate) (h : list fmatrix) (t : nat) (rows : list (list nat)) : Prop :=
  if t_static (o_top o)
  then match t_nb (o_top o) with
       | Some nb => rows = nb_rows nb
       | None => exists X, nth_error h 0 = Some X /\ queried c (e_top e 0) o X rows
       end
  else exists X, nth_error h t = Some X /\ queried c (e_top e t) o X rows.
(** [x], [y]: position and cost of the first best personal best in the neighbour list [row]. *)
Definition neighbour_best (h : list fmatrix) (C : list (list f64)) (x0 : fmatrix) (row : list nat) (x : frow) (y : f64) : Prop :=
  exists q b z, nth_error row q = Some b /\ nth_error x0 b = Some z /\ best_of_run h C b z x y /\
  forall q' b' z' x' y', nth_error row q' = Some b' -> nth_error x0 b' = Some z' -> best_of_run h C b' z' x' y' ->
    fle y y' = true /\ (q' < q -> flt y y' = true).

(** *** Comparing runs *)
Definition prefix {A} (l m : list A) : Prop := exists k, m = l ++ k.
(** Every history of [o] is a prefix of that of [o']. *)
Definition hist_prefix (o o' : ostate) : Prop :=
  prefix (o_cost_history o) (o_cost_history o') /\ prefix (o_mean_pbest_history o) (o_mean_pbest_history o') /\
  prefix (o_mean_neighbor_history o) (o_mean_neighbor_history o') /\ prefix (o_pos_history o) (o_pos_history o') /\
  prefix (o_velocity_history o) (o_velocity_history o').
(** Histories, personal bests, global best and topology are the same. *)
Definition same_records (o o' : ostate) : Prop :=
  o_cost_history o' = o_cost_history o /\ o_mean_pbest_history o' = o_mean_pbest_history o /\
  o_mean_neighbor_history o' = o_mean_neighbor_history o /\ o_pos_history o' = o_pos_history o /\
  o_velocity_history o' = o_velocity_history o /\ o_top o' = o_top o /\
  s_pbest_pos (o_swarm o') = s_pbest_pos (o_swarm o) /\ s_pbest_cost (o_swarm o') = s_pbest_cost (o_swarm o) /\
  s_best_pos (o_swarm o') = s_best_pos (o_swarm o) /\ s_best_cost (o_swarm o') = s_best_cost (o_swarm o) /\
  s_current_cost (o_swarm o') = s_current_cost (o_swarm o).
(** No schedule is configured. *)
Definition unscheduled (c : config) : Prop := c_kind c = Binary \/ c_oh c = [].
(** The same configuration with another boundary / velocity strategy. *)
Definition with_bh (c : config) (st : string) : config :=
  {| c_kind := c_kind c; c_n := c_n c; c_d := c_d c; c_options := c_options c; c_bounds := c_bounds c; c_clamp := c_clamp c;
     c_center := c_center c; c_ftol := c_ftol c; c_ftol_iter := c_ftol_iter c; c_init := c_init c;
     c_bh := st; c_vh := c_vh c; c_oh := c_oh c |}.
Definition with_vh (c : config) (st : string) : config :=
  {| c_kind := c_kind c; c_n := c_n c; c_d := c_d c; c_options := c_options c; c_bounds := c_bounds c; c_clamp := c_clamp c;
     c_center := c_center c; c_ftol := c_ftol c; c_ftol_iter := c_ftol_iter c; c_init := c_init c;
     c_bh := c_bh c; c_vh := st; c_oh := c_oh c |}.
(** ... with another tolerance. *)
Definition with_ftol (c : config) (ftol : f64) : config :=
  {| c_kind := c_kind c; c_n := c_n c; c_d := c_d c; c_options := c_options c; c_bounds := c_bounds c; c_clamp := c_clamp c;
     c_center := c_center c; c_ftol := ftol; c_ftol_iter := c_ftol_iter c; c_init := c_init c;
     c_bh := c_bh c; c_vh := c_vh c; c_oh := c_oh c |}.
(** The same environment with another objective function. *)
Definition with_obj (e : env) (f : nat -> fmatrix -> res (list f64)) : env :=
  mkEnv f (e_vel e) (e_bh e) (e_oh e) (e_top e) (e_bits e) (e_exp e) (e_tree e).
(** [b] is handed to the objective when [X] is scored. *)
Definition part_of (pool : option nat) (b X : fmatrix) : Prop :=
  match pool with None => b = X | Some _ => exists u v, X = u ++ b ++ v end.

(** *** Relabelling the costs *)
(** [phi] keeps the order (and NaN) on the values in [P]. *)
Definition order_on (P : f64 -> Prop) (phi : f64 -> f64) : Prop :=
  (forall a, P a -> fisnan (phi a) = fisnan a) /\ (forall a b, P a -> P b -> flt (phi a) (phi b) = flt a b).
(** The objective whose costs are relabelled by [phi]. *)
Definition relabel (phi : f64 -> f64) (f : nat -> fmatrix -> res (list f64)) (t : nat) (X : fmatrix) : res (list f64) :=
  match f t X with Ok cs => Ok (map phi cs) | Err x => Err x end.
(** The same swarm with relabelled costs. *)
Definition recost (phi : f64 -> f64) (s : fswarm) : fswarm :=
  mkSwarm (N := F64num) (s_position s) (s_velocity s) (s_n s) (s_d s) (s_options s) (s_pbest_pos s) (s_best_pos s)
    (map phi (s_pbest_cost s)) (phi (s_best_cost s)) (s_best_np s) (map phi (s_current_cost s)).
(** [o'] is [o] with relabelled costs, except for the means of the personal-best costs. *)
Definition recosted (phi : f64 -> f64) (o o' : ostate) : Prop :=
  o_swarm o' = recost phi (o_swarm o) /\ o_top o' = o_top o /\ o_bmem o' = o_bmem o /\ o_vmem o' = o_vmem o /\
  o_cost_history o' = map phi (o_cost_history o) /\ o_mean_neighbor_history o' = map phi (o_mean_neighbor_history o) /\
  length (o_mean_pbest_history o') = length (o_mean_pbest_history o) /\
  o_pos_history o' = o_pos_history o /\ o_velocity_history o' = o_velocity_history o.

(** *** Where a particle ends that moved to [y], coming from [m] *)
Section Placed.
Context {N : Num}.
(** 'intermediate': halfway between where it came from and the violated bound. *)
Definition halfway (l u m y x : N) : Prop :=
  (nlt y l = false -> nlt u y = false -> x = y) /\
  (nlt y l = true -> nlt u y = false -> x = nmul (ndec 1 2) (nadd m l)) /\
  (nlt u y = true -> x = nmul (ndec 1 2) (nadd m u)).
(** 'nearest': cut off at the violated bound. *)
Definition clipped (l u y x : N) : Prop :=
  (nlt y l = false -> nlt u y = false -> x = y) /\
  (nlt y l = true -> nlt u y = false -> x = l) /\ (nlt u y = true -> x = u).
(** 'periodic': wrapped around by the width of the box. *)
Definition wrapped (l u y x : N) : Prop :=
  let w := nabs (nsub u l) in
  (nlt y l = false -> nlt u y = false -> x = y) /\
  (nlt y l = true -> nlt u y = false -> x = nsub u (nmod (nsub l y) w)) /\
  (nlt y l = false -> nlt u y = true -> x = nadd l (nmod (nsub y u) w)).
(** 'reflective': mirrored at the violated bound until it is no longer outside. *)
Inductive bounced (l u : N) : N -> N -> Prop :=
| Bounced_in : forall y, nlt y l = false -> nlt u y = false -> bounced l u y y
| Bounced_low : forall y x, nlt y l = true -> nlt u y = false -> bounced l u (nsub (nmul (nofZ 2) l) y) x -> bounced l u y x
| Bounced_high : forall y x, nlt y l = false -> nlt u y = true -> bounced l u (nsub (nmul (nofZ 2) u) y) x -> bounced l u y x.
(** 'shrink': the part of the way from [m] to [y] that one dimension allows. *)
Definition allowed (l u m y s : N) : Prop :=
  (nlt y l = false -> nlt u y = false -> s = nofZ 1) /\
  (nlt y l = true -> nlt u y = false -> s = ndiv (nsub l m) (nsub y m)) /\
  (nlt u y = true -> s = ndiv (nsub u m) (nsub y m)).
Definition allows (b : bounds N) (m y : list N) (j : nat) (s : N) : Prop :=
  exists l u mj yj, column b j l u /\ nth_error m j = Some mj /\ nth_error y j = Some yj /\ allowed l u mj yj s.
Definition shrunk (b : bounds N) (m y x : list N) : Prop :=
  exists s, (exists j, allows b m y j s) /\ (forall j r, allows b m y j r -> nlt r s = false) /\
    forall j mj yj, nth_error m j = Some mj -> nth_error y j = Some yj -> nth_error x j = Some (nadd mj (nmul s (nsub yj mj))).
(** 'random': a new point of the box, from the draws [r]. *)
Definition resampled (b : bounds N) (r x : list N) : Prop :=
  forall j l u rj, column b j l u -> nth_error r j = Some rj -> nth_error x j = Some (nadd (nmul (nsub u l) rj) l).
Definition each (b : bounds N) (P : N -> N -> N -> N -> Prop) (y x : list N) : Prop :=
  forall j l u yj, column b j l u -> nth_error y j = Some yj -> exists xj, nth_error x j = Some xj /\ P l u yj xj.
Definition handled (st : string) (dr : bh_draws N) (b : bounds N) (m y x : list N) : Prop :=
  length x = length y /\ (good b y -> x = y) /\
  (st = "nearest" -> each b clipped y x) /\
  (st = "periodic" -> each b wrapped y x) /\
  (st = "reflective" -> each b (fun l u yj xj => nlt u l = false -> bounced l u yj xj) y x) /\
  (st = "intermediate" -> forall j l u mj yj, column b j l u -> nth_error m j = Some mj -> nth_error y j = Some yj ->
     exists xj, nth_error x j = Some xj /\ halfway l u mj yj xj) /\
  (st = "shrink" -> ~ good b y -> shrunk b m y x) /\
  (st = "random" -> (below b y -> resampled b (bd_lower dr) x) /\ (~ below b y -> above b y -> resampled b (bd_greater dr) x)).
End Placed.
