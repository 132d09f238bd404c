(** Model of /repo/pyswarms/backend/topology/{base,star,ring,von_neumann,pyramid,random}.py
    ([compute_gbest]; [compute_velocity]/[compute_position] only delegate to operators). *)
From Coq Require Import String ZArith List Arith Bool.
From Verif Require Import Prelude F64 Num Np Handlers Swarms Generators.
Import ListNotations.
Local Open Scope list_scope.

Notation fswarm := (swarm F64num).
(** swarms.py:92-96 *)
Notation fbestpos := (bestpos F64num).

(** The classes of topology/{star,ring,von_neumann,pyramid,random}.py. Star and VonNeumann objects always have [static=True] (star.py:28, von_neumann.py:20). *)
Inductive topo_kind : Type := Star | Ring | VonNeumann | Pyramid | Random.

(** [neighbor_idx]: one list of indices per particle, and the number of array axes. (base.py:31.) *)
Record neighbors : Type := mkNb { nb_rows : list (list nat); nb_ndim : nat }.

(** base.py:22-31 [Topology]: attributes [static] and [neighbor_idx] *)
Record topology : Type := mkTopo {
  t_kind : topo_kind; t_static : bool; t_nb : option neighbors }.
(** [self.neighbor_idx = ...], star.py:63, ring.py:68, 75, pyramid.py:66, 81, random.py:68 *)
Definition set_nb (t : topology) (nb : neighbors) : topology :=
  mkTopo (t_kind t) (t_static t) (Some nb).

(** Oracles for one call: [cKDTree(pos).query(pos, p, k)] indices, the neighbour lists of
    [Delaunay(pos)], and the [np.random.choice] rows. (ring.py:67-68, pyramid.py:76-87, random.py:219-224.) *)
Record topo_env : Type := mkTe {
  te_knn : Z -> nat -> fmatrix -> res (list (list nat));
  te_delaunay : fmatrix -> res (list (list nat));
  te_choice : list (list nat) }.

(** Keyword arguments [p], [k], [r] of [compute_gbest]; a missing one is a TypeError. (ring.py:38, von_neumann.py:23, random.py:36.) *)
Record gargs : Type := mkGa { ga_p : option Z; ga_k : option Z; ga_r : option Z }.

(** A successful [compute_gbest]: best position, best cost, and whether the cost is a numpy
    scalar. (star.py:80, ring.py:91, pyramid.py:110, random.py:97.) *)
Definition gbest : Type := (fbestpos * f64 * bool)%type.

(** NPY_MAXDIMS of numpy 1.x. (Bounds [neighbor_idx[:, np.newaxis]] in ring.py:75.) *)
Definition max_dims : nat := 32.

(** star.py:63-65, pyramid.py:66-68: every particle is a neighbour of every particle *)
Definition complete_nb (n : nat) : neighbors := mkNb (repeat (seq 0 n) n) 2.

(** star.py:61-80 *)
Definition star_gbest (t : topology) (s : fswarm) : topology * res gbest :=
  let t' := match t_nb t with None => set_nb t (complete_nb (s_n s)) | Some _ => t end in
  (t',
   do m <- np_min (N := F64num) (s_pbest_cost s);
   if flt m (s_best_cost s) then
     do i <- np_argmin (N := F64num) (s_pbest_cost s);
     do p <- of_option IndexError (nth_error (s_pbest_pos s) i);
     Ok (BPVec p, m, true)
   else Ok (s_best_pos s, s_best_cost s, s_best_np s)).

(** ring.py:78-81, pyramid.py:88-99, random.py:74-85: the cheapest neighbour of each row *)
Definition best_of (cost : list f64) (nbs : list nat) : res nat :=
  do cs <- np_take cost nbs;
  do j <- np_argmin (N := F64num) cs;
  of_option IndexError (nth_error nbs j).

(** ring.py:83-84, pyramid.py:102-103, random.py:88-89 *)
Definition pick_best (s : fswarm) (bn : list nat) : res gbest :=
  do cs <- np_take (s_pbest_cost s) bn;
  do c <- np_min (N := F64num) cs;
  do p <- np_take (s_pbest_pos s) bn;
  Ok (BPMat p, c, true).

(** ring.py:78-84, pyramid.py:88-103, random.py:74-89 *)
Definition neighborhood_gbest (s : fswarm) (rows : list (list nat)) : res gbest :=
  do bn <- mapM (best_of (s_pbest_cost s)) rows;
  pick_best s bn.

(** ring.py:65, pyramid.py:73-75, random.py:66 *)
Definition needs_neighbors (t : topology) : bool :=
  (t_static t && match t_nb t with None => true | Some _ => false end) || negb (t_static t).

(** ring.py:63-91.  For k = 1 the query returns a one-dimensional index array and every call
    adds an axis to it. *)
Definition ring_gbest (te : topo_env) (p : Z) (k : Z) (t : topology) (s : fswarm)
  : topology * res gbest :=
  let '(t1, r1) :=
    if needs_neighbors t then
      if (k <? 1)%Z then (t, Err ValueError)
      else match te_knn te p (Z.to_nat k) (s_position s) with
           | Err e => (t, Err e)
           | Ok rows => let nb := mkNb rows (if (k =? 1)%Z then 1 else 2) in (set_nb t nb, Ok nb)
           end
    else match t_nb t with Some nb => (t, Ok nb) | None => (t, Err TypeError) end in
  match r1 with
  | Err e => (t1, Err e)
  | Ok nb =>
      if (k =? 1)%Z then
        if Nat.leb max_dims (nb_ndim nb) then (t1, Err IndexError)
        else (set_nb t1 (mkNb (nb_rows nb) (S (nb_ndim nb))),
              pick_best s (seq 0 (s_n s)))
      else if Nat.eqb (nb_ndim nb) 2 then (t1, neighborhood_gbest s (nb_rows nb))
      else (t1, Err Unmodelled)
  end.

(** von_neumann.py:52-80 [delannoy] *)
Fixpoint delannoy (d : nat) : nat -> nat :=
  fix go (r : nat) : nat :=
    match d with
    | O => 1
    | S d' => match r with O => 1 | S r' => delannoy d' r + delannoy d' r' + go r' end
    end.

(** von_neumann.py:49-50 *)
Definition von_neumann_gbest (te : topo_env) (p r : Z) (t : topology) (s : fswarm)
  : topology * res gbest :=
  if (r <? 0)%Z then (t, Err Unmodelled)       (* unbounded recursion *)
  else ring_gbest te p (Z.of_nat (delannoy (s_d s) (Z.to_nat r))) t s.

(** pyramid.py:63-110 *)
Definition pyramid_gbest (te : topo_env) (t : topology) (s : fswarm) : topology * res gbest :=
  if Nat.ltb (s_n s) (s_d s + 1) then
    (set_nb t (complete_nb (s_n s)),
     do i <- np_argmin (N := F64num) (s_pbest_cost s);
     do p <- of_option IndexError (nth_error (s_pbest_pos s) i);
     do c <- np_min (N := F64num) (s_pbest_cost s);
     Ok (BPVec p, c, true))
  else
    let '(t1, r1) :=
      if needs_neighbors t then
        match te_delaunay te (s_position s) with
        | Err e => (t, Err e)
        | Ok rows => (set_nb t (mkNb rows 2), Ok rows)
        end
      else match t_nb t with Some nb => (t, Ok (nb_rows nb)) | None => (t, Err TypeError) end in
    match r1 with
    | Err e => (t1, Err e)
    | Ok rows => (t1, neighborhood_gbest s rows)
    end.

(** *** random.py: the random graph *)

(** Entries of the rows drawn in random.py:219-224. *)
Definition mem (x : nat) (l : list nat) : bool := existsb (Nat.eqb x) l.
(** Row [i] of the drawn neighbours, random.py:230-237. *)
Definition rowof (l : list (list nat)) (i : nat) : list nat := nth i l [].

(** random.py:215-237: identity, then the drawn edges in both directions *)
Definition adj_drawn (choice : list (list nat)) (i j : nat) : bool :=
  (Nat.eqb i j || mem j (rowof choice i)) || mem i (rowof choice j).

(** Undirected reachability in at most [steps] steps from the nodes of [seen]
    ([dijkstra(..., directed=False, unweighted=True)] is finite exactly on these). (random.py:239-244.) *)
Fixpoint reach (n : nat) (adj : nat -> nat -> bool) (steps : nat) (seen : list nat) : list nat :=
  match steps with
  | O => seen
  | S k => reach n adj k
             (filter (fun j => mem j seen || existsb (fun i => adj i j || adj j i) seen) (seq 0 n))
  end.
(** random.py:239-244: [dist_matrix[i, j]] is finite *)
Definition reachable (n : nat) (adj : nat -> nat -> bool) (i j : nat) : bool :=
  mem j (reach n adj n [i]).

(** [connected_components(adj, directed=False)]: number of nodes that reach no smaller node. (random.py:247-252.) *)
Definition components (n : nat) (adj : nat -> nat -> bool) : nat :=
  length (filter (fun i => negb (existsb (fun j => reachable n adj i j) (seq 0 i))) (seq 0 n)).

(** random.py:247-255, the repair loop; [dist] is computed once, before the loop *)
Fixpoint repair (fuel n : nat) (dist_inf adj : nat -> nat -> bool) : res (nat -> nat -> bool) :=
  if Nat.eqb (components n adj) 1 then Ok adj
  else match fuel with
       | O => Err OutOfFuel
       | S f => repair f n dist_inf (fun i j => if dist_inf i j then true else adj i j)
       end.

(** random.py:178-257 [__compute_neighbors] *)
Definition random_adj (fuel n : nat) (k : Z) (choice : list (list nat)) : res (nat -> nat -> bool) :=
  if Nat.eqb n 0 then Err IndexError                              (* [np.array([])] is no index array *)
  else if (k <? 0)%Z || (Z.of_nat n - 1 <? k)%Z then Err ValueError    (* choice without replacement *)
  else
    let adj := adj_drawn choice in
    repair fuel n (fun i j => negb (reachable n adj i j)) adj.
(** random.py:68-73: [adj_matrix[i].nonzero()[0]] *)
Definition random_rows (n : nat) (adj : nat -> nat -> bool) : list (list nat) :=
  map (fun i => filter (adj i) (seq 0 n)) (seq 0 n).

(** random.py:64-97; the repair loop gets one pass (proved sufficient) *)
Definition random_gbest (te : topo_env) (k : Z) (t : topology) (s : fswarm) : topology * res gbest :=
  let '(t1, r1) :=
    if needs_neighbors t then
      match random_adj 1 (s_n s) k (te_choice te) with
      | Err e => (t, Err e)
      | Ok adj => let rows := random_rows (s_n s) adj in (set_nb t (mkNb rows 2), Ok rows)
      end
    else match t_nb t with Some nb => (t, Ok (nb_rows nb)) | None => (t, Err TypeError) end in
  match r1 with
  | Err e => (t1, Err e)
  | Ok rows => (t1, neighborhood_gbest s rows)
  end.

(** [topology.compute_gbest(swarm, **kwargs)]. (star.py:61, ring.py:63, von_neumann.py:49, pyramid.py:63, random.py:64.) *)
Definition compute_gbest (te : topo_env) (a : gargs) (t : topology) (s : fswarm)
  : topology * res gbest :=
  match t_kind t with
  | Star => star_gbest t s
  | Ring =>
      match ga_p a, ga_k a with
      | Some p, Some k => ring_gbest te p k t s
      | _, _ => (t, Err TypeError)
      end
  | VonNeumann =>
      match ga_p a, ga_r a with
      | Some p, Some r => von_neumann_gbest te p r t s
      | _, _ => (t, Err TypeError)
      end
  | Pyramid => pyramid_gbest te t s
  | Random =>
      match ga_k a with
      | Some k => random_gbest te k t s
      | None => (t, Err TypeError)
      end
  end.
