(** Model of the optimizer classes:
    /repo/pyswarms/base/base_single.py, base/base_discrete.py, single/global_best.py,
    single/local_best.py, single/general_optimizer.py and discrete/binary.py.

    The four [optimize] methods have the same body up to the points marked by [c_kind]
    below; each definition cites the lines of all four files.  Logging, the progress bar and
    closing the pool are not modelled. *)
From Coq Require Import String ZArith List Arith Bool.
From Verif Require Import Prelude F64 Num Np Handlers Swarms Operators Generators Topology.
Import ListNotations.
Local Open Scope string_scope.
Local Open Scope list_scope.

(** global_best.py, local_best.py, general_optimizer.py, binary.py *)
Inductive opt_kind : Type := GlobalBest | LocalBest | General | Binary.

(** Constructor arguments, base_single.py:94-111, base_discrete.py:96-112, and the handler
    strategies (global_best.py:146-157, local_best.py:154-181, general_optimizer.py:181-195,
    binary.py:127-144). *)
Record config : Type := mkConfig {
  c_kind : opt_kind;
  c_n : nat;
  c_d : nat;
  c_options : options F64num;
  c_bounds : option (bounds F64num);
  c_clamp : option (clamp_t F64num);
  c_center : frow;
  c_ftol : f64;
  c_ftol_iter : nat;
  c_init : option fmatrix;
  c_bh : string;
  c_vh : string;
  c_oh : dict string
}.

(** The optimizer object. (base_single.py:93-124, base_discrete.py:95-126 and global_best.py:146-157 etc.) *)
Record ostate : Type := mkOstate {
  o_swarm : fswarm;
  o_top : topology;
  o_bmem : option fmatrix;              (* self.bh.memory *)
  o_vmem : option fmatrix;              (* self.vh.memory *)
  o_cost_history : list f64;
  o_mean_pbest_history : list f64;
  o_mean_neighbor_history : list f64;
  o_pos_history : list fmatrix;
  o_velocity_history : list fmatrix
}.

(** Assignments to attributes of [self.swarm], global_best.py:204-246. *)
Definition with_swarm (o : ostate) (s : fswarm) : ostate :=
  mkOstate s (o_top o) (o_bmem o) (o_vmem o) (o_cost_history o) (o_mean_pbest_history o)
    (o_mean_neighbor_history o) (o_pos_history o) (o_velocity_history o).
(** [self.top] remembers its neighbours (base.py:31). *)
Definition with_top (o : ostate) (t : topology) : ostate :=
  mkOstate (o_swarm o) t (o_bmem o) (o_vmem o) (o_cost_history o) (o_mean_pbest_history o)
    (o_mean_neighbor_history o) (o_pos_history o) (o_velocity_history o).
(** [self.bh.memory = ...], global_best.py:198, handlers.py:249-283, 331-347 *)
Definition with_bmem (o : ostate) (m : option fmatrix) : ostate :=
  mkOstate (o_swarm o) (o_top o) m (o_vmem o) (o_cost_history o) (o_mean_pbest_history o)
    (o_mean_neighbor_history o) (o_pos_history o) (o_velocity_history o).
(** [self.vh.memory = ...], global_best.py:199, handlers.py:484-497 *)
Definition with_vmem (o : ostate) (m : option fmatrix) : ostate :=
  mkOstate (o_swarm o) (o_top o) (o_bmem o) m (o_cost_history o) (o_mean_pbest_history o)
    (o_mean_neighbor_history o) (o_pos_history o) (o_velocity_history o).

(** base_single.py:126-144, base_discrete.py:128-146 [_populate_history] *)
Definition populate_history (o : ostate) (best mean_pbest mean_neighbor : f64)
    (pos vel : fmatrix) : ostate :=
  mkOstate (o_swarm o) (o_top o) (o_bmem o) (o_vmem o)
    (o_cost_history o ++ [best]) (o_mean_pbest_history o ++ [mean_pbest])
    (o_mean_neighbor_history o ++ [mean_neighbor])
    (o_pos_history o ++ [pos]) (o_velocity_history o ++ [vel]).

(** *** Environment of one [optimize] call, indexed by the loop counter *)

(** Association order of a floating-point sum; [Leaf i] is the i-th summand. (np.mean in global_best.py:220, local_best.py:248, general_optimizer.py:260, binary.py:212.) *)
Inductive sumtree : Type := Leaf (i : nat) | Node (a b : sumtree).
(** The sum in that order. *)
Fixpoint tree_sum (t : sumtree) (l : list f64) : f64 :=
  match t with
  | Leaf i => nth i l fzero
  | Node a b => fadd (tree_sum a l) (tree_sum b l)
  end.

(** What a call gets from outside: the objective (operators.py:238-245) and the random draws of operators.py:134, 139, handlers.py:300, 307, 722, binary.py:265, random.py:219; KD-tree and Delaunay results (ring.py:67-68, pyramid.py:76). *)
Record env : Type := mkEnv {
  e_obj : nat -> fmatrix -> res (list f64);     (* objective_func *)
  e_vel : nat -> vel_draws F64num;
  e_bh : nat -> bh_draws F64num;
  e_oh : nat -> oh_lib F64num;
  e_top : nat -> topo_env;
  e_bits : nat -> frow;                         (* random_sample in BinaryPSO *)
  e_exp : f64 -> f64;                           (* np.exp *)
  e_tree : nat -> sumtree                       (* summation order of np.sum for a length *)
}.

(** [np.mean] of a vector: sum in some order, divided by the length. (global_best.py:220, local_best.py:248, general_optimizer.py:260, binary.py:212.) *)
Definition np_mean (tree : nat -> sumtree) (l : list f64) : f64 :=
  fdiv (tree_sum (tree (length l)) l) (fofZ (Z.of_nat (length l))).

(** *** The early-stopping window *)

(** [deque(maxlen=m).append(x)]. (global_best.py:205, 232-235; the same in the other three files.) *)
Definition deque_append {A} (m : nat) (q : list A) (x : A) : list A :=
  let q' := q ++ [x] in skipn (length q' - m) q'.

(** global_best.py:227-231, local_best.py:255-259, general_optimizer.py:267-271,
    binary.py:219-223 *)
Definition small_change (ftol yet best : f64) : bool :=
  let relative_measure := fmul ftol (fadd fone (fabs yet)) in
  flt (fabs (fsub best yet)) relative_measure.

(** *** Binary position update, binary.py:252-282 *)
Definition sigmoid {N : Num} (ex : N -> N) (x : N) : N := ndiv (nofZ 1) (nadd (nofZ 1) (ex (nopp x))).
(** binary.py:264-267: one random vector of length [dimensions] for all particles *)
Definition binary_position (ex : f64 -> f64) (u : frow) (vel : fmatrix) : res fmatrix :=
  if forallb (fun r => Nat.eqb (length r) (length u)) vel
  then Ok (map (map2 (fun ui v => bit (flt ui (sigmoid (N := F64num) ex v))) u) vel)
  else Err ValueError.

(** *** One loop iteration *)

(** How one pass through the loop body ends: next pass, [break], or an exception. *)
Inductive step : Type :=
| Next (o : ostate) (q : list bool)     (* go on with the next iteration *)
| Break (o : ostate)                    (* left by [break] *)
| Raise (o : ostate) (e : exn).

(** Keyword arguments of [compute_gbest]: local_best.py:159, 240-242 and binary.py:127,
    203-205 pass [p], [k]; general_optimizer.py:252-254 passes all options;
    global_best.py:213 none. *)
Definition as_int (v : option (pyval F64num)) : option Z :=
  match v with Some (PInt z) => Some z | _ => None end.
(** global_best.py:213, local_best.py:240-242, general_optimizer.py:252-254, binary.py:203-205 *)
Definition gbest_args (c : config) : gargs :=
  match c_kind c with
  | GlobalBest => mkGa None None None
  | LocalBest | Binary => mkGa (as_int (dget (c_options c) "p")) (as_int (dget (c_options c) "k")) None
  | General => mkGa (as_int (dget (c_options c) "p")) (as_int (dget (c_options c) "k"))
                 (as_int (dget (c_options c) "r"))
  end.

(** Options, velocity and position updates at the end of an iteration:
    global_best.py:239-248, local_best.py:267-276, general_optimizer.py:279-288,
    binary.py:231-234 (no options handler, no bounds). *)
Definition update_swarm (c : config) (e : env) (iters i : nat) (o : ostate) (q : list bool) : step :=
  let s := o_swarm o in
  match
    match c_kind c with
    | Binary => Ok (s_options s)
    | _ => oh_call (e_oh e i) (c_oh c) (c_options c)
             (mkOk (Some (Z.of_nat i)) (Some (Z.of_nat iters)) None None None None)
    end
  with
  | Err x => Raise o x
  | Ok opts =>
      let s1 := set_options s opts in
      let o1 := with_swarm o s1 in
      let b := match c_kind c with Binary => None | _ => c_bounds c end in
      match compute_velocity (e_vel e i) (c_vh c) (o_vmem o1) s1 (c_clamp c) b with
      | Err x => Raise o1 x
      | Ok (v, vmem) =>
          let s2 := set_velocity s1 v in
          let o2 := with_vmem (with_swarm o1 s2) vmem in
          match c_kind c with
          | Binary =>
              match binary_position (e_exp e) (e_bits e i) (s_velocity s2) with
              | Err x => Raise o2 x
              | Ok p => Next (with_swarm o2 (set_position s2 p)) q
              end
          | _ =>
              match compute_position (e_bh e i) (c_bh c) (o_bmem o2) s2 (c_bounds c) with
              | Err x => Raise o2 x
              | Ok (p, bmem) => Next (with_bmem (with_swarm o2 (set_position s2 p)) bmem) q
              end
          end
      end
  end.

(** Evaluation, personal and global best, history and stop test:
    global_best.py:209-237, local_best.py:232-265, general_optimizer.py:247-277,
    binary.py:195-229. [q] is [ftol_history]. *)
Definition evaluate_swarm (c : config) (e : env) (pool : option nat) (i : nat)
    (o : ostate) (q : list bool) : step :=
  let s := o_swarm o in
  match compute_objective_function pool (e_obj e i) (s_position s) with
  | Err x => Raise o x
  | Ok cost =>
      let s1 := set_current_cost s cost in
      match compute_pbest s1 with
      | Err x => Raise (with_swarm o s1) x
      | Ok (pp, pc) =>
          let s2 := set_pbest s1 pp pc in
          let yet := s_best_cost s2 in
          match compute_gbest (e_top e i) (gbest_args c) (o_top o) s2 with
          | (t, Err x) => Raise (with_top (with_swarm o s2) t) x
          | (t, Ok (bp, bc, np)) =>
              let s3 := set_best s2 bp bc np in
              let o3 := populate_history (with_top (with_swarm o s3) t)
                          bc (np_mean (e_tree e) pc) bc (s_position s3) (s_velocity s3) in
              let q' := deque_append (c_ftol_iter c) q (small_change (c_ftol c) yet bc) in
              if Nat.leb (c_ftol_iter c) i && forallb (fun x => x) q'
              then Break o3
              else Next o3 q'
          end
      end
  end.

(** One pass: global_best.py:207-248, local_best.py:231-276, general_optimizer.py:245-288, binary.py:194-234 *)
Definition iteration (c : config) (e : env) (pool : option nat) (iters i : nat)
    (o : ostate) (q : list bool) : step :=
  match evaluate_swarm c e pool i o q with
  | Next o' q' => update_swarm c e iters i o' q'
  | r => r
  end.

(** The [for] loop: [m] iterations left, [i] the next loop counter. (How the loop ends.) *)
Inductive loop_end : Type := LDone (o : ostate) | LRaise (o : ostate) (e : exn).
(** global_best.py:206, local_best.py:230, general_optimizer.py:244, binary.py:193 *)
Fixpoint opt_loop (c : config) (e : env) (pool : option nat) (iters m i : nat)
    (o : ostate) (q : list bool) : loop_end :=
  match m with
  | O => LDone o
  | S m' =>
      match iteration c e pool iters i o q with
      | Next o' q' => opt_loop c e pool iters m' (S i) o' q'
      | Break o' => LDone o'
      | Raise o' x => LRaise o' x
      end
  end.

(** global_best.py:250-253, local_best.py:278-281, general_optimizer.py:290-293,
    binary.py:236-239: [best_cost.copy()] and the argmin row of pbest_pos *)
Definition final_result (o : ostate) : res (f64 * frow) :=
  let s := o_swarm o in
  if negb (s_best_np s) then Err AttributeError
  else
    do j <- np_argmin (N := F64num) (s_pbest_cost s);
    do p <- of_option IndexError (nth_error (s_pbest_pos s) j);
    Ok (s_best_cost s, p).

(** global_best.py:198-204, local_best.py:222-228, general_optimizer.py:236-242,
    binary.py:186-191 (no boundary handler) *)
Definition start_memory (c : config) (o : ostate) : ostate :=
  let p := s_position (o_swarm o) in
  match c_kind c with
  | Binary => with_vmem o (Some p)
  | _ => with_vmem (with_bmem o (Some p)) (Some p)
  end.
(** global_best.py:204, local_best.py:228, general_optimizer.py:242, binary.py:191 *)
Definition start_pbest (c : config) (o : ostate) : ostate :=
  with_swarm o (set_pbest_cost (o_swarm o) (repeat finf (c_n c))).

(** [optimize]: final state and returned value or raised error. (global_best.py:159-264, local_best.py:183-292, general_optimizer.py:197-304, binary.py:146-250.) *)
Definition optimize (c : config) (e : env) (pool : option nat) (iters : nat) (o : ostate)
  : ostate * res (f64 * frow) :=
  let o1 := start_memory c o in
  match pool with
  | Some O => (o1, Err ValueError)        (* mp.Pool(0) *)
  | _ =>
      match opt_loop c e pool iters iters 0 (start_pbest c o1) [] with
      | LRaise o' x => (o', Err x)
      | LDone o' => (o', final_result o')
      end
  end.

(** *** Construction and reset *)

(** The [create_swarm] call of base_single.py:204-212 / base_discrete.py:206-214 *)
Definition make_swarm (c : config) (dr : create_draws) : res fswarm :=
  match c_kind c with
  | Binary => create_swarm (c_n c) (c_d c) true true (c_options c) None (repeat fone (c_d c))
                (c_init c) (c_clamp c) dr
  | _ => create_swarm (c_n c) (c_d c) false false (c_options c) (c_bounds c) (c_center c)
           (c_init c) (c_clamp c) dr
  end.

(** base_single.py:196-212, base_discrete.py:198-214 [reset] *)
Definition reset (c : config) (dr : create_draws) (o : ostate) : res ostate :=
  do s <- make_swarm c dr;
  Ok (mkOstate s (o_top o) (o_bmem o) (o_vmem o) [] [] [] [] []).

(** The [__init__] methods: local_best.py:159 / binary.py:127 read ["k"], ["p"] first;
    base_single.py:103-108 / base_discrete.py:105-110 check [ftol_iter]; [reset] runs twice,
    the second result stays. [top] is [Star()], [Ring(static)], or the user's topology. *)
Definition construct (c : config) (top : topology) (dr : create_draws) : res ostate :=
  do _ <- match c_kind c with
          | LocalBest | Binary =>
              do _ <- of_option KeyError (dget (c_options c) "k");
              of_option KeyError (dget (c_options c) "p")
          | _ => Ok (PInt 0)
          end;
  if Nat.eqb (c_ftol_iter c) 0 then Err AssertionError
  else
    do s <- make_swarm c dr;
    Ok (mkOstate s top None None [] [] [] [] []).
