(** Objectives that do not return one cost for each particle.

    The other model files take the objective's result as a vector and refuse one whose length is not the number of particles. numpy is more lenient: a number, or an array of one
    element, is compared with all entries of [pbest_cost]. Here are the passages where that matters. *)
From Coq Require Import String ZArith List Arith Bool.
From Verif Require Import Prelude F64 Num Np Handlers Swarms Operators Generators Topology Optimizers.
Import ListNotations.
Local Open Scope list_scope.

(** What an objective returns: a number (a Python float or a numpy scalar) or an array of one axis. (operators.py:238-245, the value of [objective_func].) *)
Inductive given : Type := Single (x : f64) | Array (l : list f64).

(** operators.py:238-245 [compute_objective_function]. [np.concatenate] refuses numbers. *)
Definition objective_given (pool : option nat) (f : fmatrix -> res given) (pos : fmatrix) : res given :=
  match pool with
  | None => f pos
  | Some n =>
      do rs <- mapM f (array_split pos n);
      do ls <- mapM (fun g => match g with Array l => Ok l | Single _ => Err ValueError end) rs;
      Ok (Array (concat ls))
  end.
(** [swarm.current_cost] as a list; whether it is a number or an array of one element makes no difference to [compute_pbest], its only reader. (global_best.py:209; the same in the other three files.) *)
Definition costs_of (g : given) : list f64 := match g with Single x => [x] | Array l => l end.

(** operators.py:62-79 [compute_pbest]: numpy repeats a single cost over the particles in the comparison (66) and in the selection (70-72). A swarm of one particle, whose [pbest_cost] is
    itself repeated over several costs, is left out. *)
Definition compute_pbest_given (s : fswarm) : res (fmatrix * list f64) :=
  let n := length (s_pbest_cost s) in
  let cost := s_current_cost s in
  if Nat.eqb n 1 && negb (Nat.eqb (length cost) 1) then Err Unmodelled
  else compute_pbest (set_current_cost s (match cost with [x] => repeat x n | _ => cost end)).

(** global_best.py:209-237, local_best.py:232-265, general_optimizer.py:247-277, binary.py:195-229, as [evaluate_swarm]. *)
Definition evaluate_given (c : config) (e : env) (f : nat -> fmatrix -> res given) (pool : option nat) (i : nat) (o : ostate) (q : list bool) : step :=
  let s := o_swarm o in
  match objective_given pool (f i) (s_position s) with
  | Err x => Raise o x
  | Ok g =>
      let s1 := set_current_cost s (costs_of g) in
      match compute_pbest_given s1 with
      | Err x => Raise (with_swarm o s1) x
      | Ok (pp, pc) =>
          let s2 := set_pbest s1 pp pc in
          let yet := s_best_cost s2 in
          match compute_gbest (e_top e i) (gbest_args c) (o_top o) s2 with
          | (t, Err x) => Raise (with_top (with_swarm o s2) t) x
          | (t, Ok (bp, bc, np)) =>
              let s3 := set_best s2 bp bc np in
              let o3 := populate_history (with_top (with_swarm o s3) t) bc (np_mean (e_tree e) pc) bc (s_position s3) (s_velocity s3) in
              let q' := deque_append (c_ftol_iter c) q (small_change (c_ftol c) yet bc) in
              if Nat.leb (c_ftol_iter c) i && forallb (fun x => x) q' then Break o3 else Next o3 q'
          end
      end
  end.
(** global_best.py:207-248, local_best.py:231-276, general_optimizer.py:245-288, binary.py:194-234 *)
Definition iteration_given (c : config) (e : env) (f : nat -> fmatrix -> res given) (pool : option nat) (iters i : nat) (o : ostate) (q : list bool) : step :=
  match evaluate_given c e f pool i o q with
  | Next o' q' => update_swarm c e iters i o' q'
  | r => r
  end.
(** global_best.py:206, local_best.py:230, general_optimizer.py:244, binary.py:193 *)
Fixpoint loop_given (c : config) (e : env) (f : nat -> fmatrix -> res given) (pool : option nat) (iters m i : nat) (o : ostate) (q : list bool) : loop_end :=
  match m with
  | O => LDone o
  | S m' =>
      match iteration_given c e f pool iters i o q with
      | Next o' q' => loop_given c e f pool iters m' (S i) o' q'
      | Break o' => LDone o'
      | Raise o' x => LRaise o' x
      end
  end.
(** global_best.py:159-264, local_best.py:183-292, general_optimizer.py:197-304, binary.py:146-250 *)
Definition optimize_given (c : config) (e : env) (f : nat -> fmatrix -> res given) (pool : option nat) (iters : nat) (o : ostate) : ostate * res (f64 * frow) :=
  let o1 := start_memory c o in
  match pool with
  | Some O => (o1, Err ValueError)
  | _ =>
      match loop_given c e f pool iters iters 0 (start_pbest c o1) [] with
      | LRaise o' x => (o', Err x)
      | LDone o' => (o', final_result o')
      end
  end.
