(** Objectives that return arrays of several axes, such as a column of costs of shape (n, 1).

    [Broadcast.v] covers results of no or one axis. With more axes, whether [compute_pbest] raises is a matter of shapes. Here are numpy's rules for them, and [compute_pbest] read with them. *)
From Coq Require Import String ZArith List Arith Bool.
From Verif Require Import Prelude F64 Num Np Handlers Swarms Operators Generators Topology Optimizers Broadcast.
Import ListNotations.
Local Open Scope list_scope.

(** An array: its shape, and its entries row by row. (operators.py:239, the value of [objective_func].) *)
Record ndarray : Type := mkArray { a_shape : list nat; a_entries : list f64 }.

(** numpy's broadcasting of two shapes, last axis first: equal lengths agree, 1 gives way to any length, and missing axes count as 1. (operators.py:66, 69-72.) *)
Fixpoint broadcast_rev (a b : list nat) : res (list nat) :=
  match a, b with
  | [], _ => Ok b
  | _, [] => Ok a
  | x :: a', y :: b' =>
      do r <- broadcast_rev a' b';
      if Nat.eqb x y then Ok (x :: r) else if Nat.eqb x 1 then Ok (y :: r) else if Nat.eqb y 1 then Ok (x :: r) else Err ValueError
  end.
(** The same with the first axis first. (operators.py:66, 69-72.) *)
Definition broadcast (a b : list nat) : res (list nat) := do r <- broadcast_rev (rev a) (rev b); Ok (rev r).

(** operators.py:64-72 [compute_pbest]: the shapes of the new personal best positions and costs, from those of [current_cost], [pbest_cost], [pbest_pos] and [position]. Line 67 inserts an axis
    after the first and repeats it [d] times. *)
Definition pbest_shapes (d : nat) (cost pcost ppos pos : list nat) : res (list nat * list nat) :=
  do mask <- broadcast cost pcost;
  do mask_pos <- match mask with [] => Err IndexError | m :: rest => Ok (m :: d :: rest) end;
  do old_new <- broadcast ppos pos;
  do p <- broadcast mask_pos old_new;
  do cs <- broadcast pcost cost;
  do c <- broadcast mask cs;
  Ok (p, c).

(** [np.concatenate] along the first axis: the other axes have to agree. (operators.py:245.) *)
Definition np_concatenate (l : list ndarray) : res ndarray :=
  match l with
  | [] => Err ValueError
  | a :: _ =>
      match a_shape a with
      | [] => Err ValueError
      | _ :: rest =>
          if forallb (fun b => match a_shape b with [] => false | _ :: r => if list_eq_dec Nat.eq_dec r rest then true else false end) l
          then Ok (mkArray (fold_right (fun b k => hd 0 (a_shape b) + k) 0 l :: rest) (concat (map a_entries l)))
          else Err ValueError
      end
  end.
(** operators.py:238-245 [compute_objective_function] *)
Definition objective_array (pool : option nat) (f : fmatrix -> res ndarray) (pos : fmatrix) : res ndarray :=
  match pool with
  | None => f pos
  | Some k => do rs <- mapM f (array_split pos k); np_concatenate rs
  end.
(** The shape of a matrix. Its number of columns cannot be read off if there are no rows; the optimizers have at least one. (operators.py:70, the arguments of [np.where].) *)
Definition matrix_shape (m : fmatrix) : list nat := [length m; length (hd [] m)].
(** operators.py:62-79 [compute_pbest]. Costs of up to one axis as in [Broadcast.v]; with more axes the result, if there is one, is no matrix any more and left out. *)
Definition compute_pbest_array (shape : list nat) (s : fswarm) : res (fmatrix * list f64) :=
  match shape with
  | [] | [_] => compute_pbest_given s
  | _ =>
      do _ <- pbest_shapes (s_d s) shape [length (s_pbest_cost s)] (matrix_shape (s_pbest_pos s)) (matrix_shape (s_position s));
      Err Unmodelled
  end.

(** global_best.py:209-237, local_best.py:232-265, general_optimizer.py:247-277, binary.py:195-229, as [evaluate_given]. *)
Definition evaluate_array (c : config) (e : env) (f : nat -> fmatrix -> res ndarray) (pool : option nat) (i : nat) (o : ostate) (q : list bool) : step :=
  let s := o_swarm o in
  match objective_array pool (f i) (s_position s) with
  | Err x => Raise o x
  | Ok a =>
      let s1 := set_current_cost s (a_entries a) in
      match compute_pbest_array (a_shape a) s1 with
      | Err x => Raise (with_swarm o s1) x
      | Ok (pp, pc) =>
          let s2 := set_pbest s1 pp pc in
          let yet := s_best_cost s2 in
          match compute_gbest (e_top e i) (gbest_args c) (o_top o) s2 with
          | (t, Err x) => Raise (with_top (with_swarm o s2) t) x
          | (t, Ok (bp, bc, np)) =>
              let s3 := set_best s2 bp bc np in
              let o3 := populate_history (with_top (with_swarm o s3) t) bc (np_mean (e_tree e) pc) bc (s_position s3) (s_velocity s3) in
              let q' := deque_append (c_ftol_iter c) q (small_change (c_ftol c) yet bc) in
              if Nat.leb (c_ftol_iter c) i && forallb (fun x => x) q' then Break o3 else Next o3 q'
          end
      end
  end.
(** global_best.py:206-248, local_best.py:230-276, general_optimizer.py:244-288, binary.py:193-234 *)
Fixpoint loop_array (c : config) (e : env) (f : nat -> fmatrix -> res ndarray) (pool : option nat) (iters m i : nat) (o : ostate) (q : list bool) : loop_end :=
  match m with
  | O => LDone o
  | S m' =>
      match evaluate_array c e f pool i o q with
      | Next o1 q1 =>
          match update_swarm c e iters i o1 q1 with
          | Next o' q' => loop_array c e f pool iters m' (S i) o' q'
          | Break o' => LDone o'
          | Raise o' x => LRaise o' x
          end
      | Break o' => LDone o'
      | Raise o' x => LRaise o' x
      end
  end.
(** global_best.py:159-264, local_best.py:183-292, general_optimizer.py:197-304, binary.py:146-250 *)
Definition optimize_array (c : config) (e : env) (f : nat -> fmatrix -> res ndarray) (pool : option nat) (iters : nat) (o : ostate) : ostate * res (f64 * frow) :=
  let o1 := start_memory c o in
  match pool with
  | Some O => (o1, Err ValueError)
  | _ =>
      match loop_array c e f pool iters iters 0 (start_pbest c o1) [] with
      | LRaise o' x => (o', Err x)
      | LDone o' => (o', final_result o')
      end
  end.
