(** Arrays of other types than float64: what an integer or boolean [init_pos] does to a call of [optimize].

    The values stay the floats of the other files; here the types are followed beside them. Integers are taken to be at most
    2^52 in magnitude, so that their sums and differences are those of the floats. *)
From Coq Require Import String ZArith List Arith Bool.
From Verif Require Import Prelude F64 Num Np Handlers Swarms Operators Generators Topology Optimizers.
Import ListNotations.
Local Open Scope string_scope.
Local Open Scope list_scope.

(** The kinds of numpy arrays that occur, and the type of the result of an operation on two of them. *)
Inductive dtype : Type := TBool | TInt | TFlt.
(** numpy's promotion, as in [np.where] (handlers.py:457-458, operators.py:69) and [-] (operators.py:135, 140, handlers.py:489). *)
Definition join (a b : dtype) : dtype :=
  match a, b with TFlt, _ | _, TFlt => TFlt | TInt, _ | _, TInt => TInt | TBool, TBool => TBool end.
(** Types of swarm.position, swarm.pbest_pos and of the velocity handler's memory. (swarms.py:85, 119-121, handlers.py:484-493.) *)
Record dtypes : Type := mkDt { t_pos : dtype; t_pbest : dtype; t_mem : dtype }.
(** The type of the velocity clamp, and whether the boundary strategy makes floats of integers, in each iteration (that depends on the type of the bounds). (handlers.py:457-458, 125-393.) *)
Record dconf : Type := mkDc { dc_clamp : dtype; dc_floats : nat -> bool }.

(** generators.py:60-91, 126-140, swarms.py:119-121: the positions are the array [init_pos] itself, of type [it]; random ones are floats, or ints for BinaryPSO.
    base_single.py:204-212, base_discrete.py:206-214: [reset] uses the same [init_pos]. *)
Definition new_types (c : config) (it : dtype) : dtypes :=
  let t := match c_init c with Some _ => it | None => match c_kind c with Binary => TInt | _ => TFlt end end in
  mkDt t t TFlt.

(** operators.py:125-158 [compute_velocity]: numpy has no subtraction of booleans (lines 135, 140 and handlers.py:489); the draws are floats, and only
    "adjust" (handlers.py:484-493) makes a velocity without them *)
Definition adjusts (c : config) : bool := String.eqb (c_vh c) "adjust".
(** handlers.py:451-459, 484-493: the type of the new velocity *)
Definition velocity_type (c : config) (k : dconf) (d : dtypes) : dtype :=
  if adjusts c then let t := join (t_pos d) (t_mem d) in match c_clamp c with None => t | Some _ => join t (dc_clamp k) end
  else TFlt.
(** Two arrays of booleans. (operators.py:135, 140, handlers.py:489.) *)
Definition bools (a b : dtype) : bool := match a, b with TBool, TBool => true | _, _ => false end.
(** operators.py:125-158 [compute_velocity] *)
Definition compute_velocity_dt (c : config) (d : dtypes) (dr : vel_draws F64num) (vmem : option fmatrix) (s : fswarm) (b : option (bounds F64num))
  : res (fmatrix * option fmatrix) :=
  if bools (t_pbest d) (t_pos d) then
    do _ <- num_of (N := F64num) (s_options s) "c1"; do _ <- num_of (N := F64num) (s_options s) "c2"; do _ <- num_of (N := F64num) (s_options s) "w"; Err TypeError
  else
    do r <- compute_velocity dr (c_vh c) vmem s (c_clamp c) b;
    if adjusts c && bools (t_pos d) (t_mem d) then Err TypeError else Ok r.

(** operators.py:196-210 [compute_position]: [temp_position += velocity] keeps the type of the positions, and numpy refuses to store floats in integers.
    Integers outside the bounds, which some boundary strategies truncate, are [Unmodelled]. *)
Definition compute_position_dt (c : config) (k : dconf) (i : nat) (tp tv : dtype) (dr : bh_draws F64num) (bmem : option fmatrix) (s : fswarm)
  : res (fmatrix * option fmatrix * dtype) :=
  match tp, tv with
  | TFlt, _ => do r <- compute_position dr (c_bh c) bmem s (c_bounds c); Ok (r, TFlt)
  | TBool, TBool => Err Unmodelled
  | TBool, _ | TInt, TFlt => Err TypeError
  | TInt, _ =>
      match c_bounds c with
      | None => do r <- compute_position dr (c_bh c) bmem s None; Ok (r, TInt)
      | Some b =>
          if same_shape (s_position s) (s_velocity s) && any_out (N := F64num) (map2 (map2 fadd) (s_position s) (s_velocity s)) b then Err Unmodelled
          else do r <- compute_position dr (c_bh c) bmem s (Some b); Ok (r, if dc_floats k i then TFlt else TInt)
      end
  end.

(** How an iteration ends, with the types. (global_best.py:207-248.) *)
Inductive dstep : Type :=
| DNext (o : ostate) (q : list bool) (d : dtypes)
| DBreak (o : ostate) (d : dtypes)
| DRaise (o : ostate) (d : dtypes) (e : exn).

(** global_best.py:239-248, local_best.py:267-276, general_optimizer.py:279-288, binary.py:231-234, as [update_swarm]; binary.py:252-271: [* 1] gives ints *)
Definition update_dt (c : config) (k : dconf) (e : env) (iters i : nat) (o : ostate) (q : list bool) (d : dtypes) : dstep :=
  let s := o_swarm o in
  match
    match c_kind c with
    | Binary => Ok (s_options s)
    | _ => oh_call (e_oh e i) (c_oh c) (c_options c)
             (mkOk (Some (Z.of_nat i)) (Some (Z.of_nat iters)) None None None None)
    end
  with
  | Err x => DRaise o d x
  | Ok opts =>
      let s1 := set_options s opts in
      let o1 := with_swarm o s1 in
      let b := match c_kind c with Binary => None | _ => c_bounds c end in
      match compute_velocity_dt c d (e_vel e i) (o_vmem o1) s1 b with
      | Err x => DRaise o1 d x
      | Ok (v, vmem) =>
          let s2 := set_velocity s1 v in
          let o2 := with_vmem (with_swarm o1 s2) vmem in
          let d2 := mkDt (t_pos d) (t_pbest d) (if adjusts c then t_pos d else t_mem d) in
          match c_kind c with
          | Binary =>
              match binary_position (e_exp e) (e_bits e i) (s_velocity s2) with
              | Err x => DRaise o2 d2 x
              | Ok p => DNext (with_swarm o2 (set_position s2 p)) q (mkDt TInt (t_pbest d2) (t_mem d2))
              end
          | _ =>
              match compute_position_dt c k i (t_pos d) (velocity_type c k d) (e_bh e i) (o_bmem o2) s2 with
              | Err x => DRaise o2 d2 x
              | Ok (p, bmem, t) => DNext (with_bmem (with_swarm o2 (set_position s2 p)) bmem) q (mkDt t (t_pbest d2) (t_mem d2))
              end
          end
      end
  end.

(** global_best.py:207-248, local_best.py:231-276, general_optimizer.py:245-288, binary.py:194-234; operators.py:69: pbest_pos gets the common type *)
Definition iteration_dt (c : config) (k : dconf) (e : env) (pool : option nat) (iters i : nat) (o : ostate) (q : list bool) (d : dtypes) : dstep :=
  match evaluate_swarm c e pool i o q with
  | Next o' q' => update_dt c k e iters i o' q' (mkDt (t_pos d) (join (t_pbest d) (t_pos d)) (t_mem d))
  | Break o' => DBreak o' (mkDt (t_pos d) (join (t_pbest d) (t_pos d)) (t_mem d))
  | Raise o' x => DRaise o' d x
  end.

(** global_best.py:206, local_best.py:230, general_optimizer.py:244, binary.py:193 *)
Fixpoint loop_dt (c : config) (k : dconf) (e : env) (pool : option nat) (iters m i : nat) (o : ostate) (q : list bool) (d : dtypes) : loop_end * dtypes :=
  match m with
  | O => (LDone o, d)
  | S m' =>
      match iteration_dt c k e pool iters i o q d with
      | DNext o' q' d' => loop_dt c k e pool iters m' (S i) o' q' d'
      | DBreak o' d' => (LDone o', d')
      | DRaise o' d' x => (LRaise o' x, d')
      end
  end.

(** [optimize]: final state, final types, returned value or raised error. (global_best.py:159-264, local_best.py:183-292, general_optimizer.py:197-304, binary.py:146-250.) *)
Definition optimize_dt (c : config) (k : dconf) (e : env) (pool : option nat) (iters : nat) (o : ostate) (d : dtypes)
  : ostate * dtypes * res (f64 * frow) :=
  let o1 := start_memory c o in
  let d1 := mkDt (t_pos d) (t_pbest d) (t_pos d) in
  match pool with
  | Some O => (o1, d1, Err ValueError)
  | _ =>
      match loop_dt c k e pool iters iters 0 (start_pbest c o1) [] d1 with
      | (LRaise o' x, d') => (o', d', Err x)
      | (LDone o', d') => (o', d', final_result o')
      end
  end.
