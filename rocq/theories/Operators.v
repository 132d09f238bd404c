(** Model of /repo/pyswarms/backend/operators.py. *)
From Coq Require Import String ZArith List Arith Bool.
From Verif Require Import Prelude Num Np Handlers Swarms.
Import ListNotations.
Local Open Scope string_scope.
Local Open Scope list_scope.

Section Operators.
Context {N : Num}.

(** operators.py:62-79 [compute_pbest]. [np.where(~mask, old, new)] selects [new] where the
    mask holds; the position mask repeats the cost mask over the dimensions.  Shape
    mismatches raise ValueError (no length-1 broadcasting in the model). *)
Definition compute_pbest (s : swarm N) : res (matrix N * list N) :=
  let cost := s_current_cost s in
  let old := s_pbest_cost s in
  if negb (Nat.eqb (length cost) (length old)) then Err ValueError
  else
    let mask := map2 nlt cost old in
    if negb (Nat.eqb (length mask) (length (s_position s)) && same_shape (s_position s) (s_pbest_pos s))
    then Err ValueError
    else Ok (map3 (fun (m : bool) (o n : row N) => if negb m then o else n)
               mask (s_pbest_pos s) (s_position s),
             map3 (fun (m : bool) (o n : N) => if negb m then o else n) mask old cost).

(** [swarm.best_pos - swarm.position]: the row of best positions particle [i] is compared
    with.  The empty best_pos of shape (0,) cannot be broadcast against (n,d) for d >= 2
    (ValueError); for d = 1 numpy silently produces an empty matrix, which is outside the
    model. (operators.py:140.) *)
Definition best_rows (n d : nat) (b : bestpos N) : res (matrix N) :=
  match b with
  | BPEmpty => match d with O => Ok (repeat [] n) | 1 => Err Unmodelled | _ => Err ValueError end
  | BPVec v => Ok (repeat v n)
  | BPMat m => Ok m
  end.

(** operators.py:132-143, one coordinate:
    [(w * v) + c1 * u1 * (pbest - x) + c2 * u2 * (best - x)] *)
Definition velocity_el (c1 c2 w u1 u2 x v p b : N) : N :=
  let cognitive := nmul (nmul c1 u1) (nsub p x) in
  let social := nmul (nmul c2 u2) (nsub b x) in
  nadd (nadd (nmul w v) cognitive) social.

(** operators.py:132-143, one particle *)
Fixpoint velocity_row (c1 c2 w : N) (u1 u2 x v p b : row N) : row N :=
  match u1, u2, x, v, p, b with
  | a1 :: u1', a2 :: u2', a3 :: x', a4 :: v', a5 :: p', a6 :: b' =>
      velocity_el c1 c2 w a1 a2 a3 a4 a5 a6 :: velocity_row c1 c2 w u1' u2' x' v' p' b'
  | _, _, _, _, _, _ => []
  end.
(** operators.py:132-143, the whole matrix *)
Fixpoint velocity_mat (c1 c2 w : N) (u1 u2 x v p b : matrix N) : matrix N :=
  match u1, u2, x, v, p, b with
  | a1 :: u1', a2 :: u2', a3 :: x', a4 :: v', a5 :: p', a6 :: b' =>
      velocity_row c1 c2 w a1 a2 a3 a4 a5 a6 :: velocity_mat c1 c2 w u1' u2' x' v' p' b'
  | _, _, _, _, _, _ => []
  end.

(** The two draws [np.random.uniform(0, 1, swarm_size)]. (operators.py:134, 139.) *)
Record vel_draws : Type := mkVd { vd_u1 : matrix N; vd_u2 : matrix N }.

(** operators.py:125-157 [compute_velocity]; returns the velocity and the handler's memory *)
Definition compute_velocity (dr : vel_draws) (vh : string) (vmem : option (matrix N))
    (s : swarm N) (clamp : option (clamp_t N)) (b : option (bounds N))
  : res (matrix N * option (matrix N)) :=
  do c1 <- num_of (s_options s) "c1";
  do c2 <- num_of (s_options s) "c2";
  do w <- num_of (s_options s) "w";
  let x := s_position s in
  do best <- best_rows (length x) (s_d s) (s_best_pos s);
  if negb (same_shape x (s_pbest_pos s) && same_shape x best && same_shape x (s_velocity s)
           && same_shape x (vd_u1 dr) && same_shape x (vd_u2 dr))
  then Err ValueError
  else
    let temp := velocity_mat c1 c2 w (vd_u1 dr) (vd_u2 dr) x (s_velocity s) (s_pbest_pos s) best in
    vh_call vh clamp vmem (mkVk (Some x) (Some b) None) temp.

(** operators.py:196-210 [compute_position]; returns the position and the handler's memory *)
Definition compute_position (dr : bh_draws N) (bh : string) (bmem : option (matrix N))
    (s : swarm N) (b : option (bounds N)) : res (matrix N * option (matrix N)) :=
  if negb (same_shape (s_position s) (s_velocity s)) then Err ValueError
  else
    let temp := map2 (map2 nadd) (s_position s) (s_velocity s) in
    match b with
    | None => Ok (temp, bmem)
    | Some b => bh_call bh dr bmem b temp
    end.

(** operators.py:238-245 [compute_objective_function].  [pool = Some n] is a pool of [n]
    processes: the chunks are evaluated (in any order; results are collected in chunk order)
    and concatenated. *)
Definition compute_objective_function (pool : option nat) (f : matrix N -> res (list N))
    (pos : matrix N) : res (list N) :=
  match pool with
  | None => f pos
  | Some n => do rs <- mapM f (array_split pos n); Ok (concat rs)
  end.

End Operators.
Arguments vel_draws _ : clear implicits.
