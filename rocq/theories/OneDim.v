(** Swarms of one dimension that know no best position.

    The initial [best_pos] is an array of shape (0,) (swarms.py:92-96). With positions of shape (n, d), d >= 2, numpy refuses to combine it; with positions of
    shape (n, 1) it does not: the result has shape (n, 0). [compute_velocity] of Operators.v leaves that case out; here it is. *)
From Coq Require Import String ZArith List Arith Bool.
From Verif Require Import Prelude F64 Num Np Handlers Swarms Operators Generators Topology Optimizers.
Import ListNotations.
Local Open Scope string_scope.
Local Open Scope list_scope.

(** [swarm.best_pos] is still the initial one. (swarms.py:92-96.) *)
Definition unknown (s : fswarm) : bool := match s_best_pos s with BPEmpty => true | _ => false end.
(** [swarm.velocity] has shape (n, 0). (operators.py:142-145.) *)
Definition lost (s : fswarm) : bool :=
  negb (Nat.eqb (length (s_position s)) 0) && Nat.eqb (length (s_velocity s)) (length (s_position s)) && forallb (fun r => Nat.eqb (length r) 0) (s_velocity s).

(** The velocity handler for a velocity of shape (n, 0): clamps (451-459) and assignments of rows (517-522, 536-541) have nothing to do; "adjust" (484-497) does not look at it.
    (handlers.py:420-449 [VelocityHandler.__call__].) *)
Definition vh_empty (strategy : string) (cl : option (clamp_t F64num)) (mem : option fmatrix) (b : option (bounds F64num)) (x : fmatrix) : res (fmatrix * option fmatrix) :=
  let none := repeat [] (length x) in
  let k := mkVk (N := F64num) (Some x) (Some b) None in
  let clamped := match cl with None => Ok none | Some c => if clamp_fit x c then Ok none else Err ValueError end in
  if negb (vh_known strategy) then Err KeyError
  else if String.eqb strategy "unmodified" then do v <- clamped; Ok (v, mem)
  else if String.eqb strategy "adjust" then vh_adjust cl mem k none
  else if String.eqb strategy "invert" then do _ <- vk_get k; do v <- clamped; Ok (v, mem)
  else do _ <- vk_get k; Ok (none, mem).

(** operators.py:125-157 [compute_velocity]. The sum on line 142 has shape (n, 0) if one of its terms has. *)
Definition compute_velocity_one (dr : vel_draws F64num) (vh : string) (vmem : option fmatrix) (s : fswarm) (cl : option (clamp_t F64num)) (b : option (bounds F64num)) : res (fmatrix * option fmatrix) :=
  if Nat.eqb (s_d s) 1 && (unknown s || lost s) then
    do _ <- num_of (N := F64num) (s_options s) "c1";
    do _ <- num_of (N := F64num) (s_options s) "c2";
    do _ <- num_of (N := F64num) (s_options s) "w";
    let x := s_position s in
    if negb (same_shape x (s_pbest_pos s) && (lost s || same_shape x (s_velocity s))
             && match best_rows (length x) 1 (s_best_pos s) with Ok best => same_shape x best | Err _ => true end
             && same_shape x (vd_u1 dr) && same_shape x (vd_u2 dr))
    then Err ValueError
    else vh_empty vh cl vmem b x
  else compute_velocity dr vh vmem s cl b.

(** global_best.py:239-248, local_best.py:267-276, general_optimizer.py:279-288, as [update_swarm]. The position update adds in place (operators.py:198): adding (n, 0) to (n, 1) is a ValueError.
    BinaryPSO always knows a best position after [compute_gbest] (ring.py:78-84) and is left as it was. *)
Definition update_one (c : config) (e : env) (iters i : nat) (o : ostate) (q : list bool) : step :=
  match c_kind c with
  | Binary => update_swarm c e iters i o q
  | _ =>
    let s := o_swarm o in
    match oh_call (e_oh e i) (c_oh c) (c_options c) (mkOk (Some (Z.of_nat i)) (Some (Z.of_nat iters)) None None None None) with
    | Err x => Raise o x
    | Ok opts =>
        let s1 := set_options s opts in
        let o1 := with_swarm o s1 in
        match compute_velocity_one (e_vel e i) (c_vh c) (o_vmem o1) s1 (c_clamp c) (c_bounds c) with
        | Err x => Raise o1 x
        | Ok (v, vmem) =>
            let s2 := set_velocity s1 v in
            let o2 := with_vmem (with_swarm o1 s2) vmem in
            match compute_position (e_bh e i) (c_bh c) (o_bmem o2) s2 (c_bounds c) with
            | Err x => Raise o2 x
            | Ok (p, bmem) => Next (with_bmem (with_swarm o2 (set_position s2 p)) bmem) q
            end
        end
    end
  end.
(** global_best.py:207-248, local_best.py:231-276, general_optimizer.py:245-288 *)
Definition iteration_one (c : config) (e : env) (pool : option nat) (iters i : nat) (o : ostate) (q : list bool) : step :=
  match evaluate_swarm c e pool i o q with
  | Next o' q' => update_one c e iters i o' q'
  | r => r
  end.
(** global_best.py:206, local_best.py:230, general_optimizer.py:244 *)
Fixpoint loop_one (c : config) (e : env) (pool : option nat) (iters m i : nat) (o : ostate) (q : list bool) : loop_end :=
  match m with
  | O => LDone o
  | S m' =>
      match iteration_one c e pool iters i o q with
      | Next o' q' => loop_one c e pool iters m' (S i) o' q'
      | Break o' => LDone o'
      | Raise o' x => LRaise o' x
      end
  end.
(** [optimize] (global_best.py:159-264, local_best.py:183-292, general_optimizer.py:197-304.) *)
Definition optimize_one (c : config) (e : env) (pool : option nat) (iters : nat) (o : ostate) : ostate * res (f64 * frow) :=
  let o1 := start_memory c o in
  match pool with
  | Some O => (o1, Err ValueError)
  | _ =>
      match loop_one c e pool iters iters 0 (start_pbest c o1) [] with
      | LRaise o' x => (o', Err x)
      | LDone o' => (o', final_result o')
      end
  end.
