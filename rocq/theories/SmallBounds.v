(** Bounds that are not arrays of shape (dimensions,): arrays of one element, and plain numbers.

    numpy repeats them over the dimensions where they are compared with or added to an array of positions (broadcasting), but not where the code indexes them by columns.
    A model for two or more dimensions. *)
From Coq Require Import String ZArith List Arith Bool.
From Verif Require Import Prelude F64 Num Np Handlers Swarms Operators Generators Topology Optimizers.
Import ListNotations.
Local Open Scope string_scope.
Local Open Scope list_scope.

(** [bounds = (np.array([lo]), np.array([hi]))] or [bounds = (lo, hi)]. (base_single.py:96: stored unchecked.) *)
Inductive bform : Type := FOne | FScalar.
(** The values. (base_single.py:96.) *)
Record small : Type := mkSmall { sb_form : bform; sb_lo : f64; sb_hi : f64 }.
(** What broadcasting makes of them. (handlers.py:52-53, 165-169, generators.py:64-66.) Numbers are plain Python numbers. *)
Definition spread (d : nat) (s : small) : bounds F64num := mkBounds (N := F64num) (repeat (sb_lo s) d) (repeat (sb_hi s) d) true.
(** The settings with the bounds written out. (base_single.py:92-101.) *)
Definition full (c : config) (s : small) : config :=
  {| c_kind := c_kind c; c_n := c_n c; c_d := c_d c; c_options := c_options c; c_bounds := Some (spread (c_d c) s); c_clamp := c_clamp c; c_center := c_center c; c_ftol := c_ftol c; c_ftol_iter := c_ftol_iter c; c_init := c_init c;
     c_bh := c_bh c; c_vh := c_vh c; c_oh := c_oh c |}.

(** Out of bounds. (handlers.py:52-53.) *)
Definition sb_out (s : small) (x : f64) : bool := flt x (sb_lo s) || flt (sb_hi s) x.
(** An index array [lower_than_bound[1]] or [greater_than_bound[1]] has an entry other than 0. (handlers.py:52-54.) *)
Definition out_beyond (s : small) (pos : fmatrix) : bool := existsb (fun r => existsb (sb_out s) (tl r)) pos.
(** ... or is not empty. (handlers.py:202.) *)
Definition out_any (s : small) (pos : fmatrix) : bool := existsb (existsb (sb_out s)) pos.

(** handlers.py:115-144 [BoundaryHandler.__call__] *)
Definition bh_small (strategy : string) (dr : bh_draws F64num) (mem : option fmatrix) (d : nat) (s : small) (pos : fmatrix) : res (fmatrix * option fmatrix) :=
  let all := bh_call strategy dr mem (spread d s) pos in
  if negb (bh_known strategy) then Err KeyError
  else if String.eqb strategy "nearest" then all                         (* 165-169: comparisons and np.where *)
  else if String.eqb strategy "random" then
    match sb_form s with FOne => all | FScalar => Err TypeError end      (* 299, 306: zip(ub, lb) *)
  else if String.eqb strategy "reflective" then
    match sb_form s with
    | FOne => if out_beyond s pos then Err IndexError else all           (* 205, 209: lb[...], ub[...] *)
    | FScalar => if out_any s pos then Err TypeError else all
    end
  else if String.eqb strategy "periodic" then
    if out_beyond s pos then Err IndexError else all                     (* 377-392: np.tile gives one column *)
  else
    match mem with
    | None => all
    | Some _ => match sb_form s with FOne => if out_beyond s pos then Err IndexError else all | FScalar => Err TypeError end   (* 260, 263, 341, 344: lb[...], ub[...] *)
    end.

(** operators.py:196-210 [compute_position] *)
Definition compute_position_small (c : config) (b : small) (dr : bh_draws F64num) (bmem : option fmatrix) (s : fswarm) : res (fmatrix * option fmatrix) :=
  if negb (same_shape (s_position s) (s_velocity s)) then Err ValueError
  else bh_small (c_bh c) dr bmem (c_d c) b (map2 (map2 fadd) (s_position s) (s_velocity s)).

(** global_best.py:239-248, local_best.py:267-276, general_optimizer.py:279-288, as [update_swarm]; the velocity handler only compares with the bounds (handlers.py:517-519, 536-538).
    BinaryPSO has no bounds (binary.py:231-234). *)
Definition update_small (c : config) (b : small) (e : env) (iters i : nat) (o : ostate) (q : list bool) : step :=
  match c_kind c with
  | Binary => update_swarm (full c b) e iters i o q
  | _ =>
    let s := o_swarm o in
    match oh_call (e_oh e i) (c_oh c) (c_options c) (mkOk (Some (Z.of_nat i)) (Some (Z.of_nat iters)) None None None None) with
    | Err x => Raise o x
    | Ok opts =>
        let s1 := set_options s opts in
        let o1 := with_swarm o s1 in
        match compute_velocity (e_vel e i) (c_vh c) (o_vmem o1) s1 (c_clamp c) (Some (spread (c_d c) b)) with
        | Err x => Raise o1 x
        | Ok (v, vmem) =>
            let s2 := set_velocity s1 v in
            let o2 := with_vmem (with_swarm o1 s2) vmem in
            match compute_position_small c b (e_bh e i) (o_bmem o2) s2 with
            | Err x => Raise o2 x
            | Ok (p, bmem) => Next (with_bmem (with_swarm o2 (set_position s2 p)) bmem) q
            end
        end
    end
  end.
(** global_best.py:207-248, local_best.py:231-276, general_optimizer.py:245-288 *)
Definition iteration_small (c : config) (b : small) (e : env) (pool : option nat) (iters i : nat) (o : ostate) (q : list bool) : step :=
  match evaluate_swarm c e pool i o q with
  | Next o' q' => update_small c b e iters i o' q'
  | r => r
  end.
(** global_best.py:206, local_best.py:230, general_optimizer.py:244 *)
Fixpoint loop_small (c : config) (b : small) (e : env) (pool : option nat) (iters m i : nat) (o : ostate) (q : list bool) : loop_end :=
  match m with
  | O => LDone o
  | S m' =>
      match iteration_small c b e pool iters i o q with
      | Next o' q' => loop_small c b e pool iters m' (S i) o' q'
      | Break o' => LDone o'
      | Raise o' x => LRaise o' x
      end
  end.
(** [optimize] (global_best.py:159-264, local_best.py:183-292, general_optimizer.py:197-304.) *)
Definition optimize_small (c : config) (b : small) (e : env) (pool : option nat) (iters : nat) (o : ostate) : ostate * res (f64 * frow) :=
  let o1 := start_memory c o in
  match pool with
  | Some O => (o1, Err ValueError)
  | _ =>
      match loop_small c b e pool iters iters 0 (start_pbest c o1) [] with
      | LRaise o' x => (o', Err x)
      | LDone o' => (o', final_result o')
      end
  end.

(** The [__init__] methods: generators.py:63-68 compares [init_pos] with the bounds, generators.py:73-80 takes [np.array(lb)[np.newaxis, :]], an IndexError for a number. *)
Definition construct_small (c : config) (b : small) (top : topology) (dr : create_draws) : res ostate :=
  do _ <- match c_kind c with
          | LocalBest | Binary =>
              do _ <- of_option KeyError (dget (c_options c) "k");
              of_option KeyError (dget (c_options c) "p")
          | _ => Ok (PInt 0)
          end;
  if Nat.eqb (c_ftol_iter c) 0 then Err AssertionError
  else
    match sb_form b, c_kind c, c_init c with
    | FScalar, (GlobalBest | LocalBest | General), None => Err IndexError
    | _, _, _ => construct (full c b) top dr
    end.
