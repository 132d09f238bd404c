(** Equations of motion and comparisons between runs (C52-C58). *)
From Coq Require Import String ZArith List Arith Bool.
From Verif Require Import Prelude F64 Num Np Handlers Swarms Operators Generators Topology Optimizers Spec SpecHandlers SpecOpts SpecDyn
  Textbook Strategies Prefixes Ranks Handled Ties Demo ExamplesDyn.
Import ListNotations.
Local Open Scope string_scope.
Local Open Scope list_scope.
Local Open Scope nat_scope.

(** *** C52: the recorded motion obeys the PSO equations *)
(** Star: in every recorded iteration, with the coefficients of that iteration, the bests of all evaluations so far and
    the two draws. *)
Theorem C52_star : forall c e pool iters o o' r, Fresh c o -> t_kind (o_top o) = Star -> c_kind c <> Binary -> c_vh c = "unmodified" ->
  NoDup (dkeys (c_options c)) -> pool <> Some 0 -> optimize c e pool iters o = (o', r) ->
  exists C, logged e pool (o_pos_history o') C /\ length (o_velocity_history o') = length (o_pos_history o') /\
    (forall X V, nth_error (o_pos_history o') 0 = Some X -> nth_error (o_velocity_history o') 0 = Some V ->
       X = s_position (o_swarm o) /\ V = s_velocity (o_swarm o)) /\
    forall t X V X' V' i j x v, nth_error (o_pos_history o') t = Some X -> nth_error (o_velocity_history o') t = Some V ->
      nth_error (o_pos_history o') (S t) = Some X' -> nth_error (o_velocity_history o') (S t) = Some V' ->
      entry X i j = Some x -> entry V i j = Some v ->
      exists w c1 c2 r1 r2 x0 px py p gx gy g v1 x1,
        coefficient c e iters t "w" w /\ coefficient c e iters t "c1" c1 /\ coefficient c e iters t "c2" c2 /\
        entry (vd_u1 (e_vel e t)) i j = Some r1 /\ entry (vd_u2 (e_vel e t)) i j = Some r2 /\
        nth_error (s_position (o_swarm o)) i = Some x0 /\
        best_of_run (so_far t (o_pos_history o')) (so_far t C) i x0 px py /\ nth_error px j = Some p /\
        swarm_best (so_far t (o_pos_history o')) (so_far t C) gx gy /\ nth_error gx j = Some g /\
        entry V' i j = Some v1 /\ entry X' i j = Some x1 /\
        clamped (c_clamp c) j (fadd (fadd (fmul w v) (fmul (fmul c1 r1) (fsub p x))) (fmul (fmul c2 r2) (fsub g x))) v1 /\
        placed c j (fadd x v1) x1.
Proof. exact star_equations. Qed.
Print Assumptions C52_star.
Example C52_example_star : exists c o e o' v X X', Fresh c o /\ t_kind (o_top o) = Star /\ c_kind c <> Binary /\ c_vh c = "unmodified" /\ NoDup (dkeys (c_options c)) /\
  c_bh c = "nearest" /\ c_bounds c <> None /\ c_clamp c <> None /\ c_oh c <> [] /\ optimize c e None 4 o = (o', Ok v) /\
  nth_error (o_pos_history o') 2 = Some X /\ nth_error (o_pos_history o') 3 = Some X' /\ moved X X' = true.
Proof. exact y_star. Qed.
(** Topologies with neighbour lists: the best of the neighbours' personal bests takes the place of the swarm's best.  A static
    topology keeps the lists of the first iteration (or those it came with). *)
Theorem C52_neighbours : forall c e pool iters o o' r, Fresh c o -> t_kind (o_top o) <> Star ->
  ~ (t_kind (o_top o) = Ring /\ int_option c "k" 1) -> ~ (t_kind (o_top o) = VonNeumann /\ int_option c "r" 0) ->
  (t_kind (o_top o) = Pyramid -> s_d (o_swarm o) < s_n (o_swarm o)) -> (t_kind (o_top o) = VonNeumann -> 0 < s_d (o_swarm o)) ->
  c_kind c <> Binary -> c_vh c = "unmodified" -> NoDup (dkeys (c_options c)) -> pool <> Some 0 -> optimize c e pool iters o = (o', r) ->
  exists C, logged e pool (o_pos_history o') C /\ length (o_velocity_history o') = length (o_pos_history o') /\
    (forall X V, nth_error (o_pos_history o') 0 = Some X -> nth_error (o_velocity_history o') 0 = Some V ->
       X = s_position (o_swarm o) /\ V = s_velocity (o_swarm o)) /\
    forall t X V X' V' i j x v, nth_error (o_pos_history o') t = Some X -> nth_error (o_velocity_history o') t = Some V ->
      nth_error (o_pos_history o') (S t) = Some X' -> nth_error (o_velocity_history o') (S t) = Some V' ->
      entry X i j = Some x -> entry V i j = Some v ->
      exists w c1 c2 r1 r2 x0 px py p rows row gx gy g v1 x1,
        coefficient c e iters t "w" w /\ coefficient c e iters t "c1" c1 /\ coefficient c e iters t "c2" c2 /\
        entry (vd_u1 (e_vel e t)) i j = Some r1 /\ entry (vd_u2 (e_vel e t)) i j = Some r2 /\
        nth_error (s_position (o_swarm o)) i = Some x0 /\
        best_of_run (so_far t (o_pos_history o')) (so_far t C) i x0 px py /\ nth_error px j = Some p /\
        neighbour_lists c e o (o_pos_history o') t rows /\ nth_error rows i = Some row /\
        neighbour_best (so_far t (o_pos_history o')) (so_far t C) (s_position (o_swarm o)) row gx gy /\ nth_error gx j = Some g /\
        entry V' i j = Some v1 /\ entry X' i j = Some x1 /\
        clamped (c_clamp c) j (fadd (fadd (fmul w v) (fmul (fmul c1 r1) (fsub p x))) (fmul (fmul c2 r2) (fsub g x))) v1 /\
        placed c j (fadd x v1) x1.
Proof. exact neighbour_equations. Qed.
Print Assumptions C52_neighbours.
Example C52_example_ring : exists c o e o' v X X', Fresh c o /\ t_kind (o_top o) = Ring /\ t_static (o_top o) = false /\ int_option c "k" 2 /\
  c_kind c <> Binary /\ c_vh c = "unmodified" /\ NoDup (dkeys (c_options c)) /\ optimize c e None 4 o = (o', Ok v) /\
  nth_error (o_pos_history o') 2 = Some X /\ nth_error (o_pos_history o') 3 = Some X' /\ moved X X' = true.
Proof. exact y_ring. Qed.
Example C52_example_static : exists c o e o' v X X', Fresh c o /\ t_kind (o_top o) = VonNeumann /\ t_static (o_top o) = true /\ t_nb (o_top o) = None /\ int_option c "r" 1 /\
  c_kind c <> Binary /\ c_vh c = "unmodified" /\ NoDup (dkeys (c_options c)) /\ optimize c e None 4 o = (o', Ok v) /\
  nth_error (o_pos_history o') 2 = Some X /\ nth_error (o_pos_history o') 3 = Some X' /\ moved X X' = true.
Proof. exact y_vn. Qed.
(** Whatever the boundary and velocity strategies: a particle whose move violates no bound ends where it moved to. *)
Theorem C52_inside : forall c e pool iters o o' r, c_kind c <> Binary -> pool <> Some 0 -> o_pos_history o = [] -> o_velocity_history o = [] ->
  optimize c e pool iters o = (o', r) ->
  forall t X X' V' i xr vr, nth_error (o_pos_history o') t = Some X -> nth_error (o_pos_history o') (S t) = Some X' ->
    nth_error (o_velocity_history o') (S t) = Some V' -> nth_error X i = Some xr -> nth_error V' i = Some vr ->
    match c_bounds c with None => True | Some b => box_dim (length xr) b /\ good b (map2 fadd xr vr) end ->
    nth_error X' i = Some (map2 fadd xr vr).
Proof. exact inside_equation. Qed.
Print Assumptions C52_inside.
Example C52_example_inside : exists c e o o' v X X' V' xr vr b, c_kind c <> Binary /\ c_bounds c = Some b /\ o_pos_history o = [] /\ o_velocity_history o = [] /\
  optimize c e None 4 o = (o', Ok v) /\ nth_error (o_pos_history o') 2 = Some X /\ nth_error (o_pos_history o') 3 = Some X' /\
  nth_error (o_velocity_history o') 3 = Some V' /\ nth_error X 1 = Some xr /\ nth_error V' 1 = Some vr /\
  box_dim (length xr) b /\ good b (map2 fadd xr vr).
Proof. exact y_inside. Qed.

(** *** C53: misconfigured strategies surface only in the first iteration *)
Theorem C53_constructor : forall c bh vh top dr, construct (with_vh (with_bh c bh) vh) top dr = construct c top dr.
Proof. exact construct_ignores. Qed.
Print Assumptions C53_constructor.
Theorem C53_boundary : forall c e pool iters o o' r, c_kind c <> Binary -> c_bounds c <> None -> 0 < c_ftol_iter c -> 0 < iters ->
  ~ In (c_bh c) ["nearest"; "reflective"; "shrink"; "random"; "intermediate"; "periodic"] -> optimize c e pool iters o = (o', r) ->
  (exists x, r = Err x) /\ length (o_pos_history o') <= S (length (o_pos_history o)) /\ s_position (o_swarm o') = s_position (o_swarm o) /\
  (forall st o'' v, optimize (with_bh c st) e pool iters o = (o'', Ok v) ->
     r = Err KeyError /\ length (o_pos_history o') = S (length (o_pos_history o))).
Proof. exact unknown_bh_run. Qed.
Print Assumptions C53_boundary.
Example C53_example_boundary : exists c e o o' v, c_kind c <> Binary /\ c_bounds c <> None /\ 0 < c_ftol_iter c /\ Fresh c o /\
  ~ In (c_bh c) ["nearest"; "reflective"; "shrink"; "random"; "intermediate"; "periodic"] /\ optimize (with_bh c "nearest") e None 3 o = (o', Ok v).
Proof. exact z_bh. Qed.
Theorem C53_velocity : forall c e pool iters o o' r, 0 < c_ftol_iter c -> 0 < iters ->
  ~ In (c_vh c) ["unmodified"; "adjust"; "invert"; "zero"] -> optimize c e pool iters o = (o', r) ->
  (exists x, r = Err x) /\ length (o_pos_history o') <= S (length (o_pos_history o)) /\ s_position (o_swarm o') = s_position (o_swarm o) /\
  (forall st o'' v, optimize (with_vh c st) e pool iters o = (o'', Ok v) ->
     r = Err KeyError /\ length (o_pos_history o') = S (length (o_pos_history o))).
Proof. exact unknown_vh_run. Qed.
Print Assumptions C53_velocity.
Example C53_example_velocity : exists c e o o' v, 0 < c_ftol_iter c /\ Fresh c o /\ ~ In (c_vh c) ["unmodified"; "adjust"; "invert"; "zero"] /\
  optimize (with_vh c "unmodified") e None 3 o = (o', Ok v).
Proof. exact z_vh. Qed.
Theorem C53_unbounded : forall c e pool iters o o' r, 0 < c_ftol_iter c -> 0 < iters ->
  c_vh c = "invert" \/ c_vh c = "zero" -> c_kind c = Binary \/ c_bounds c = None -> optimize c e pool iters o = (o', r) ->
  (exists x, r = Err x) /\ length (o_pos_history o') <= S (length (o_pos_history o)) /\ s_position (o_swarm o') = s_position (o_swarm o) /\
  (forall st o'' v, optimize (with_vh c st) e pool iters o = (o'', Ok v) ->
     r = Err TypeError /\ length (o_pos_history o') = S (length (o_pos_history o))).
Proof. exact unbounded_vh_run. Qed.
Print Assumptions C53_unbounded.
Example C53_example_unbounded : exists c e o o' v, 0 < c_ftol_iter c /\ Fresh c o /\ c_vh c = "invert" /\ c_bounds c = None /\
  optimize (with_vh c "unmodified") e None 3 o = (o', Ok v).
Proof. exact z_inv. Qed.

(** *** C54: a longer run extends a shorter one, an early stop truncates it *)
Theorem C54_longer : forall c e pool m n o o1 r1 o2 r2, unscheduled c -> m <= n ->
  optimize c e pool m o = (o1, r1) -> optimize c e pool n o = (o2, r2) ->
  hist_prefix o1 o2 /\ (length (o_pos_history o1) < m + length (o_pos_history o) -> (o2, r2) = (o1, r1)).
Proof. exact longer_run. Qed.
Print Assumptions C54_longer.
Example C54_example_longer : exists c e o o1 v1 o2 v2, unscheduled c /\ Fresh c o /\ optimize c e None 2 o = (o1, Ok v1) /\ optimize c e None 5 o = (o2, Ok v2) /\
  length (o_pos_history o1) = 2 /\ length (o_pos_history o2) = 5.
Proof. exact l_demo. Qed.
(** With a schedule this fails: the coefficients depend on the number of iterations asked for. *)
Theorem C54_scheduled_refuted : exists c e o o1 v1 o2 v2, Fresh c o /\ optimize c e None 3 o = (o1, Ok v1) /\ optimize c e None 6 o = (o2, Ok v2) /\
  ~ prefix (o_pos_history o1) (o_pos_history o2).
Proof. exact longer_scheduled. Qed.
Print Assumptions C54_scheduled_refuted.
Theorem C54_stop : forall c e pool iters o o1 v o2 r2, unscheduled c -> 0 < c_ftol_iter c ->
  optimize c e pool iters o = (o1, Ok v) ->
  optimize (with_ftol c fninf) e pool (length (o_pos_history o1) - length (o_pos_history o)) o = (o2, r2) ->
  same_records o1 o2 /\ (r2 = Ok v \/ exists x, r2 = Err x).
Proof. exact stop_truncates. Qed.
Print Assumptions C54_stop.
Example C54_example_stop : exists c e o o1 v, unscheduled c /\ 0 < c_ftol_iter c /\ Fresh c o /\ optimize c e None 9 o = (o1, Ok v) /\ length (o_cost_history o1) = 2.
Proof. exact s_demo. Qed.

(** *** C55: the objective matters only at the recorded positions *)
Theorem C55_objective : forall c e f pool iters o o' r, optimize c e pool iters o = (o', r) ->
  (forall t X b, (nth_error (o_pos_history o') (length (o_pos_history o) + t) = Some X \/
      ((exists x, r = Err x) /\ length (o_pos_history o) + t = length (o_pos_history o') /\ X = s_position (o_swarm o'))) ->
     part_of pool b X -> f t b = e_obj e t b) ->
  optimize c (with_obj e f) pool iters o = (o', r).
Proof. exact objective_local. Qed.
Print Assumptions C55_objective.
Example C55_example : exists c e f o o' v, Fresh c o /\ optimize c e None 4 o = (o', Ok v) /\ f 4 [] <> e_obj e 4 [] /\ f 0 [] <> e_obj e 0 [] /\
  (forall t X b, (nth_error (o_pos_history o') (length (o_pos_history o) + t) = Some X \/
      ((exists x, @Ok (f64 * frow) v = Err x) /\ length (o_pos_history o) + t = length (o_pos_history o') /\ X = s_position (o_swarm o'))) ->
     part_of None b X -> f t b = e_obj e t b).
Proof. exact f_demo. Qed.

(** *** C56: only the order of the costs matters *)
Theorem C56_call : forall P phi c e pool iters o o0 o' r, order_on P phi -> P finf -> phi finf = finf ->
  (forall t X cs, e_obj e t X = Ok cs -> Forall P cs) -> c_ftol c = fninf -> 0 < c_ftol_iter c ->
  recosted phi o o0 -> P (s_best_cost (o_swarm o)) -> optimize c e pool iters o = (o', r) ->
  exists o0' r0, optimize c (with_obj e (relabel phi (e_obj e))) pool iters o0 = (o0', r0) /\ recosted phi o' o0' /\ P (s_best_cost (o_swarm o')) /\
    match r, r0 with Ok (y, x), Ok (y0, x0) => x0 = x /\ y0 = phi y | Err x, Err x0 => x0 = x | _, _ => False end.
Proof. exact relabelled_run. Qed.
Print Assumptions C56_call.
Theorem C56_fresh : forall P phi c e pool iters o o' r, order_on P phi -> P finf -> phi finf = finf ->
  (forall t X cs, e_obj e t X = Ok cs -> Forall P cs) -> c_ftol c = fninf -> 0 < c_ftol_iter c ->
  Fresh c o -> optimize c e pool iters o = (o', r) ->
  exists o0' r0, optimize c (with_obj e (relabel phi (e_obj e))) pool iters o = (o0', r0) /\ recosted phi o' o0' /\ P (s_best_cost (o_swarm o')) /\
    match r, r0 with Ok (y, x), Ok (y0, x0) => x0 = x /\ y0 = phi y | Err x, Err x0 => x0 = x | _, _ => False end.
Proof. exact relabelled_fresh. Qed.
Print Assumptions C56_fresh.
Example C56_example : exists P phi c e o o' v, order_on P phi /\ P finf /\ phi finf = finf /\ (forall t X cs, e_obj e t X = Ok cs -> Forall P cs) /\
  c_ftol c = fninf /\ 0 < c_ftol_iter c /\ Fresh c o /\ optimize c e None 6 o = (o', Ok v) /\
  (match o_cost_history o' with [a; b; _; _; _; d] => feq a (F 3) && feq b (F 2) && feq d (F 1) | _ => false end) = true /\
  feq (phi (F 3)) (F 3) = false.
Proof. exact step_demo. Qed.
(** Not so with a tolerance: the stop criterion looks at the values. *)
Theorem C56_tolerance_refuted : exists P phi c e o o1 v1 o2 v2, order_on P phi /\ P finf /\ phi finf = finf /\ (forall t X cs, e_obj e t X = Ok cs -> Forall P cs) /\
  Fresh c o /\ optimize c e None 6 o = (o1, Ok v1) /\ optimize c (with_obj e (relabel phi (e_obj e))) None 6 o = (o2, Ok v2) /\
  length (o_pos_history o1) = 2 /\ length (o_pos_history o2) = 3.
Proof. exact tol_matters. Qed.
Print Assumptions C56_tolerance_refuted.

(** *** C57: every recorded move is what the boundary strategy makes of it *)
Theorem C57_moves : forall c e pool iters o b o' r, c_kind c <> Binary -> c_bounds c = Some b -> pool <> Some 0 ->
  optimize c e pool iters o = (o', r) ->
  forall t X X' V' i x v, nth_error (o_pos_history o') (length (o_pos_history o) + t) = Some X ->
    nth_error (o_pos_history o') (length (o_pos_history o) + S t) = Some X' ->
    nth_error (o_velocity_history o') (length (o_velocity_history o) + S t) = Some V' ->
    nth_error X i = Some x -> nth_error V' i = Some v ->
  exists x', nth_error X' i = Some x' /\ handled (N := F64num) (c_bh c) (e_bh e t) b x (map2 fadd x v) x'.
Proof. exact strategy_equation. Qed.
Print Assumptions C57_moves.
Example C57_example : forall st, In st ["nearest"; "reflective"; "shrink"; "random"; "intermediate"; "periodic"] ->
  exists c e o o' b v X X' V' xr vr, Fresh c o /\ c_kind c <> Binary /\ c_bounds c = Some b /\ c_bh c = st /\ optimize c e None 4 o = (o', Ok v) /\
    nth_error (o_pos_history o') (length (o_pos_history o) + 2) = Some X /\ nth_error (o_pos_history o') (length (o_pos_history o) + 3) = Some X' /\
    nth_error (o_velocity_history o') (length (o_velocity_history o) + 3) = Some V' /\ nth_error X 1 = Some xr /\ nth_error V' 1 = Some vr /\
    ~ good b (map2 fadd xr vr).
Proof. exact w_demo. Qed.

(** *** C58: ties *)
(** The returned position is the first best of the lowest-numbered particle among the best ones. *)
Theorem C58_returned : forall c e pool iters o o' cost pos, Fresh c o -> optimize c e pool iters o = (o', Ok (cost, pos)) ->
  exists C, logged e pool (o_pos_history o') C /\ all_evaluated (c_n c) (o_pos_history o') C /\
  exists a x0 v, nth_error (s_position (o_swarm o)) a = Some x0 /\ best_of_run (o_pos_history o') C a x0 pos v /\
    forall b z y w, nth_error (s_position (o_swarm o)) b = Some z -> best_of_run (o_pos_history o') C b z y w ->
      fle v w = true /\ (b < a -> flt v w = true).
Proof. exact returned_first. Qed.
Print Assumptions C58_returned.
(** The position that attracts the swarm (Star) is the first best in the order of evaluation. *)
Theorem C58_leader : forall c e pool iters o o' v g, Fresh c o -> t_kind (o_top o) = Star ->
  optimize c e pool iters o = (o', Ok v) -> s_best_pos (o_swarm o') = BPVec g ->
  exists C y, logged e pool (o_pos_history o') C /\ swarm_best (o_pos_history o') C g y /\ feq y (fst v) = true.
Proof. exact leader_first. Qed.
Print Assumptions C58_leader.
(** The two rules differ: both positions cost the same, but they are different positions. *)
Theorem C58_same_position_refuted : exists c o e o' v g (h : frow -> f64), Fresh c o /\ t_kind (o_top o) = Star /\
  (forall t X, e_obj e t X = Ok (map h X)) /\ optimize c e None 3 o = (o', Ok v) /\ s_best_pos (o_swarm o') = BPVec g /\
  feq (h g) (h (snd v)) = true /\ flt (nth 0 (snd v) fzero) (nth 0 g fzero) = true.
Proof. exact tie_split. Qed.
Print Assumptions C58_same_position_refuted.
