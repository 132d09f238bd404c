(** Overflow, NaN and rounding during a run (C59-C61). *)
From Coq Require Import String ZArith List Arith Bool Reals.
From Flocq Require Import Core.
From Verif Require Import Prelude F64 F64Facts Num Np Handlers Swarms Operators Generators Topology Optimizers Spec SpecHandlers SpecDyn SpecTame
  Tame FiniteRun Rounding ExamplesTame.
Import ListNotations.
Local Open Scope string_scope.
Local Open Scope list_scope.
Local Open Scope nat_scope.

(** *** C59: a clamped run of moderate size never overflows and never produces a NaN *)
Theorem C59_box : forall c e pool iters o o' r b cl, Fresh c o -> c_kind c <> Binary -> c_vh c = "unmodified" -> NoDup (dkeys (c_options c)) ->
  c_bounds c = Some b -> c_clamp c = Some cl -> box_dim (c_d c) b -> small_box 500 b -> small_clamp 500 cl ->
  box_strategy (c_d c) b (c_bh c) (e_bh e) -> (c_bh c = "periodic" -> forall j l u, column b j l u -> flt l u = true) ->
  small_coefficients 500 c e iters -> unit_velocity_draws e ->
  is_matrix (c_n c) (c_d c) (s_position (o_swarm o)) -> all_inside b (s_position (o_swarm o)) ->
  is_matrix (c_n c) (c_d c) (s_velocity (o_swarm o)) -> all_in_clamp cl (s_velocity (o_swarm o)) ->
  clamp_dim (c_d c) cl -> pool <> Some 0 ->
  optimize c e pool iters o = (o', r) ->
  Forall all_finite (o_pos_history o') /\ Forall all_finite (o_velocity_history o') /\
  Forall (all_inside b) (o_pos_history o') /\ Forall (all_in_clamp cl) (o_velocity_history o') /\
  forall cost pos, r = Ok (cost, pos) -> row_inside_box b pos.
Proof. exact clamped_finite. Qed.
Print Assumptions C59_box.
Example C59_example_box : forall st, In st ["nearest"; "reflective"; "periodic"; "random"; "intermediate"] -> exists c e o o' v b cl, Fresh c o /\ c_kind c <> Binary /\ c_vh c = "unmodified" /\ NoDup (dkeys (c_options c)) /\
  c_bounds c = Some b /\ c_clamp c = Some cl /\ box_dim (c_d c) b /\ small_box 500 b /\ small_clamp 500 cl /\
  c_bh c = st /\ box_strategy (c_d c) b (c_bh c) (e_bh e) /\ (c_bh c = "periodic" -> forall j l u, column b j l u -> flt l u = true) /\
  small_coefficients 500 c e 4 /\ unit_velocity_draws e /\
  is_matrix (c_n c) (c_d c) (s_position (o_swarm o)) /\ all_inside b (s_position (o_swarm o)) /\
  is_matrix (c_n c) (c_d c) (s_velocity (o_swarm o)) /\ all_in_clamp cl (s_velocity (o_swarm o)) /\
  clamp_dim (c_d c) cl /\ optimize c e None 4 o = (o', Ok v).
Proof. exact clamped_example. Qed.
(** Without bounds the positions grow by at most one clamp interval per iteration. *)
Theorem C59_free : forall c e pool iters o o' r cl m k, Fresh c o -> c_kind c <> Binary -> c_vh c = "unmodified" -> NoDup (dkeys (c_options c)) ->
  c_bounds c = None -> c_clamp c = Some cl -> clamp_dim (c_d c) cl -> small_clamp m cl -> (-1074 <= m <= 400)%Z ->
  small_coefficients 500 c e iters -> unit_velocity_draws e -> (0 <= k)%Z -> (k + Z.of_nat iters <= 2 ^ 53)%Z ->
  is_matrix (c_n c) (c_d c) (s_position (o_swarm o)) -> at_most k m (s_position (o_swarm o)) ->
  is_matrix (c_n c) (c_d c) (s_velocity (o_swarm o)) -> all_in_clamp cl (s_velocity (o_swarm o)) -> pool <> Some 0 ->
  optimize c e pool iters o = (o', r) ->
  (forall t X, nth_error (o_pos_history o') t = Some X -> at_most (k + Z.of_nat t) m X) /\
  Forall all_finite (o_velocity_history o') /\ Forall (all_in_clamp cl) (o_velocity_history o') /\
  forall cost pos, r = Ok (cost, pos) -> at_most (k + Z.of_nat iters) m [pos].
Proof. exact free_finite. Qed.
Print Assumptions C59_free.
Example C59_example_free : exists c e o o' v cl, Fresh c o /\ c_kind c <> Binary /\ c_vh c = "unmodified" /\ NoDup (dkeys (c_options c)) /\
  c_bounds c = None /\ c_clamp c = Some cl /\ clamp_dim (c_d c) cl /\ small_clamp 3 cl /\
  small_coefficients 500 c e 8 /\ unit_velocity_draws e /\
  is_matrix (c_n c) (c_d c) (s_position (o_swarm o)) /\ at_most 1 3 (s_position (o_swarm o)) /\
  is_matrix (c_n c) (c_d c) (s_velocity (o_swarm o)) /\ all_in_clamp cl (s_velocity (o_swarm o)) /\
  optimize c e None 8 o = (o', Ok v) /\ u_moved o' = true.
Proof. exact free_example. Qed.
(** Without a clamp and bounds this fails: finite coefficients can still produce a NaN position. *)
Theorem C59_unclamped_refuted : exists c e o o' v X i j x, Fresh c o /\ c_kind c = GlobalBest /\ c_vh c = "unmodified" /\ c_bounds c = None /\ c_clamp c = None /\
  (forall t key w, In key ["w"; "c1"; "c2"] -> coefficient c e 6 t key w -> ffinite w = true) /\ unit_velocity_draws e /\
  optimize c e None 6 o = (o', Ok v) /\ In X (o_pos_history o') /\ entry X i j = Some x /\ fisnan x = true.
Proof. exact nan_example. Qed.
Print Assumptions C59_unclamped_refuted.

(** *** C60: without a clamp, velocities below [V] stay below [V] if [W V + C1 D + C2 D <= V] *)
Theorem C60_speed : forall c e pool iters o o' r b W C1 C2 D V, Fresh c o -> c_kind c <> Binary -> c_vh c = "unmodified" -> NoDup (dkeys (c_options c)) ->
  c_bounds c = Some b -> c_clamp c = None -> box_dim (c_d c) b -> small_box 1020 b ->
  box_strategy (c_d c) b (c_bh c) (e_bh e) -> (c_bh c = "periodic" -> forall j l u, column b j l u -> flt l u = true) ->
  unit_velocity_draws e -> ffinite W = true -> ffinite C1 = true -> ffinite C2 = true -> ffinite D = true -> within 1020 V ->
  coefficients_below c e iters W C1 C2 -> (forall j l u, column b j l u -> fle (fsub u l) D = true) ->
  fle (fadd (fadd (fmul W V) (fmul C1 D)) (fmul C2 D)) V = true ->
  is_matrix (c_n c) (c_d c) (s_position (o_swarm o)) -> all_inside b (s_position (o_swarm o)) -> speed_below V (s_velocity (o_swarm o)) -> pool <> Some 0 ->
  optimize c e pool iters o = (o', r) ->
  Forall (speed_below V) (o_velocity_history o') /\ Forall all_finite (o_pos_history o') /\ Forall (all_inside b) (o_pos_history o') /\
  forall cost pos, r = Ok (cost, pos) -> row_inside_box b pos.
Proof. exact unclamped_bounded. Qed.
Print Assumptions C60_speed.
Example C60_example : forall st, In st ["nearest"; "reflective"; "periodic"; "random"; "intermediate"] -> exists c e o o' v b W C1 C2 D V, Fresh c o /\ c_kind c <> Binary /\ c_vh c = "unmodified" /\ NoDup (dkeys (c_options c)) /\
  c_bounds c = Some b /\ c_clamp c = None /\ box_dim (c_d c) b /\ small_box 1020 b /\
  c_bh c = st /\ box_strategy (c_d c) b (c_bh c) (e_bh e) /\ (c_bh c = "periodic" -> forall j l u, column b j l u -> flt l u = true) /\
  unit_velocity_draws e /\ ffinite W = true /\ ffinite C1 = true /\ ffinite C2 = true /\ ffinite D = true /\ within 1020 V /\
  coefficients_below c e 4 W C1 C2 /\ (forall j l u, column b j l u -> fle (fsub u l) D = true) /\
  fle (fadd (fadd (fmul W V) (fmul C1 D)) (fmul C2 D)) V = true /\ flt fzero W = true /\ flt fzero C1 = true /\ flt fzero C2 = true /\
  is_matrix (c_n c) (c_d c) (s_position (o_swarm o)) /\ all_inside b (s_position (o_swarm o)) /\ speed_below V (s_velocity (o_swarm o)) /\
  optimize c e None 4 o = (o', Ok v).
Proof. exact unclamped_example. Qed.

(** *** C61: rounding keeps the recorded motion close to the exact equations *)
Theorem C61_step : forall w c1 c2 r1 r2 x v p g : f64,
  let v1 := velocity_el (N := F64num) c1 c2 w r1 r2 x v p g in
  ffinite v1 = true -> (Rabs (FR v1 - exact_velocity w c1 c2 r1 r2 x v p g) <= rounding_slack w c1 c2 r1 r2 x v p g)%R.
Proof. exact operator_accuracy. Qed.
Print Assumptions C61_step.
Theorem C61_star : forall c e pool iters o o' r, Fresh c o -> t_kind (o_top o) = Star -> c_kind c <> Binary -> c_vh c = "unmodified" ->
  NoDup (dkeys (c_options c)) -> pool <> Some 0 -> optimize c e pool iters o = (o', r) ->
  exists C, logged e pool (o_pos_history o') C /\ length (o_velocity_history o') = length (o_pos_history o') /\
    (forall X V, nth_error (o_pos_history o') 0 = Some X -> nth_error (o_velocity_history o') 0 = Some V ->
       X = s_position (o_swarm o) /\ V = s_velocity (o_swarm o)) /\
    forall t X V X' V' i j x v, nth_error (o_pos_history o') t = Some X -> nth_error (o_velocity_history o') t = Some V ->
      nth_error (o_pos_history o') (S t) = Some X' -> nth_error (o_velocity_history o') (S t) = Some V' ->
      entry X i j = Some x -> entry V i j = Some v ->
      exists w c1 c2 r1 r2 x0 px py p gx gy g v1 x1,
        coefficient c e iters t "w" w /\ coefficient c e iters t "c1" c1 /\ coefficient c e iters t "c2" c2 /\
        entry (vd_u1 (e_vel e t)) i j = Some r1 /\ entry (vd_u2 (e_vel e t)) i j = Some r2 /\
        nth_error (s_position (o_swarm o)) i = Some x0 /\
        best_of_run (so_far t (o_pos_history o')) (so_far t C) i x0 px py /\ nth_error px j = Some p /\
        swarm_best (so_far t (o_pos_history o')) (so_far t C) gx gy /\ nth_error gx j = Some g /\
        entry V' i j = Some v1 /\ entry X' i j = Some x1 /\
        (ffinite v1 = true -> unclipped (c_clamp c) j v1 ->
           (Rabs (FR v1 - exact_velocity w c1 c2 r1 r2 x v p g) <= rounding_slack w c1 c2 r1 r2 x v p g)%R) /\
        (ffinite x1 = true -> c_bounds c = None -> (Rabs (FR x1 - (FR x + FR v1)) <= bpow radix2 (-53) * Rabs (FR x + FR v1))%R).
Proof. exact star_accuracy. Qed.
Print Assumptions C61_star.
Example C61_example_star : exists c e o o' v V i j v1, Fresh c o /\ t_kind (o_top o) = Star /\ c_kind c <> Binary /\ c_vh c = "unmodified" /\ NoDup (dkeys (c_options c)) /\
  c_bounds c = None /\ optimize c e None 8 o = (o', Ok v) /\ nth_error (o_velocity_history o') 1 = Some V /\ entry V i j = Some v1 /\
  ffinite v1 = true /\ c_clamp c <> None /\ unclipped (c_clamp c) j v1.
Proof. exact star_accuracy_example. Qed.
Theorem C61_neighbours : forall c e pool iters o o' r, Fresh c o -> t_kind (o_top o) <> Star ->
  ~ (t_kind (o_top o) = Ring /\ int_option c "k" 1) -> ~ (t_kind (o_top o) = VonNeumann /\ int_option c "r" 0) ->
  (t_kind (o_top o) = Pyramid -> s_d (o_swarm o) < s_n (o_swarm o)) -> (t_kind (o_top o) = VonNeumann -> 0 < s_d (o_swarm o)) ->
  c_kind c <> Binary -> c_vh c = "unmodified" -> NoDup (dkeys (c_options c)) -> pool <> Some 0 -> optimize c e pool iters o = (o', r) ->
  exists C, logged e pool (o_pos_history o') C /\ length (o_velocity_history o') = length (o_pos_history o') /\
    (forall X V, nth_error (o_pos_history o') 0 = Some X -> nth_error (o_velocity_history o') 0 = Some V ->
       X = s_position (o_swarm o) /\ V = s_velocity (o_swarm o)) /\
    forall t X V X' V' i j x v, nth_error (o_pos_history o') t = Some X -> nth_error (o_velocity_history o') t = Some V ->
      nth_error (o_pos_history o') (S t) = Some X' -> nth_error (o_velocity_history o') (S t) = Some V' ->
      entry X i j = Some x -> entry V i j = Some v ->
      exists w c1 c2 r1 r2 x0 px py p rows row gx gy g v1 x1,
        coefficient c e iters t "w" w /\ coefficient c e iters t "c1" c1 /\ coefficient c e iters t "c2" c2 /\
        entry (vd_u1 (e_vel e t)) i j = Some r1 /\ entry (vd_u2 (e_vel e t)) i j = Some r2 /\
        nth_error (s_position (o_swarm o)) i = Some x0 /\
        best_of_run (so_far t (o_pos_history o')) (so_far t C) i x0 px py /\ nth_error px j = Some p /\
        neighbour_lists c e o (o_pos_history o') t rows /\ nth_error rows i = Some row /\
        neighbour_best (so_far t (o_pos_history o')) (so_far t C) (s_position (o_swarm o)) row gx gy /\ nth_error gx j = Some g /\
        entry V' i j = Some v1 /\ entry X' i j = Some x1 /\
        (ffinite v1 = true -> unclipped (c_clamp c) j v1 ->
           (Rabs (FR v1 - exact_velocity w c1 c2 r1 r2 x v p g) <= rounding_slack w c1 c2 r1 r2 x v p g)%R) /\
        (ffinite x1 = true -> c_bounds c = None -> (Rabs (FR x1 - (FR x + FR v1)) <= bpow radix2 (-53) * Rabs (FR x + FR v1))%R).
Proof. exact neighbour_accuracy. Qed.
Print Assumptions C61_neighbours.
Example C61_example_ring : exists c e o o' v V i j v1, Fresh c o /\ t_kind (o_top o) = Ring /\ int_option c "k" 2 /\ c_kind c <> Binary /\ c_vh c = "unmodified" /\
  NoDup (dkeys (c_options c)) /\ optimize c e None 4 o = (o', Ok v) /\ nth_error (o_velocity_history o') 3 = Some V /\ entry V i j = Some v1 /\
  ffinite v1 = true /\ c_clamp c <> None /\ unclipped (c_clamp c) j v1.
Proof. exact ring_accuracy_example. Qed.
