(** Properties of whole runs that concern positions and velocities, and of the swarm
    generators (C19, C21, C22, C23, C25, C26, C27). *)
From Coq Require Import String ZArith List Arith Bool Permutation.
From Verif Require Import Prelude F64 F64Facts Num Np Handlers Swarms Operators Generators Topology Optimizers
  Spec SpecHandlers ListFacts HandlerFacts BoxRun VelRun NoopRun GenFacts StartRun Demo ExamplesHandlers ExamplesMotion.
Import ListNotations.
Local Open Scope string_scope.
Local Open Scope list_scope.
Local Open Scope nat_scope.

(** *** C19: the swarm stays inside the bounds *)
Theorem C19_run_in_box : forall c e pool iters o o' r b n d, c_kind c <> Binary -> c_bounds c = Some b -> box_dim d b -> finite_box b ->
  box_strategy d b (c_bh c) (e_bh e) ->
  is_matrix n d (s_position (o_swarm o)) -> none_outside b (s_position (o_swarm o)) ->
  optimize c e pool iters o = (o', r) ->
  exists hp, o_pos_history o' = o_pos_history o ++ hp /\ Forall (fun p => is_matrix n d p /\ none_outside b p) hp /\
    is_matrix n d (s_position (o_swarm o')) /\ none_outside b (s_position (o_swarm o')).
Proof. exact box_run. Qed.
Print Assumptions C19_run_in_box.
Theorem C19_first_run_in_box : forall c top dr e pool iters o o' r b, c_kind c <> Binary -> c_bounds c = Some b -> box_dim (c_d c) b -> finite_box b ->
  box_strategy (c_d c) b (c_bh c) (e_bh e) ->
  (c_init c = None -> c_center c = repeat fone (c_d c) /\ unit_matrix (c_n c) (c_d c) (cd_pos dr)) ->
  (forall p, c_init c = Some p -> is_matrix (c_n c) (c_d c) p) ->
  construct c top dr = Ok o -> optimize c e pool iters o = (o', r) ->
  Forall (fun p => is_matrix (c_n c) (c_d c) p /\ none_outside b p) (o_pos_history o') /\
  is_matrix (c_n c) (c_d c) (s_position (o_swarm o')) /\ none_outside b (s_position (o_swarm o')) /\
  forall cost pos, r = Ok (cost, pos) -> length pos = c_d c /\ row_not_outside b pos.
Proof. exact first_run_box. Qed.
Print Assumptions C19_first_run_in_box.
(** All five strategies have a run that meets the hypotheses. *)
Example C19_example : forall st, In st ["nearest"; "reflective"; "periodic"; "random"; "intermediate"] ->
  exists c top dr e o o' v, c_bh c = st /\ c_kind c = GlobalBest /\ c_bounds c = Some d_bounds /\ box_dim (c_d c) d_bounds /\ finite_box d_bounds /\
    box_strategy (c_d c) d_bounds (c_bh c) (e_bh e) /\
    (c_init c = None -> c_center c = repeat fone (c_d c) /\ unit_matrix (c_n c) (c_d c) (cd_pos dr)) /\
    (forall p, c_init c = Some p -> is_matrix (c_n c) (c_d c) p) /\
    construct c top dr = Ok o /\ optimize c e None 4 o = (o', Ok v).
Proof. exact box_example. Qed.
(** In the run with [nearest] a particle is put on the bound. *)
Example C19_example_active : d_test false (d_run (m_c "nearest" "unmodified" None) star m_cd m_e None 4)
  (fun o' _ _ => some_pos (fun x => feq x (F 5)) o') = true.
Proof. exact box_run_active. Qed.

(** *** C21: velocities stay inside the clamp *)
Theorem C21_run_in_clamp : forall c e pool iters o o' r cl, c_clamp c = Some cl ->
  (forall j a b, clamp_column cl j a b -> fle a b = true) ->
  c_vh c = "unmodified" \/ c_vh c = "invert" \/ c_vh c = "adjust" ->
  within_clamp cl (s_velocity (o_swarm o)) -> optimize c e pool iters o = (o', r) ->
  exists hv, o_velocity_history o' = o_velocity_history o ++ hv /\ Forall (within_clamp cl) hv /\
    (forall x, r = Ok x -> within_clamp cl (s_velocity (o_swarm o'))).
Proof. exact clamp_run. Qed.
Print Assumptions C21_run_in_clamp.
Theorem C21_first_run_in_clamp : forall c top dr e pool iters o o' r cl, c_kind c <> Binary -> c_clamp c = Some cl ->
  unit_matrix (c_n c) (c_d c) (cd_vel dr) ->
  (forall j a b, clamp_column cl j a b -> ffinite a = true /\ ffinite b = true /\ fle a b = true /\ ffinite (fsub b a) = true) ->
  c_vh c = "unmodified" \/ c_vh c = "invert" \/ c_vh c = "adjust" ->
  construct c top dr = Ok o -> optimize c e pool iters o = (o', r) ->
  Forall (within_clamp cl) (o_velocity_history o') /\
  (forall x, r = Ok x -> within_clamp cl (s_velocity (o_swarm o'))).
Proof. exact first_run_clamp. Qed.
Print Assumptions C21_first_run_in_clamp.
Theorem C21_zero_leaves_clamp_refuted : exists c top dr e o o' v cl, c_kind c = GlobalBest /\ c_vh c = "zero" /\ c_clamp c = Some cl /\
    (forall j a b, clamp_column cl j a b -> ffinite a = true /\ ffinite b = true /\ fle a b = true /\ ffinite (fsub b a) = true) /\
    unit_matrix (c_n c) (c_d c) (cd_vel dr) /\
    construct c top dr = Ok o /\ optimize c e None 4 o = (o', Ok v) /\ ~ Forall (within_clamp cl) (o_velocity_history o').
Proof. exact zero_leaves_clamp. Qed.
Print Assumptions C21_zero_leaves_clamp_refuted.
Example C21_example : exists o o' v, construct (m_c "nearest" "unmodified" (Some m_clamp)) star m_cd = Ok o /\
  unit_matrix 3 2 (cd_vel m_cd) /\ (forall j a b, clamp_column m_clamp j a b ->
    ffinite a = true /\ ffinite b = true /\ fle a b = true /\ ffinite (fsub b a) = true) /\
  optimize (m_c "nearest" "unmodified" (Some m_clamp)) m_e None 4 o = (o', Ok v) /\
  some_vel (fun x => feq x (fdec 1 4)) o' = true.
Proof. exact clamp_example. Qed.

(** *** C22: on a swarm that stays in the box, [invert] is [unmodified], and [zero] is
    [unmodified] without a clamp *)
Theorem C22_noop_run : forall c e pool iters o b n d, c_kind c <> Binary -> c_bounds c = Some b -> box_dim d b -> finite_box b ->
  box_strategy d b (c_bh c) (e_bh e) ->
  is_matrix n d (s_position (o_swarm o)) -> none_outside b (s_position (o_swarm o)) ->
  (c_vh c = "invert" -> optimize c e pool iters o = optimize (with_vh c "unmodified" (c_clamp c)) e pool iters o) /\
  (c_vh c = "zero" -> optimize c e pool iters o = optimize (with_vh c "unmodified" None) e pool iters o).
Proof. exact noop_run. Qed.
Print Assumptions C22_noop_run.
Example C22_run_example : exists o v, construct (m_c "nearest" "invert" (Some m_clamp)) star m_cd = Ok o /\
  none_outside d_bounds (s_position (o_swarm o)) /\ is_matrix 3 2 (s_position (o_swarm o)) /\
  snd (optimize (m_c "nearest" "invert" (Some m_clamp)) m_e None 4 o) = Ok v.
Proof. exact noop_example. Qed.

(** *** C23: [adjust] freezes the swarm *)
Theorem C23_adjust_freezes : forall c e pool iters o o' r n d, c_kind c <> Binary -> c_vh c = "adjust" ->
  (forall cl, c_clamp c = Some cl -> forall j a b, clamp_column cl j a b -> fle a fzero = true /\ fle fzero b = true) ->
  (forall b, c_bounds c = Some b -> box_dim d b /\ none_outside b (s_position (o_swarm o))) ->
  is_matrix n d (s_position (o_swarm o)) ->
  (forall i j x, entry (s_position (o_swarm o)) i j = Some x -> ffinite x = true) ->
  optimize c e pool iters o = (o', r) ->
  exists hp, o_pos_history o' = o_pos_history o ++ hp /\
    Forall (fun p => same_points p (s_position (o_swarm o))) hp /\ same_points (s_position (o_swarm o')) (s_position (o_swarm o)).
Proof. exact frozen_run. Qed.
Print Assumptions C23_adjust_freezes.
Example C23_example : exists o o' v, construct (m_c "nearest" "adjust" (Some m_clamp)) star m_cd = Ok o /\
  (forall j a b, clamp_column m_clamp j a b -> fle a fzero = true /\ fle fzero b = true) /\
  box_dim 2 d_bounds /\ none_outside d_bounds (s_position (o_swarm o)) /\ is_matrix 3 2 (s_position (o_swarm o)) /\
  (forall i j x, entry (s_position (o_swarm o)) i j = Some x -> ffinite x = true) /\
  optimize (m_c "nearest" "adjust" (Some m_clamp)) m_e None 4 o = (o', Ok v) /\ length (o_pos_history o') = 4.
Proof. exact frozen_example. Qed.

(** *** C25: initial positions *)
Theorem C25_bounded : forall n d (b : bounds F64num) u, box_dim d b -> finite_box b ->
  (forall j l h, column b j l h -> ffinite (fsub h l) = true) -> unit_matrix n d u ->
  exists m, generate_swarm n d (Some b) (repeat fone d) None u = Ok m /\ is_matrix n d m /\ all_inside b m.
Proof. exact generate_bounded. Qed.
Print Assumptions C25_bounded.
Theorem C25_overflow : forall n d (b : bounds F64num) center u j l h, box_dim d b -> length center = d -> column b j l h ->
  ffinite (fsub h l) = false -> generate_swarm n d (Some b) center None u = Err OverflowError.
Proof. exact generate_overflow. Qed.
Print Assumptions C25_overflow.
Theorem C25_unbounded : forall n d center u, length center = d -> unit_matrix n d u ->
  exists m, generate_swarm n d None center None u = Ok m /\ is_matrix n d m /\
    forall i j x c, entry m i j = Some x -> nth_error center j = Some c ->
      exists w, x = fmul c w /\ fle fzero w = true /\ flt w fone = true.
Proof. exact generate_unbounded. Qed.
Print Assumptions C25_unbounded.
Theorem C25_init_pos : forall n d (b : bounds F64num) center p u, box_dim d b -> is_matrix n d p ->
  (all_inside b p -> generate_swarm n d (Some b) center (Some p) u = Ok p) /\
  (~ all_inside b p -> generate_swarm n d (Some b) center (Some p) u = Err ValueError) /\
  generate_swarm n d None center (Some p) u = Ok p.
Proof. exact generate_init. Qed.
Print Assumptions C25_init_pos.
Theorem C25_start : forall c dr s b, c_kind c <> Binary -> c_bounds c = Some b -> box_dim (c_d c) b -> finite_box b ->
  (c_init c = None -> c_center c = repeat fone (c_d c) /\ unit_matrix (c_n c) (c_d c) (cd_pos dr)) ->
  (forall p, c_init c = Some p -> is_matrix (c_n c) (c_d c) p) ->
  make_swarm c dr = Ok s ->
  is_matrix (c_n c) (c_d c) (s_position s) /\ all_inside b (s_position s).
Proof. exact start_box. Qed.
Print Assumptions C25_start.
Theorem C25_center_refuted : exists n d (b : bounds F64num) center u m, box_dim d b /\ finite_box b /\ unit_matrix n d u /\ length center = d /\
    generate_swarm n d (Some b) center None u = Ok m /\ ~ all_inside b m.
Proof. exact center_leaves_box. Qed.
Print Assumptions C25_center_refuted.
Example C25_example : box_dim 2 d_bounds /\ finite_box d_bounds /\ unit_matrix 3 2 (cd_pos m_cd) /\
  (forall j l h, column d_bounds j l h -> ffinite (fsub h l) = true).
Proof. split; [exact h_box_dim|]. split; [exact h_finite_box|]. split; [exact (proj1 m_unit)|exact h_width]. Qed.
Example C25_example_overflow : exists (b : bounds F64num) l h, box_dim 1 b /\ column b 0 l h /\ ffinite l = true /\ ffinite h = true /\
  ffinite (fsub h l) = false.
Proof.
  exists (mkBounds (N := F64num) [fofZe (-1) 1023] [fofZe 1 1023] true), (fofZe (-1) 1023), (fofZe 1 1023).
  split; [split; reflexivity|]. split; [split; reflexivity|]. repeat split; vm_compute; reflexivity.
Qed.

(** *** C26: initial velocities *)
Theorem C26_clamped : forall n d (c : clamp_t F64num) u, length (fst c) = d -> length (snd c) = d -> unit_matrix n d u ->
  (forall j a b, clamp_column c j a b -> ffinite a = true /\ ffinite b = true /\ fle a b = true /\ ffinite (fsub b a) = true) ->
  exists m, generate_velocity d (Some c) u = Ok m /\ is_matrix n d m /\ all_in_clamp c m.
Proof. exact generate_velocity_clamped. Qed.
Print Assumptions C26_clamped.
Theorem C26_unclamped : forall n d u, unit_matrix n d u ->
  exists m, generate_velocity d None u = Ok m /\ is_matrix n d m /\
    forall i j x, entry m i j = Some x -> fle fzero x = true /\ flt x fone = true.
Proof. exact generate_velocity_free. Qed.
Print Assumptions C26_unclamped.
Theorem C26_start : forall c dr s cl, c_kind c <> Binary -> c_clamp c = Some cl -> unit_matrix (c_n c) (c_d c) (cd_vel dr) ->
  (forall j a b, clamp_column cl j a b -> ffinite a = true /\ ffinite b = true /\ fle a b = true /\ ffinite (fsub b a) = true) ->
  make_swarm c dr = Ok s ->
  is_matrix (c_n c) (c_d c) (s_velocity s) /\ all_in_clamp cl (s_velocity s).
Proof. exact start_clamp. Qed.
Print Assumptions C26_start.
Example C26_example : length (fst m_clamp) = 2 /\ length (snd m_clamp) = 2 /\ unit_matrix 3 2 (cd_vel m_cd) /\
  (forall j a b, clamp_column m_clamp j a b -> ffinite a = true /\ ffinite b = true /\ fle a b = true /\ ffinite (fsub b a) = true).
Proof. split; [reflexivity|]. split; [reflexivity|]. split; [exact (proj2 m_unit)|exact m_clamp_good]. Qed.

(** *** C27: discrete swarms *)
Theorem C27_binary : forall n d bits u, is_matrix n d bits ->
  exists m, generate_discrete_swarm true None bits u = Ok m /\ is_matrix n d m /\ bits01 m.
Proof. exact discrete_binary. Qed.
Print Assumptions C27_binary.
Theorem C27_permutations : forall n d bits (u : fmatrix), is_matrix n d u ->
  exists m, generate_discrete_swarm false None bits u = Ok m /\ is_matrix n d m /\
    forall i r, nth_error m i = Some r -> exists ui p, nth_error u i = Some ui /\ Permutation p (seq 0 d) /\ r = map (fun i => fofZ (Z.of_nat i)) p /\
      (no_nan ui -> forall a b j k x y, a < b -> nth_error p a = Some j -> nth_error p b = Some k ->
         nth_error ui j = Some x -> nth_error ui k = Some y -> flt y x = false).
Proof. exact discrete_permutation. Qed.
Print Assumptions C27_permutations.
Theorem C27_init_pos : forall bits u (p : fmatrix), (forall i j x, entry p i j = Some x -> fisnan x = false) ->
  (two_valued p -> generate_discrete_swarm true (Some p) bits u = Ok p) /\
  (~ two_valued p -> generate_discrete_swarm true (Some p) bits u = Err ValueError) /\
  generate_discrete_swarm false (Some p) bits u = Ok p.
Proof. exact discrete_init. Qed.
Print Assumptions C27_init_pos.
Example C27_example :
  two_valued [[F 3; F 7]; [F 7; F 7]] /\ generate_discrete_swarm true (Some [[F 3; F 7]; [F 7; F 7]]) [] [] = Ok [[F 3; F 7]; [F 7; F 7]] /\
  ~ two_valued [[F 3; F 7]; [F 7; F 9]] /\ generate_discrete_swarm true (Some [[F 3; F 7]; [F 7; F 9]]) [] [] = Err ValueError.
Proof. exact binary_init_examples. Qed.
Example C27_example_permutation : match generate_discrete_swarm false None [] (d_mat 3 2 4) with
  | Ok m => feqm m [[F 0; F 1; F 2; F 3]; [F 2; F 3; F 0; F 1]] | _ => false end = true.
Proof. exact perm_example. Qed.
