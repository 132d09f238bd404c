(** Further properties of whole runs: recorded means (C51), BinaryPSO's equations of motion (C62),
    collapsed dimensions (C63), what a run depends on (C64), accepted arguments (C65). *)
From Coq Require Import String ZArith List Arith Bool Reals.
From Flocq Require Import Core IEEE754.BinarySingleNaN.
From Verif Require Import Prelude F64 F64Facts Num Np Handlers Swarms Operators Generators Topology Optimizers
  Spec SpecHandlers SpecDyn SpecTame SpecRun BinaryMotion Collapse Locality Mean Accept Demo ExamplesDyn ExamplesRun.
Import ListNotations.
Local Open Scope string_scope.
Local Open Scope list_scope.
Local Open Scope nat_scope.

(** *** C51: recorded means *)
(** Entry [t] is the mean of the particles' least costs up to iteration [t], up to the rounding of [n] additions and one division. *)
Theorem C51_mean_value : forall c e pool iters o o' r, Fresh c o -> pool <> Some 0 -> optimize c e pool iters o = (o', r) ->
  exists C, logged e pool (o_pos_history o') C /\ length (o_mean_pbest_history o') = length (o_pos_history o') /\
    forall t m, nth_error (o_mean_pbest_history o') t = Some m ->
      exists ys, length ys = length (s_position (o_swarm o)) /\
        (forall i y, nth_error ys i = Some y -> exists x0 px, nth_error (s_position (o_swarm o)) i = Some x0 /\
           best_of_run (so_far t (o_pos_history o')) (so_far t C) i x0 px y) /\
        (proper_sum (e_tree e (length ys)) (length ys) -> (Z.of_nat (length ys) <= 2 ^ 53)%Z -> ffinite m = true ->
         Rabs (FR m - exact_mean ys) <= ((1 + bpow radix2 (-53)) ^ length ys - 1) * mean_magnitude ys + bpow radix2 (-1075))%R.
Proof. exact mean_value. Qed.
Print Assumptions C51_mean_value.
Example C51_example_mean : exists c e o o' v, Fresh c o /\ optimize c e None 4 o = (o', Ok v) /\ length (s_position (o_swarm o)) = 3 /\ proper_sum (e_tree e 3) 3 /\
  length (o_mean_pbest_history o') = 4 /\ forall t m, nth_error (o_mean_pbest_history o') t = Some m -> ffinite m = true.
Proof. exact mean_demo. Qed.

(** *** C62: BinaryPSO *)
Theorem C62_binary : forall c e pool iters o o' r, Fresh c o -> t_kind (o_top o) = Ring -> ~ int_option c "k" 1 ->
  c_kind c = Binary -> c_vh c = "unmodified" -> pool <> Some 0 -> optimize c e pool iters o = (o', r) ->
  exists C, logged e pool (o_pos_history o') C /\ length (o_velocity_history o') = length (o_pos_history o') /\
    (forall X V, nth_error (o_pos_history o') 0 = Some X -> nth_error (o_velocity_history o') 0 = Some V ->
       X = s_position (o_swarm o) /\ V = s_velocity (o_swarm o)) /\
    forall t X V X' V' i j x v, nth_error (o_pos_history o') t = Some X -> nth_error (o_velocity_history o') t = Some V ->
      nth_error (o_pos_history o') (S t) = Some X' -> nth_error (o_velocity_history o') (S t) = Some V' ->
      entry X i j = Some x -> entry V i j = Some v ->
      exists w c1 c2 r1 r2 x0 px py p rows row gx gy g v1 u,
        dget (c_options c) "w" = Some w /\ dget (c_options c) "c1" = Some c1 /\ dget (c_options c) "c2" = Some c2 /\
        entry (vd_u1 (e_vel e t)) i j = Some r1 /\ entry (vd_u2 (e_vel e t)) i j = Some r2 /\ nth_error (e_bits e t) j = Some u /\
        nth_error (s_position (o_swarm o)) i = Some x0 /\
        best_of_run (so_far t (o_pos_history o')) (so_far t C) i x0 px py /\ nth_error px j = Some p /\
        neighbour_lists c e o (o_pos_history o') t rows /\ nth_error rows i = Some row /\
        neighbour_best (so_far t (o_pos_history o')) (so_far t C) (s_position (o_swarm o)) row gx gy /\ nth_error gx j = Some g /\
        entry V' i j = Some v1 /\
        clamped (c_clamp c) j (fadd (fadd (fmul (pnum w) v) (fmul (fmul (pnum c1) r1) (fsub p x))) (fmul (fmul (pnum c2) r2) (fsub g x))) v1 /\
        entry X' i j = Some (if flt u (fdiv fone (fadd fone (e_exp e (fopp v1)))) then fone else fzero).
Proof. exact binary_equations. Qed.
Print Assumptions C62_binary.
Example C62_example : exists c e o o' v X X', Fresh c o /\ t_kind (o_top o) = Ring /\ ~ int_option c "k" 1 /\ c_kind c = Binary /\ c_vh c = "unmodified" /\
  optimize c e None 4 o = (o', Ok v) /\ nth_error (o_pos_history o') 2 = Some X /\ nth_error (o_pos_history o') 3 = Some X' /\ moved X X' = true.
Proof. exact binary_demo. Qed.

(** *** C63: a dimension in which the swarm has collapsed *)
Theorem C63_collapsed : forall c e pool iters o o' r j x0, c_kind c <> Binary -> c_vh c = "unmodified" -> NoDup (dkeys (c_options c)) ->
  ffinite x0 = true -> unit_velocity_draws e -> finite_coefficients c e iters -> holds_zero (c_clamp c) j -> keeps c j x0 ->
  column_all (s_position (o_swarm o)) j x0 -> column_all (s_pbest_pos (o_swarm o)) j x0 -> best_column (s_best_pos (o_swarm o)) j x0 ->
  column_all (s_velocity (o_swarm o)) j fzero -> pool <> Some 0 -> optimize c e pool iters o = (o', r) ->
  exists hp hv, o_pos_history o' = o_pos_history o ++ hp /\ o_velocity_history o' = o_velocity_history o ++ hv /\
    Forall (fun X => column_all X j x0) hp /\ Forall (fun V => column_all V j fzero) hv /\
    column_all (s_position (o_swarm o')) j x0 /\
    forall cost pos y, r = Ok (cost, pos) -> nth_error pos j = Some y -> feq y x0 = true.
Proof. exact collapsed. Qed.
Print Assumptions C63_collapsed.
Example C63_example : exists c e o o' v x0 X X', Fresh c o /\ c_kind c <> Binary /\ c_vh c = "unmodified" /\ NoDup (dkeys (c_options c)) /\
  ffinite x0 = true /\ unit_velocity_draws e /\ finite_coefficients c e 4 /\ holds_zero (c_clamp c) 0 /\ keeps c 0 x0 /\
  column_all (s_position (o_swarm o)) 0 x0 /\ column_all (s_pbest_pos (o_swarm o)) 0 x0 /\ best_column (s_best_pos (o_swarm o)) 0 x0 /\
  column_all (s_velocity (o_swarm o)) 0 fzero /\ optimize c e None 4 o = (o', Ok v) /\
  nth_error (o_pos_history o') 2 = Some X /\ nth_error (o_pos_history o') 3 = Some X' /\ moved X X' = true.
Proof. exact collapsed_demo. Qed.

(** *** C64: what a run depends on *)
Theorem C64_locality : forall c e e' pool iters o o' r, optimize c e pool iters o = (o', r) -> (forall x, e_exp e x = e_exp e' x) -> (forall m, e_tree e m = e_tree e' m) ->
  exists hp, o_pos_history o' = o_pos_history o ++ hp /\
    ((forall t X, nth_error hp t = Some X -> same_iteration e e' pool t X) ->
     (forall x, r = Err x -> same_iteration e e' pool (length hp) (s_position (o_swarm o'))) ->
     optimize c e' pool iters o = (o', r)).
Proof. exact locality. Qed.
Print Assumptions C64_locality.
Example C64_example : exists c e e' o o' v, Fresh c o /\ optimize c e None 4 o = (o', Ok v) /\ e_obj e 4 [] <> e_obj e' 4 [] /\ e_obj e 0 [] <> e_obj e' 0 [] /\
  e_vel e 4 <> e_vel e' 4 /\ (forall x, e_exp e x = e_exp e' x) /\ (forall m, e_tree e m = e_tree e' m) /\
  forall t X, nth_error (o_pos_history o') t = Some X -> same_iteration e e' None t X.
Proof. exact local_demo. Qed.

(** *** C65: which arguments the constructors accept *)
Theorem C65_accepted : forall c top dr, (c_kind c = Binary -> forall p i j x, c_init c = Some p -> entry p i j = Some x -> fisnan x = false) ->
  ((exists o, construct c top dr = Ok o) <-> accepts c).
Proof. exact accepted. Qed.
Print Assumptions C65_accepted.
Example C65_example : accepts (run_c LocalBest) /\ ~ accepts clamp_c /\ forall k p i j x, c_init (run_c k) = Some p -> entry p i j = Some x -> fisnan x = false.
Proof. exact accept_demo. Qed.
