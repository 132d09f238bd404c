(** Properties of the boundary and velocity handlers and of the velocity equation
    (C12-C18, C20, C22, C24). *)
From Coq Require Import String ZArith List Arith Bool Reals Lra.
From Verif Require Import Prelude F64 F64Facts Num Np Handlers Swarms Operators SpecHandlers ListFacts
  HandlerFacts ShapeFacts BhClaims BhClaims2 VhFacts VhClaims VelFacts Demo ExamplesHandlers.
Import ListNotations.
Local Open Scope string_scope.
Local Open Scope list_scope.
Local Open Scope nat_scope.

(** *** C12: nearest *)
Theorem C12_nearest_projection : forall n d dr mem (b : bounds F64num) pos, is_matrix n d pos -> box_dim d b ->
  exists pos', bh_call "nearest" dr mem b pos = Ok (pos', mem) /\ is_matrix n d pos' /\
    forall i j x l u, entry pos i j = Some x -> column b j l u -> fle l u = true ->
      exists x', entry pos' i j = Some x' /\ projection l u x x'.
Proof. exact nearest_claim. Qed.
Print Assumptions C12_nearest_projection.
Theorem C12_nearest_idempotent : forall n d dr mem (b : bounds F64num) pos, is_matrix n d pos -> box_dim d b ->
  (forall j l u, column b j l u -> fle l u = true) ->
  exists pos', bh_call "nearest" dr mem b pos = Ok (pos', mem) /\ none_outside b pos' /\
    forall dr' mem', bh_call "nearest" dr' mem' b pos' = Ok (pos', mem').
Proof. exact nearest_idem. Qed.
Print Assumptions C12_nearest_idempotent.
Theorem C12_nearest_exact : forall n d dr mem (b : bounds Rnum) pos, is_matrix n d pos -> box_dim d b ->
  exists pos', bh_call "nearest" dr mem b pos = Ok (pos', mem) /\ is_matrix n d pos' /\
    forall i j x l u, entry pos i j = Some x -> column b j l u -> (l <= u)%R ->
      exists x', entry pos' i j = Some x' /\ (l <= x' <= u)%R /\
        forall y, (l <= y <= u)%R -> (Rabs (x' - x) <= Rabs (y - x))%R.
Proof. exact nearest_exact. Qed.
Print Assumptions C12_nearest_exact.
Example C12_example : is_matrix 3 2 h_pos /\ box_dim 2 d_bounds /\
  (forall j l u, column d_bounds j l u -> fle l u = true) /\
  gives (bh_call "nearest" h_draws None d_bounds h_pos) [[F 5; F 1]; [F 2; F (-5)]; [F 3; F 4]] = true.
Proof.
  split; [exact h_pos_matrix|]. split; [exact h_box_dim|]. split; [|vm_compute; reflexivity].
  intros j l u C. apply (h_finite_box j l u C).
Qed.

(** *** C13: periodic *)
Theorem C13_periodic_inside : forall n d dr mem (b : bounds F64num) pos, is_matrix n d pos -> box_dim d b ->
  exists pos', bh_call "periodic" dr mem b pos = Ok (pos', mem) /\ is_matrix n d pos' /\
    forall i j x l u, entry pos i j = Some x -> column b j l u -> ffinite l = true -> ffinite u = true ->
      exists x', entry pos' i j = Some x' /\
       (flt x l = false -> flt u x = false -> x' = x) /\
       (flt l u = true -> ffinite x = true -> ffinite (fsub u l) = true ->
        (flt x l = true -> ffinite (fsub l x) = true) -> (flt u x = true -> ffinite (fsub x u) = true) ->
        fle l x' = true /\ fle x' u = true) /\
       ((flt x l = true \/ flt u x = true) -> (feq l u = true \/ (ffinite x = false /\ fle l u = true)) -> fisnan x' = true).
Proof. exact periodic_claim. Qed.
Print Assumptions C13_periodic_inside.
Theorem C13_periodic_exact : forall n d dr mem (b : bounds Rnum) pos, is_matrix n d pos -> box_dim d b ->
  exists pos', bh_call "periodic" dr mem b pos = Ok (pos', mem) /\ is_matrix n d pos' /\
    forall i j x l u, entry pos i j = Some x -> column b j l u -> (l < u)%R ->
      exists x', entry pos' i j = Some x' /\ (l <= x' <= u)%R /\ exists k : Z, x' = (x + IZR k * (u - l))%R.
Proof. exact periodic_exact. Qed.
Print Assumptions C13_periodic_exact.
Example C13_example : is_matrix 3 2 h_pos /\ box_dim 2 d_bounds /\ finite_box d_bounds /\
  (forall j l u, column d_bounds j l u -> ffinite (fsub u l) = true) /\
  gives (bh_call "periodic" h_draws None d_bounds h_pos) [[F (-3); F 1]; [F 2; F 4]; [F 3; F 4]] = true.
Proof. repeat (split; [first [exact h_pos_matrix | exact h_box_dim | exact h_finite_box | exact h_width]|]). vm_compute. reflexivity. Qed.
(** Equal bounds turn an outside coordinate into NaN. *)
Example C13_example_nan : match bh_call (N := F64num) "periodic" h_draws None (mkBounds (N := F64num) [F 1] [F 1] true) [[F 2]] with
  | Ok ([[x]], _) => fisnan x | _ => false end = true.
Proof. vm_compute. reflexivity. Qed.

(** *** C14: reflective *)
Theorem C14_reflective_partial_correctness : forall dr mem (b : bounds F64num) pos pos' mem',
  bh_call "reflective" dr mem b pos = Ok (pos', mem') -> none_outside b pos' /\ mem' = mem.
Proof. exact reflective_claim. Qed.
Print Assumptions C14_reflective_partial_correctness.
Theorem C14_reflective_exact : forall n d mem (b : bounds Rnum) pos, is_matrix n d pos -> box_dim d b -> b_arr b = true ->
  (forall j l u, column b j l u -> (l < u)%R) ->
  exists passes pos', is_matrix n d pos' /\
   (forall ug ul fuel, passes <= fuel -> bh_call "reflective" (mkBhDraws ug ul fuel) mem b pos = Ok (pos', mem)) /\
   forall i j x l u, entry pos i j = Some x -> column b j l u ->
     exists x', entry pos' i j = Some x' /\ (l <= x' <= u)%R /\
       exists k : Z, x' = (x + IZR k * (2 * (u - l)))%R \/ x' = (2 * l - x + IZR k * (2 * (u - l)))%R.
Proof. exact reflective_exact. Qed.
Print Assumptions C14_reflective_exact.
Theorem C14_reflective_hangs_far : forall n d mem (b : bounds F64num) pos i j x l u, is_matrix n d pos -> box_dim d b -> b_arr b = true ->
  entry pos i j = Some x -> column b j l u -> ffinite x = true -> ffinite l = true -> ffinite u = true ->
  (2 ^ 56 * Rabs (FR l) < Rabs (FR x))%R -> (2 ^ 56 * Rabs (FR u) < Rabs (FR x))%R -> hangs mem b pos.
Proof. exact reflective_hangs_far. Qed.
Print Assumptions C14_reflective_hangs_far.
Theorem C14_reflective_hangs_infinite : forall n d mem (b : bounds F64num) pos i j x l u, is_matrix n d pos -> box_dim d b -> b_arr b = true ->
  entry pos i j = Some x -> column b j l u -> x = finf \/ x = fninf ->
  ffinite l = true -> ffinite u = true -> ffinite (fmul (fofZ 2) l) = true -> ffinite (fmul (fofZ 2) u) = true -> hangs mem b pos.
Proof. exact reflective_hangs_inf. Qed.
Print Assumptions C14_reflective_hangs_infinite.
Theorem C14_reflective_hangs_flat : forall n d mem (b : bounds Rnum) pos i j x l, is_matrix n d pos -> box_dim d b -> b_arr b = true ->
  entry pos i j = Some x -> column b j l l -> x <> l -> hangs mem b pos.
Proof. exact reflective_hangs_flat. Qed.
Print Assumptions C14_reflective_hangs_flat.
Example C14_example : gives (bh_call "reflective" h_draws None d_bounds h_pos) [[F 3; F 1]; [F 2; F (-4)]; [F 3; F 4]] = true.
Proof. vm_compute. reflexivity. Qed.
Example C14_example_exact : is_matrix 3 2 r_pos /\ box_dim 2 r_bounds /\ b_arr r_bounds = true /\
  (forall j l u, column r_bounds j l u -> (l < u)%R).
Proof. pose proof r_facts; intuition. Qed.
(** 1e30 in the unit interval: the loop never ends. *)
Example C14_example_hang : forall mem, hangs mem (mkBounds (N := F64num) [F 0] [F 1] true) [[f1e30]].
Proof. exact hang_1e30. Qed.
Example C14_example_hang_inf : forall mem, hangs mem (mkBounds (N := F64num) [F 0] [F 1] true) [[finf]].
Proof. exact hang_inf. Qed.
Example C14_example_hang_flat : forall mem, hangs mem (mkBounds (N := Rnum) [1%R] [1%R] true) [[2%R]].
Proof. exact hang_flat. Qed.

(** *** C15: random *)
Theorem C15_random_resamples : forall n d (dr : bh_draws F64num) (mem : option (matrix F64num)) (b : bounds F64num) (pos : matrix F64num), is_matrix n d pos -> box_dim d b -> finite_box b ->
  (forall j l u, column b j l u -> ffinite (fsub u l) = true) ->
  unit_draws d (bd_greater dr) -> unit_draws d (bd_lower dr) ->
  exists pos' low high, bh_call "random" dr mem b pos = Ok (pos', mem) /\ is_matrix n d pos' /\
    length low = d /\ length high = d /\ row_inside_box b low /\ row_inside_box b high /\
    forall i r, nth_error pos i = Some r -> exists r', nth_error pos' i = Some r' /\
      (~ below b r -> ~ above b r -> r' = r) /\ (below b r -> r' = low) /\ (~ below b r -> above b r -> r' = high).
Proof. exact random_claim. Qed.
Print Assumptions C15_random_resamples.
Example C15_example : is_matrix 3 2 h_pos /\ box_dim 2 d_bounds /\ finite_box d_bounds /\
  (forall j l u, column d_bounds j l u -> ffinite (fsub u l) = true) /\
  (unit_draws 2 (bd_greater h_draws) /\ unit_draws 2 (bd_lower h_draws)) /\
  gives (bh_call "random" h_draws None d_bounds h_pos) [[F 0; F 0]; [fdec (-5) 2; F 0]; [F 3; F 4]] = true.
Proof.
  repeat (split; [first [exact h_pos_matrix | exact h_box_dim | exact h_finite_box | exact h_width | exact h_unit]|]).
  vm_compute. reflexivity.
Qed.

(** *** C16: intermediate *)
Theorem C16_intermediate_inside : forall n d dr (b : bounds F64num) pos mem, is_matrix n d pos -> is_matrix n d mem -> box_dim d b -> b_arr b = true ->
  exists pos', bh_call "intermediate" dr (Some mem) b pos = Ok (pos', Some pos') /\ is_matrix n d pos' /\
    forall i j x m l u, entry pos i j = Some x -> entry mem i j = Some m -> column b j l u ->
      ffinite l = true -> ffinite u = true -> fle l m = true -> fle m u = true ->
      ffinite (fadd m l) = true -> ffinite (fadd m u) = true ->
      exists x', entry pos' i j = Some x' /\
        (flt x l = false -> flt u x = false -> x' = x) /\
        (flt x l = true -> fle l x' = true /\ fle x' m = true) /\
        (flt u x = true -> fle m x' = true /\ fle x' u = true).
Proof. exact intermediate_claim. Qed.
Print Assumptions C16_intermediate_inside.
Theorem C16_intermediate_exact : forall n d dr (b : bounds Rnum) pos mem, is_matrix n d pos -> is_matrix n d mem -> box_dim d b -> b_arr b = true ->
  exists pos', bh_call "intermediate" dr (Some mem) b pos = Ok (pos', Some pos') /\ is_matrix n d pos' /\
    forall i j x m l u, entry pos i j = Some x -> entry mem i j = Some m -> column b j l u -> (l <= u)%R ->
      exists x', entry pos' i j = Some x' /\
        ((l <= x <= u)%R -> x' = x) /\ ((x < l)%R -> x' = ((m + l) / 2)%R) /\ ((u < x)%R -> x' = ((m + u) / 2)%R).
Proof. exact intermediate_exact. Qed.
Print Assumptions C16_intermediate_exact.
Theorem C16_first_call : forall (N : Num) st n d dr (b : bounds N) pos, st = "shrink" \/ st = "intermediate" -> is_matrix n d pos ->
  box_dim d b -> bh_call st dr None b pos = Ok (pos, Some pos).
Proof. exact memory_first. Qed.
Print Assumptions C16_first_call.
Example C16_example : is_matrix 3 2 h_pos /\ is_matrix 3 2 h_mem /\ box_dim 2 d_bounds /\ b_arr d_bounds = true /\
  gives (bh_call "intermediate" h_draws (Some h_mem) d_bounds h_pos) [[F 3; F 1]; [F 2; fdec (-7) 2]; [F 3; F 4]] = true.
Proof. repeat (split; [first [exact h_pos_matrix | exact h_mem_matrix | exact h_box_dim | reflexivity]|]). vm_compute. reflexivity. Qed.

(** *** C17: shrink *)
Theorem C17_shrink_exact : forall n d dr (b : bounds Rnum) (pos mem : matrix Rnum), 0 < d -> is_matrix n d pos -> is_matrix n d mem ->
  box_dim d b -> b_arr b = true ->
  (forall i j m l u, entry mem i j = Some m -> column b j l u -> (l <= m <= u)%R) ->
  exists pos', bh_call "shrink" dr (Some mem) b pos = Ok (pos', Some pos') /\ is_matrix n d pos' /\
    (forall i j x l u, entry pos' i j = Some x -> column b j l u -> (l <= x <= u)%R) /\
    forall i x m, nth_error pos i = Some x -> nth_error mem i = Some m ->
      exists x', nth_error pos' i = Some x' /\
        (~ below b x -> ~ above b x -> x' = x) /\ (below b x \/ above b x -> pulled_back b x m x').
Proof. exact shrink_exact. Qed.
Print Assumptions C17_shrink_exact.
Example C17_example : is_matrix 3 2 r_pos /\ is_matrix 3 2 r_mem /\ box_dim 2 r_bounds /\ b_arr r_bounds = true /\
  (forall i j m l u, entry r_mem i j = Some m -> column r_bounds j l u -> (l <= m <= u)%R) /\
  above r_bounds [7%R; 1%R] /\ below r_bounds [2%R; (-6)%R].
Proof. pose proof r_facts; pose proof r_below_above; intuition. Qed.
(** With binary64 arithmetic the claim is false: from 0 towards 9.9 in [-5,5]. *)
Theorem C17_shrink_float_refuted : exists (b : bounds F64num) (mem pos pos' : matrix F64num) mem' dr x,
  finite_box b /\ none_outside b mem /\
  bh_call "shrink" dr (Some mem) b pos = Ok (pos', mem') /\ entry pos' 0 0 = Some x /\ column b 0 (F (-5)) (F 5) /\ flt (F 5) x = true.
Proof. exact shrink_refuted. Qed.
Print Assumptions C17_shrink_float_refuted.

(** *** C18: admissible particles *)
Theorem C18_row_inside : forall (N : Num), forall d st dr mem (b : bounds N) m m' mem' i r, box_dim d b -> length r = d ->
  bh_call st dr mem b m = Ok (m', mem') -> nth_error m i = Some r -> good b r -> nth_error m' i = Some r.
Proof. exact (@row_inside). Qed.
Print Assumptions C18_row_inside.
Theorem C18_shape : forall (N : Num) st dr mem b (m p : matrix N) mem', bh_call st dr mem b m = Ok (p, mem') ->
  Forall2 (fun r r' => length r = length r') m p.
Proof. exact (@bh_call_shape). Qed.
Print Assumptions C18_shape.
Example C18_example : length [F 3; F 4] = 2 /\ box_dim 2 d_bounds /\ good d_bounds [F 3; F 4] /\ nth_error h_pos 2 = Some [F 3; F 4] /\
  gives (bh_call "shrink" h_draws (Some h_mem) d_bounds h_pos) [[F 5; F 1]; [F 2; F (-5)]; [F 3; F 4]] = true.
Proof. exact inside_example. Qed.

(** *** C20: velocity clamping *)
Theorem C20_clamped : forall st (c : clamp_t F64num) mem k vel w mem',
  st = "unmodified" \/ st = "invert" \/ (st = "adjust" /\ mem <> None) ->
  vh_call st (Some c) mem k vel = Ok (w, mem') ->
  forall i j v, entry w i j = Some v -> exists a b, clamp_column c j a b /\
    (fle a b = true -> fisnan v = false -> fle a v = true /\ fle v b = true).
Proof. exact clamp_all. Qed.
Print Assumptions C20_clamped.
Theorem C20_unmodified_cut : forall n d (c : clamp_t F64num) mem k vel, is_matrix n d vel -> length (fst c) = d -> length (snd c) = d ->
  exists w, vh_call "unmodified" (Some c) mem k vel = Ok (w, mem) /\ is_matrix n d w /\
    forall i j v a b, entry vel i j = Some v -> clamp_column c j a b -> fle a b = true ->
      exists v', entry w i j = Some v' /\ cut a b v v'.
Proof. exact clamp_unmodified. Qed.
Print Assumptions C20_unmodified_cut.
Theorem C20_adjust_cut : forall n d (c : clamp_t F64num) mem p b z vel, is_matrix n d p -> is_matrix n d mem -> length (fst c) = d -> length (snd c) = d ->
  exists w, vh_call "adjust" (Some c) (Some mem) (mkVk (Some p) b z) vel = Ok (w, Some p) /\ is_matrix n d w /\
    forall i j x m a b, entry p i j = Some x -> entry mem i j = Some m -> clamp_column c j a b -> fle a b = true ->
      exists v', entry w i j = Some v' /\ cut a b (fsub x m) v'.
Proof. exact clamp_adjust. Qed.
Print Assumptions C20_adjust_cut.
Definition h_clamp : clamp_t F64num := ([F (-1); F (-1)], [F 1; F 1]).
Example C20_example : is_matrix 3 2 h_pos /\
  gives (vh_call "unmodified" (Some h_clamp) None (mkVk (N := F64num) None None None) [[F 7; fhalf]; [F (-2); F 1]; [F 0; finf]])
        [[F 1; fhalf]; [F (-1); F 1]; [F 0; F 1]] = true.
Proof. split; [exact h_pos_matrix|]. vm_compute. reflexivity. Qed.
(** zero, and adjust before it has seen a position, leave velocities outside the clamp. *)
Example C20_example_unclamped :
  gives (vh_call "zero" (Some h_clamp) None (mkVk (N := F64num) (Some h_pos) (Some (Some d_bounds)) None) h_mem)
        [[F 0; F 0]; [F 0; F 0]; [F 0; F 0]] = true /\
  gives (vh_call "zero" (Some h_clamp) None (mkVk (N := F64num) (Some h_mem) (Some (Some d_bounds)) None) h_pos) h_pos = true /\
  gives (vh_call "adjust" (Some h_clamp) None (mkVk (N := F64num) (Some h_mem) None None) h_pos) h_pos = true.
Proof. vm_compute. auto. Qed.

(** *** C22: invert and zero *)
Theorem C22_invert : forall (N : Num), forall n d mem p (b : bounds N) z vel, is_matrix n d p -> is_matrix n d vel -> box_dim d b ->
  exists w, vh_call "invert" None mem (mkVk (Some p) (Some (Some b)) (Some z)) vel = Ok (w, mem) /\ is_matrix n d w /\
    (forall c, vh_call "invert" (Some c) mem (mkVk (Some p) (Some (Some b)) (Some z)) vel =
               vh_call "unmodified" (Some c) mem (mkVk (Some p) (Some (Some b)) (Some z)) w) /\
    forall i j x v, nth_error p i = Some x -> entry vel i j = Some v -> exists v', entry w i j = Some v' /\
      (~ below b x -> ~ above b x -> v' = v) /\
      (below b x -> ~ above b x -> v' = nmul (nopp z) v) /\ (~ below b x -> above b x -> v' = nmul (nopp z) v) /\
      (below b x -> above b x -> v' = nmul (nopp z) (nmul (nopp z) v)).
Proof. exact (@invert_claim). Qed.
Print Assumptions C22_invert.
Theorem C22_invert_default_z : forall (N : Num), forall c mem p b vel,
  vh_call (N := N) "invert" c mem (mkVk p b None) vel = vh_call "invert" c mem (mkVk p b (Some (ndec 1 2))) vel.
Proof. exact (@invert_default). Qed.
Print Assumptions C22_invert_default_z.
Theorem C22_zero : forall (N : Num), forall n d c mem p (b : bounds N) z vel, is_matrix n d p -> is_matrix n d vel -> box_dim d b ->
  exists w, vh_call "zero" c mem (mkVk (Some p) (Some (Some b)) z) vel = Ok (w, mem) /\ is_matrix n d w /\
    forall i j x v, nth_error p i = Some x -> entry vel i j = Some v -> exists v', entry w i j = Some v' /\
      (~ below b x -> ~ above b x -> v' = v) /\ (below b x \/ above b x -> v' = nofZ 0).
Proof. exact (@zero_claim). Qed.
Print Assumptions C22_zero.
Theorem C22_inside : forall (N : Num), forall n d c mem p (b : bounds N) z vel, is_matrix n d p -> is_matrix n d vel -> box_dim d b ->
  (forall i x, nth_error p i = Some x -> ~ below b x /\ ~ above b x) ->
  vh_call "invert" c mem (mkVk (Some p) (Some (Some b)) z) vel = vh_call "unmodified" c mem (mkVk (Some p) (Some (Some b)) z) vel /\
  vh_call "zero" c mem (mkVk (Some p) (Some (Some b)) z) vel = Ok (vel, mem).
Proof. exact (@inside_claim). Qed.
Print Assumptions C22_inside.
Theorem C22_without_bounds : forall (N : Num), forall st c mem p z (vel : matrix N), st = "invert" \/ st = "zero" ->
  vh_call st c mem (mkVk (Some p) (Some None) z) vel = Err TypeError /\
  vh_call st c mem (mkVk (Some p) None z) vel = Err KeyError.
Proof. exact (@no_bounds_claim). Qed.
Print Assumptions C22_without_bounds.
(** A particle below in one dimension and above in the other is inverted twice. *)
Example C22_example : is_matrix 3 2 h_pos /\ box_dim 2 d_bounds /\
  gives (vh_call "invert" None None (mkVk (N := F64num) (Some [[F 7; F 1]; [F (-6); F 6]; [F 3; F 4]]) (Some (Some d_bounds)) None)
          [[F 4; F 8]; [F 4; F 8]; [F 4; F 8]])
        [[F (-2); F (-4)]; [F 1; F 2]; [F 4; F 8]] = true /\
  gives (vh_call "zero" None None (mkVk (N := F64num) (Some [[F 7; F 1]; [F (-6); F 6]; [F 3; F 4]]) (Some (Some d_bounds)) None)
          [[F 4; F 8]; [F 4; F 8]; [F 4; F 8]])
        [[F 0; F 0]; [F 0; F 0]; [F 4; F 8]] = true.
Proof. split; [exact h_pos_matrix|]. split; [exact h_box_dim|]. vm_compute. auto. Qed.

(** *** C24: velocity equation *)
Theorem C24_velocity : forall (N : Num), forall n d (dr : vel_draws N) vmem (s : swarm N) (b : option (bounds N)) c1 c2 w,
  dget (s_options s) "c1" = Some c1 -> dget (s_options s) "c2" = Some c2 -> dget (s_options s) "w" = Some w ->
  is_matrix n d (s_position s) -> is_matrix n d (s_velocity s) -> is_matrix n d (s_pbest_pos s) ->
  is_matrix n d (vd_u1 dr) -> is_matrix n d (vd_u2 dr) -> best_dim n d (s_best_pos s) ->
  exists v', compute_velocity dr "unmodified" vmem s None b = Ok (v', vmem) /\ is_matrix n d v' /\
    forall i j r1 r2 x v p g, entry (vd_u1 dr) i j = Some r1 -> entry (vd_u2 dr) i j = Some r2 ->
      entry (s_position s) i j = Some x -> entry (s_velocity s) i j = Some v -> entry (s_pbest_pos s) i j = Some p ->
      best_entry (s_best_pos s) i j = Some g ->
      entry v' i j = Some (nadd (nadd (nmul (pnum w) v) (nmul (nmul (pnum c1) r1) (nsub p x))) (nmul (nmul (pnum c2) r2) (nsub g x))).
Proof. exact (@velocity_claim). Qed.
Print Assumptions C24_velocity.
Theorem C24_missing_option : forall (N : Num) (dr : vel_draws N) vh vmem (s : swarm N) c b k, k = "c1" \/ k = "c2" \/ k = "w" ->
  dget (s_options s) k = None -> compute_velocity dr vh vmem s c b = Err KeyError.
Proof. exact (@velocity_keys). Qed.
Print Assumptions C24_missing_option.
Theorem C24_position : forall (N : Num), forall n d dr bh bmem (s : swarm N), is_matrix n d (s_position s) -> is_matrix n d (s_velocity s) ->
  exists p, compute_position dr bh bmem s None = Ok (p, bmem) /\ is_matrix n d p /\
    forall i j x v, entry (s_position s) i j = Some x -> entry (s_velocity s) i j = Some v -> entry p i j = Some (nadd x v).
Proof. exact (@position_claim). Qed.
Print Assumptions C24_position.
Theorem C24_at_rest : forall n d (dr : vel_draws F64num) vmem (s : swarm F64num) (b : option (bounds F64num)) c1 c2 w,
  dget (s_options s) "c1" = Some c1 -> dget (s_options s) "c2" = Some c2 -> dget (s_options s) "w" = Some w ->
  ffinite (pnum c1) = true -> ffinite (pnum c2) = true -> ffinite (pnum w) = true ->
  is_matrix n d (s_position s) -> is_matrix n d (s_velocity s) -> is_matrix n d (s_pbest_pos s) ->
  is_matrix n d (vd_u1 dr) -> is_matrix n d (vd_u2 dr) -> best_dim n d (s_best_pos s) ->
  (forall i j r, entry (vd_u1 dr) i j = Some r \/ entry (vd_u2 dr) i j = Some r -> fle fzero r = true /\ flt r fone = true) ->
  exists v' x', compute_velocity dr "unmodified" vmem s None b = Ok (v', vmem) /\
    (forall bdr bh bmem, compute_position bdr bh bmem (set_velocity s v') None = Ok (x', bmem)) /\
    forall i j x v p g, entry (s_position s) i j = Some x -> entry (s_velocity s) i j = Some v ->
      entry (s_pbest_pos s) i j = Some p -> best_entry (s_best_pos s) i j = Some g ->
      ffinite x = true -> feq p x = true -> feq g x = true -> feq v fzero = true ->
      exists v1 x1, entry v' i j = Some v1 /\ feq v1 fzero = true /\ entry x' i j = Some x1 /\ feq x1 x = true.
Proof. exact rest_claim. Qed.
Print Assumptions C24_at_rest.
Example C24_example : is_matrix 3 2 (s_position h_swarm) /\ is_matrix 3 2 (s_velocity h_swarm) /\ is_matrix 3 2 (s_pbest_pos h_swarm) /\
  best_dim 3 2 (s_best_pos h_swarm) /\
  gives (compute_velocity h_vdraws "unmodified" None h_swarm None None)
    [[fdec 17 2; fdec 7 2]; [F 2; F 1]; [F 6; F 8]] = true.
Proof. repeat (split; [first [exact h_pos_matrix | exact h_mem_matrix | reflexivity]|]). vm_compute. reflexivity. Qed.
