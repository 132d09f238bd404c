(** Properties of the bundled objective functions (C47, C48, C66), of the cost decorator (C29) and of
    the plotters' numbers (C49). *)
From Coq Require Import String ZArith List Arith Bool Reals.
From Flocq Require Import Core IEEE754.BinarySingleNaN.
From Verif Require Import Prelude F64 F64Facts Num Np Handlers Swarms Operators Generators Topology Optimizers
  Spec SpecHandlers Objectives SpecObj ObjFacts ObjReal ObjFormula ObjFour ObjEggClaim ObjFloat Tools ToolFacts Demo ExamplesSearch ExamplesObj.
Import ListNotations.
Local Open Scope string_scope.
Local Open Scope list_scope.
Local Open Scope nat_scope.

(** *** C29: the cost decorator *)
(** Entry i is the number returned for particle i, and there is a result only if every call returned a number. *)
Theorem C29_costs : forall f X cs, cost_dec f X = Ok cs <-> Forall2 (fun r c => f r = Ok (Scalar c)) X cs.
Proof. exact cost_exact. Qed.
Print Assumptions C29_costs.
Theorem C29_arrays : forall f X k, X <> [] -> (forall r, In r X -> exists a, f r = Ok (Arr a) /\ length a = k) -> cost_dec f X = Err ValueError.
Proof. exact cost_arrays. Qed.
Print Assumptions C29_arrays.
Theorem C29_raises : forall f pre r post x, f r = Err x -> (forall q, In q pre -> exists v, f q = Ok v) -> cost_dec f (pre ++ r :: post) = Err x.
Proof. exact cost_raises. Qed.
Print Assumptions C29_raises.
Theorem C29_rowwise : forall f, (forall r a, f r <> Ok (Arr a)) -> rowwise (cost_dec f).
Proof. exact cost_rowwise. Qed.
Print Assumptions C29_rowwise.
Theorem C29_pool : forall f, (forall r a, f r <> Ok (Arr a)) -> forall c e k iters o, (forall t, e_obj e t = cost_dec f) ->
  optimize c e (Some (S k)) iters o = optimize c e None iters o.
Proof. exact cost_pool. Qed.
Print Assumptions C29_pool.
Example C29_example : match cost_dec x_cost x_in with Ok [a; b; c] => feq a (fdec 925 100) && feq b (F 17) && feq c (F 0) | _ => false end = true /\
  (forall r a, x_cost r <> Ok (Arr a)) /\ cost_dec x_arr x_in = Err ValueError /\ same_exn ValueError (cost_dec x_raise x_in) = true.
Proof. split; [exact x_cost_ok|]. split; [exact x_cost_scalar|]. split; vm_compute; reflexivity. Qed.

(** *** C47: dimension and domain checks *)
Theorem C47_wrong_dimension : forall (N : Num) (m : mathlib N) name f d X, In (name, f) (bundled m) -> wrong_dimension name d -> f d X = Err IndexError.
Proof. exact @objective_wrong. Qed.
Print Assumptions C47_wrong_dimension.
Theorem C47_outside : forall (N : Num) (m : mathlib N) name f n d X, In (name, f) (bundled m) -> ~ wrong_dimension name d -> is_matrix n d X -> outside name X ->
  f d X = Err ValueError.
Proof. exact @objective_outside. Qed.
Print Assumptions C47_outside.
Theorem C47_value : forall (N : Num) (m : mathlib N) name f n d X, In (name, f) (bundled m) -> ~ wrong_dimension name d -> is_matrix n d X -> ~ outside name X ->
  (name = "ackley" /\ d = 0 /\ f d X = Err ZeroDivisionError) \/
  exists costs, f d X = Ok costs /\ length costs = n /\
    forall i r, nth_error X i = Some r -> exists c, nth_error costs i = Some c /\ f d [r] = Ok [c].
Proof. exact @objective_value. Qed.
Print Assumptions C47_value.
Theorem C47_rowwise : forall (m : mathlib F64num) name f d, In (name, f) (bundled m) -> ~ wrong_dimension name d -> (name = "ackley" -> 1 <= d) ->
  rowwise (f d).
Proof. exact objective_rowwise. Qed.
Print Assumptions C47_rowwise.
(** NaN and infinite coordinates are outside every documented domain. *)
Theorem C47_accepted_finite : forall (m : mathlib F64num) name f d X costs, In (name, f) (bundled m) -> name <> "rosenbrock" -> name <> "sphere" ->
  Forall (fun r => length r = d) X -> f d X = Ok costs -> forall i r j (x : f64), nth_error X i = Some r -> nth_error r j = Some x -> ffinite x = true.
Proof. exact accepted_finite. Qed.
Print Assumptions C47_accepted_finite.
Example C47_example : In ("beale", beale x_ml) (bundled x_ml) /\ ~ outside (N := F64num) "beale" x_in /\ is_ok (beale x_ml 2 x_in) = true /\
  outside (N := F64num) "beale" x_out /\ outside (N := F64num) "beale" x_nan /\ wrong_dimension "beale" 3 /\ is_matrix 3 2 x_in.
Proof.
  split; [exact x_bundled|]. split; [exact x_in_inside|]. split; [exact x_in_ok|]. split; [exact x_out_outside|]. split; [exact x_nan_outside|].
  split; [split; [reflexivity|discriminate]|]. split; [reflexivity|repeat constructor].
Qed.

(** *** C48: documented minima, over the reals *)
(** Attained, never undercut on the domain, and attained nowhere else. *)
Local Open Scope R_scope.
Theorem C48_minimum : forall m : mathlib Rnum, real_math m -> forall name f d p v, In (name, f) (bundled m) -> documented name d p v ->
  f d [p] = Ok [v] /\
  forall n X costs, is_matrix n d X -> f d X = Ok costs -> forall i r c, nth_error X i = Some r -> nth_error costs i = Some c ->
    (v <= c) /\ (c = v -> r = p).
Proof. exact minimum_claim. Qed.
Print Assumptions C48_minimum.
Theorem C48_himmelblau :   (forall n (X : list (list R)) costs, is_matrix n 2 X -> himmelblau (N := Rnum) 2%nat X = Ok costs -> Forall (fun c : R => 0 <= c) costs) /\
  (forall cx cy, In (cx, cy) himmel_points -> exists x y : R, himmelblau (N := Rnum) 2%nat [[x; y]] = Ok [0] /\
     Rabs (x - cx) <= 1 / 100000 /\ Rabs (y - cy) <= 1 / 100000).
Proof. exact himmelblau_claim. Qed.
Print Assumptions C48_himmelblau.
Theorem C48_mirror : forall m : mathlib Rnum, real_math m -> forall s t x y : R, sign s -> sign t ->
  crossintray m 2%nat [[s * x; t * y]] = crossintray m 2%nat [[x; y]] /\ crossintray m 2%nat [[y; x]] = crossintray m 2%nat [[x; y]] /\
  holdertable m 2%nat [[s * x; t * y]] = holdertable m 2%nat [[x; y]].
Proof. exact mirror_claim. Qed.
Print Assumptions C48_mirror.
(** Exactly four minima; they and the minimum round to the documented numbers. *)
Theorem C48_four : forall m : mathlib Rnum, real_math m -> forall name f px py pv, In (name, f) (bundled m) -> documented_four name px py pv ->
  exists x y v, Rabs (x - px) <= 1 / 100000 /\ Rabs (y - py) <= 1 / 100000 /\ Rabs (v - pv) <= 1 / 100000 /\
  (forall s t, sign s -> sign t -> f 2%nat [[s * x; t * y]] = Ok [v]) /\
  forall n X costs, is_matrix n 2 X -> f 2%nat X = Ok costs -> forall i r c, nth_error X i = Some r -> nth_error costs i = Some c ->
    v <= c /\ (c = v -> exists s t, sign s /\ sign t /\ r = [s * x; t * y]).
Proof. exact four_minima. Qed.
Print Assumptions C48_four.
Example C48_example_four : exists m : mathlib Rnum, real_math m /\ In ("holdertable", holdertable m) (bundled m) /\ documented_four "holdertable" 8.05502 9.66459 (-19.2085).
Proof. destruct real_math_ex as [m M]. exists m. split; [exact M|]. split; [cbn; auto 20|constructor]. Qed.
(** Eggholder: one minimiser, on the edge of the domain.  The docstring's point has two digits swapped. *)
Theorem C48_eggholder : forall m : mathlib Rnum, real_math m ->
  exists y v, Rabs (y - 404.23181) <= 1 / 100000 /\ Rabs (v - (-959.6407)) <= 5 / 100000 /\ eggholder m 2%nat [[512; y]] = Ok [v] /\
  forall n X costs, is_matrix n 2 X -> eggholder m 2%nat X = Ok costs -> forall i r c, nth_error X i = Some r -> nth_error costs i = Some c ->
    v <= c /\ (c = v -> r = [512; y]).
Proof. exact eggholder_minimum. Qed.
Print Assumptions C48_eggholder.
Theorem C48_eggholder_refuted : forall m : mathlib Rnum, real_math m ->
  exists c y v, eggholder m 2%nat [[512; 404.3219]] = Ok [c] /\ -959.632 <= c /\ eggholder m 2%nat [[512; y]] = Ok [v] /\ v < c.
Proof. exact eggholder_docstring. Qed.
Print Assumptions C48_eggholder_refuted.
Example C48_example_eggholder : forall m : mathlib Rnum, real_math m -> is_matrix 1%nat 2%nat [[0%R; 0%R]] /\ exists c, eggholder m 2%nat [[0%R; 0%R]] = Ok [c].
Proof. intros m M. split; [split; [reflexivity|repeat constructor]|]. eexists. apply (eggholder_point m M); split; Lra.lra. Qed.
(** All seventeen functions are the formulas of the test functions; [levi] is not the Levy function. *)
Theorem C48_formula : forall m : mathlib Rnum, real_math m -> forall name f d n X costs, In (name, f) (bundled m) -> is_matrix n d X -> f d X = Ok costs ->
  forall i r c, nth_error X i = Some r -> nth_error costs i = Some c -> c = formula name r.
Proof. exact formula_claim. Qed.
Print Assumptions C48_formula.
Theorem C48_levi_refuted : forall m : mathlib Rnum, real_math m -> forall x y c, levi m 2%nat [[x; y]] = Ok [c] -> (c = levy x y <-> x = 1).
Proof. exact levi_levy. Qed.
Print Assumptions C48_levi_refuted.
Example C48_example_levi : forall m : mathlib Rnum, exists c, levi m 2%nat [[3%R; 1%R]] = Ok [c].
Proof. exact levi_runs. Qed.
Local Open Scope nat_scope.
Example C48_example : (exists m, real_math m) /\
  forall m : mathlib Rnum, real_math m -> In ("threehump", threehump m) (bundled m) /\ documented "threehump" 2 [0%R; 0%R] 0%R.
Proof. exact (conj real_math_ex x_threehump). Qed.

(** *** C66: the bundled functions in binary64 *)
(** No computed cost is below the documented minimum. *)
Theorem C66_floor : forall (m : mathlib F64num) name f n d X cs z, In (name, f) (bundled m) -> libm_range m -> float_floor name = Some z ->
  is_matrix n d X -> (10 * Z.of_nat d <= 2 ^ 53)%Z -> f d X = Ok cs -> forall i c, nth_error cs i = Some c -> flt c (fofZ z) = false.
Proof. exact floor_claim. Qed.
Print Assumptions C66_floor.
(** At the documented point the computed cost is the documented minimum. *)
Theorem C66_exact : forall (m : mathlib F64num) name f d p z, In (name, f) (bundled m) -> libm_values m -> float_documented m name d p z ->
  exists c, f d [p] = Ok [c] /\ feq c (fofZ z) = true.
Proof. exact exact_claim. Qed.
Print Assumptions C66_exact.
(** Neither holds for all of them: [goldstein] comes out below 3, [ackley] and [levi] are not 0 at their documented point. *)
Theorem C66_goldstein_refuted : forall (m : mathlib F64num) f, In ("goldstein", f) (bundled m) ->
  exists x y c, f 2%nat [[x; y]] = Ok [c] /\ flt c (fofZ 3) = true.
Proof. exact goldstein_lower. Qed.
Print Assumptions C66_goldstein_refuted.
Theorem C66_ackley_refuted : forall (m : mathlib F64num) f, In ("ackley", f) (bundled m) -> libm_values m -> m_exp m fone = e64 ->
  exists c, f 2%nat [[fzero; fzero]] = Ok [c] /\ flt fzero c = true.
Proof. exact ackley_higher. Qed.
Print Assumptions C66_ackley_refuted.
Theorem C66_levi_refuted : forall (m : mathlib F64num) f, In ("levi", f) (bundled m) -> libm_values m -> libm_range m -> m_sin m (m_pi m) = sinpi64 ->
  exists c, f 2%nat [[fone; fone]] = Ok [c] /\ feq c fzero = false.
Proof. exact levi_higher. Qed.
Print Assumptions C66_levi_refuted.
Example C66_example : libm_range f_ml /\ libm_values f_ml /\ m_exp f_ml fone = e64 /\ m_sin f_ml (m_pi f_ml) = sinpi64 /\
  is_ok (rastrigin f_ml 2 [[F 1; fdec 5 10]; [F 0; F (-3)]]) = true /\ is_ok (easom f_ml 2 [[F 3; F 3]]) = true /\
  float_floor "rastrigin" = Some 0%Z /\ float_documented f_ml "rastrigin" 3 (repeat fzero 3) 0.
Proof.
  split; [exact f_range|]. split; [exact f_values|]. split; [exact f_exp1|]. split; [exact f_sinpi|]. split; [exact (proj1 f_runs)|].
  split; [exact (proj2 f_runs)|]. split; [reflexivity|]. constructor. discriminate.
Qed.

(** *** C49: meshes and 3-D histories *)
Theorem C49_mesh : forall f g delta xl yl np xx yy zz, (forall X, f X = mapM g X) -> mesh f delta xl yl np = Ok (xx, yy, zz) ->
  exists x y, np_arange (fst xl) (snd xl) delta = Ok x /\ np_arange (fst yl) (snd yl) delta = Ok y /\
    is_matrix (length y) (length x) xx /\ is_matrix (length y) (length x) yy /\ is_matrix (length y) (length x) zz /\
    forall i j a b, nth_error y i = Some b -> nth_error x j = Some a ->
      entry xx i j = Some a /\ entry yy i j = Some b /\ exists c, entry zz i j = Some c /\ g [a; b] = Ok c.
Proof. exact mesh_claim. Qed.
Print Assumptions C49_mesh.
Theorem C49_mesh_total : forall f g delta xl yl np x y, (forall X, f X = mapM g X) -> np <> Some 0 ->
  np_arange (fst xl) (snd xl) delta = Ok x -> np_arange (fst yl) (snd yl) delta = Ok y ->
  (forall a b, In a x -> In b y -> exists c, g [a; b] = Ok c) -> exists r, mesh f delta xl yl np = Ok r.
Proof. exact mesh_total. Qed.
Print Assumptions C49_mesh_total.
Theorem C49_mesh_pool : forall f delta xl yl k, rowwise f -> mesh f delta xl yl (Some (S k)) = mesh f delta xl yl None.
Proof. exact mesh_pool. Qed.
Print Assumptions C49_mesh_pool.
Theorem C49_arange : forall lo hi step l, np_arange lo hi step = Ok l ->
  feq step fzero = false /\ length l = Z.to_nat (Zceil (B2R (fdiv (fsub hi lo) step))) /\
  (forall x, nth_error l 0 = Some x -> x = lo) /\
  (forall i x, 2 <= i -> nth_error l i = Some x -> x = fadd lo (fmul (fofZ (Z.of_nat i)) (fsub (fadd lo step) lo))).
Proof. exact arange_claim. Qed.
Print Assumptions C49_arange.
Theorem C49_history : forall f g P np H, (forall X, f X = mapM g X) -> compute_history_3d f P np = Ok H ->
  length H = length P /\ forall t X, nth_error P t = Some X -> exists Y, nth_error H t = Some Y /\ length Y = length X /\
    forall i r, nth_error X i = Some r -> exists c, g r = Ok c /\ nth_error Y i = Some (r ++ [c]).
Proof. exact history_claim. Qed.
Print Assumptions C49_history.
Theorem C49_history_total : forall f g P np, (forall X, f X = mapM g X) -> np <> Some 0 -> P <> [] ->
  (forall X r, In X P -> In r X -> exists c, g r = Ok c) -> exists H, compute_history_3d f P np = Ok H.
Proof. exact history_total. Qed.
Print Assumptions C49_history_total.
Theorem C49_history_pool : forall f P k, rowwise f -> compute_history_3d f P (Some (S k)) = compute_history_3d f P None.
Proof. exact history_pool. Qed.
Print Assumptions C49_history_pool.
Example C49_example_mesh : match mesh x_diff (F 1) (F 0, F 3) (F 10, F 12) (Some 4) with
  | Ok (xx, yy, zz) => feqs xx [[F 0; F 1; F 2]; [F 0; F 1; F 2]] && feqs yy [[F 10; F 10; F 10]; [F 11; F 11; F 11]] &&
                       feqs zz [[F (-10); F (-9); F (-8)]; [F (-11); F (-10); F (-9)]]
  | Err _ => false end = true.
Proof. exact x_mesh. Qed.
Example C49_example_history : match compute_history_3d x_sphere x_hist (Some 2) with
  | Ok [a; b] => feqs a [[F 1; F 2; F 5]; [F 3; F 4; F 25]] && feqs b [[F 0; F 1; F 1]; [F 2; F 2; F 8]] | _ => false end = true.
Proof. exact x_history. Qed.
