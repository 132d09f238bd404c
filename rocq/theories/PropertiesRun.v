(** Properties of whole runs (C01-C11, C28, C44-C46, C51).  Statements use the vocabulary of
    [Spec]; proofs are elsewhere. *)
From Coq Require Import String ZArith List Arith Bool Reals.
From Verif Require Import Prelude F64 Num Np Handlers Swarms Operators Generators Topology Optimizers Spec
  PbestFacts RunResults RunStop RunMono RunMisc TopoGraphs RunClaims Demo Witness Examples.
Import ListNotations.
Local Open Scope nat_scope.

(** *** C01 *)
Theorem C01_pbest_strict : forall (s : fswarm) pp pc, compute_pbest s = Ok (pp, pc) ->
  length pp = length (s_position s) /\ length pc = length (s_position s) /\
  forall a new old x xo, nth_error (s_current_cost s) a = Some new -> nth_error (s_pbest_cost s) a = Some old ->
    nth_error (s_position s) a = Some x -> nth_error (s_pbest_pos s) a = Some xo ->
    (flt new old = true -> nth_error pp a = Some x /\ nth_error pc a = Some new) /\
    (flt new old = false -> nth_error pp a = Some xo /\ nth_error pc a = Some old).
Proof. exact pbest_strict. Qed.
Print Assumptions C01_pbest_strict.
Theorem C01_pbest_nan : forall (s : fswarm) pp pc a new old x xo, compute_pbest s = Ok (pp, pc) ->
  nth_error (s_current_cost s) a = Some new -> nth_error (s_pbest_cost s) a = Some old ->
  nth_error (s_position s) a = Some x -> nth_error (s_pbest_pos s) a = Some xo ->
  fisnan new = true -> nth_error pp a = Some xo /\ nth_error pc a = Some old.
Proof. exact pbest_nan. Qed.
Print Assumptions C01_pbest_nan.
Theorem C01_pbest_total : forall (s : fswarm) n d,
  length (s_current_cost s) = n -> length (s_pbest_cost s) = n ->
  is_matrix n d (s_position s) -> is_matrix n d (s_pbest_pos s) ->
  exists pp pc, compute_pbest s = Ok (pp, pc).
Proof. exact compute_pbest_total. Qed.
Print Assumptions C01_pbest_total.
(** Three particles: worse, better, NaN. *)
Example C01_example : (exists pp pc, compute_pbest x_swarm = Ok (pp, pc)) /\
  map (fun p => flt (fst p) (snd p)) (combine (s_current_cost x_swarm) (s_pbest_cost x_swarm)) = [false; true; false].
Proof. exact (conj x_pbest x_costs). Qed.

(** *** C02 *)
Theorem C02_pbest_of_call : forall c e pool iters o o' v, optimize c e pool iters o = (o', Ok v) ->
  exists h C, o_pos_history o' = o_pos_history o ++ h /\ logged e pool h C /\ all_evaluated (c_n c) h C /\
    length (s_pbest_cost (o_swarm o')) = c_n c /\
    length (s_pbest_pos (o_swarm o')) = length (s_pbest_pos (o_swarm o)) /\
    forall a x0 x w, nth_error (s_pbest_pos (o_swarm o)) a = Some x0 ->
      nth_error (s_pbest_pos (o_swarm o')) a = Some x -> nth_error (s_pbest_cost (o_swarm o')) a = Some w ->
      best_of_run h C a x0 x w.
Proof. exact pbest_of_call. Qed.
Print Assumptions C02_pbest_of_call.
Example C02_example : exists c o e o' cost pos, Fresh c o /\ Reachable c o /\ o_top o = star /\ c_ftol c = fninf /\
  optimize c e None 4 o = (o', Ok (cost, pos)).
Proof. exact star_demo. Qed.

(** *** C03 and C04, star *)
Theorem C03_star_minimum : forall c e pool iters o o' cost pos, Fresh c o -> t_kind (o_top o) = Star ->
  optimize c e pool iters o = (o', Ok (cost, pos)) ->
  exists C, logged e pool (o_pos_history o') C /\ all_evaluated (c_n c) (o_pos_history o') C /\
    (forall a t x w, evaluated (o_pos_history o') C a t x w -> flt w cost = false) /\
    (exists a t x, evaluated (o_pos_history o') C a t x cost) /\
    (exists a t w, evaluated (o_pos_history o') C a t pos w /\ feq w cost = true).
Proof. exact star_first_min. Qed.
Print Assumptions C03_star_minimum.
Example C03_example : exists c o e o' cost pos, Fresh c o /\ Reachable c o /\ o_top o = star /\ c_ftol c = fninf /\
  optimize c e None 4 o = (o', Ok (cost, pos)).
Proof. exact star_demo. Qed.

(** *** C04, neighbour topologies *)
Theorem C04_neighbor_pair : forall c e pool iters o o' cost pos nb, Fresh c o -> t_kind (o_top o) <> Star ->
  optimize c e pool iters o = (o', Ok (cost, pos)) ->
  t_nb (o_top o') = Some nb -> covers (c_n c) (nb_rows nb) ->
  exists C, logged e pool (o_pos_history o') C /\ all_evaluated (c_n c) (o_pos_history o') C /\
    (forall a t x w, evaluated (o_pos_history o') C a t x w -> flt w cost = false) /\
    ((exists a t w, evaluated (o_pos_history o') C a t pos w /\ feq w cost = true) \/
     (cost = finf /\ exists a, nth_error (s_position (o_swarm o)) a = Some pos /\ a < c_n c)).
Proof. exact neighbor_first_pair. Qed.
Print Assumptions C04_neighbor_pair.
Example C04_example : exists o o' cost pos nb, construct (run_c LocalBest) (topo Ring false) (d_cd 0 3 2) = Ok o /\
  Fresh (run_c LocalBest) o /\ o_top o = topo Ring false /\
  optimize (run_c LocalBest) run_e None 4 o = (o', Ok (cost, pos)) /\ t_nb (o_top o') = Some nb /\ covers 3 (nb_rows nb).
Proof. exact ring_demo. Qed.

(** *** C05 *)
Theorem C05_second_call_mismatch_refuted : exists c o e o1 v1 o2 cost pos (g : frow -> f64),
  Fresh c o /\ c_kind c = GlobalBest /\ t_kind (o_top o) = Star /\
  (forall t X, e_obj e t X = Ok (map g X)) /\
  optimize c e None 1 o = (o1, Ok v1) /\ optimize c e None 1 o1 = (o2, Ok (cost, pos)) /\
  flt cost (g pos) = true.
Proof. exact second_call_mismatch. Qed.
Print Assumptions C05_second_call_mismatch_refuted.
(** Over any number of calls the best cost is the least cost evaluated in all of them. *)
Theorem C05_star_session : forall c o calls o', Fresh c o -> t_kind (o_top o) = Star -> Session c o calls o' ->
  exists logs, Forall2 (fun k hc => logged (k_env k) (k_pool k) (fst hc) (snd hc) /\
                                    all_evaluated (c_n c) (fst hc) (snd hc)) calls logs /\
    concat (map fst logs) = o_pos_history o' /\
    (forall h C a t x w, In (h, C) logs -> evaluated h C a t x w -> flt w (s_best_cost (o_swarm o')) = false) /\
    (s_best_cost (o_swarm o') = finf \/
     exists h C a t x, In (h, C) logs /\ evaluated h C a t x (s_best_cost (o_swarm o'))).
Proof. exact star_session. Qed.
Print Assumptions C05_star_session.
Example C05_example : exists c top dr0 dr o k o1 o2 o3,
  construct c top dr0 = Ok o /\ Session c o [k] o1 /\ reset c dr o1 = Ok o2 /\ construct c top dr = Ok o3 /\
  t_kind top = Star /\ 0 < length (o_cost_history o1).
Proof. exact reset_demo. Qed.

(** *** C06 *)
Theorem C06_star_history : forall c o, Reachable c o -> t_kind (o_top o) = Star -> nonincreasing (o_cost_history o).
Proof. exact star_history_mono. Qed.
Print Assumptions C06_star_history.
Theorem C06_neighbor_history : forall c e pool iters o o' r, Reachable c o -> t_kind (o_top o) <> Star ->
  (forall nb, t_nb (o_top o) = Some nb -> covers (c_n c) (nb_rows nb)) ->
  optimize c e pool iters o = (o', r) -> pool <> Some 0 ->
  exists h B, o_pos_history o' = o_pos_history o ++ h /\ o_cost_history o' = o_cost_history o ++ B /\
    (queries_cover (c_n c) e h -> nonincreasing B).
Proof. exact neighbor_history. Qed.
Print Assumptions C06_neighbor_history.
Example C06_example : exists o o' cost pos nb, construct (run_c LocalBest) (topo Ring false) (d_cd 0 3 2) = Ok o /\
  Fresh (run_c LocalBest) o /\ o_top o = topo Ring false /\
  optimize (run_c LocalBest) run_e None 4 o = (o', Ok (cost, pos)) /\ t_nb (o_top o') = Some nb /\ covers 3 (nb_rows nb).
Proof. exact ring_demo. Qed.

(** *** C07 *)
Theorem C07_neighbours_lose_best_refuted : exists c o e o' cost pos (g : frow -> f64),
  Fresh c o /\ c_kind c = Binary /\ t_kind (o_top o) = Ring /\
  (forall t X, e_obj e t X = Ok (map g X)) /\
  optimize c e None 2 o = (o', Ok (cost, pos)) /\
  (forall t X rows, nth_error (o_pos_history o') t = Some X -> te_knn (e_top e t) 2 2 X = Ok rows ->
     knn_contract l1dist 2 X rows) /\
  flt (g pos) cost = true.
Proof. exact neighbours_lose_best. Qed.
Print Assumptions C07_neighbours_lose_best_refuted.
(** The coincidence is the only reason: otherwise every particle is its own neighbour. *)
Theorem C07_knn_covers : forall dist k X rows,
  (forall x, dist x x = 0%R) -> (forall x y, (0 <= dist x y)%R) ->
  knn_contract dist k X rows -> at_most_coincide dist k X -> covers (length X) rows.
Proof. exact knn_covers. Qed.
Print Assumptions C07_knn_covers.

(** *** C08 *)
Theorem C08_default_ftol : forall c e pool iters o o' v, Reachable c o -> c_ftol c = fninf ->
  optimize c e pool iters o = (o', Ok v) ->
  exists h C, length h = iters /\ logged e pool h C /\ o_pos_history o' = o_pos_history o ++ h /\
    length (o_cost_history o') = length (o_cost_history o) + iters /\
    length (o_mean_pbest_history o') = length (o_mean_pbest_history o) + iters /\
    length (o_mean_neighbor_history o') = length (o_mean_neighbor_history o) + iters /\
    length (o_velocity_history o') = length (o_velocity_history o) + iters.
Proof. exact default_ftol_iters. Qed.
Print Assumptions C08_default_ftol.
Example C08_example : exists c o e o' cost pos, Fresh c o /\ Reachable c o /\ o_top o = star /\ c_ftol c = fninf /\
  optimize c e None 4 o = (o', Ok (cost, pos)).
Proof. exact star_demo. Qed.

(** *** C09 *)
Theorem C09_stop_rule : forall c e pool iters o o' v, optimize c e pool iters o = (o', Ok v) ->
  exists B, o_cost_history o' = o_cost_history o ++ B /\ length B <= iters /\
    (forall t, S t < length B -> ~ window (c_ftol c) (c_ftol_iter c) (s_best_cost (o_swarm o)) B t) /\
    (length B < iters -> exists t, length B = S t /\
       window (c_ftol c) (c_ftol_iter c) (s_best_cost (o_swarm o)) B t).
Proof. exact stop_rule. Qed.
Print Assumptions C09_stop_rule.
(** A call with [iters = 9] that stops after two iterations. *)
Example C09_example : exists c o e o' v, Fresh c o /\ optimize c e None 9 o = (o', Ok v) /\ length (o_cost_history o') = 2.
Proof. exact stop_demo. Qed.

(** *** C10 *)
Theorem C10_histories : forall c e pool iters o o' r, optimize c e pool iters o = (o', r) -> pool <> Some 0 ->
  exists h C B M V, length h <= iters /\
    length B = length h /\ length M = length h /\ length V = length h /\
    o_pos_history o' = o_pos_history o ++ h /\ o_cost_history o' = o_cost_history o ++ B /\
    o_mean_neighbor_history o' = o_mean_neighbor_history o ++ B /\
    o_mean_pbest_history o' = o_mean_pbest_history o ++ M /\
    o_velocity_history o' = o_velocity_history o ++ V /\
    logged e pool h C /\ all_evaluated (c_n c) h C /\
    (forall t, length h = S t -> nth_error B t = Some (s_best_cost (o_swarm o'))).
Proof. exact optimize_histories. Qed.
Print Assumptions C10_histories.
Theorem C10_aligned : forall c o, Reachable c o ->
  length (o_mean_pbest_history o) = length (o_cost_history o) /\
  length (o_mean_neighbor_history o) = length (o_cost_history o) /\
  length (o_pos_history o) = length (o_cost_history o) /\
  length (o_velocity_history o) = length (o_cost_history o).
Proof. exact reachable_aligned. Qed.
Print Assumptions C10_aligned.
Example C10_example : exists c o e o' v, Fresh c o /\ optimize c e None 9 o = (o', Ok v) /\ length (o_cost_history o') = 2.
Proof. exact stop_demo. Qed.

(** *** C11 *)
Theorem C11_objective_error : forall c e pool iters o o' code,
  optimize c e pool iters o = (o', Err (UserError code)) ->
  (forall i p k X n, te_knn (e_top e i) p k X <> Err (UserError n)) ->
  (forall i X n, te_delaunay (e_top e i) X <> Err (UserError n)) ->
  exists h C B M V, length h < iters /\ length B = length h /\ length M = length h /\ length V = length h /\
    o_pos_history o' = o_pos_history o ++ h /\ o_cost_history o' = o_cost_history o ++ B /\
    o_mean_neighbor_history o' = o_mean_neighbor_history o ++ B /\
    o_mean_pbest_history o' = o_mean_pbest_history o ++ M /\
    o_velocity_history o' = o_velocity_history o ++ V /\
    logged e pool h C /\ all_evaluated (c_n c) h C /\
    raises (e_obj e (length h)) pool (s_position (o_swarm o')) (UserError code) /\
    length (s_pbest_cost (o_swarm o')) = c_n c /\
    forall a x0 x w, nth_error (s_pbest_pos (o_swarm o)) a = Some x0 ->
      nth_error (s_pbest_pos (o_swarm o')) a = Some x -> nth_error (s_pbest_cost (o_swarm o')) a = Some w ->
      best_of_run h C a x0 x w.
Proof. exact objective_error. Qed.
Print Assumptions C11_objective_error.
Example C11_example : exists c o e o', Fresh c o /\ optimize c e None 5 o = (o', Err (UserError 7)) /\
  length (o_pos_history o') = 2 /\
  (forall i p k X n, te_knn (e_top e i) p k X <> Err (UserError n)) /\
  (forall i X n, te_delaunay (e_top e i) X <> Err (UserError n)).
Proof. exact bad_demo. Qed.

(** *** C28 *)
Theorem C28_pool_costs : forall f k (X : fmatrix), rowwise f ->
  compute_objective_function (N := F64num) (Some (S k)) f X = f X.
Proof. exact pool_rowwise. Qed.
Print Assumptions C28_pool_costs.
Theorem C28_pool_equal : forall c e k iters o, (forall t, rowwise (e_obj e t)) ->
  optimize c e (Some (S k)) iters o = optimize c e None iters o.
Proof. exact pool_equal. Qed.
Print Assumptions C28_pool_equal.
Theorem C28_chunks : forall A (l : list A) k, let bs := array_split l (S k) in
  concat bs = l /\ length bs = S k /\
  forall a b, In a bs -> In b bs -> length a <= length b + 1.
Proof. exact chunks. Qed.
Print Assumptions C28_chunks.
Example C28_example : (forall t, rowwise (e_obj run_e t)) /\
  is_ok (d_run (run_c GlobalBest) star (d_cd 0 3 2) run_e (Some 2) 4) = true.
Proof. exact (conj rowwise_demo pool_run_ok). Qed.

(** *** C44 *)
Theorem C44_reset_like_new : forall c top dr0 dr o calls0 o1 o2 o3,
  construct c top dr0 = Ok o -> Session c o calls0 o1 -> reset c dr o1 = Ok o2 ->
  construct c top dr = Ok o3 -> t_kind top = Star \/ t_static top = false ->
  forall calls, fst (play c o2 calls) = fst (play c o3 calls) /\
                observe (snd (play c o2 calls)) = observe (snd (play c o3 calls)).
Proof. exact reset_like_new. Qed.
Print Assumptions C44_reset_like_new.
Theorem C44_reset_total : forall c top dr o1, (exists o3, construct c top dr = Ok o3) -> exists o2, reset c dr o1 = Ok o2.
Proof. exact reset_total. Qed.
Print Assumptions C44_reset_total.
Theorem C44_static_reset_refuted : exists c top dr0 dr e0 e1 o o1 r1 o2 o3 v2 v3,
  t_static top = true /\ t_nb top = None /\ construct c top dr0 = Ok o /\
  optimize c e0 None 1 o = (o1, r1) /\ reset c dr o1 = Ok o2 /\ construct c top dr = Ok o3 /\
  snd (optimize c e1 None 1 o2) = Ok v2 /\ snd (optimize c e1 None 1 o3) = Ok v3 /\
  flt (fst v3) (fst v2) = true.
Proof. exact static_reset_differs. Qed.
Print Assumptions C44_static_reset_refuted.
Example C44_example : exists c top dr0 dr o k o1 o2 o3,
  construct c top dr0 = Ok o /\ Session c o [k] o1 /\ reset c dr o1 = Ok o2 /\ construct c top dr = Ok o3 /\
  t_kind top = Star /\ 0 < length (o_cost_history o1).
Proof. exact reset_demo. Qed.

(** *** C45 *)
Theorem C45_zero_iterations : forall c e pool o, Fresh c o -> pool <> Some 0 ->
  snd (optimize c e pool 0 o) = Err AttributeError.
Proof. exact zero_iterations. Qed.
Print Assumptions C45_zero_iterations.
Theorem C45_nothing_finite : forall c e pool iters o, Fresh c o -> t_kind (o_top o) = Star ->
  2 <= s_d (o_swarm o) -> (forall X cs, e_obj e 0 X = Ok cs -> forall v, In v cs -> flt v finf = false) ->
  exists x, snd (optimize c e pool iters o) = Err x.
Proof. exact nothing_finite. Qed.
Print Assumptions C45_nothing_finite.
Theorem C45_zero_ftol_iter : forall c top dr, c_ftol_iter c = 0 ->
  dget (c_options c) "k" <> None -> dget (c_options c) "p" <> None ->
  construct c top dr = Err AssertionError.
Proof. exact zero_ftol_iter. Qed.
Print Assumptions C45_zero_ftol_iter.
Theorem C45_zero_ftol_iter_err : forall c top dr, c_ftol_iter c = 0 -> exists x, construct c top dr = Err x.
Proof. exact zero_ftol_iter_err. Qed.
Print Assumptions C45_zero_ftol_iter_err.
(** LocalBestPSO and BinaryPSO need the options 'k' and 'p'. *)
Theorem C45_missing_keys : forall c top dr, c_kind c = LocalBest \/ c_kind c = Binary ->
  dget (c_options c) "k" = None \/ dget (c_options c) "p" = None -> construct c top dr = Err KeyError.
Proof. exact missing_keys. Qed.
Print Assumptions C45_missing_keys.
Theorem C45_zero_processes : forall c e iters o, snd (optimize c e (Some 0) iters o) = Err ValueError.
Proof. exact zero_processes. Qed.
Print Assumptions C45_zero_processes.
Example C45_example : exists c o e, Fresh c o /\ t_kind (o_top o) = Star /\ 2 <= s_d (o_swarm o) /\
  (forall X cs, e_obj e 0 X = Ok cs -> forall v, In v cs -> flt v finf = false).
Proof. exact inf_demo. Qed.

(** *** C46 *)
Theorem C46_no_nan_state : forall c o, Reachable c o ->
  no_nan (s_pbest_cost (o_swarm o)) /\ fisnan (s_best_cost (o_swarm o)) = false /\ no_nan (o_cost_history o).
Proof. exact reachable_no_nan. Qed.
Print Assumptions C46_no_nan_state.
Theorem C46_no_nan_returned : forall c e pool iters o o' cost pos, Reachable c o ->
  optimize c e pool iters o = (o', Ok (cost, pos)) -> fisnan cost = false.
Proof. exact returned_nonan. Qed.
Print Assumptions C46_no_nan_returned.
(** A run in which one particle always costs NaN. *)
Example C46_example : exists c o e o' v, Reachable c o /\ e_obj e = nan_obj /\ optimize c e None 3 o = (o', Ok v).
Proof. exact nan_demo. Qed.

(** *** C51 *)
Theorem C51_mean_history : forall c e pool iters o o' r, optimize c e pool iters o = (o', r) ->
  exists M, o_mean_pbest_history o' = o_mean_pbest_history o ++ M /\ nonincreasing M.
Proof. exact mean_history. Qed.
Print Assumptions C51_mean_history.
Example C51_example : exists c o e o' cost pos, Fresh c o /\ Reachable c o /\ o_top o = star /\ c_ftol c = fninf /\
  optimize c e None 4 o = (o', Ok (cost, pos)).
Proof. exact star_demo. Qed.
