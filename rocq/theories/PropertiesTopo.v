(** Properties of the topologies (C07 examples, C30-C34). *)
From Coq Require Import String ZArith List Sorted Arith Bool Reals.
From Verif Require Import Prelude F64 Num Np Handlers Swarms Operators Generators Topology Optimizers Spec
  TopoFacts TopoGraphs TopoRun RunClaims Demo Witness Examples.
Import ListNotations.
Local Open Scope nat_scope.

(** The hypotheses of [C07_knn_covers]: three particles, two of them at the same point. *)
Example C07_example : knn_contract l1dist 2 (w7_X 0) (w7_rows 0) /\ at_most_coincide l1dist 2 (w7_X 0) /\
  (forall x, l1dist x x = 0%R) /\ (forall x y, (0 <= l1dist x y)%R).
Proof. exact w7_covered. Qed.

(** *** C30 *)
Theorem C30_delannoy_counts : forall d r, counts_ball d r (delannoy d r).
Proof. exact delannoy_counts. Qed.
Print Assumptions C30_delannoy_counts.
Theorem C30_delannoy_sym : forall d r, delannoy d r = delannoy r d.
Proof. exact delannoy_sym. Qed.
Print Assumptions C30_delannoy_sym.
Theorem C30_delannoy_pos : forall d r, 1 <= delannoy d r.
Proof. exact delannoy_pos. Qed.
Print Assumptions C30_delannoy_pos.
Example C30_example : delannoy 3 2 = 25 /\ delannoy 2 1 = 5.
Proof. vm_compute. auto. Qed.

(** *** C31 *)
Theorem C31_random_graph : forall n k ch adj, random_adj 1 n k ch = Ok adj ->
  (forall i j, i < n -> j < n -> path n adj i j) /\
  (forall i j, i < n -> j < n -> adj i j = adj j i) /\ (forall i, adj i i = true) /\
  (forall i j row, nth_error ch i = Some row -> In j row -> adj i j = true /\ adj j i = true).
Proof. exact random_graph. Qed.
Print Assumptions C31_random_graph.
Theorem C31_random_degree : forall n k ch adj i, random_adj 1 n (Z.of_nat k) ch = Ok adj -> choice_ok n k ch -> i < n ->
  exists nbs, NoDup nbs /\ length nbs = k /\ forall j, In j nbs -> j < n /\ j <> i /\ adj i j = true /\ adj j i = true.
Proof. exact random_degree. Qed.
Print Assumptions C31_random_degree.
(** Edges that were not drawn only join particles which the drawn graph separates. *)
Theorem C31_random_extra : forall n k ch adj i j, random_adj 1 n k ch = Ok adj -> i < n -> j < n -> adj i j = true ->
  i = j \/ (exists row, nth_error ch i = Some row /\ In j row) \/ (exists row, nth_error ch j = Some row /\ In i row) \/
  ~ path n (fun a b => existsb (Nat.eqb b) (nth a ch [])) i j.
Proof. exact random_graph_extra. Qed.
Print Assumptions C31_random_extra.
(** One pass of the repair loop is always enough, and more passes change nothing. *)
Theorem C31_random_total : forall n k ch, (0 <= k <= Z.of_nat n - 1)%Z ->
  exists adj, forall fuel, random_adj (S fuel) n k ch = Ok adj.
Proof. exact random_total. Qed.
Print Assumptions C31_random_total.
(** Two separate pairs are joined. *)
Example C31_example : choice_ok 4 1 [[1]; [0]; [3]; [2]] /\
  components 4 (adj_drawn [[1]; [0]; [3]; [2]]) = 2 /\
  exists adj, random_adj 1 4 1 [[1]; [0]; [3]; [2]] = Ok adj /\ adj 0 3 = true.
Proof. exact random_example. Qed.

(** *** C32 *)
Theorem C32_neighborhood_best : forall te a t (s : fswarm) t' bp bc np,
  t_kind t <> Star -> no_nan (s_pbest_cost s) ->
  ~ (t_kind t = Ring /\ ga_k a = Some 1%Z) -> ~ (t_kind t = VonNeumann /\ ga_r a = Some 0%Z) ->
  (t_kind t = Pyramid -> s_d s < s_n s) -> (t_kind t = VonNeumann -> 0 < s_d s) ->
  compute_gbest te a t s = (t', Ok (bp, bc, np)) ->
  exists nb m, t_nb t' = Some nb /\ bp = BPMat m /\
    Forall2 (fun row r => exists j v, leads (s_pbest_cost s) row j v /\ nth_error (s_pbest_pos s) j = Some r) (nb_rows nb) m /\
    (exists row j, In row (nb_rows nb) /\ In j row /\ nth_error (s_pbest_cost s) j = Some bc) /\
    (forall row k w, In row (nb_rows nb) -> In k row -> nth_error (s_pbest_cost s) k = Some w -> fle bc w = true).
Proof. exact neighborhood_best'. Qed.
Print Assumptions C32_neighborhood_best.
Theorem C32_covered : forall te a t (s : fswarm) t' bp bc np nb,
  t_kind t <> Star -> no_nan (s_pbest_cost s) ->
  compute_gbest te a t s = (t', Ok (bp, bc, np)) -> t_nb t' = Some nb -> covers (s_n s) (nb_rows nb) ->
  length (s_pbest_cost s) = s_n s ->
  In bc (s_pbest_cost s) /\ forall w, In w (s_pbest_cost s) -> fle bc w = true.
Proof. exact neighborhood_covered. Qed.
Print Assumptions C32_covered.
Example C32_example : no_nan (s_pbest_cost x_swarm) /\
  forallb (fun k => match compute_gbest (d_te 3) (mkGa (Some 2%Z) (Some 2%Z) (Some 1%Z)) (topo k false) x_swarm with
                    | (t', Ok (_, bc, _)) => covers_b 3 t' && feq bc fone
                    | _ => false
                    end) [Ring; VonNeumann; Pyramid; Random] = true.
Proof. exact x_gbest. Qed.

(** The star, and the pyramid with at most as many particles as dimensions: everybody is everybody's neighbour, and the
    pyramid then sends all particles to the one best personal best. *)
Theorem C32_complete : forall te a t (s : fswarm) t' g, (t_kind t = Star /\ t_nb t = None) \/ (t_kind t = Pyramid /\ s_n s <= s_d s) ->
  compute_gbest te a t s = (t', g) -> exists nb, t_nb t' = Some nb /\ complete (s_n s) (nb_rows nb).
Proof. exact complete_lists. Qed.
Print Assumptions C32_complete.
Theorem C32_pyramid_few : forall te a t (s : fswarm) t' bp bc np, t_kind t = Pyramid -> s_n s <= s_d s -> no_nan (s_pbest_cost s) ->
  compute_gbest te a t s = (t', Ok (bp, bc, np)) ->
  exists j v p, leads (s_pbest_cost s) (seq 0 (length (s_pbest_cost s))) j v /\ feq bc v = true /\ nth_error (s_pbest_pos s) j = Some p /\ bp = BPVec p /\ np = true.
Proof. exact pyramid_few. Qed.
Print Assumptions C32_pyramid_few.
Example C32_example_few : no_nan (s_pbest_cost few_swarm) /\ s_n few_swarm <= s_d few_swarm /\ length (s_pbest_cost few_swarm) = 3 /\
  forallb (fun k => match compute_gbest (d_te 3) (mkGa None None None) (topo k false) few_swarm with (_, Ok _) => true | _ => false end) [Star; Pyramid] = true.
Proof. exact few_gbest. Qed.
(** With a single neighbour (ring with k = 1, von Neumann with r = 0) every particle follows its own personal best. *)
Theorem C32_one_neighbor : forall te a t (s : fswarm) t' bp bc np,
  (t_kind t = Ring /\ ga_k a = Some 1%Z) \/ (t_kind t = VonNeumann /\ ga_r a = Some 0%Z) -> no_nan (s_pbest_cost s) ->
  length (s_pbest_cost s) = s_n s -> length (s_pbest_pos s) = s_n s -> compute_gbest te a t s = (t', Ok (bp, bc, np)) ->
  bp = BPMat (s_pbest_pos s) /\ In bc (s_pbest_cost s) /\ (forall w, In w (s_pbest_cost s) -> fle bc w = true).
Proof. exact one_neighbor_self. Qed.
Print Assumptions C32_one_neighbor.
Example C32_example_one : no_nan (s_pbest_cost x_swarm) /\ length (s_pbest_cost x_swarm) = s_n x_swarm /\ length (s_pbest_pos x_swarm) = s_n x_swarm /\
  match compute_gbest (d_te 3) (mkGa (Some 2%Z) (Some 1%Z) None) (topo Ring false) x_swarm with (_, Ok _) => true | _ => false end = true.
Proof. exact one_gbest. Qed.

(** *** C33 *)
(** Only the first iteration's queries matter. *)
Theorem C33_static_ignores_queries : forall c e pool iters o f f', t_static (o_top o) = true ->
  t_nb (o_top o) <> None \/ f 0 = f' 0 ->
  optimize c (with_tops e f) pool iters o = optimize c (with_tops e f') pool iters o.
Proof. exact static_ignores_queries. Qed.
Print Assumptions C33_static_ignores_queries.
(** The lists are kept over all later calls, and over reset. *)
Theorem C33_static_session : forall c o calls o' nb, Session c o calls o' -> t_static (o_top o) = true ->
  (t_kind (o_top o) = Pyramid -> s_d (o_swarm o) < s_n (o_swarm o)) -> t_nb (o_top o) = Some nb ->
  exists nb', t_nb (o_top o') = Some nb' /\ nb_rows nb' = nb_rows nb.
Proof. exact static_session_rows. Qed.
Print Assumptions C33_static_session.
Theorem C33_reset_keeps : forall c dr o o', reset c dr o = Ok o' -> o_top o' = o_top o.
Proof. exact reset_keeps_topology. Qed.
Print Assumptions C33_reset_keeps.
(** The lists of a topology that is not static, or that has no lists yet, are those of the current positions. *)
Theorem C33_dynamic_query : forall te a t (s : fswarm) t' g nb, t_kind t <> Star -> t_static t = false \/ t_nb t = None ->
  (t_kind t = Pyramid -> s_d s < s_n s) ->
  compute_gbest te a t s = (t', Ok g) -> t_nb t' = Some nb ->
  match t_kind t with
  | Star => False
  | Ring => exists p k, ga_p a = Some p /\ ga_k a = Some k /\ te_knn te p (Z.to_nat k) (s_position s) = Ok (nb_rows nb)
  | VonNeumann => exists p r, ga_p a = Some p /\ ga_r a = Some (Z.of_nat r) /\
                    te_knn te p (delannoy (s_d s) r) (s_position s) = Ok (nb_rows nb)
  | Pyramid => te_delaunay te (s_position s) = Ok (nb_rows nb)
  | Random => exists k adj, ga_k a = Some k /\ random_adj 1 (s_n s) k (te_choice te) = Ok adj /\
                forall i row, nth_error (nb_rows nb) i = Some row -> StronglySorted lt row /\
                  forall j, In j row <-> j < s_n s /\ adj i j = true
  end.
Proof. exact fresh_query. Qed.
Print Assumptions C33_dynamic_query.
(** A static ring whose queries after the first iteration would all raise. *)
Example C33_example : exists c o e f f', t_static (o_top o) = true /\ Fresh c o /\ f 0 = f' 0 /\ f 1 <> f' 1 /\
  exists o' v, optimize c (with_tops e f) None 4 o = (o', Ok v).
Proof. exact static_demo. Qed.

(** *** C34 *)
Theorem C34_one_neighbor_limit : forall c top dr o calls o', construct c top dr = Ok o -> t_nb top = None ->
  t_static top = true ->
  (t_kind top = Ring /\ c_kind c <> GlobalBest /\ int_option c "k" 1) \/ (t_kind top = VonNeumann /\ c_kind c = General /\ int_option c "r" 0) ->
  Session c o calls o' ->
  length (o_cost_history o') <= 31.
Proof. exact one_neighbor_configured. Qed.
Print Assumptions C34_one_neighbor_limit.
Theorem C34_one_neighbor_step : forall te a t nb (s : fswarm), t_static t = true ->
  (t_kind t = Ring /\ ga_k a = Some 1%Z) \/ (t_kind t = VonNeumann /\ ga_r a = Some 0%Z) -> ga_p a <> None ->
  t_nb t = Some nb ->
  (nb_ndim nb < 32 -> fst (compute_gbest te a t s) = mkTopo (t_kind t) true (Some (mkNb (nb_rows nb) (S (nb_ndim nb))))) /\
  (32 <= nb_ndim nb -> compute_gbest te a t s = (t, Err IndexError)).
Proof. exact one_neighbor_step. Qed.
Print Assumptions C34_one_neighbor_step.
(** 31 iterations return, the 32nd raises. *)
Example C34_example : exists c top dr o o1 v o2,
  construct c top dr = Ok o /\ t_nb top = None /\ t_static top = true /\ t_kind top = Ring /\ c_kind c <> GlobalBest /\ int_option c "k" 1 /\
  optimize c one_e None 31 o = (o1, Ok v) /\ optimize c one_e None 32 o = (o2, Err IndexError).
Proof. exact one_demo. Qed.
