(** The run results in the form in which they are stated as properties. *)
From Coq Require Import String ZArith List Arith Bool Lia.
From Verif Require Import Prelude ListFacts F64 F64Facts Num Np NpFacts Handlers Swarms Operators
  Generators Topology Optimizers Spec RunFacts PbestFacts ShapeFacts GbestFacts RunBest RunMain RunResults
  RunStop RunMono RunRaise RunMisc TopoFacts TopoRun.
Import ListNotations.

Lemma fresh_np : forall c o, Fresh c o -> s_best_np (o_swarm o) = false /\ s_best_cost (o_swarm o) = finf /\
  o_pos_history o = [] /\ o_cost_history o = [] /\ s_pbest_pos (o_swarm o) = s_position (o_swarm o).
Proof. intros c o F. destruct (Fresh_inv _ _ F) as (d & p & v & E & E1 & _ & _ & E2 & _). rewrite E, E1, E2. repeat split. Qed.

Lemma pbest_strict : forall (s : fswarm) pp pc, compute_pbest s = Ok (pp, pc) ->
  length pp = length (s_position s) /\ length pc = length (s_position s) /\
  forall a new old x xo, nth_error (s_current_cost s) a = Some new -> nth_error (s_pbest_cost s) a = Some old ->
    nth_error (s_position s) a = Some x -> nth_error (s_pbest_pos s) a = Some xo ->
    (flt new old = true -> nth_error pp a = Some x /\ nth_error pc a = Some new) /\
    (flt new old = false -> nth_error pp a = Some xo /\ nth_error pc a = Some old).
Proof.
  intros s pp pc H. pose proof (compute_pbest_lengths _ _ _ H) as (L1 & L2 & L3 & L4 & L5).
  split; [flia|]. split; [flia|]. intros a new old x xo E1 E2 E3 E4.
  destruct (compute_pbest_nth _ _ _ _ _ _ _ _ H E1 E2 E3 E4) as [Q1 Q2].
  split; intros F; rewrite F in Q1, Q2; auto.
Qed.
Lemma pbest_nan : forall (s : fswarm) pp pc a new old x xo, compute_pbest s = Ok (pp, pc) ->
  nth_error (s_current_cost s) a = Some new -> nth_error (s_pbest_cost s) a = Some old ->
  nth_error (s_position s) a = Some x -> nth_error (s_pbest_pos s) a = Some xo ->
  fisnan new = true -> nth_error pp a = Some xo /\ nth_error pc a = Some old.
Proof.
  intros s pp pc a new old x xo H E1 E2 E3 E4 N. destruct (pbest_strict _ _ _ H) as (_ & _ & G).
  apply (G a new old x xo E1 E2 E3 E4). destruct new; try discriminate. reflexivity.
Qed.

Lemma star_first_min : forall c e pool iters o o' cost pos, Fresh c o -> t_kind (o_top o) = Star ->
  optimize c e pool iters o = (o', Ok (cost, pos)) ->
  exists C, logged e pool (o_pos_history o') C /\ all_evaluated (c_n c) (o_pos_history o') C /\
    (forall a t x w, evaluated (o_pos_history o') C a t x w -> flt w cost = false) /\
    (exists a t x, evaluated (o_pos_history o') C a t x cost) /\
    (exists a t w, evaluated (o_pos_history o') C a t pos w /\ feq w cost = true).
Proof.
  intros c e pool iters o o' cost pos F K H. destruct (fresh_np _ _ F) as (N1 & N2 & N3 & _).
  destruct (star_returned c e pool iters o o' cost pos H K) as (h & C & E1 & E2 & E3 & _ & _ & E4 & _ & E5).
  { rewrite N2. reflexivity. }
  rewrite N3 in E1. cbn in E1. rewrite E1. destruct (E5 N1). exists C. auto 10.
Qed.
Lemma neighbor_first_pair : forall c e pool iters o o' cost pos nb, Fresh c o -> t_kind (o_top o) <> Star ->
  optimize c e pool iters o = (o', Ok (cost, pos)) ->
  t_nb (o_top o') = Some nb -> covers (c_n c) (nb_rows nb) ->
  exists C, logged e pool (o_pos_history o') C /\ all_evaluated (c_n c) (o_pos_history o') C /\
    (forall a t x w, evaluated (o_pos_history o') C a t x w -> flt w cost = false) /\
    ((exists a t w, evaluated (o_pos_history o') C a t pos w /\ feq w cost = true) \/
     (cost = finf /\ exists a, nth_error (s_position (o_swarm o)) a = Some pos /\ a < c_n c)).
Proof.
  intros c e pool iters o o' cost pos nb F K H E CV. destruct (fresh_np _ _ F) as (N1 & N2 & N3 & _ & N5).
  destruct (neighbor_returned c e pool iters o o' cost pos H K) as (h & C & E1 & E2 & E3 & E4 & E5); auto.
  - apply (Fresh_RI _ _ F).
  - exists nb. auto.
  - rewrite N3 in E1. cbn in E1. rewrite E1. exists C. rewrite <- N5. auto 10.
Qed.
Lemma neighbor_history : forall c e pool iters o o' r, Reachable c o -> t_kind (o_top o) <> Star ->
  (forall nb, t_nb (o_top o) = Some nb -> covers (c_n c) (nb_rows nb)) ->
  optimize c e pool iters o = (o', r) -> pool <> Some 0 ->
  exists h B, o_pos_history o' = o_pos_history o ++ h /\ o_cost_history o' = o_cost_history o ++ B /\
    (queries_cover (c_n c) e h -> nonincreasing B).
Proof. intros. eapply optimize_minv; eauto. eapply Reachable_RI; eauto. Qed.
Lemma star_history_mono : forall c o, Reachable c o -> t_kind (o_top o) = Star -> nonincreasing (o_cost_history o).
Proof. intros c o R K. apply (star_history c o R K). Qed.

(** Number of iterations of a call that returned. *)
Lemma stop_rule : forall c e pool iters o o' v, optimize c e pool iters o = (o', Ok v) ->
  exists B, o_cost_history o' = o_cost_history o ++ B /\ length B <= iters /\
    (forall t, S t < length B -> ~ window (c_ftol c) (c_ftol_iter c) (s_best_cost (o_swarm o)) B t) /\
    (length B < iters -> exists t, length B = S t /\
       window (c_ftol c) (c_ftol_iter c) (s_best_cost (o_swarm o)) B t).
Proof.
  intros c e pool iters o o' v H. pose proof (optimize_pool_ok _ _ _ _ _ _ _ H) as NP.
  destruct (optimize_stop _ _ _ _ _ _ _ H NP) as (B & E1 & E2 & E3 & [(_ & E4)|((x & E4) & _)]); [|discriminate].
  exists B. auto 10.
Qed.
Lemma reachable_aligned : forall c o, Reachable c o ->
  length (o_mean_pbest_history o) = length (o_cost_history o) /\
  length (o_mean_neighbor_history o) = length (o_cost_history o) /\
  length (o_pos_history o) = length (o_cost_history o) /\
  length (o_velocity_history o) = length (o_cost_history o).
Proof. intros c o R. apply (Reachable_RI _ _ R). Qed.
Lemma reachable_no_nan : forall c o, Reachable c o ->
  no_nan (s_pbest_cost (o_swarm o)) /\ fisnan (s_best_cost (o_swarm o)) = false /\ no_nan (o_cost_history o).
Proof.
  intros c o R. destruct (Reachable_nonan _ _ R) as (A & B & D).
  split; [|split; auto]; intros v Iv; [exact (proj1 (Forall_forall _ _) A v Iv)|exact (proj1 (Forall_forall _ _) D v Iv)].
Qed.
Lemma objective_error : forall c e pool iters o o' code,
  optimize c e pool iters o = (o', Err (UserError code)) ->
  (forall i p k X n, te_knn (e_top e i) p k X <> Err (UserError n)) ->
  (forall i X n, te_delaunay (e_top e i) X <> Err (UserError n)) ->
  exists h C B M V, length h < iters /\ length B = length h /\ length M = length h /\ length V = length h /\
    o_pos_history o' = o_pos_history o ++ h /\ o_cost_history o' = o_cost_history o ++ B /\
    o_mean_neighbor_history o' = o_mean_neighbor_history o ++ B /\
    o_mean_pbest_history o' = o_mean_pbest_history o ++ M /\
    o_velocity_history o' = o_velocity_history o ++ V /\
    logged e pool h C /\ all_evaluated (c_n c) h C /\
    raises (e_obj e (length h)) pool (s_position (o_swarm o')) (UserError code) /\
    length (s_pbest_cost (o_swarm o')) = c_n c /\
    forall a x0 x w, nth_error (s_pbest_pos (o_swarm o)) a = Some x0 ->
      nth_error (s_pbest_pos (o_swarm o')) a = Some x -> nth_error (s_pbest_cost (o_swarm o')) a = Some w ->
      best_of_run h C a x0 x w.
Proof.
  intros c e pool iters o o' code H K D. apply (objective_exception _ _ _ _ _ _ _ H).
  intros i. split; [intros p k X n; apply K|intros X n; apply D].
Qed.

(** The best of each neighbourhood, for the topologies with neighbour lists. *)
Lemma neighborhood_best : forall te a t (s : fswarm) t' bp bc np,
  t_kind t <> Star -> no_nan (s_pbest_cost s) -> ~ one_neighbor a t ->
  (t_kind t = Pyramid -> s_d s < s_n s) -> (t_kind t = VonNeumann -> 0 < s_d s) ->
  compute_gbest te a t s = (t', Ok (bp, bc, np)) ->
  exists nb m, t_nb t' = Some nb /\ bp = BPMat m /\
    Forall2 (fun row r => exists j v, leads (s_pbest_cost s) row j v /\ nth_error (s_pbest_pos s) j = Some r) (nb_rows nb) m /\
    (exists row j, In row (nb_rows nb) /\ In j row /\ nth_error (s_pbest_cost s) j = Some bc) /\
    (forall row k w, In row (nb_rows nb) -> In k row -> nth_error (s_pbest_cost s) k = Some w -> fle bc w = true).
Proof.
  intros te a t s t' bp bc np K N ON P V H.
  assert (N' : nonan (s_pbest_cost s)) by (apply Forall_forall; auto).
  destruct (gbest_rows _ _ _ _ _ _ K H) as [(nb & E & G)|[(_ & [O|(O1 & O2)])|(O1 & O2 & _)]].
  - destruct (neighborhood_rows _ _ _ _ _ N' G) as (m & -> & F & A & B). exists nb, m.
    auto.
  - contradiction.
  - specialize (V O1). lia.
  - specialize (P O1). lia.
Qed.
Lemma neighborhood_covered : forall te a t (s : fswarm) t' bp bc np nb,
  t_kind t <> Star -> no_nan (s_pbest_cost s) -> 
  compute_gbest te a t s = (t', Ok (bp, bc, np)) -> t_nb t' = Some nb -> covers (s_n s) (nb_rows nb) ->
  length (s_pbest_cost s) = s_n s ->
  In bc (s_pbest_cost s) /\ forall w, In w (s_pbest_cost s) -> fle bc w = true.
Proof.
  intros te a t s t' bp bc np nb K N H E CV L.
  assert (N' : nonan (s_pbest_cost s)) by (apply Forall_forall; auto).
  destruct (gbest_neighbor_ok _ _ _ _ _ _ _ _ N' K H) as (_ & I & G). split; auto. apply G; [flia|]. exists nb. auto.
Qed.
Lemma neighborhood_best' : forall te a t (s : fswarm) t' bp bc np,
  t_kind t <> Star -> no_nan (s_pbest_cost s) ->
  ~ (t_kind t = Ring /\ ga_k a = Some 1%Z) -> ~ (t_kind t = VonNeumann /\ ga_r a = Some 0%Z) ->
  (t_kind t = Pyramid -> s_d s < s_n s) -> (t_kind t = VonNeumann -> 0 < s_d s) ->
  compute_gbest te a t s = (t', Ok (bp, bc, np)) ->
  exists nb m, t_nb t' = Some nb /\ bp = BPMat m /\
    Forall2 (fun row r => exists j v, leads (s_pbest_cost s) row j v /\ nth_error (s_pbest_pos s) j = Some r) (nb_rows nb) m /\
    (exists row j, In row (nb_rows nb) /\ In j row /\ nth_error (s_pbest_cost s) j = Some bc) /\
    (forall row k w, In row (nb_rows nb) -> In k row -> nth_error (s_pbest_cost s) k = Some w -> fle bc w = true).
Proof. intros te a t s t' bp bc np K N A B. apply neighborhood_best; auto. unfold one_neighbor. tauto. Qed.
