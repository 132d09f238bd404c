(** Concrete cases meeting the hypotheses of the run and topology theorems. *)
From Coq Require Import String ZArith List Arith Bool Lia Reals Lra.
From Verif Require Import Prelude ListFacts F64 F64Facts Num Np Handlers Swarms Operators Generators Topology Optimizers Spec
  RunMain RunMisc TopoFacts TopoGraphs Demo.
Import ListNotations.
Local Open Scope string_scope.
Local Open Scope list_scope.

(** A call that raises, read off with a test. *)
Definition d_fail (c : config) (top : topology) (dr : create_draws) (e : env) (pool : option nat) (iters : nat)
    (P : ostate -> exn -> bool) : bool :=
  match construct c top dr with
  | Ok o => match optimize c e pool iters o with (o', Err x) => P o' x | (_, Ok _) => false end
  | Err _ => false
  end.
Lemma d_fail_test : forall c top dr e pool iters P, d_fail c top dr e pool iters P = true ->
  exists o o' x, construct c top dr = Ok o /\ Fresh c o /\ o_top o = top /\
    optimize c e pool iters o = (o', Err x) /\ P o' x = true.
Proof.
  unfold d_fail. intros c top dr e pool iters P H. destruct (construct c top dr) as [o|x] eqn:E; [|discriminate].
  destruct (optimize c e pool iters o) as [o' [v|x]] eqn:E1; [discriminate|].
  destruct (construct_top _ _ _ _ E). exists o, o', x. auto 10.
Qed.

(** *** Personal bests: three particles; the second improves, the third got NaN *)
Definition x_swarm : fswarm :=
  mkSwarm (N := F64num) [[F 1; F 2]; [F 3; F 4]; [F 5; F 6]] [] 3 2 d_options
    [[F 7; F 7]; [F 8; F 8]; [F 9; F 9]] BPEmpty [F 1; F 5; F 2] finf false [F 1; F 4; fnan].
Lemma x_pbest : exists pp pc, compute_pbest x_swarm = Ok (pp, pc).
Proof.
  assert (E : is_ok (compute_pbest x_swarm) = true) by (vm_compute; reflexivity).
  apply is_ok_ex in E. destruct E as ([pp pc] & E). eauto.
Qed.
Lemma x_costs : map (fun p => flt (fst p) (snd p)) (combine (s_current_cost x_swarm) (s_pbest_cost x_swarm)) = [false; true; false].
Proof. vm_compute. reflexivity. Qed.

(** *** Runs *)
(** The early stop: tolerance 10, the window of one iteration. *)
Definition stop_c : config :=
  {| c_kind := GlobalBest; c_n := 3; c_d := 2; c_options := d_options; c_bounds := Some d_bounds; c_clamp := None;
     c_center := repeat fone 2; c_ftol := F 10; c_ftol_iter := 1; c_init := None;
     c_bh := "nearest"; c_vh := "unmodified"; c_oh := [] |}.
Lemma stop_ok : is_ok (d_run stop_c star (d_cd 0 3 2) run_e None 9) = true.
Proof. vm_compute. reflexivity. Qed.
Lemma stop_len : d_test 0 (d_run stop_c star (d_cd 0 3 2) run_e None 9) (fun o' _ _ => length (o_cost_history o')) = 2.
Proof. vm_compute. reflexivity. Qed.
Lemma stop_demo : exists c o e o' v, Fresh c o /\ optimize c e None 9 o = (o', Ok v) /\ length (o_cost_history o') = 2.
Proof.
  destruct (d_run_test _ _ _ _ _ _ _ _ _ _ stop_ok stop_len) as (o & o' & cost & pos & _ & F & _ & E & L).
  exists stop_c, o, run_e, o', (cost, pos). auto.
Qed.

(** The objective raises in its third evaluation. *)
Definition bad_obj (t : nat) (X : fmatrix) : res (list f64) := if Nat.eqb t 2 then Err (UserError 7) else d_obj t X.
Definition bad_e : env := d_env 3 2 bad_obj.
Definition is_user (x : exn) : bool := match x with UserError 7 => true | _ => false end.
Lemma is_user_eq : forall x, is_user x = true -> x = UserError 7.
Proof. intros x H. destruct x; try discriminate. repeat (destruct code; try discriminate). reflexivity. Qed.
Lemma bad_run : d_fail (run_c GlobalBest) star (d_cd 0 3 2) bad_e None 5
  (fun o' x => is_user x && Nat.eqb (length (o_pos_history o')) 2) = true.
Proof. vm_compute. reflexivity. Qed.
Lemma bad_demo : exists c o e o', Fresh c o /\ optimize c e None 5 o = (o', Err (UserError 7)) /\
  length (o_pos_history o') = 2 /\
  (forall i p k X n, te_knn (e_top e i) p k X <> Err (UserError n)) /\
  (forall i X n, te_delaunay (e_top e i) X <> Err (UserError n)).
Proof.
  destruct (d_fail_test _ _ _ _ _ _ _ bad_run) as (o & o' & x & _ & F & _ & E & H).
  apply andb_prop in H. destruct H as [H1 H2]. apply is_user_eq in H1. apply Nat.eqb_eq in H2. subst x.
  exists (run_c GlobalBest), o, bad_e, o'. split; [exact F|]. split; [exact E|]. split; [exact H2|].
  split; intros; discriminate.
Qed.

(** The second particle always costs NaN. *)
Definition nan_obj (_ : nat) (X : fmatrix) : res (list f64) :=
  Ok (match X with a :: _ :: r => sq a :: fnan :: map sq r | _ => map sq X end).
Lemma nan_ok : is_ok (d_run (run_c GlobalBest) star (d_cd 0 3 2) (d_env 3 2 nan_obj) None 3) = true.
Proof. vm_compute. reflexivity. Qed.
Lemma nan_demo : exists c o e o' v, Reachable c o /\ e_obj e = nan_obj /\ optimize c e None 3 o = (o', Ok v).
Proof.
  destruct (d_run_ok _ _ _ _ _ _ nan_ok) as (o & o' & v & C & E).
  exists (run_c GlobalBest), o, (d_env 3 2 nan_obj), o', v. split. eapply Reach_construct; eauto. split; [reflexivity|exact E].
Qed.

(** Nothing below infinity. *)
Definition inf_obj (_ : nat) (X : fmatrix) : res (list f64) := Ok (map (fun _ => finf) X).
Lemma inf_demo : exists c o e, Fresh c o /\ t_kind (o_top o) = Star /\ 2 <= s_d (o_swarm o) /\
  (forall X cs, e_obj e 0 X = Ok cs -> forall v, In v cs -> flt v finf = false).
Proof.
  destruct (d_run_ok _ _ _ _ _ _ star_run_ok) as (o & o' & v & C & E).
  exists (run_c GlobalBest), o, (d_env 3 2 inf_obj). destruct (construct_top _ _ _ _ C) as [F T].
  split; [exact F|]. split; [rewrite T; reflexivity|].
  split.
  - assert (D : forall r, construct (run_c GlobalBest) star (d_cd 0 3 2) = r -> match r with Ok o => s_d (o_swarm o) | Err _ => 0 end = 2).
    { intros r <-. vm_compute. reflexivity. }
    specialize (D _ C). cbn in D. rewrite D. auto.
  - intros X cs H v0 I. cbn in H. injection H as <-. apply in_map_iff in I. destruct I as (? & <- & _). vm_compute. reflexivity.
Qed.

(** A session followed by reset, and a new object from the same draws. *)
Lemma reset_demo : exists c top dr0 dr o k o1 o2 o3,
  construct c top dr0 = Ok o /\ Session c o [k] o1 /\ reset c dr o1 = Ok o2 /\ construct c top dr = Ok o3 /\
  t_kind top = Star /\ 0 < length (o_cost_history o1).
Proof.
  assert (G : d_test false (d_run (run_c GlobalBest) star (d_cd 0 3 2) run_e None 4) (fun o' _ _ => Nat.ltb 0 (length (o_cost_history o'))) = true)
    by (vm_compute; reflexivity).
  destruct (d_run_test _ _ _ _ _ _ _ _ _ _ star_run_ok G) as (o & o1 & cost & pos & C & F & T & E & L). apply Nat.ltb_lt in L.
  assert (C3 : is_ok (construct (run_c GlobalBest) star (d_cd 1 3 2)) = true) by (vm_compute; reflexivity).
  apply is_ok_ex in C3. destruct C3 as (o3 & C3).
  destruct (reset_total (run_c GlobalBest) star (d_cd 1 3 2) o1) as (o2 & R). { exists o3. exact C3. }
  exists (run_c GlobalBest), star, (d_cd 0 3 2), (d_cd 1 3 2), o, (mkCall run_e None 4), o1, o2, o3.
  split; [exact C|]. split; [|auto]. change [mkCall run_e None 4] with ([] ++ [mkCall run_e None 4]).
  eapply Session_snoc; [apply Session_nil|exact E].
Qed.
Lemma rowwise_demo : forall t, rowwise (e_obj run_e t).
Proof. intros t. exists (fun r => Ok (sq r)). reflexivity. Qed.

(** A static ring whose later queries would answer differently. *)
Definition other_te : nat -> topo_env := fun t => match t with O => d_te 3 | _ => mkTe (fun _ _ _ => Err ValueError) (fun _ => Err ValueError) [] end.
Lemma static_ok : is_ok (d_run (run_c LocalBest) (topo Ring true) (d_cd 0 3 2) (with_tops run_e other_te) None 4) = true.
Proof. vm_compute. reflexivity. Qed.
Lemma static_demo : exists c o e f f', t_static (o_top o) = true /\ Fresh c o /\ f 0 = f' 0 /\ f 1 <> f' 1 /\
  exists o' v, optimize c (with_tops e f) None 4 o = (o', Ok v).
Proof.
  destruct (d_run_ok _ _ _ _ _ _ static_ok) as (o & o' & v & C & E). destruct (construct_top _ _ _ _ C) as [F T].
  exists (run_c LocalBest), o, run_e, other_te, (fun _ => d_te 3). split; [rewrite T; reflexivity|]. split; [exact F|].
  split; [reflexivity|]. split; [discriminate|]. exists o', v. exact E.
Qed.
Definition nb_some (t : topology) : bool := match t_nb t with Some _ => true | None => false end.
Lemma static_session_ok : d_test false (d_run (run_c LocalBest) (topo Ring true) (d_cd 0 3 2) run_e None 1) (fun o' _ _ => nb_some (o_top o') && t_static (o_top o')) = true.
Proof. vm_compute. reflexivity. Qed.

(** One-neighbour static ring: 31 iterations work. *)
Definition one_options : options F64num :=
  [("c1", dec 5 10); ("c2", dec 3 10); ("w", dec 9 10); ("k", PInt 1); ("p", PInt 2)].
Definition one_c : config :=
  {| c_kind := LocalBest; c_n := 2; c_d := 1; c_options := one_options; c_bounds := None; c_clamp := None;
     c_center := [fone]; c_ftol := fninf; c_ftol_iter := 1; c_init := None;
     c_bh := "nearest"; c_vh := "unmodified"; c_oh := [] |}.
Definition one_e : env := with_tops (d_env 2 1 d_obj) (fun _ => mkTe (fun _ _ _ => Ok [[0]; [1]]) (fun _ => Err ValueError) []).
Lemma one_ok : is_ok (d_run one_c (topo Ring true) (d_cd 0 2 1) one_e None 31) = true.
Proof. vm_compute. reflexivity. Qed.
Definition is_index (x : exn) : bool := match x with IndexError => true | _ => false end.
Lemma one_fails : d_fail one_c (topo Ring true) (d_cd 0 2 1) one_e None 32 (fun o' x => is_index x) = true.
Proof. vm_compute. reflexivity. Qed.
Lemma one_demo : exists c top dr o o1 v o2,
  construct c top dr = Ok o /\ t_nb top = None /\ t_static top = true /\ t_kind top = Ring /\ c_kind c <> GlobalBest /\ int_option c "k" 1 /\
  optimize c one_e None 31 o = (o1, Ok v) /\ optimize c one_e None 32 o = (o2, Err IndexError).
Proof.
  destruct (d_run_ok _ _ _ _ _ _ one_ok) as (o & o' & v & C & E).
  destruct (d_fail_test _ _ _ _ _ _ _ one_fails) as (o0 & o2 & x & C' & _ & _ & E' & X).
  assert (o0 = o) by congruence. subst o0. assert (x = IndexError) by (destruct x; try discriminate; reflexivity). subst x.
  exists one_c, (topo Ring true), (d_cd 0 2 1), o, o', v, o2. split; [exact C|]. split; [reflexivity|]. split; [reflexivity|].
  split; [reflexivity|]. split; [discriminate|]. split; [reflexivity|]. auto.
Qed.

(** *** Topologies *)
Lemma random_example : choice_ok 4 1 [[1]; [0]; [3]; [2]] /\
  components 4 (adj_drawn [[1]; [0]; [3]; [2]]) = 2 /\
  exists adj, random_adj 1 4 1 [[1]; [0]; [3]; [2]] = Ok adj /\ adj 0 3 = true.
Proof.
  split; [|split].
  - split; [reflexivity|]. intros i row E. destruct i as [|[|[|[|i]]]]; cbn in E; try (destruct i; discriminate);
      injection E as <-; (split; [constructor; [intros []|constructor]|]); (split; [reflexivity|]); intros j [<-|[]]; lia.
  - vm_compute. reflexivity.
  - assert (E : match random_adj 1 4 1 [[1]; [0]; [3]; [2]] with Ok a => a 0 3 | Err _ => false end = true) by (vm_compute; reflexivity).
    destruct (random_adj 1 4 1 [[1]; [0]; [3]; [2]]) as [adj|]; [|discriminate]. exists adj. auto.
Qed.
Lemma x_gbest : no_nan (s_pbest_cost x_swarm) /\
  forallb (fun k => match compute_gbest (d_te 3) (mkGa (Some 2%Z) (Some 2%Z) (Some 1%Z)) (topo k false) x_swarm with
                    | (t', Ok (_, bc, _)) => covers_b 3 t' && feq bc fone
                    | _ => false
                    end) [Ring; VonNeumann; Pyramid; Random] = true.
Proof.
  split; [|vm_compute; reflexivity].
  assert (E : forallb (fun v => negb (fisnan v)) (s_pbest_cost x_swarm) = true) by (vm_compute; reflexivity).
  rewrite forallb_forall in E. intros v I. apply E in I. apply negb_true_iff in I. exact I.
Qed.

(** Topologies without neighbour search. *)
Definition few_swarm : fswarm :=
  mkSwarm (N := F64num) (repeat (repeat (F 1) 4) 3) [] 3 4 d_options
    [repeat (F 7) 4; repeat (F 8) 4; repeat (F 9) 4] BPEmpty [F 4; F 1; F 2] finf false [F 1; F 4; fnan].
Lemma few_gbest : no_nan (s_pbest_cost few_swarm) /\ s_n few_swarm <= s_d few_swarm /\ length (s_pbest_cost few_swarm) = 3 /\
  forallb (fun k => match compute_gbest (d_te 3) (mkGa None None None) (topo k false) few_swarm with (_, Ok _) => true | _ => false end) [Star; Pyramid] = true.
Proof.
  split; [|split; [cbn; lia|split; [reflexivity|vm_compute; reflexivity]]].
  assert (E : forallb (fun v => negb (fisnan v)) (s_pbest_cost few_swarm) = true) by (vm_compute; reflexivity).
  rewrite forallb_forall in E. intros v I. apply E in I. apply negb_true_iff in I. exact I.
Qed.
Lemma one_gbest : no_nan (s_pbest_cost x_swarm) /\ length (s_pbest_cost x_swarm) = s_n x_swarm /\ length (s_pbest_pos x_swarm) = s_n x_swarm /\
  match compute_gbest (d_te 3) (mkGa (Some 2%Z) (Some 1%Z) None) (topo Ring false) x_swarm with (_, Ok _) => true | _ => false end = true.
Proof. split; [exact (proj1 x_gbest)|]. split; [reflexivity|]. split; [reflexivity|vm_compute; reflexivity]. Qed.
