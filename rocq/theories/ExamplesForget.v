(** Cases that meet the hypotheses of C78, and cases for which the claim fails without them. *)
From Coq Require Import String ZArith List Arith Bool Lia.
From Verif Require Import Prelude F64 F64Facts Num Np ListFacts Handlers Swarms Operators Generators Topology Optimizers Spec SpecRun SpecForget Demo ExamplesEverybody.
Import ListNotations.
Local Open Scope string_scope.
Local Open Scope list_scope.
Local Open Scope nat_scope.

(** Two calls: the first minimises the distance from (3, 3) less 1000, the second the distance. *)
Definition deep (r : frow) : f64 := fsub (far r) (F 1000).
Definition call1_e : env := all_e 3 2 (fun _ X => Ok (map deep X)).
Definition call2_e : env := all_e 3 2 (fun _ X => Ok (map far X)).
(** An objective that is infinite everywhere. *)
Definition call3_e : env := all_e 3 2 (fun _ X => Ok (map (fun _ => finf) X)).
Definition matb (n d : nat) (m : fmatrix) : bool := Nat.eqb (length m) n && forallb (fun r => Nat.eqb (length r) d) m.
Lemma matb_ok : forall n d m, matb n d m = true -> is_matrix n d m.
Proof.
  intros n d m H. apply andb_prop in H. destruct H as [H1 H2]. apply Nat.eqb_eq in H1. split; [exact H1|]. apply Forall_forall. intros r R. rewrite forallb_forall in H2. apply Nat.eqb_eq, H2, R.
Qed.
Definition shapedb (n d : nat) (s : fswarm) : bool := matb n d (s_position s) && matb n d (s_velocity s) && matb n d (s_pbest_pos s).
Lemma shapedb_ok : forall n d s, shapedb n d s = true -> shaped n d s.
Proof. intros n d s H. apply andb_prop in H. destruct H as [H H3]. apply andb_prop in H. destruct H as [H1 H2]. split; [|split]; apply matb_ok; assumption. Qed.
Definition belowb (e : env) (pool : option nat) (o : ostate) : bool :=
  match compute_objective_function pool (e_obj e 0) (s_position (o_swarm o)) with Ok cost => forallb (fun x => flt x finf) cost | Err _ => false end.
Lemma belowb_ok : forall e pool o, belowb e pool o = true -> starts_below_inf e pool o.
Proof. intros e pool o H cost C. unfold belowb in H. rewrite C in H. apply Forall_forall. rewrite forallb_forall in H. exact H. Qed.
(** After a call under [e1] the object meets the hypotheses for a call under [e]. *)
Definition ready_test (n d : nat) (c : config) (top : topology) (dr : create_draws) (e1 e : env) (P : ostate -> bool) (Q : ostate -> f64 * frow -> res (f64 * frow) -> bool) : bool :=
  match construct c top dr with
  | Err _ => false
  | Ok o0 =>
      match optimize c e1 None 3 o0 with
      | (o, Ok _) => Nat.eqb (c_n c) n && Nat.eqb (c_d c) d && shapedb n d (o_swarm o) && P o &&
          match optimize c e None 3 o with (o1, Ok v) => Q o v (snd (optimize c e None 3 (restarted o))) | _ => false end
      | _ => false
      end
  end.
Lemma ready_test_ok : forall n d c top dr e1 e P Q, ready_test n d c top dr e1 e P Q = true ->
  exists o0 o v0 o1 v, construct c top dr = Ok o0 /\ optimize c e1 None 3 o0 = (o, Ok v0) /\ shaped (c_n c) (c_d c) (o_swarm o) /\ P o = true /\
    optimize c e None 3 o = (o1, Ok v) /\ Q o v (snd (optimize c e None 3 (restarted o))) = true.
Proof.
  intros n d c top dr e1 e P Q H. unfold ready_test in H. destruct (construct c top dr) as [o0|]; [|discriminate].
  destruct (optimize c e1 None 3 o0) as [o [v0|]] eqn:E1; [|discriminate]. apply andb_prop in H. destruct H as [H HQ]. apply andb_prop in H. destruct H as [H HP].
  apply andb_prop in H. destruct H as [H HS]. apply andb_prop in H. destruct H as [HN HD]. apply Nat.eqb_eq in HN, HD.
  destruct (optimize c e None 3 o) as [o1 [v|]] eqn:E2; [|discriminate]. exists o0, o, v0, o1, v. rewrite HN, HD.
  split; [reflexivity|]. split; [exact E1|]. split; [apply shapedb_ok; exact HS|]. split; [exact HP|]. split; [exact E2|exact HQ].
Qed.
(** A ring: the second call returns a worse cost than the one remembered from the first. *)
Lemma forget_test : ready_test 3 2 (all_c LocalBest 3 2 2) (topo Ring false) (d_cd 2 3 2) call1_e call2_e (belowb call2_e None) (fun o v _ => flt (s_best_cost (o_swarm o)) (fst v)) = true.
Proof. vm_compute. reflexivity. Qed.
Lemma forget_demo : exists c top dr o0 e1 e o v0 o1 v, construct c top dr = Ok o0 /\ optimize c e1 None 3 o0 = (o, Ok v0) /\ t_kind (o_top o) <> Star /\ shaped (c_n c) (c_d c) (o_swarm o) /\ starts_below_inf e None o /\
  optimize c e None 3 o = (o1, Ok v) /\ flt (s_best_cost (o_swarm o)) (fst v) = true.
Proof.
  destruct (ready_test_ok _ _ _ _ _ _ _ _ _ forget_test) as (o0 & o & v0 & o1 & v & C & E1 & S & B & E2 & Q).
  exists (all_c LocalBest 3 2 2), (topo Ring false), (d_cd 2 3 2), o0, call1_e, call2_e, o, v0, o1, v. split; [exact C|]. split; [exact E1|].
  split. { destruct (construct_top _ _ _ _ C) as [_ T]. apply RunResults.optimize_topo in E1. destruct E1 as [K _]. rewrite K, T. discriminate. }
  split; [exact S|]. split; [exact (belowb_ok _ _ _ B)|]. split; [exact E2|exact Q].
Qed.
(** A star remembers: the object put back to its start returns something else. *)
Definition dearer (v : f64 * frow) (r : res (f64 * frow)) : bool := match r with Ok w => flt (fst v) (fst w) | Err _ => false end.
Lemma star_test : ready_test 3 2 (all_c GlobalBest 3 2 2) star (d_cd 2 3 2) call1_e call2_e (belowb call2_e None) (fun _ v r => dearer v r) = true.
Proof. vm_compute. reflexivity. Qed.
Lemma star_remembers : exists c top dr o0 e1 e o v0 o1 v w, construct c top dr = Ok o0 /\ optimize c e1 None 3 o0 = (o, Ok v0) /\ shaped (c_n c) (c_d c) (o_swarm o) /\ starts_below_inf e None o /\
  optimize c e None 3 o = (o1, Ok v) /\ snd (optimize c e None 3 (restarted o)) = Ok w /\ flt (fst v) (fst w) = true.
Proof.
  destruct (ready_test_ok _ _ _ _ _ _ _ _ _ star_test) as (o0 & o & v0 & o1 & v & C & E1 & S & B & E2 & Q). unfold dearer in Q.
  destruct (snd (optimize (all_c GlobalBest 3 2 2) call2_e None 3 (restarted o))) as [w|] eqn:W; [|discriminate].
  exists (all_c GlobalBest 3 2 2), star, (d_cd 2 3 2), o0, call1_e, call2_e, o, v0, o1, v, w. split; [exact C|]. split; [exact E1|].
  split; [exact S|]. split; [exact (belowb_ok _ _ _ B)|]. split; [exact E2|]. split; [exact W|exact Q].
Qed.
(** Infinite costs leave the old personal bests in place. *)
Definition elsewhere (v : f64 * frow) (r : res (f64 * frow)) : bool :=
  match r with Ok w => existsb (fun xy => negb (feq (fst xy) (snd xy)) && feq (fst xy) (fst xy) && feq (snd xy) (snd xy)) (combine (snd v) (snd w)) | Err _ => false end.
Lemma inf_test : ready_test 3 2 (all_c LocalBest 3 2 2) (topo Ring false) (d_cd 2 3 2) call1_e call3_e (fun _ => true) (fun _ v r => elsewhere v r) = true.
Proof. vm_compute. reflexivity. Qed.
Lemma inf_remembers : exists c top dr o0 e1 e o v0 o1 v w, construct c top dr = Ok o0 /\ optimize c e1 None 3 o0 = (o, Ok v0) /\ t_kind top <> Star /\ shaped (c_n c) (c_d c) (o_swarm o) /\
  (forall i X, e_obj e i X = Ok (map (fun _ => finf) X)) /\
  optimize c e None 3 o = (o1, Ok v) /\ snd (optimize c e None 3 (restarted o)) = Ok w /\ snd v <> snd w.
Proof.
  destruct (ready_test_ok _ _ _ _ _ _ _ _ _ inf_test) as (o0 & o & v0 & o1 & v & C & E1 & S & B & E2 & Q). unfold elsewhere in Q.
  destruct (snd (optimize (all_c LocalBest 3 2 2) call3_e None 3 (restarted o))) as [w|] eqn:W; [|discriminate].
  exists (all_c LocalBest 3 2 2), (topo Ring false), (d_cd 2 3 2), o0, call1_e, call3_e, o, v0, o1, v, w. split; [exact C|]. split; [exact E1|]. split; [discriminate|].
  split; [exact S|]. split; [reflexivity|]. split; [exact E2|]. split; [exact W|]. intros Z. rewrite Z in Q. apply existsb_exists in Q. destruct Q as ([x x'] & X & Q). apply combine_self in X. cbn [fst snd] in X, Q. subst x'.
  apply andb_prop in Q. destruct Q as [Q1 Q2]. apply andb_prop in Q1. destruct Q1 as [Q1 _]. rewrite Q2 in Q1. discriminate.
Qed.
