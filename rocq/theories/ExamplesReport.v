(** Cases that meet the hypotheses of C71, C72 and C73. *)
From Coq Require Import String ZArith List Arith Bool Lia.
From Verif Require Import Prelude F64 Num Np Handlers Swarms Operators Generators Topology Optimizers Spec SpecRun Report SpecReport RunMain ReportFacts Demo Examples.
Import ListNotations.
Local Open Scope string_scope.
Local Open Scope list_scope.
Local Open Scope nat_scope.

(** A reported run of four iterations with a pool: four costs are shown, the pool is closed. *)
Lemma four_costs : d_test 0 (d_run (run_c GlobalBest) star (d_cd 0 3 2) run_e (Some 2) 4) (fun o' _ _ => length (o_cost_history o')) = 4.
Proof. vm_compute. reflexivity. Qed.
Lemma report_demo : exists c e o evs o' cost pos, Fresh c o /\ reported true c e (Some 2) 4 o = (evs, (o', Ok (cost, pos))) /\
  length (postfixes evs) = 4 /\ In (PoolOpen 2) evs /\ In PoolClose evs.
Proof.
  destruct (d_run_test _ _ _ _ _ _ _ _ _ _ pool_run_ok four_costs) as (o & o' & cost & pos & C & F & T & E & L).
  destruct (reported true (run_c GlobalBest) run_e (Some 2) 4 o) as [evs v] eqn:R.
  assert (V : v = (o', Ok (cost, pos))). { rewrite <- E, <- (report_erase true), R. reflexivity. } subst v.
  exists (run_c GlobalBest), run_e, o, evs, o', cost, pos. split; [exact F|]. split; [exact R|].
  destruct (pool_opened _ _ _ _ _ _ _ _ _ R) as [A B]. split; [|split].
  - pose proof (bar_shows _ _ _ _ _ _ _ _ R) as S. destruct (Fresh_inv _ _ F) as (? & ? & ? & _ & H0 & _). rewrite H0 in S. rewrite S in L. exact L.
  - apply A. split; [reflexivity|discriminate].
  - apply B. split; [discriminate|eauto].
Qed.
Lemma quiet_demo : exists c e o evs o' v, Fresh c o /\ reported false c e None 4 o = (evs, (o', Ok v)).
Proof.
  destruct (d_run_ok _ _ _ _ _ _ star_run_ok) as (o & o' & v & C & E).
  destruct (reported false (run_c GlobalBest) run_e None 4 o) as [evs w] eqn:R.
  assert (V : w = (o', Ok v)). { rewrite <- E, <- (report_erase false), R. reflexivity. } subst w.
  exists (run_c GlobalBest), run_e, o, evs, o', v. split; [eapply Fresh_construct; eauto|exact R].
Qed.
(** The objective raises in its third evaluation: the pool stays open. *)
Lemma bad_pool_run : d_fail (run_c GlobalBest) star (d_cd 0 3 2) bad_e (Some 2) 5
  (fun o' x => is_user x && Nat.eqb (length (o_pos_history o')) 2) = true.
Proof. vm_compute. reflexivity. Qed.
Lemma leak_demo : exists c e o evs o' x, Fresh c o /\ reported false c e (Some 2) 5 o = (evs, (o', Err x)) /\ x = UserError 7 /\ pool_left_open evs.
Proof.
  destruct (d_fail_test _ _ _ _ _ _ _ bad_pool_run) as (o & o' & x & _ & F & _ & E & H).
  apply andb_prop in H. destruct H as [H1 _]. apply is_user_eq in H1. subst x.
  destruct (reported false (run_c GlobalBest) bad_e (Some 2) 5 o) as [evs w] eqn:R.
  assert (V : w = (o', Err (UserError 7))). { rewrite <- E, <- (report_erase false), R. reflexivity. } subst w.
  exists (run_c GlobalBest), bad_e, o, evs, o', (UserError 7). split; [exact F|]. split; [exact R|]. split; [reflexivity|].
  apply (pool_leak _ _ _ _ _ _ _ _ _ R). split; eauto.
Qed.

(** Two configuration files, one of them unreadable; any configuration is accepted. *)
Definition a_load (p : string) : res nat := if String.eqb p "a.yml" then Ok 1 else if String.eqb p "secret.yml" then Err (UserError 13) else Err FileNotFoundError.
Definition a_setup := setup_logger a_load (fun _ => Ok tt).
Lemma setup_demo : a_setup None (Some "a.yml") (Some "b.yml") "/tmp" = Ok (Custom 1) /\ a_setup None (Some "") (Some "a.yml") "/tmp" = Ok (Custom 1) /\
  a_setup None (Some "b.yml") (Some "a.yml") "/tmp" = Ok (Default "/tmp/report.log") /\ a_setup (Some "x.log") None None "/tmp" = Ok (Default "x.log") /\
  a_setup None (Some "secret.yml") None "/tmp" = Err (UserError 13).
Proof. repeat split; reflexivity. Qed.
