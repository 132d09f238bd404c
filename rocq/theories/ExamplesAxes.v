(** Cases that meet the hypotheses of C91. *)
From Coq Require Import String ZArith List Arith Bool Lia.
From Verif Require Import Prelude F64 Num Np ListFacts Handlers Swarms Operators Generators Topology Optimizers Broadcast Axes Spec SpecHandlers SpecRun SpecBroadcast SpecAxes Shapes BroadcastFacts AxesFacts Demo ExamplesPlot ExamplesOne ExamplesForget ExamplesBroadcast.
Import ListNotations.
Local Open Scope string_scope.
Local Open Scope list_scope.
Local Open Scope nat_scope.

(** The costs as a column, as an objective that keeps the axis it sums over returns them. *)
Definition ax_f (_ : nat) (X : fmatrix) : res ndarray := Ok (mkArray [length X; 1] (map sq X)).
Lemma axes_demo : exists c top dr o (f : nat -> fmatrix -> res ndarray), construct c top dr = Ok o /\ 2 <= c_n c /\ 2 <= c_d c /\ c_n c <> c_d c /\ shaped (c_n c) (c_d c) (o_swarm o) /\ s_d (o_swarm o) = c_d c /\
  (forall X, exists a, f 0 X = Ok a /\ a_shape a = [length X; 1] /\ length (a_entries a) = length X).
Proof.
  destruct (ok_ex _ _ bc_built) as [o C]. exists bc_c, star, (d_cd 0 3 2), o, ax_f. split; [exact C|]. split; [cbn; lia|]. split; [cbn; lia|]. split; [cbn; lia|].
  destruct (fresh_shaped bc_c star (d_cd 0 3 2) o (d_cd_shaped 0 3 2) ltac:(discriminate) (or_introl C)) as (S & _ & D). split; [exact S|]. split; [exact D|].
  intros X. eexists. split; [reflexivity|]. split; [reflexivity|]. cbn [a_entries]. apply map_length.
Qed.
Lemma fits_demo : fits [3; 1] [4] /\ ~ fits [5; 2; 3] [3; 2].
Proof. split; [intros [|[|j]]; unfold axis; cbn; [auto|auto|destruct j; auto]|]. intros F. specialize (F 0). unfold axis in F. cbn in F. lia. Qed.
Lemma plain_demo : exists c top dr e f g o o' cost pos, construct c top dr = Ok o /\ plainly f g /\ optimize_array c e f None 5 o = (o', Ok (cost, pos)).
Proof.
  destruct (run_inv (construct bc_c star (d_cd 0 3 2)) (optimize_given bc_c bc_e bc_f None 5) bc_once) as (o & o' & cost & pos & C & E).
  exists bc_c, star, (d_cd 0 3 2), bc_e, (fun i X => Ok (as_array (Single (bc_v i X)))), bc_f, o, o', cost, pos. split; [exact C|].
  assert (P : plainly (fun i X => Ok (as_array (Single (bc_v i X)))) bc_f) by (intros i X; reflexivity). split; [exact P|]. rewrite (array_plain _ _ _ _ None 5 o P). exact E.
Qed.
Lemma shapes_demo : exists c top dr o s, construct c top dr = Ok o /\ s = set_current_cost (set_pbest_cost (o_swarm o) (repeat finf 3)) [fone] /\ is_matrix 3 2 (s_position s) /\ is_matrix 3 2 (s_pbest_pos s) /\ length (s_pbest_cost s) = 3.
Proof.
  destruct (ok_ex _ _ bc_built) as [o C]. destruct (fresh_shaped bc_c star (d_cd 0 3 2) o (d_cd_shaped 0 3 2) ltac:(discriminate) (or_introl C)) as ((S1 & _ & S2) & _).
  exists bc_c, star, (d_cd 0 3 2), o. eexists. split; [exact C|]. split; [reflexivity|]. split; [exact S1|]. split; [exact S2|]. reflexivity.
Qed.
Definition late (n d : nat) (c : config) (top : topology) (dr : create_draws) (e : env) : bool :=
  match construct c top dr with
  | Ok o => match optimize c e None 4 o with (o', Ok _) => shapedb n d (o_swarm o') && Nat.eqb (s_d (o_swarm o')) d && Nat.eqb (length (s_pbest_cost (o_swarm o'))) n | _ => false end
  | Err _ => false
  end.
Lemma late_ok : forall n d c top dr e, late n d c top dr e = true -> exists o o' v, construct c top dr = Ok o /\ optimize c e None 4 o = (o', Ok v) /\ shaped n d (o_swarm o') /\ s_d (o_swarm o') = d /\ length (s_pbest_cost (o_swarm o')) = n.
Proof.
  unfold late. intros n d c top dr e H. destruct (construct c top dr) as [o|x]; [|discriminate]. destruct (optimize c e None 4 o) as [o' [v|x]] eqn:E; [|discriminate].
  apply andb_prop in H. destruct H as [H H3]. apply andb_prop in H. destruct H as [H1 H2]. exists o, o', v. split; [reflexivity|]. split; [exact E|]. split; [apply shapedb_ok; exact H1|]. split; apply Nat.eqb_eq; assumption.
Qed.
Lemma late_bc : late 3 2 bc_c star (d_cd 0 3 2) bc_e = true. Proof. vm_compute. reflexivity. Qed.
Lemma later_demo : exists c top dr o e v, construct c top dr = Ok o /\ 2 <= c_n c /\ 2 <= c_d c /\ c_n c <> c_d c /\ (exists o', optimize c e None 4 o = (o', Ok v) /\ shaped (c_n c) (c_d c) (o_swarm o') /\ s_d (o_swarm o') = c_d c /\ length (s_pbest_cost (o_swarm o')) = c_n c).
Proof.
  destruct (late_ok 3 2 bc_c star (d_cd 0 3 2) bc_e late_bc) as (o & o' & v & C & E & S & D & L). exists bc_c, star, (d_cd 0 3 2), o, bc_e, v. split; [exact C|]. split; [cbn; lia|]. split; [cbn; lia|]. split; [cbn; lia|]. exists o'. split; [exact E|]. split; [exact S|]. split; [exact D|exact L].
Qed.
