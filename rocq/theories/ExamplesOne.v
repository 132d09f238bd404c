(** Cases that meet the hypotheses of C88. *)
From Coq Require Import String ZArith List Arith Bool Lia.
From Verif Require Import Prelude F64 Num Np ListFacts Handlers Swarms Operators Generators Topology Optimizers OneDim Spec SpecHandlers SpecRun SpecOne Shapes OneFacts Demo ExamplesPlot.
Import ListNotations.
Local Open Scope string_scope.
Local Open Scope list_scope.
Local Open Scope nat_scope.

Definition on_c (d : nat) (vh : string) : config := d_config GlobalBest 3 d None None "periodic" vh.
Definition on_nan : nat -> fmatrix -> res (list f64) := fun _ X => Ok (map (fun _ => fnan) X).
Definition on_bad (d : nat) : env := d_env 3 d on_nan.
Definition on_good (d : nat) : env := d_env 3 d d_obj.
Lemma on_construct : is_ok (construct (on_c 1 "unmodified") star (d_cd 0 3 1)) = true. Proof. vm_compute. reflexivity. Qed.
Lemma on_adjust : is_ok (construct (on_c 1 "adjust") star (d_cd 0 3 1)) = true. Proof. vm_compute. reflexivity. Qed.
Lemma on_run : is_ok (d_run (on_c 1 "unmodified") star (d_cd 0 3 1) (on_good 1) None 4) = true. Proof. vm_compute. reflexivity. Qed.
Definition on_twice (d : nat) : res bool :=
  do o <- construct (on_c d "unmodified") star (d_cd 0 3 d); match optimize_one (on_c d "unmodified") (on_bad d) None 4 o with
  | (o1, Err ValueError) => match optimize_one (on_c d "unmodified") (on_good d) None 4 o1 with (_, Ok _) => Ok true | (_, Err x) => Err x end | _ => Ok false end.
Lemma on_two : on_twice 2 = Ok true. Proof. vm_compute. reflexivity. Qed.
Lemma ok_ex : forall A (r : res A), is_ok r = true -> exists a, r = Ok a. Proof. intros A [a|x] H; [eauto|discriminate]. Qed.
Lemma on_orderly : forall vh, orderly (on_c 1 vh).
Proof. intros vh. split; [discriminate|]. split; [reflexivity|]. split; [|discriminate]. intros k [<-|[<-|[<-|[]]]]; eexists; reflexivity. Qed.
Lemma on_drawn : forall obj i, drawn 3 (d_env 3 1 obj) i. Proof. intros obj i. split; apply d_mat_shape. Qed.
Lemma on_nothing : forall i, finds_nothing 3 (on_bad 1) i.
Proof. intros i X (L & _). eexists. split; [reflexivity|]. split; [rewrite map_length; exact L|]. intros v V. apply in_map_iff in V. destruct V as (r & <- & _). reflexivity. Qed.
Lemma first_demo : exists c top dr o e, construct c top dr = Ok o /\ t_kind top = Star /\ c_d c = 1 /\ 1 <= c_n c /\ shaped_draws (c_n c) 1 dr /\ (forall p, c_init c = Some p -> is_matrix (c_n c) 1 p) /\ orderly c /\ keeps_shape c /\
  drawn (c_n c) e 0 /\ finds_nothing (c_n c) e 0.
Proof.
  destruct (ok_ex _ _ on_construct) as [o C]. exists (on_c 1 "unmodified"), star, (d_cd 0 3 1), o, (on_bad 1). split; [exact C|]. split; [reflexivity|]. split; [reflexivity|]. split; [cbn; lia|]. split; [apply d_cd_shaped|]. split; [discriminate|].
  split; [apply on_orderly|]. split; [left; reflexivity|]. split; [apply on_drawn|apply on_nothing].
Qed.
Lemma adjust_demo : exists c top dr o e, construct c top dr = Ok o /\ t_kind top = Star /\ c_d c = 1 /\ 1 <= c_n c /\ shaped_draws (c_n c) 1 dr /\ (forall p, c_init c = Some p -> is_matrix (c_n c) 1 p) /\ orderly c /\ c_vh c = "adjust" /\
  c_bounds c = None /\ c_clamp c = None /\ forall j, drawn (c_n c) e j /\ finds_nothing (c_n c) e j.
Proof.
  destruct (ok_ex _ _ on_adjust) as [o C]. exists (on_c 1 "adjust"), star, (d_cd 0 3 1), o, (on_bad 1). split; [exact C|]. split; [reflexivity|]. split; [reflexivity|]. split; [cbn; lia|]. split; [apply d_cd_shaped|]. split; [discriminate|].
  split; [apply on_orderly|]. split; [reflexivity|]. split; [reflexivity|]. split; [reflexivity|]. intros j. split; [apply on_drawn|apply on_nothing].
Qed.
Lemma forever_demo : exists c top dr o0 e o, construct c top dr = Ok o0 /\ optimize_one c e None 4 o0 = (o, Err ValueError) /\ c_kind c <> Binary /\ c_vh c <> "adjust" /\ 1 <= c_ftol_iter c /\ ruined 3 o.
Proof.
  destruct (ok_ex _ _ on_construct) as [o C].
  destruct (one_first (on_c 1 "unmodified") star (d_cd 0 3 1) o (on_bad 1) 4 C eq_refl eq_refl ltac:(cbn; lia) (d_cd_shaped 0 3 1) ltac:(discriminate) (on_orderly "unmodified") (or_introl eq_refl) (on_drawn on_nan 0) (on_nothing 0) ltac:(lia)) as (o' & E & R & _).
  exists (on_c 1 "unmodified"), star, (d_cd 0 3 1), o, (on_bad 1), o'. split; [exact C|]. split; [exact E|]. split; [discriminate|]. split; [discriminate|]. split; [cbn; lia|exact R].
Qed.
Lemma agrees_demo : exists c top dr o e o' v, construct c top dr = Ok o /\ s_d (o_swarm o) = 1 /\ shaped (c_n c) 1 (o_swarm o) /\ optimize c e None 4 o = (o', Ok v).
Proof.
  destruct (d_run_ok _ _ _ _ _ _ on_run) as (o & o' & v & C & E). exists (on_c 1 "unmodified"), star, (d_cd 0 3 1), o, (on_good 1), o', v. split; [exact C|].
  destruct (fresh_shaped (on_c 1 "unmodified") star (d_cd 0 3 1) o (d_cd_shaped 0 3 1) ltac:(discriminate) (or_introl C)) as (S & _ & D). split; [exact D|]. split; [exact S|exact E].
Qed.
Lemma twice_inv : forall d, on_twice d = Ok true -> exists o o1 o2 v, construct (on_c d "unmodified") star (d_cd 0 3 d) = Ok o /\ optimize_one (on_c d "unmodified") (on_bad d) None 4 o = (o1, Err ValueError) /\ optimize_one (on_c d "unmodified") (on_good d) None 4 o1 = (o2, Ok v).
Proof.
  intros d H. unfold on_twice in H. destruct (construct _ _ _) as [o|x]; [|discriminate]. cbn [bind] in H. destruct (optimize_one _ _ _ _ o) as [o1 [v|x]] eqn:E; [discriminate|]. destruct x; try discriminate.
  destruct (optimize_one _ _ _ _ o1) as [o2 [v|x]] eqn:E2; [|discriminate]. exists o, o1, o2, v. auto.
Qed.
Lemma two_dimensions : exists c top dr o e o1 e' o2 v, construct c top dr = Ok o /\ c_d c = 2 /\ optimize_one c e None 4 o = (o1, Err ValueError) /\ optimize_one c e' None 4 o1 = (o2, Ok v).
Proof.
  destruct (twice_inv 2 on_two) as (o & o1 & o2 & v & C & E1 & E2). exists (on_c 2 "unmodified"), star, (d_cd 0 3 2), o, (on_bad 2), o1, (on_good 2), o2, v. split; [exact C|]. split; [reflexivity|]. split; [exact E1|exact E2].
Qed.
