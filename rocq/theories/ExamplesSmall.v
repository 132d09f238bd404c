(** Cases that meet the hypotheses of C87. *)
From Coq Require Import String ZArith List Arith Bool Lia.
From Verif Require Import Prelude F64 Num Np Handlers Swarms Operators Generators Topology Optimizers SmallBounds Spec SpecHandlers SpecSmall SmallFacts Demo ExamplesMotion ExamplesMirror ExamplesDType.
Import ListNotations.
Local Open Scope string_scope.
Local Open Scope list_scope.
Local Open Scope nat_scope.

Definition sb_config (bh vh : string) (i : option fmatrix) : config :=
  {| c_kind := GlobalBest; c_n := 2; c_d := 2; c_options := d_options; c_bounds := None; c_clamp := None; c_center := repeat fone 2; c_ftol := fninf; c_ftol_iter := 1; c_init := i; c_bh := bh; c_vh := vh; c_oh := [] |}.
Definition sb_wide (f : bform) : small := mkSmall f (F (-100)) (F 100).
Definition sb_tight (f : bform) : small := mkSmall f (F (-2)) (F 4).
Definition sb_run (c : config) (b : small) : res (ostate * (f64 * frow)) :=
  do o <- construct_small c b star (m_dr 3 15); match optimize_small c b m_e None 4 o with (o', Ok v) => Ok (o', v) | (_, Err x) => Err x end.
Definition sb_full (c : config) (b : small) : res (ostate * (f64 * frow)) :=
  do o <- construct_small c b star (m_dr 3 15); match optimize (full c b) m_e None 4 o with (o', Ok v) => Ok (o', v) | (_, Err x) => Err x end.
Definition is_index {A : Type} (r : res A) : bool := match r with Err IndexError => true | _ => false end.
Definition is_type {A : Type} (r : res A) : bool := match r with Err TypeError => true | _ => false end.
Definition sb_edge : fmatrix := [[F 0; F 4]; [F 1; F 4]].
Lemma sb_nearest : is_ok (sb_run (sb_config "nearest" "invert" (Some i_init)) (sb_tight FScalar)) = true. Proof. vm_compute. reflexivity. Qed.
Lemma sb_random : is_ok (sb_run (sb_config "random" "unmodified" (Some i_init)) (sb_tight FOne)) = true. Proof. vm_compute. reflexivity. Qed.
Lemma sb_periodic : is_ok (sb_run (sb_config "periodic" "unmodified" (Some i_init)) (sb_wide FScalar)) = true. Proof. vm_compute. reflexivity. Qed.
Lemma sb_shrink : is_index (sb_run (sb_config "shrink" "unmodified" (Some sb_edge)) (sb_tight FOne)) = true. Proof. vm_compute. reflexivity. Qed.
Lemma sb_shrink_full : is_ok (sb_full (sb_config "shrink" "unmodified" (Some sb_edge)) (sb_tight FOne)) = true. Proof. vm_compute. reflexivity. Qed.
Lemma sb_reflective : is_type (sb_run (sb_config "reflective" "unmodified" (Some sb_edge)) (sb_tight FScalar)) = true. Proof. vm_compute. reflexivity. Qed.
Lemma sb_reflective_full : is_ok (sb_full (sb_config "reflective" "unmodified" (Some sb_edge)) (sb_tight FScalar)) = true. Proof. vm_compute. reflexivity. Qed.
Lemma sb_intermediate_full : is_ok (sb_full (sb_config "intermediate" "unmodified" (Some i_init)) (sb_wide FScalar)) = true. Proof. vm_compute. reflexivity. Qed.
Lemma sb_run_ok : forall c b, is_ok (sb_run c b) = true -> exists o o' v, construct_small c b star (m_dr 3 15) = Ok o /\ optimize_small c b m_e None 4 o = (o', Ok v).
Proof.
  unfold sb_run. intros c b H. destruct (construct_small c b star (m_dr 3 15)) as [o|x]; [|discriminate]. cbn [bind] in H. destruct (optimize_small c b m_e None 4 o) as [o' [v|x]] eqn:E; [|discriminate]. exists o, o', v. auto.
Qed.
Lemma sb_run_err : forall c b x, match sb_run c b with Err y => y = x | Ok _ => False end -> is_ok (sb_full c b) = true ->
  exists o o' o2 v, construct_small c b star (m_dr 3 15) = Ok o /\ optimize_small c b m_e None 4 o = (o', Err x) /\ optimize (full c b) m_e None 4 o = (o2, Ok v).
Proof.
  unfold sb_run, sb_full. intros c b x H F. destruct (construct_small c b star (m_dr 3 15)) as [o|y] eqn:C; [|discriminate F]. cbn [bind] in H, F. destruct (optimize (full c b) m_e None 4 o) as [o2 [v|y]] eqn:E2; [|discriminate F].
  destruct (optimize_small c b m_e None 4 o) as [o' [w|y]] eqn:E; [contradiction|]. subst y. exists o, o', o2, v. split; [reflexivity|]. split; [exact E|exact E2].
Qed.
Lemma is_index_err : forall A (r : res A), is_index r = true -> match r with Err y => y = IndexError | Ok _ => False end.
Proof. intros A [a|[]] H; try discriminate H; reflexivity. Qed.
Lemma is_type_err : forall A (r : res A), is_type r = true -> match r with Err y => y = TypeError | Ok _ => False end.
Proof. intros A [a|[]] H; try discriminate H; reflexivity. Qed.
Lemma sb_run_index : forall c b, is_index (sb_run c b) = true -> is_ok (sb_full c b) = true ->
  exists o o' o2 v, construct_small c b star (m_dr 3 15) = Ok o /\ optimize_small c b m_e None 4 o = (o', Err IndexError) /\ optimize (full c b) m_e None 4 o = (o2, Ok v).
Proof. intros c b H F. exact (sb_run_err c b IndexError (is_index_err _ _ H) F). Qed.
Lemma sb_run_type : forall c b, is_type (sb_run c b) = true -> is_ok (sb_full c b) = true ->
  exists o o' o2 v, construct_small c b star (m_dr 3 15) = Ok o /\ optimize_small c b m_e None 4 o = (o', Err TypeError) /\ optimize (full c b) m_e None 4 o = (o2, Ok v).
Proof. intros c b H F. exact (sb_run_err c b TypeError (is_type_err _ _ H) F). Qed.
Lemma sb_full_ok : forall c b, is_ok (sb_full c b) = true -> exists o o2 v, construct_small c b star (m_dr 3 15) = Ok o /\ optimize (full c b) m_e None 4 o = (o2, Ok v).
Proof.
  unfold sb_full. intros c b F. destruct (construct_small c b star (m_dr 3 15)) as [o|y]; [|discriminate F]. cbn [bind] in F. destruct (optimize (full c b) m_e None 4 o) as [o2 [v|y]] eqn:E; [|discriminate F]. exists o, o2, v. auto.
Qed.
Lemma free_demo : exists c b top dr e o o' v, construct_small c b top dr = Ok o /\ c_d c = 2 /\ carefree c b /\ sb_form b = FOne /\ optimize_small c b e None 4 o = (o', Ok v).
Proof.
  destruct (sb_run_ok _ _ sb_random) as (o & o' & v & C & E). exists (sb_config "random" "unmodified" (Some i_init)), (sb_tight FOne), star, (m_dr 3 15), m_e, o, o', v.
  split; [exact C|]. split; [reflexivity|]. split; [right; right; split; reflexivity|]. split; [reflexivity|exact E].
Qed.
Lemma inside_demo : exists c b top dr e o o' v, construct_small c b top dr = Ok o /\ c_d c = 2 /\ fragile c b 1 IndexError /\ sb_form b = FScalar /\ optimize_small c b e None 4 o = (o', Ok v).
Proof.
  destruct (sb_run_ok _ _ sb_periodic) as (o & o' & v & C & E). exists (sb_config "periodic" "unmodified" (Some i_init)), (sb_wide FScalar), star, (m_dr 3 15), m_e, o, o', v.
  split; [exact C|]. split; [reflexivity|]. split; [|split; [reflexivity|exact E]]. split; [discriminate|]. left. split; [reflexivity|]. split; [reflexivity|left; reflexivity].
Qed.
Lemma index_demo : exists c b top dr e o o' o2 v, construct_small c b top dr = Ok o /\ c_d c = 2 /\ fragile c b 1 IndexError /\ optimize_small c b e None 4 o = (o', Err IndexError) /\ optimize (spelled c b) e None 4 o = (o2, Ok v).
Proof.
  destruct (sb_run_index (sb_config "shrink" "unmodified" (Some sb_edge)) (sb_tight FOne) sb_shrink sb_shrink_full) as (o & o' & o2 & v & C & E1 & E2). exists (sb_config "shrink" "unmodified" (Some sb_edge)), (sb_tight FOne), star, (m_dr 3 15), m_e, o, o', o2, v.
  split; [exact C|]. split; [reflexivity|]. split; [|split; [exact E1|rewrite spelled_full; exact E2]]. split; [discriminate|]. left. split; [reflexivity|]. split; [reflexivity|]. right. split; [reflexivity|]. right. left. reflexivity.
Qed.
Lemma type_demo : exists c b top dr e o o' o2 v, construct_small c b top dr = Ok o /\ c_d c = 2 /\ fragile c b 0 TypeError /\ optimize_small c b e None 4 o = (o', Err TypeError) /\ optimize (spelled c b) e None 4 o = (o2, Ok v).
Proof.
  destruct (sb_run_type (sb_config "reflective" "unmodified" (Some sb_edge)) (sb_tight FScalar) sb_reflective sb_reflective_full) as (o & o' & o2 & v & C & E1 & E2). exists (sb_config "reflective" "unmodified" (Some sb_edge)), (sb_tight FScalar), star, (m_dr 3 15), m_e, o, o', o2, v.
  split; [exact C|]. split; [reflexivity|]. split; [|split; [exact E1|rewrite spelled_full; exact E2]]. split; [discriminate|]. right. repeat split; reflexivity.
Qed.
Lemma hopeless_demo : exists c b top dr e o o2 v, construct_small c b top dr = Ok o /\ c_d c = 2 /\ hopeless c b /\ 1 <= c_ftol_iter c /\ optimize (spelled c b) e None 4 o = (o2, Ok v).
Proof.
  destruct (sb_full_ok (sb_config "intermediate" "unmodified" (Some i_init)) (sb_wide FScalar) sb_intermediate_full) as (o & o2 & v & C & E).
  exists (sb_config "intermediate" "unmodified" (Some i_init)), (sb_wide FScalar), star, (m_dr 3 15), m_e, o, o2, v. split; [exact C|]. split; [reflexivity|]. split; [|split; [exact (le_n 1)|exact E]].
  split; [discriminate|]. split; [reflexivity|]. right. right. reflexivity.
Qed.
