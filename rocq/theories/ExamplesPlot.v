(** Cases that meet the hypotheses of C68, C69 and C70. *)
From Coq Require Import String ZArith List Arith Bool Lia.
From Verif Require Import Prelude F64 Num Np ListFacts Handlers Swarms Operators Generators Topology Optimizers Spec SpecHandlers SpecDyn SpecRun SpecPlot
  Tools ToolFacts RunMain RunningMin Shapes Plots Demo.
Import ListNotations.
Local Open Scope string_scope.
Local Open Scope list_scope.
Local Open Scope nat_scope.

Lemma d_mat_shape : forall s n d, is_matrix n d (d_mat s n d).
Proof.
  intros s n d. split; [unfold d_mat; rewrite map_length, seq_length; reflexivity|]. unfold d_mat. apply Forall_forall. intros r R.
  apply in_map_iff in R. destruct R as (i & <- & _). rewrite map_length, seq_length. reflexivity.
Qed.
Lemma d_cd_shaped : forall s n d, shaped_draws n d (d_cd s n d).
Proof.
  intros s n d. split; [apply d_mat_shape|]. split; [|apply d_mat_shape]. unfold d_cd. cbn [cd_bits]. split; [rewrite map_length, seq_length; reflexivity|].
  apply Forall_forall. intros r R. apply in_map_iff in R. destruct R as (i & <- & _). rewrite map_length, seq_length. reflexivity.
Qed.
Lemma shape_demo : exists c dr top o e o' v, shaped_draws (c_n c) (c_d c) dr /\ (forall p, c_init c = Some p -> is_matrix (c_n c) (c_d c) p) /\
  construct c top dr = Ok o /\ shaped (c_n c) (c_d c) (o_swarm o) /\ c_n c = 3 /\ c_d c = 2 /\
  optimize c e None 4 o = (o', Ok v) /\ length (o_pos_history o') = 4.
Proof.
  assert (G : d_test 0 (d_run (run_c GlobalBest) star (d_cd 0 3 2) run_e None 4) (fun o' _ _ => length (o_pos_history o')) = 4) by (vm_compute; reflexivity).
  destruct (d_run_test _ _ _ _ _ _ _ _ _ _ star_run_ok G) as (o & o' & cost & pos & C & F & T & E & L).
  exists (run_c GlobalBest), (d_cd 0 3 2), star, o, run_e, o', (cost, pos). split; [apply d_cd_shaped|]. split; [discriminate|]. split; [exact C|].
  split; [|auto]. refine (proj1 (fresh_shaped (run_c GlobalBest) star (d_cd 0 3 2) o (d_cd_shaped 0 3 2) _ (or_introl C))). discriminate.
Qed.

Definition p_drop (o : ostate) (k : nat) : bool :=
  Nat.eqb (length (o_cost_history o)) k &&
  match o_cost_history o with a :: r => match rev r with b :: _ => flt b a | [] => false end | [] => false end.
Lemma p_drop_ok : forall o k, p_drop o k = true -> length (o_cost_history o) = k /\
  exists a b, nth_error (o_cost_history o) 0 = Some a /\ nth_error (o_cost_history o) (k - 1) = Some b /\ flt b a = true.
Proof.
  unfold p_drop. intros o k H. apply andb_prop in H. destruct H as [H1 H2]. apply Nat.eqb_eq in H1. split; [exact H1|].
  destruct (o_cost_history o) as [|a r]; [discriminate|]. destruct (rev r) as [|b q] eqn:E; [discriminate|]. exists a, b. split; [reflexivity|]. split; [|exact H2].
  assert (R : r = rev q ++ [b]) by (rewrite <- (rev_involutive r), E; reflexivity). subst r. cbn in H1. rewrite app_length in H1. cbn in H1.
  rewrite app_comm_cons, nth_error_app2; cbn; [|lia]. replace (k - 1 - S (length (rev q))) with 0 by lia. reflexivity.
Qed.
Lemma p_two_calls : d_test false (d_run2 (run_c GlobalBest) star (d_cd 3 3 2) run_e run_e None 4 3) (fun o' _ _ => p_drop o' 7) = true.
Proof. vm_compute. reflexivity. Qed.
Lemma p_session : exists o o', construct (run_c GlobalBest) star (d_cd 3 3 2) = Ok o /\ Fresh (run_c GlobalBest) o /\ o_top o = star /\
  Session (run_c GlobalBest) o [mkCall run_e None 4; mkCall run_e None 3] o' /\ p_drop o' 7 = true.
Proof.
  destruct (d_run2_test _ _ _ _ _ _ _ _ _ p_two_calls) as (o & o1 & v1 & o2 & cost & pos & C & F & T & E1 & E2 & P).
  exists o, o2. split; [exact C|]. split; [exact F|]. split; [exact T|]. split; [|exact P].
  change [mkCall run_e None 4; mkCall run_e None 3] with (([] ++ [mkCall run_e None 4]) ++ [mkCall run_e None 3]).
  eapply Session_snoc; [|exact E2]. eapply Session_snoc; [apply Session_nil|exact E1].
Qed.
Lemma curve_demo : exists c o calls o' a b, Fresh c o /\ t_kind (o_top o) = Star /\ Session c o calls o' /\ length calls = 2 /\
  nth_error (o_cost_history o') 0 = Some a /\ nth_error (o_cost_history o') 6 = Some b /\ flt b a = true.
Proof.
  destruct p_session as (o & o' & C & F & T & S & P). destruct (p_drop_ok _ _ P) as (_ & a & b & A & B & L).
  do 6 eexists. split; [exact F|]. split; [rewrite T; reflexivity|]. split; [exact S|]. split; [reflexivity|]. split; [exact A|]. split; [exact B|exact L].
Qed.
Lemma d_rows_cover : covers 3 (d_rows 3).
Proof.
  intros a Ha. destruct a as [|[|[|a]]]; [exists [0; 1]|exists [1; 2]|exists [2; 0]|lia]; cbn; auto.
Qed.
Lemma p_ring : d_test false (d_run (run_c LocalBest) (topo Ring false) (d_cd 3 3 2) run_e None 4) (fun o' _ _ => p_drop o' 4) = true.
Proof. vm_compute. reflexivity. Qed.
Lemma ring3_ok : is_ok (d_run (run_c LocalBest) (topo Ring false) (d_cd 3 3 2) run_e None 4) = true.
Proof. vm_compute. reflexivity. Qed.
Lemma ring_curve_demo : exists c e o o' v a b, Fresh c o /\ t_kind (o_top o) = Ring /\ (forall nb, t_nb (o_top o) = Some nb -> covers (c_n c) (nb_rows nb)) /\
  optimize c e None 4 o = (o', Ok v) /\ queries_cover (c_n c) e (o_pos_history o') /\
  nth_error (o_cost_history o') 0 = Some a /\ nth_error (o_cost_history o') 3 = Some b /\ flt b a = true.
Proof.
  destruct (d_run_test _ _ _ _ _ _ _ _ _ _ ring3_ok p_ring) as (o & o' & cost & pos & C & F & T & E & P).
  destruct (p_drop_ok _ _ P) as (_ & a & b & A & B & L).
  exists (run_c LocalBest), run_e, o, o', (cost, pos), a, b. split; [exact F|]. rewrite T. split; [reflexivity|]. split; [discriminate|]. split; [exact E|].
  split; [|split; [exact A|split; [exact B|exact L]]]. intros t X p k rows _ [Q|Q]; injection Q as <-; exact d_rows_cover.
Qed.

(** The documented way to draw a surface: record a run, let a [Mesher] compute the heights. *)
Lemma plot_demo : exists c o calls o' (g : frow -> res f64) H an lp, Fresh c o /\ shaped (c_n c) 2 (o_swarm o) /\ c_d c = 2 /\ 0 < c_n c /\
  t_kind (o_top o) = Star /\ Session c o calls o' /\ length calls = 2 /\ (forall k t X, In k calls -> e_obj (k_env k) t X = mapM g X) /\
  compute_history_3d (mapM g) (o_pos_history o') (Some 2) = Ok H /\ plot_surface H None None None None = Ok an /\
  plot_cost_history (o_cost_history o') None = Ok lp /\ length (lp_points lp) = 7.
Proof.
  destruct p_session as (o & o' & C & F & T & S & P). destruct (p_drop_ok _ _ P) as (L7 & _).
  pose proof (proj1 (fresh_shaped (run_c GlobalBest) star (d_cd 3 3 2) o (d_cd_shaped 3 3 2) ltac:(discriminate) (or_introl C))) as SH.
  assert (LP : length (o_pos_history o') = 7).
  { destruct (star_curve _ _ _ _ F ltac:(rewrite T; reflexivity) S) as (logs & _ & _ & [LB _]). rewrite <- LB. exact L7. }
  destruct (history_total (mapM (fun r => Ok (sq r))) (fun r => Ok (sq r)) (o_pos_history o') (Some 2)) as [H EH]; [reflexivity|discriminate| |eauto|].
  { intros Z. rewrite Z in LP. discriminate. }
  destruct (surface_default H None) as [an EA]. destruct (cost_default (o_cost_history o')) as [lp EL].
  exists (run_c GlobalBest), o, [mkCall run_e None 4; mkCall run_e None 3], o', (fun r => Ok (sq r)), H, an, lp.
  split; [exact F|]. split; [exact SH|]. split; [reflexivity|]. split; [cbn; lia|]. split; [rewrite T; reflexivity|]. split; [exact S|]. split; [reflexivity|].
  split. { intros k t X [<-|[<-|[]]]; reflexivity. } split; [exact EH|]. split; [exact EA|]. split; [exact EL|].
  rewrite (proj1 (cost_points _ _ _ EL)). exact L7.
Qed.
Lemma contour_demo : exists c o calls o' an, Fresh c o /\ shaped (c_n c) 2 (o_swarm o) /\ c_d c = 2 /\ 0 < c_n c /\
  Session c o calls o' /\ plot_contour (o_pos_history o') None None None None = Ok an /\ length (an_frames an) = 7.
Proof.
  destruct plot_demo as (c & o & calls & o' & g & H & an & lp & F & S & D & N & K & Z & L & G & EH & EA & EL & L7).
  destruct (contour_default (o_pos_history o') None) as [an' E]. exists c, o, calls, o', an'. repeat (split; [assumption|]).
  rewrite (proj1 (contour_run _ _ _ _ _ _ _ _ _ F S D N Z E)), seq_length, <- L7. symmetry. exact (proj1 (cost_points _ _ _ EL)).
Qed.
(** The label and limits one writes for a contour are too short for a surface. *)
Lemma designer_demo : exists d h, length (ds_label d) = 2 /\ length (ds_limits d) = 2 /\
  (exists an, plot_contour h None (Some d) None None = Ok an) /\ plot_surface h None (Some d) None None = Err IndexError.
Proof.
  exists {| ds_label := ["x"; "y"]; ds_limits := [(fzero, fone); (fzero, fone)] |}, [[[fzero; fone; fone]]].
  split; [reflexivity|]. split; [reflexivity|]. split; [apply animated_total; cbn; [lia|lia|discriminate]|reflexivity].
Qed.
(** The same run with the surface of the objective, drawn over a 3 x 3 mesh, and its minimum marked. *)
Definition p_mesher : mesher := mkMesher (mapM (fun r => Ok (sq r))) (F 1) [(F 0, F 3); (F 0, F 3)].
Lemma p_mesh_ok : match mesher_mesh p_mesher (Some 2) with Ok (xx, _, _) => Nat.eqb (length xx) 3 | Err _ => false end = true.
Proof. vm_compute. reflexivity. Qed.
Lemma mesher_ok : forall m np, match mesher_mesh m np with Ok (xx, _, _) => Nat.eqb (length xx) 3 | Err _ => false end = true ->
  exists xx yy zz, mesher_mesh m np = Ok (xx, yy, zz) /\ length xx = 3.
Proof. intros m np. destruct (mesher_mesh m np) as [[[xx yy] zz]|]; [|discriminate]. intros H. apply Nat.eqb_eq in H. eauto 6. Qed.
Lemma animated_mesh : forall k h mark d m np zz, k <= length (ds_label d) -> k <= length (ds_limits d) -> k <= length mark ->
  mesher_mesh m np = Ok zz -> exists an, animated k h (Some mark) d (Some m) np = Ok an /\ an_mesh an = Some zz /\ an_mark an = Some (firstn k mark).
Proof.
  intros k h mark d m np zz L1 L2 L3 E. unfold animated, take. rewrite (proj2 (Nat.leb_le _ _) L1), (proj2 (Nat.leb_le _ _) L2), (proj2 (Nat.leb_le _ _) L3), E.
  cbn [bind]. eexists. split; [reflexivity|]. split; reflexivity.
Qed.
Lemma surface_mesh_demo : exists c o calls o' (g : frow -> res f64) H d an xx yy zz mark, Fresh c o /\ shaped (c_n c) 2 (o_swarm o) /\ c_d c = 2 /\ 0 < c_n c /\
  t_kind (o_top o) = Star /\ Session c o calls o' /\ length calls = 2 /\ (forall k t X, In k calls -> e_obj (k_env k) t X = mapM g X) /\
  compute_history_3d (mapM g) (o_pos_history o') (Some 2) = Ok H /\
  plot_surface H (Some mark) (Some d) (Some (mkMesher (mapM g) (F 1) [(F 0, F 3); (F 0, F 3)])) (Some 2) = Ok an /\
  an_mesh an = Some (xx, yy, zz) /\ length xx = 3 /\ an_mark an = Some mark.
Proof.
  destruct p_session as (o & o' & C & F & T & S & P). destruct (p_drop_ok _ _ P) as (L7 & _).
  pose proof (proj1 (fresh_shaped (run_c GlobalBest) star (d_cd 3 3 2) o (d_cd_shaped 3 3 2) ltac:(discriminate) (or_introl C))) as SH.
  assert (LP : length (o_pos_history o') = 7).
  { destruct (star_curve _ _ _ _ F ltac:(rewrite T; reflexivity) S) as (logs & _ & _ & [LB _]). rewrite <- LB. exact L7. }
  destruct (history_total (mapM (fun r => Ok (sq r))) (fun r => Ok (sq r)) (o_pos_history o') (Some 2)) as [H EH]; [reflexivity|discriminate| |eauto|].
  { intros Z. rewrite Z in LP. discriminate. }
  destruct (mesher_ok p_mesher (Some 2) p_mesh_ok) as (xx & yy & zz & EM & L3).
  destruct (animated_mesh 3 H [fzero; fzero; fzero] (mkDesigner ["x"; "y"; "cost"] (unit_limits 3)) p_mesher (Some 2) _ ltac:(cbn; lia) ltac:(cbn; lia) ltac:(cbn; lia) EM)
    as (an & EA & EZ & EK).
  exists (run_c GlobalBest), o, [mkCall run_e None 4; mkCall run_e None 3], o', (fun r => Ok (sq r)), H, (mkDesigner ["x"; "y"; "cost"] (unit_limits 3)), an, xx, yy, zz, [fzero; fzero; fzero].
  split; [exact F|]. split; [exact SH|]. split; [reflexivity|]. split; [cbn; lia|]. split; [rewrite T; reflexivity|]. split; [exact S|]. split; [reflexivity|].
  split. { intros k t X [<-|[<-|[]]]; reflexivity. } split; [exact EH|]. split; [exact EA|]. split; [exact EZ|]. split; [exact L3|exact EK].
Qed.
