(** Shapes of the recorded arrays (C68), the cost curve (C69) and the plots of a run (C70). *)
From Coq Require Import String ZArith List Arith Bool.
From Verif Require Import Prelude F64 Num Np Handlers Swarms Operators Generators Topology Optimizers
  Spec SpecHandlers SpecDyn SpecRun SpecPlot Tools RunningMin Shapes Plots Demo ExamplesPlot.
Import ListNotations.
Local Open Scope string_scope.
Local Open Scope list_scope.
Local Open Scope nat_scope.

(** *** C68: shapes *)
Theorem C68_start : forall c top dr o, shaped_draws (c_n c) (c_d c) dr -> (forall p, c_init c = Some p -> is_matrix (c_n c) (c_d c) p) ->
  (construct c top dr = Ok o \/ exists o0, reset c dr o0 = Ok o) ->
  shaped (c_n c) (c_d c) (o_swarm o) /\ s_n (o_swarm o) = c_n c /\ s_d (o_swarm o) = c_d c.
Proof. exact fresh_shaped. Qed.
Print Assumptions C68_start.
(** Whatever the outcome of the call; the returned position has [d] entries. *)
Theorem C68_run : forall n d c e pool iters o o' r, shaped n d (o_swarm o) -> optimize c e pool iters o = (o', r) ->
  shaped n d (o_swarm o') /\ (exists hp hv, o_pos_history o' = o_pos_history o ++ hp /\ o_velocity_history o' = o_velocity_history o ++ hv /\
    Forall (is_matrix n d) hp /\ Forall (is_matrix n d) hv) /\ forall cost pos, r = Ok (cost, pos) -> length pos = d.
Proof. exact run_shapes. Qed.
Print Assumptions C68_run.
Theorem C68_session : forall c o calls o', shaped (c_n c) (c_d c) (o_swarm o) -> Fresh c o -> Session c o calls o' ->
  shaped (c_n c) (c_d c) (o_swarm o') /\ Forall (is_matrix (c_n c) (c_d c)) (o_pos_history o') /\ Forall (is_matrix (c_n c) (c_d c)) (o_velocity_history o').
Proof. exact session_shapes. Qed.
Print Assumptions C68_session.
Example C68_example : exists c dr top o e o' v, shaped_draws (c_n c) (c_d c) dr /\ (forall p, c_init c = Some p -> is_matrix (c_n c) (c_d c) p) /\
  construct c top dr = Ok o /\ shaped (c_n c) (c_d c) (o_swarm o) /\ c_n c = 3 /\ c_d c = 2 /\
  optimize c e None 4 o = (o', Ok v) /\ length (o_pos_history o') = 4.
Proof. exact shape_demo. Qed.

(** *** C69: the cost curve *)
(** Star: over any number of calls. *)
Theorem C69_star : forall c o calls o', Fresh c o -> t_kind (o_top o) = Star -> Session c o calls o' ->
  exists logs, Forall2 (fun k hc => logged (k_env k) (k_pool k) (fst hc) (snd hc) /\
                                    all_evaluated (c_n c) (fst hc) (snd hc)) calls logs /\
    concat (map fst logs) = o_pos_history o' /\
    running_min (o_pos_history o') (concat (map snd logs)) (o_cost_history o').
Proof. exact star_curve. Qed.
Print Assumptions C69_star.
Example C69_example_star : exists c o calls o' a b, Fresh c o /\ t_kind (o_top o) = Star /\ Session c o calls o' /\ length calls = 2 /\
  nth_error (o_cost_history o') 0 = Some a /\ nth_error (o_cost_history o') 6 = Some b /\ flt b a = true.
Proof. exact curve_demo. Qed.
(** Other topologies: each entry is some particle's best so far; the least one if every particle is in some neighbour list. *)
Theorem C69_neighbors : forall c e pool iters o o' r, Fresh c o -> t_kind (o_top o) <> Star ->
  (forall nb, t_nb (o_top o) = Some nb -> covers (c_n c) (nb_rows nb)) -> pool <> Some 0 ->
  optimize c e pool iters o = (o', r) ->
  exists C, logged e pool (o_pos_history o') C /\ length (o_cost_history o') = length (o_pos_history o') /\
    (forall t b, nth_error (o_cost_history o') t = Some b ->
       exists a x0 px, nth_error (s_position (o_swarm o)) a = Some x0 /\ best_of_run (so_far t (o_pos_history o')) (so_far t C) a x0 px b) /\
    (queries_cover (c_n c) e (o_pos_history o') -> running_min (o_pos_history o') C (o_cost_history o')).
Proof. exact neighbor_curve. Qed.
Print Assumptions C69_neighbors.
Example C69_example_ring : exists c e o o' v a b, Fresh c o /\ t_kind (o_top o) = Ring /\ (forall nb, t_nb (o_top o) = Some nb -> covers (c_n c) (nb_rows nb)) /\
  optimize c e None 4 o = (o', Ok v) /\ queries_cover (c_n c) e (o_pos_history o') /\
  nth_error (o_cost_history o') 0 = Some a /\ nth_error (o_cost_history o') 3 = Some b /\ flt b a = true.
Proof. exact ring_curve_demo. Qed.

(** *** C70: plots *)
Theorem C70_curve : forall B d lp, plot_cost_history B d = Ok lp ->
  length (lp_points lp) = length B /\ (forall t b, nth_error B t = Some b <-> nth_error (lp_points lp) t = Some (t, b)).
Proof. exact cost_points. Qed.
Print Assumptions C70_curve.
Theorem C70_defaults : forall h np B, (exists an, plot_contour h None None None np = Ok an) /\ (exists an, plot_surface h None None None np = Ok an) /\
  exists lp, plot_cost_history B None = Ok lp.
Proof. exact default_plots. Qed.
Print Assumptions C70_defaults.
Theorem C70_short_designer : forall h mark d m np, 
  (length (ds_label d) < 2 -> plot_contour h mark (Some d) m np = Err IndexError /\ forall B, plot_cost_history B (Some d) = Err IndexError) /\
  (length (ds_label d) < 3 -> plot_surface h mark (Some d) m np = Err IndexError) /\
  (length (ds_limits d) < 2 -> plot_contour h mark (Some d) m np = Err IndexError) /\
  (length (ds_limits d) < 3 -> plot_surface h mark (Some d) m np = Err IndexError).
Proof. exact short_designer. Qed.
Print Assumptions C70_short_designer.
Example C70_example_designer : exists d h, length (ds_label d) = 2 /\ length (ds_limits d) = 2 /\
  (exists an, plot_contour h None (Some d) None None = Ok an) /\ plot_surface h None (Some d) None None = Err IndexError.
Proof. exact designer_demo. Qed.
Theorem C70_contour : forall c o calls o' mark d m np an, Fresh c o -> shaped (c_n c) 2 (o_swarm o) -> c_d c = 2 -> 0 < c_n c ->
  Session c o calls o' -> plot_contour (o_pos_history o') mark d m np = Ok an ->
  an_frames an = seq 0 (length (o_cost_history o')) /\
  forall t, In t (an_frames an) -> exists X, nth_error (o_pos_history o') t = Some X /\ length X = c_n c /\ animate t (an_data an) = Ok (Flat X).
Proof. exact contour_run. Qed.
Print Assumptions C70_contour.
Example C70_example_contour : exists c o calls o' an, Fresh c o /\ shaped (c_n c) 2 (o_swarm o) /\ c_d c = 2 /\ 0 < c_n c /\
  Session c o calls o' /\ plot_contour (o_pos_history o') None None None None = Ok an /\ length (an_frames an) = 7.
Proof. exact contour_demo. Qed.
Theorem C70_surface : forall c o calls o' f (g : frow -> res f64) np H mark d m np' an d' lp,
  Fresh c o -> shaped (c_n c) 2 (o_swarm o) -> c_d c = 2 -> 0 < c_n c -> t_kind (o_top o) = Star -> Session c o calls o' ->
  (forall X, f X = mapM g X) -> (forall k t X, In k calls -> e_obj (k_env k) t X = f X) ->
  compute_history_3d f (o_pos_history o') np = Ok H -> plot_surface H mark d m np' = Ok an -> plot_cost_history (o_cost_history o') d' = Ok lp ->
  an_frames an = map fst (lp_points lp) /\
  (forall t, In t (an_frames an) -> exists X zs, nth_error (o_pos_history o') t = Some X /\ heights an t zs /\ length zs = c_n c /\
     forall i x y, nth_error X i = Some [x; y] -> exists z, point an t i x y z /\ g [x; y] = Ok z) /\
  (forall t b, In (t, b) (lp_points lp) -> curve_is_lowest an t b).
Proof. exact surface_run. Qed.
Print Assumptions C70_surface.
Example C70_example_surface : exists c o calls o' (g : frow -> res f64) H an lp, Fresh c o /\ shaped (c_n c) 2 (o_swarm o) /\ c_d c = 2 /\ 0 < c_n c /\
  t_kind (o_top o) = Star /\ Session c o calls o' /\ length calls = 2 /\ (forall k t X, In k calls -> e_obj (k_env k) t X = mapM g X) /\
  compute_history_3d (mapM g) (o_pos_history o') (Some 2) = Ok H /\ plot_surface H None None None None = Ok an /\
  plot_cost_history (o_cost_history o') None = Ok lp /\ length (lp_points lp) = 7.
Proof. exact plot_demo. Qed.
Theorem C70_axes : forall h mark d m np an, (plot_contour h mark (Some d) m np = Ok an -> axes_shown 2 mark d m an) /\ (plot_surface h mark (Some d) m np = Ok an -> axes_shown 3 mark d m an).
Proof. exact axes. Qed.
Print Assumptions C70_axes.
(** A particle shown at a node of the mesh lies on the drawn surface. *)
Theorem C70_on_surface : forall c o calls o' f (g : frow -> res f64) np H mark d delta lim np' an,
  Fresh c o -> shaped (c_n c) 2 (o_swarm o) -> c_d c = 2 -> 0 < c_n c -> t_kind (o_top o) = Star -> Session c o calls o' ->
  (forall X, f X = mapM g X) -> (forall k t X, In k calls -> e_obj (k_env k) t X = f X) ->
  compute_history_3d f (o_pos_history o') np = Ok H -> plot_surface H mark d (Some (mkMesher f delta lim)) np' = Ok an ->
  exists xx yy zz, an_mesh an = Some (xx, yy, zz) /\ forall t i x y z a b, In t (an_frames an) -> point an t i x y z -> entry xx a b = Some x -> entry yy a b = Some y -> entry zz a b = Some z.
Proof. exact on_surface. Qed.
Print Assumptions C70_on_surface.
Example C70_example_mesh : exists c o calls o' (g : frow -> res f64) H d an xx yy zz mark, Fresh c o /\ shaped (c_n c) 2 (o_swarm o) /\ c_d c = 2 /\ 0 < c_n c /\
  t_kind (o_top o) = Star /\ Session c o calls o' /\ length calls = 2 /\ (forall k t X, In k calls -> e_obj (k_env k) t X = mapM g X) /\
  compute_history_3d (mapM g) (o_pos_history o') (Some 2) = Ok H /\
  plot_surface H (Some mark) (Some d) (Some (mkMesher (mapM g) (F 1) [(F 0, F 3); (F 0, F 3)])) (Some 2) = Ok an /\
  an_mesh an = Some (xx, yy, zz) /\ length xx = 3 /\ an_mark an = Some mark.
Proof. exact surface_mesh_demo. Qed.
