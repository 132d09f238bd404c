(** Properties of the hyper-parameter search (C35-C37) and of one-sided velocity clamps such as its default (C67). *)
From Coq Require Import String ZArith List Arith Bool.
From Verif Require Import Prelude F64 F64Facts Num Np Handlers Swarms Operators Generators Topology Optimizers
  Spec SpecHandlers SpecDyn Search SpecSearch SearchFacts SearchRun OneWay Demo ExamplesSearch.
Import ListNotations.
Local Open Scope string_scope.
Local Open Scope list_scope.
Local Open Scope nat_scope.

(** *** C35: the grid *)
(** [pos] numbers the selections: it is a bijection onto the positions of the grid. *)
Theorem C35_grid : forall opts : dict gval, opts <> [] ->
  exists grid pos, grid_search opts = Ok grid /\ length grid = n_selections opts /\
    (forall idx, selection opts idx -> exists g, nth_error grid (pos idx) = Some g /\ selects opts idx g) /\
    (forall idx idx', selection opts idx -> selection opts idx' -> pos idx = pos idx' -> idx = idx') /\
    (forall t, t < length grid -> exists idx, selection opts idx /\ pos idx = t).
Proof. exact grid_claim. Qed.
Print Assumptions C35_grid.
Theorem C35_empty : grid_search [] = Err IndexError.
Proof. exact grid_empty. Qed.
Print Assumptions C35_empty.
Example C35_example : g_opts <> [] /\ n_selections g_opts = 6 /\ selection g_opts [1; 0; 2].
Proof. split; [discriminate|]. split; [reflexivity|]. exact (proj1 g_selection). Qed.

(** *** C36: the search *)
Theorem C36_optimum : forall maximum (score : nat -> popts -> res f64) grid s g, search maximum score grid = Ok (s, g) ->
  exists scores, scored score grid scores /\
    (no_nan scores -> exists idx, nth_error grid idx = Some g /\ nth_error scores idx = Some s /\
       (forall i x, nth_error scores i = Some x -> if maximum then fle x s = true else fle s x = true) /\
       (forall i x, i < idx -> nth_error scores i = Some x -> if maximum then flt x s = true else flt s x = true)).
Proof. exact search_claim. Qed.
Print Assumptions C36_optimum.
Theorem C36_total : forall maximum (score : nat -> popts -> res f64) grid, grid <> [] ->
  (forall i g, nth_error grid i = Some g -> exists s, score i g = Ok s) -> exists r, search maximum score grid = Ok r.
Proof. exact search_total. Qed.
Print Assumptions C36_total.
Theorem C36_empty : forall maximum score, search maximum score [] = Err ValueError.
Proof. exact search_empty. Qed.
Print Assumptions C36_empty.
Theorem C36_error : forall maximum (score : nat -> popts -> res f64) grid i g x, nth_error grid i = Some g ->
  score i g = Err x -> (forall j h, j < i -> nth_error grid j = Some h -> exists s, score j h = Ok s) ->
  search maximum score grid = Err x.
Proof. exact search_error. Qed.
Print Assumptions C36_error.
Theorem C36_score : forall kind n d b cl iters dr e i g s,
  generate_score kind n d b cl iters dr e i g = Ok s ->
  kind <> General /\ (kind = Binary -> b = None) /\
  exists c o o' pos, plain_config kind n d b cl g c /\ construct c (o_top o) (dr i) = Ok o /\
    (kind = GlobalBest -> t_kind (o_top o) = Star) /\ (kind <> GlobalBest -> t_kind (o_top o) = Ring /\ t_static (o_top o) = false) /\
    optimize c (e i) None iters o = (o', Ok (s, pos)) /\
    length (o_cost_history o') = iters /\ length (o_pos_history o') = iters.
Proof. exact score_full. Qed.
Print Assumptions C36_score.
Theorem C36_grid_search : forall a opts maximum dr e s g, run_grid_search a opts maximum dr e = Ok (s, g) ->
  exists kind cl pos (score : list nat -> f64), sa_optimizer a = Some kind /\ given_clamp a cl /\
    (forall idx idx', selection opts idx -> selection opts idx' -> pos idx = pos idx' -> idx = idx') /\
    (forall idx, selection opts idx -> exists h, selects opts idx h /\ entry_run kind a cl dr e (pos idx) h (score idx)) /\
    (exists idx, selection opts idx /\ selects opts idx g /\ score idx = s) /\
    ((forall idx, selection opts idx -> fisnan (score idx) = false) ->
     forall idx, selection opts idx -> if maximum then fle (score idx) s = true else fle s (score idx) = true).
Proof. exact grid_full. Qed.
Print Assumptions C36_grid_search.
Theorem C36_random_search : forall a rd nsel opts maximum dr e s g, run_random_search a rd nsel opts maximum dr e = Ok (s, g) ->
  exists kind cl n grid scores, sa_optimizer a = Some kind /\ given_clamp a cl /\ nsel = Some n /\ snd (random_search rd n opts) = Ok grid /\
    length scores = length grid /\
    (forall i h x, nth_error grid i = Some h -> nth_error scores i = Some x -> entry_run kind a cl dr e i h x) /\
    (exists i, nth_error grid i = Some g /\ nth_error scores i = Some s) /\
    (no_nan scores -> forall i x, nth_error scores i = Some x -> if maximum then fle x s = true else fle s x = true).
Proof. exact random_full. Qed.
Print Assumptions C36_random_search.
Theorem C36_types : forall a rd nsel opts ropts maximum dr e,
  (sa_optimizer a = None -> run_grid_search a opts maximum dr e = Err TypeError /\ run_random_search a rd nsel ropts maximum dr e = Err TypeError) /\
  (nsel = None -> run_random_search a rd nsel ropts maximum dr e = Err TypeError).
Proof. exact search_types. Qed.
Print Assumptions C36_types.
(** The search passes its bounds as fourth positional argument. *)
Theorem C36_general : forall n d b cl iters dr e i g, (forall q, cl = Some q -> length (fst q) = d /\ length (snd q) = d) ->
  generate_score General n d b cl iters dr e i g = Err TypeError.
Proof. exact score_general. Qed.
Print Assumptions C36_general.
Theorem C36_binary_bounds : forall n d (q : bounds F64num) cl iters dr e i g, (forall c, cl = Some c -> length (fst c) = d /\ length (snd c) = d) ->
  dget g "k" <> None -> dget g "p" <> None -> (forall a j (x : f64), entry [b_lb q; b_ub q] a j = Some x -> fisnan x = false) ->
  (two_valued [b_lb q; b_ub q] -> generate_score Binary n d (Some q) cl iters dr e i g = Err AttributeError) /\
  (~ two_valued [b_lb q; b_ub q] -> generate_score Binary n d (Some q) cl iters dr e i g = Err ValueError).
Proof. exact score_binary_bounds. Qed.
Print Assumptions C36_binary_bounds.
(** The first of two entries with the least w, the first of two with the greatest. *)
Example C36_example : score_is (search false w_score g_grid) (fdec 2 10) 1 = true /\
  score_is (search true w_score g_grid) (fdec 9 10) 1 = true /\
  (forall o, In o g_grid -> exists s, w_score 0 o = Ok s /\ fisnan s = false).
Proof. exact (conj w_min (conj w_max w_no_nan)). Qed.
Example C36_example_run : match search false (generate_score GlobalBest 3 2 (Some d_bounds) None 3 (fun i => d_cd i 3 2) (fun _ => run_e)) g_grid with
  | Ok (s, g) => flt s (F 50) | Err _ => false end = true.
Proof. exact g_runs. Qed.
Example C36_example_score : exists s, generate_score GlobalBest 3 2 (Some d_bounds) None 3 (fun i => d_cd i 3 2) (fun _ => run_e) 1 (nth 1 g_grid []) = Ok s.
Proof. exact g_score. Qed.
Example C36_example_grid_search : exists s g, run_grid_search box_args g_opts false (fun i => d_cd i 3 2) (fun _ => run_e) = Ok (s, g).
Proof. exact (ok_pair _ _ _ box_grid_ok). Qed.
Example C36_example_random_search : exists s g, run_random_search up_args r_draws (Some 4) r_opts false (fun i => d_cd i 3 2) (fun _ => run_e) = Ok (s, g).
Proof. exact (ok_pair _ _ _ up_random_ok). Qed.
Example C36_example_kinds : raises ValueError (demo_score Binary (Some (mkBounds (N := F64num) [F 0; F 1] [F 2; F 3] true))) = true /\
  raises AttributeError (demo_score Binary (Some (mkBounds (N := F64num) [F 0; F 0] [F 1; F 1] true))) = true /\
  raises TypeError (demo_score General None) = true.
Proof. exact kinds_demo. Qed.

(** *** C37: random search *)
Theorem C37_range : forall dr n (opts : dict rval) grid, NoDup (dkeys opts) ->
  (forall key i, fle fzero (rs_unit dr key i) = true /\ flt (rs_unit dr key i) fone = true) ->
  (forall key lo hi, In key ["c1"; "c2"; "w"] -> dget opts key = Some (RPair lo hi) ->
     ffinite (pnum lo) = true /\ ffinite (pnum hi) = true /\ fle (pnum lo) (pnum hi) = true) ->
  snd (random_search dr n opts) = Ok grid ->
  length grid = n /\ forall g, In g grid -> dkeys g = ["c1"; "c2"; "w"; "k"; "p"] /\
    (forall key, In key ["c1"; "c2"; "w"] -> exists lo hi x, dget opts key = Some (RPair lo hi) /\ dget g key = Some (PFloat x) /\
       fle (pnum lo) x = true /\ fle x (pnum hi) = true) /\
    (exists lo hi z, dget opts "k" = Some (RPair (PInt lo) (PInt hi)) /\ dget g "k" = Some (PInt z) /\ (lo <= z < hi)%Z) /\
    (exists p, dget opts "p" = Some (RNum p) /\ dget g "p" = Some p).
Proof. exact random_grid_claim. Qed.
Print Assumptions C37_range.
Theorem C37_total : forall dr n (opts : dict rval) p klo khi, NoDup (dkeys opts) ->
  dget opts "p" = Some (RNum p) -> dget opts "k" = Some (RPair (PInt klo) (PInt khi)) -> (klo < khi)%Z ->
  (forall key, In key ["c1"; "c2"; "w"] -> exists lo hi, dget opts key = Some (RPair lo hi) /\ ffinite (fsub (pnum hi) (pnum lo)) = true) ->
  (forall key, In key (dkeys opts) -> In key ["c1"; "c2"; "w"; "k"; "p"]) ->
  exists grid, snd (random_search dr n opts) = Ok grid.
Proof. exact random_grid_total. Qed.
Print Assumptions C37_total.
Theorem C37_options_kept : forall dr n opts, fst (random_search dr n opts) = opts.
Proof. exact random_options_kept. Qed.
Print Assumptions C37_options_kept.
Theorem C37_missing_p : forall dr n (opts : dict rval), dget opts "p" = None -> snd (random_search dr n opts) = Err KeyError.
Proof. exact random_missing_p. Qed.
Print Assumptions C37_missing_p.
Theorem C37_missing_key : forall dr n (opts : dict rval) p key, NoDup (dkeys opts) -> dget opts "p" = Some (RNum p) ->
  In key ["c1"; "c2"; "w"; "k"] -> dget opts key = None -> 0 < n ->
  (forall k b, dget opts k = Some b -> k <> "p" -> exists c, random_column dr n k b = Ok c) ->
  snd (random_search dr n opts) = Err KeyError.
Proof. exact random_missing_error. Qed.
Print Assumptions C37_missing_key.
Theorem C37_missing_raises : forall dr n (opts : dict rval) key, In key ["c1"; "c2"; "w"; "k"] -> dget opts key = None -> 0 < n ->
  exists x, snd (random_search dr n opts) = Err x.
Proof. exact random_missing_key. Qed.
Print Assumptions C37_missing_raises.
Example C37_example : NoDup (dkeys r_opts) /\ is_ok (snd (random_search r_draws 4 r_opts)) = true /\
  (forall key i, fle fzero (rs_unit r_draws key i) = true /\ flt (rs_unit r_draws key i) fone = true) /\
  (forall key lo hi, In key ["c1"; "c2"; "w"] -> dget r_opts key = Some (RPair lo hi) ->
     ffinite (pnum lo) = true /\ ffinite (pnum hi) = true /\ fle (pnum lo) (pnum hi) = true).
Proof. exact (conj r_nodup (conj r_ok (conj (fun key i => d_draw_unit _ i 1) r_finite))). Qed.
Example C37_example_errors : same_exn KeyError (snd (random_search r_draws 4 [("c1", RPair (PInt 1) (PInt 5)); ("w", RPair (dec 2 10) (dec 9 10)); ("k", RPair (PInt 11) (PInt 15)); ("p", RNum (PInt 1))])) = true /\
  same_exn KeyError (snd (random_search r_draws 4 [("c1", RPair (PInt 1) (PInt 5))])) = true /\
  same_exn ValueError (snd (random_search r_draws 4 [("k", RPair (PInt 5) (PInt 5)); ("p", RNum (PInt 1))])) = true /\
  same_exn OverflowError (snd (random_search r_draws 4 [("c1", RPair (PInt 1) (PFloat (finf : F64num))); ("p", RNum (PInt 1))])) = true.
Proof. exact r_errors. Qed.

(** *** C67: one-sided velocity clamps *)
Theorem C67_one_way : forall c e pool iters o o' r cl, c_kind c <> Binary -> c_bounds c = None -> c_clamp c = Some cl -> c_vh c = "unmodified" ->
  (forall j a b, clamp_column cl j a b -> fle a b = true) -> pool <> Some 0 -> optimize c e pool iters o = (o', r) ->
  exists hp, o_pos_history o' = o_pos_history o ++ hp /\ (forall X, nth_error hp 0 = Some X -> X = s_position (o_swarm o)) /\
  forall t t' X X' i j x', t <= t' -> nth_error hp t = Some X -> nth_error hp t' = Some X' -> entry X' i j = Some x' ->
    exists x, entry X i j = Some x /\ forall a b, clamp_column cl j a b ->
      (fle fzero a = true -> flt x' x = false) /\ (fle b fzero = true -> flt x x' = false).
Proof. exact one_way. Qed.
Print Assumptions C67_one_way.
Theorem C67_returned : forall c e pool iters o o' cost pos cl, Fresh c o -> c_kind c <> Binary -> c_bounds c = None -> c_clamp c = Some cl ->
  c_vh c = "unmodified" -> (forall j a b, clamp_column cl j a b -> fle a b = true) -> optimize c e pool iters o = (o', Ok (cost, pos)) ->
  exists i x0, nth_error (s_position (o_swarm o)) i = Some x0 /\
  forall j p, nth_error pos j = Some p ->
    exists x, nth_error x0 j = Some x /\ forall a b, clamp_column cl j a b ->
      (fle fzero a = true -> flt p x = false) /\ (fle b fzero = true -> flt x p = false).
Proof. exact one_way_returned. Qed.
Print Assumptions C67_returned.
Theorem C67_score : forall kind n d iters dr e i g s, kind <> Binary -> unit_matrix n d (cd_pos (dr i)) ->
  generate_score kind n d None (Some (repeat fzero d, repeat fone d)) iters dr e i g = Ok s ->
  positive_run kind n d iters (dr i) (e i) g s.
Proof. exact search_positive. Qed.
Print Assumptions C67_score.
Theorem C67_search : forall a kind dr e, sa_optimizer a = Some kind -> kind <> Binary -> sa_bounds a = None -> sa_vclamp a = None ->
  (forall i, unit_matrix (sa_n a) (sa_d a) (cd_pos (dr i))) ->
  (forall opts maximum s g, run_grid_search a opts maximum dr e = Ok (s, g) -> exists grid, grid_search opts = Ok grid /\
     forall i h, nth_error grid i = Some h -> exists x, positive_run kind (sa_n a) (sa_d a) (sa_iters a) (dr i) (e i) h x) /\
  (forall rd n opts maximum s g, run_random_search a rd (Some n) opts maximum dr e = Ok (s, g) -> exists grid, snd (random_search rd n opts) = Ok grid /\
     forall i h, nth_error grid i = Some h -> exists x, positive_run kind (sa_n a) (sa_d a) (sa_iters a) (dr i) (e i) h x).
Proof. exact default_search. Qed.
Print Assumptions C67_search.
(** A run with clamp (0, 1) in which some coordinate increases. *)
Example C67_example : exists c o e o' v, Fresh c o /\ c_kind c <> Binary /\ c_bounds c = None /\ c_clamp c = Some up_clamp /\ c_vh c = "unmodified" /\
  (forall j a b, clamp_column up_clamp j a b -> fle a b = true /\ fle fzero a = true) /\ optimize c e None 4 o = (o', Ok v) /\ moved_up o' = true.
Proof. exact up_demo. Qed.
Example C67_example_search : exists s, unit_matrix 3 2 (cd_pos (d_cd 1 3 2)) /\
  generate_score GlobalBest 3 2 None (Some (repeat fzero 2, repeat fone 2)) 3 (fun i => d_cd i 3 2) (fun _ => run_e) 1 (nth 1 g_grid []) = Ok s.
Proof. exact up_score. Qed.
Example C67_example_default : exists s g, sa_bounds up_args = None /\ sa_vclamp up_args = None /\ (forall i, unit_matrix 3 2 (cd_pos (d_cd i 3 2))) /\
  run_grid_search up_args g_opts true (fun i => d_cd i 3 2) (fun _ => run_e) = Ok (s, g).
Proof. destruct (ok_pair _ _ _ up_grid_ok) as (s & g & E). exists s, g. exact (conj eq_refl (conj eq_refl (conj d_cd_unit E))). Qed.
