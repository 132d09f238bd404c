{
 "claims": [
  {
   "property": "C01",
   "status": "proved",
   "theorems": [
    "C01_pbest_strict",
    "C01_pbest_nan",
    "C01_pbest_total"
   ],
   "note": ""
  },
  {
   "property": "C02",
   "status": "proved",
   "theorems": [
    "C02_pbest_of_call"
   ],
   "note": "Also holds for every outcome in which the objective raised (C11)."
  },
  {
   "property": "C03",
   "status": "proved",
   "theorems": [
    "C03_star_minimum"
   ],
   "note": "The same theorem gives C04 for star neighbourhoods."
  },
  {
   "property": "C04",
   "status": "proved",
   "theorems": [
    "C04_neighbor_pair"
   ],
   "note": "Star case: C03_star_minimum.  In the neighbour case the alternative cost = +inf covers runs in which nothing was below infinity."
  },
  {
   "property": "C05",
   "status": "proved",
   "theorems": [
    "C05_second_call_mismatch_refuted",
    "C05_star_session"
   ],
   "note": "The mismatch is proved by a concrete run; the minimum over all calls is proved in general."
  },
  {
   "property": "C06",
   "status": "proved",
   "theorems": [
    "C06_star_history",
    "C06_neighbor_history"
   ],
   "note": ""
  },
  {
   "property": "C07",
   "status": "proved",
   "theorems": [
    "C07_neighbours_lose_best_refuted",
    "C07_knn_covers"
   ],
   "note": "The loss is proved by a concrete run whose neighbour query meets the k-nearest-neighbour contract; C07_knn_covers shows that coinciding positions are the only cause."
  },
  {
   "property": "C08",
   "status": "proved",
   "theorems": [
    "C08_default_ftol"
   ],
   "note": ""
  },
  {
   "property": "C09",
   "status": "proved",
   "theorems": [
    "C09_stop_rule"
   ],
   "note": "Stated for calls that return."
  },
  {
   "property": "C10",
   "status": "proved",
   "theorems": [
    "C10_histories",
    "C10_aligned"
   ],
   "note": ""
  },
  {
   "property": "C11",
   "status": "proved",
   "theorems": [
    "C11_objective_error"
   ],
   "note": "Assumes that neighbour queries themselves do not raise the user's error."
  },
  {
   "property": "C12",
   "status": "proved",
   "theorems": [
    "C12_nearest_projection",
    "C12_nearest_idempotent",
    "C12_nearest_exact"
   ],
   "note": ""
  },
  {
   "property": "C13",
   "status": "proved",
   "theorems": [
    "C13_periodic_inside",
    "C13_periodic_exact"
   ],
   "note": ""
  },
  {
   "property": "C14",
   "status": "proved",
   "theorems": [
    "C14_reflective_partial_correctness",
    "C14_reflective_exact",
    "C14_reflective_hangs_far",
    "C14_reflective_hangs_infinite",
    "C14_reflective_hangs_flat"
   ],
   "note": ""
  },
  {
   "property": "C15",
   "status": "proved",
   "theorems": [
    "C15_random_resamples"
   ],
   "note": ""
  },
  {
   "property": "C16",
   "status": "proved",
   "theorems": [
    "C16_intermediate_inside",
    "C16_intermediate_exact",
    "C16_first_call"
   ],
   "note": ""
  },
  {
   "property": "C17",
   "status": "proved",
   "theorems": [
    "C17_shrink_exact",
    "C17_shrink_float_refuted"
   ],
   "note": ""
  },
  {
   "property": "C18",
   "status": "proved",
   "theorems": [
    "C18_row_inside",
    "C18_shape"
   ],
   "note": ""
  },
  {
   "property": "C19",
   "status": "proved",
   "theorems": [
    "C19_run_in_box",
    "C19_first_run_in_box"
   ],
   "note": ""
  },
  {
   "property": "C20",
   "status": "proved",
   "theorems": [
    "C20_clamped",
    "C20_unmodified_cut",
    "C20_adjust_cut"
   ],
   "note": ""
  },
  {
   "property": "C21",
   "status": "proved",
   "theorems": [
    "C21_run_in_clamp",
    "C21_first_run_in_clamp",
    "C21_zero_leaves_clamp_refuted"
   ],
   "note": ""
  },
  {
   "property": "C22",
   "status": "proved",
   "theorems": [
    "C22_invert",
    "C22_invert_default_z",
    "C22_zero",
    "C22_inside",
    "C22_without_bounds",
    "C22_noop_run"
   ],
   "note": ""
  },
  {
   "property": "C23",
   "status": "proved",
   "theorems": [
    "C23_adjust_freezes"
   ],
   "note": ""
  },
  {
   "property": "C24",
   "status": "proved",
   "theorems": [
    "C24_velocity",
    "C24_missing_option",
    "C24_position",
    "C24_at_rest"
   ],
   "note": ""
  },
  {
   "property": "C25",
   "status": "proved",
   "theorems": [
    "C25_bounded",
    "C25_overflow",
    "C25_unbounded",
    "C25_init_pos",
    "C25_start",
    "C25_center_refuted"
   ],
   "note": ""
  },
  {
   "property": "C26",
   "status": "proved",
   "theorems": [
    "C26_clamped",
    "C26_unclamped",
    "C26_start"
   ],
   "note": ""
  },
  {
   "property": "C27",
   "status": "proved",
   "theorems": [
    "C27_binary",
    "C27_permutations",
    "C27_init_pos"
   ],
   "note": ""
  },
  {
   "property": "C28",
   "status": "proved",
   "theorems": [
    "C28_pool_costs",
    "C28_pool_equal",
    "C28_chunks"
   ],
   "note": "The number of chunks, their order and sizes are those of np.array_split."
  },
  {
   "property": "C29",
   "status": "proved",
   "theorems": [
    "C29_costs",
    "C29_arrays",
    "C29_raises",
    "C29_rowwise",
    "C29_pool"
   ],
   "note": "Mixed or ragged results of the wrapped function are outside the model (they depend on the numpy version)."
  },
  {
   "property": "C30",
   "status": "proved",
   "theorems": [
    "C30_delannoy_counts",
    "C30_delannoy_sym",
    "C30_delannoy_pos"
   ],
   "note": ""
  },
  {
   "property": "C31",
   "status": "proved",
   "theorems": [
    "C31_random_graph",
    "C31_random_degree",
    "C31_random_extra",
    "C31_random_total"
   ],
   "note": ""
  },
  {
   "property": "C32",
   "status": "proved",
   "theorems": [
    "C32_neighborhood_best",
    "C32_covered",
    "C32_complete",
    "C32_pyramid_few",
    "C32_one_neighbor"
   ],
   "note": ""
  },
  {
   "property": "C33",
   "status": "proved",
   "theorems": [
    "C33_static_ignores_queries",
    "C33_static_session",
    "C33_reset_keeps",
    "C33_dynamic_query"
   ],
   "note": ""
  },
  {
   "property": "C34",
   "status": "proved",
   "theorems": [
    "C34_one_neighbor_limit",
    "C34_one_neighbor_step"
   ],
   "note": "NPY_MAXDIMS = 32 is part of the model."
  },
  {
   "property": "C35",
   "status": "proved",
   "theorems": [
    "C35_grid",
    "C35_empty"
   ],
   "note": ""
  },
  {
   "property": "C36",
   "status": "proved",
   "theorems": [
    "C36_optimum",
    "C36_total",
    "C36_empty",
    "C36_error",
    "C36_score",
    "C36_grid_search",
    "C36_random_search",
    "C36_types",
    "C36_general",
    "C36_binary_bounds"
   ],
   "note": "C36_score says what one score is: the returned cost of a new optimizer with these options and all other arguments at their defaults, run for exactly `iters` iterations."
  },
  {
   "property": "C37",
   "status": "proved",
   "theorems": [
    "C37_range",
    "C37_total",
    "C37_options_kept",
    "C37_missing_p",
    "C37_missing_key",
    "C37_missing_raises"
   ],
   "note": ""
  },
  {
   "property": "C38",
   "status": "proved",
   "theorems": [
    "C38_varied",
    "C38_total",
    "C38_key_error",
    "C38_errors",
    "C38_missing_raises",
    "C38_run"
   ],
   "note": ""
  },
  {
   "property": "C39",
   "status": "proved",
   "theorems": [
    "C39_lin",
    "C39_lin_monotone",
    "C39_nonlin",
    "C39_nonlin_monotone"
   ],
   "note": ""
  },
  {
   "property": "C40",
   "status": "proved",
   "theorems": [
    "C40_value",
    "C40_strict",
    "C40_default_c2_negative",
    "C40_interpolates_refuted"
   ],
   "note": ""
  },
  {
   "property": "C41",
   "status": "proved",
   "theorems": [
    "C41_real_range",
    "C41_float_range",
    "C41_never_runs"
   ],
   "note": ""
  },
  {
   "property": "C42",
   "status": "proved",
   "theorems": [
    "C42_run",
    "C42_session",
    "C42_returned",
    "C42_two_valued_refuted"
   ],
   "note": ""
  },
  {
   "property": "C43",
   "status": "proved",
   "theorems": [
    "C43_rule",
    "C43_total",
    "C43_monotone",
    "C43_shared_draws",
    "C43_sigmoid_real"
   ],
   "note": ""
  },
  {
   "property": "C44",
   "status": "proved",
   "theorems": [
    "C44_reset_like_new",
    "C44_reset_total",
    "C44_static_reset_refuted"
   ],
   "note": "Static topologies: concrete counterexample C44_static_reset_refuted."
  },
  {
   "property": "C45",
   "status": "proved",
   "theorems": [
    "C45_zero_iterations",
    "C45_nothing_finite",
    "C45_zero_ftol_iter",
    "C45_zero_ftol_iter_err",
    "C45_missing_keys",
    "C45_zero_processes"
   ],
   "note": "One-dimensional star swarms without a finite cost are outside the model (numpy broadcasts the empty best position)."
  },
  {
   "property": "C46",
   "status": "proved",
   "theorems": [
    "C46_no_nan_state",
    "C46_no_nan_returned"
   ],
   "note": ""
  },
  {
   "property": "C47",
   "status": "proved",
   "theorems": [
    "C47_wrong_dimension",
    "C47_outside",
    "C47_value",
    "C47_rowwise",
    "C47_accepted_finite"
   ],
   "note": "The elementary functions are parameters; ackley in dimension 0 raises ZeroDivisionError, as in the code."
  },
  {
   "property": "C48",
   "status": "proved",
   "theorems": [
    "C48_minimum",
    "C48_himmelblau",
    "C48_mirror",
    "C48_four",
    "C48_eggholder",
    "C48_eggholder_refuted",
    "C48_formula",
    "C48_levi_refuted"
   ],
   "note": "Over the reals with the true elementary functions.  The minimiser is also shown to be unique.  Himmelblau's rounded documented points lie within 1e-5 of exact zeros.  C48_four: crossintray has the exact minimiser atan(sqrt 2 pi); holdertable's exists by compactness, is unique by log-concavity, and is located by a separable bound. C48_eggholder: the exact minimiser is (512, y) with y within 1e-5 of 404.23181, found by bounding the two phases and by concavity along the edge x = 512; C48_eggholder_refuted: the docstring's (512, 404.3219) has transposed digits and costs more than -959.632.  C48_formula pins all seventeen functions to their published formulas; C48_levi_refuted shows that levi is not the Levy function."
  },
  {
   "property": "C49",
   "status": "proved",
   "theorems": [
    "C49_mesh",
    "C49_mesh_total",
    "C49_mesh_pool",
    "C49_arange",
    "C49_history",
    "C49_history_total",
    "C49_history_pool"
   ],
   "note": "An empty history and non-finite mesh lengths are outside the model."
  },
  {
   "property": "C50",
   "status": "proved",
   "theorems": [
    "C50_construct",
    "C50_construct_error",
    "C50_optimize",
    "C50_iteration",
    "C50_session",
    "C50_direct_boundary",
    "C50_direct_velocity"
   ],
   "note": "Heap model of positions, velocities, personal bests, handler memories and histories as references; the optimizer with references computes the values of the pure model and never writes an array that existed before the call. The objective function is assumed not to write into the position array it is given."
  },
  {
   "property": "C51",
   "status": "proved",
   "theorems": [
    "C51_mean_value",
    "C51_mean_history"
   ],
   "note": "C51_mean_value needs a summation order that adds every summand once and at most 2^53 particles."
  },
  {
   "property": "C52",
   "status": "proved",
   "theorems": [
    "C52_star",
    "C52_neighbours",
    "C52_inside"
   ],
   "note": ""
  },
  {
   "property": "C53",
   "status": "proved",
   "theorems": [
    "C53_constructor",
    "C53_boundary",
    "C53_velocity",
    "C53_unbounded"
   ],
   "note": ""
  },
  {
   "property": "C54",
   "status": "proved",
   "theorems": [
    "C54_longer",
    "C54_scheduled_refuted",
    "C54_stop"
   ],
   "note": ""
  },
  {
   "property": "C55",
   "status": "proved",
   "theorems": [
    "C55_objective"
   ],
   "note": ""
  },
  {
   "property": "C56",
   "status": "proved",
   "theorems": [
    "C56_call",
    "C56_fresh",
    "C56_tolerance_refuted",
    "C56_start",
    "C56_pair",
    "C56_session"
   ],
   "note": ""
  },
  {
   "property": "C57",
   "status": "proved",
   "theorems": [
    "C57_moves"
   ],
   "note": ""
  },
  {
   "property": "C58",
   "status": "proved",
   "theorems": [
    "C58_returned",
    "C58_leader",
    "C58_same_position_refuted"
   ],
   "note": "C58_same_position_refuted is also the concrete case for the other two: a successful run with a tie."
  },
  {
   "property": "C59",
   "status": "proved",
   "theorems": [
    "C59_box",
    "C59_free",
    "C59_unclamped_refuted"
   ],
   "note": "NoDup keys and one clamp interval per dimension hold for every dict and every clamp the constructor accepts. C59_unclamped_refuted shows the clamp is needed."
  },
  {
   "property": "C60",
   "status": "proved",
   "theorems": [
    "C60_speed"
   ],
   "note": ""
  },
  {
   "property": "C61",
   "status": "proved",
   "theorems": [
    "C61_step",
    "C61_star",
    "C61_neighbours"
   ],
   "note": "C61_step is the arithmetic core; C61_star and C61_neighbours place it in the recorded runs of C52."
  },
  {
   "property": "C62",
   "status": "proved",
   "theorems": [
    "C62_binary"
   ],
   "note": "Ring neighbour lists with k other than 1, the topology BinaryPSO uses; exp is a parameter."
  },
  {
   "property": "C63",
   "status": "proved",
   "theorems": [
    "C63_collapsed"
   ],
   "note": ""
  },
  {
   "property": "C64",
   "status": "proved",
   "theorems": [
    "C64_locality"
   ],
   "note": "Extends C55 from the objective to every other input of a call."
  },
  {
   "property": "C65",
   "status": "proved",
   "theorems": [
    "C65_accepted"
   ],
   "note": "Sizes: numpy also broadcasts length-1 arrays, which is outside the model.  For BinaryPSO's init_pos without NaN."
  },
  {
   "property": "C66",
   "status": "proved",
   "theorems": [
    "C66_floor",
    "C66_exact",
    "C66_goldstein_refuted",
    "C66_ackley_refuted",
    "C66_levi_refuted"
   ],
   "note": "The library functions are arbitrary within libm_range (ranges) or libm_values (a few exact values). The three _refuted theorems are the functions for which the claim is false."
  },
  {
   "property": "C67",
   "status": "proved",
   "theorems": [
    "C67_one_way",
    "C67_returned",
    "C67_score",
    "C67_search"
   ],
   "note": "LocalBestPSO, GlobalBestPSO and GeneralOptimizerPSO. NaN coordinates are neither below nor above anything. C67_search assumes initial draws of numpy.random in [0,1)."
  },
  {
   "property": "C68",
   "status": "proved",
   "theorems": [
    "C68_start",
    "C68_run",
    "C68_session"
   ],
   "note": "The hypothesis on the generators is numpy's own contract for size=(n, d). One dimension without a best position is outside this model: there the velocities lose their column (C88)."
  },
  {
   "property": "C69",
   "status": "proved",
   "theorems": [
    "C69_star",
    "C69_neighbors"
   ],
   "note": "C69_star covers sessions of several calls; for other topologies later calls start from stored neighbour lists, so C69_neighbors is about the first call."
  },
  {
   "property": "C70",
   "status": "proved",
   "theorems": [
    "C70_curve",
    "C70_defaults",
    "C70_short_designer",
    "C70_contour",
    "C70_surface",
    "C70_axes",
    "C70_on_surface"
   ],
   "note": "The model stops where matplotlib starts: it is the data handed to the drawing calls. Fonts, colours, levels, transparency and animation speed are not modelled."
  },
  {
   "property": "C71",
   "status": "proved",
   "theorems": [
    "C71_same_run",
    "C71_bar",
    "C71_finish",
    "C71_quiet"
   ],
   "note": "The ERROR records that except blocks write before re-raising are not part of the model. Visibility follows Logger.isEnabledFor with the default manager.disable = 0."
  },
  {
   "property": "C72",
   "status": "proved",
   "theorems": [
    "C72_pool",
    "C72_left_open"
   ],
   "note": "Closing by garbage collection or at interpreter exit is outside the model."
  },
  {
   "property": "C73",
   "status": "proved",
   "theorems": [
    "C73_custom",
    "C73_default"
   ],
   "note": "open, yaml.safe_load and logging.config.dictConfig are arbitrary functions."
  },
  {
   "property": "C74",
   "status": "proved",
   "theorems": [
    "C74_construct",
    "C74_reset",
    "C74_optimize",
    "C74_session",
    "C74_shrink_refuted"
   ],
   "note": "The KD-tree and Delaunay oracles are assumed to give the same neighbours for reordered coordinates. C74_shrink_refuted is the counterexample for 'shrink'."
  },
  {
   "property": "C75",
   "status": "proved",
   "theorems": [
    "C75_construct",
    "C75_optimize",
    "C75_session",
    "C75_invert_refuted",
    "C75_shrink_refuted"
   ],
   "note": "The KD-tree and Delaunay oracles are assumed to give the same neighbours for mirrored coordinates. Inverted bounds, 'random' (its draws are not symmetric) and BinaryPSO are excluded; C75_invert_refuted and C75_shrink_refuted are the counterexamples for the two other exclusions."
  },
  {
   "property": "C76",
   "status": "proved",
   "theorems": [
    "C76_construct",
    "C76_reset",
    "C76_optimize",
    "C76_ties_refuted"
   ],
   "note": "Stated for n_processes=None (a pool's chunks depend on the numbering). The mean personal-best history is excluded: its float sum is taken in another order. The KD-tree and Delaunay oracles and random.py's choices are assumed to give each particle the same neighbours under the new numbers. C76_ties_refuted shows that the hypothesis of untied costs cannot be dropped."
  },
  {
   "property": "C77",
   "status": "proved",
   "theorems": [
    "C77_optimize",
    "C77_ties_refuted"
   ],
   "note": "Stated for the first optimize() call of a new object and n_processes=None. Later calls differ: the star keeps its best over the calls, the other topologies do not (C05). The nearest-neighbour query is an oracle that meets its contract (n distinct indices below n per row) and numpy.random.choice gives n-1 distinct others. Costs are equal up to the sign of zero. C77_ties_refuted shows that the hypothesis of untied costs cannot be dropped."
  },
  {
   "property": "C78",
   "status": "proved",
   "theorems": [
    "C78_forgets",
    "C78_keeps_only_best",
    "C78_star_refuted",
    "C78_infinite_refuted"
   ],
   "note": "The topology object is kept, so the neighbour lists of a static topology survive; everything else that a call leaves behind does not matter. C78_star_refuted and C78_infinite_refuted show that the two assumptions are needed."
  },
  {
   "property": "C79",
   "status": "proved",
   "theorems": [
    "C79_alone",
    "C79_social_refuted",
    "C79_overflow_refuted"
   ],
   "note": "Equality is up to the signs of zeros, because adding +0 or -0 can change the sign of a zero velocity. C79_social_refuted and C79_overflow_refuted show that c2 = 0 and the magnitude bound are needed."
  },
  {
   "property": "C80",
   "status": "proved",
   "theorems": [
    "C80_coasts",
    "C80_slows",
    "C80_rest",
    "C80_restless"
   ],
   "note": "C80_example_rest is a run of 2101 iterations, checked by computation; it shows that the bound 2099 is sharp."
  },
  {
   "property": "C81",
   "status": "proved",
   "theorems": [
    "C81_written",
    "C81_returned",
    "C81_init_array",
    "C81_pool",
    "C81_quiet",
    "C81_history_refuted"
   ],
   "note": "C81_history_refuted: histories may be rewritten by a later call after an early stop; the positive statements are for the first call of a new object."
  },
  {
   "property": "C82",
   "status": "proved",
   "theorems": [
    "C82_swarm",
    "C82_attributes",
    "C82_raises",
    "C82_create",
    "C82_designer",
    "C82_animator",
    "C82_mesher",
    "C82_formatter_attributes",
    "C82_formatter_raises"
   ],
   "note": "Attribute assignments after construction are not validated (attrs' own default), so the theorems are about the constructor calls."
  },
  {
   "property": "C83",
   "status": "proved",
   "theorems": [
    "C83_reflective",
    "C83_other",
    "C83_run",
    "C83_unclamped_refuted"
   ],
   "note": "C83_unclamped_refuted is the counterexample without a clamp. The bounds on the magnitudes are sufficient, not necessary; C14_reflective_hangs_far shows that beyond about 2^56 widths the loop does not end."
  },
  {
   "property": "C84",
   "status": "proved",
   "theorems": [
    "C84_construct",
    "C84_optimize",
    "C84_moderate",
    "C84_underflow_refuted"
   ],
   "note": "The KD-tree and Delaunay oracles are assumed to give the same neighbours in the new units: for a KD-tree with equal factors in all dimensions this is what distances say, with different factors it is a restriction (the star, and static topologies, ask no such question). 'reflective' is given at most 400 passes (C83: when fewer are needed); inverted or empty bounds, BinaryPSO and 'shrink' (it takes the Euclidean norm across dimensions) are excluded. C84_underflow_refuted is the counterexample without the bound on the magnitudes from below."
  },
  {
   "property": "C85",
   "status": "proved",
   "theorems": [
    "C85_plain",
    "C85_adjust",
    "C85_refused",
    "C85_type_error",
    "C85_exactly"
   ],
   "note": "The types are followed beside the values (DType.v). Integers are assumed to be at most 2^52 in magnitude; integer positions outside the bounds, which some boundary strategies would truncate, are Unmodelled, and for 'adjust' C85_adjust shows that they do not occur if the clamp contains 0."
  },
  {
   "property": "C86",
   "status": "proved",
   "theorems": [
    "C86_new",
    "C86_kept",
    "C86_alias",
    "C86_quiet",
    "C86_written",
    "C86_between",
    "C86_coefficients",
    "C86_general_refuted",
    "C86_schedule"
   ],
   "note": "The contents of the dictionary and whether swarm.options is that dictionary are part of the state (LiveOptions.v). The objective's writing is an arbitrary function of the call's number, the positions and the old contents; it takes effect even if the call then raises. coherent holds for new objects (C86_new) and after every call (C86_kept). C86_general_refuted shows why GeneralOptimizerPSO is excluded from C86_coefficients: removing k from the dictionary makes its next iteration fail. C86_schedule speaks of runs without a pool, in which alone the objective can write."
  },
  {
   "property": "C87",
   "status": "proved",
   "theorems": [
    "C87_construct",
    "C87_free",
    "C87_agrees",
    "C87_inside",
    "C87_hopeless"
   ],
   "note": "SmallBounds.v writes out where the handlers compare with or add the bounds (numpy repeats them) and where they index them by columns (it does not). Both bounds have one element, or both are plain Python numbers (a numpy scalar would raise IndexError instead of TypeError); lists of one element are not modelled. init_pos has as many columns as dimensions."
  },
  {
   "property": "C88",
   "status": "proved",
   "theorems": [
    "C88_agrees",
    "C88_first",
    "C88_forever",
    "C88_adjust"
   ],
   "note": "OneDim.v adds the shape (n, 0) to compute_velocity for swarms of one dimension, which Operators.v leaves out (Unmodelled); C88_agrees says that it changes nothing else. The sum over iterations of C88_adjust is for a star without bounds and clamp. orderly excludes the other reasons for an exception (missing options, clamps of a wrong length)."
  },
  {
   "property": "C89",
   "status": "proved",
   "theorems": [
    "C89_returns",
    "C89_always",
    "C89_reflective",
    "C89_varied"
   ],
   "note": "What numpy and scipy deliver (arrays of the requested sizes, non-empty neighbour lists) is a hypothesis (delivers); so is a value for every varied option, which C89_varied supplies for c1, c2 and w. Rings with k = 1 are left out (C34). Costs are float64 numbers; objectives that return other kinds of values are outside the model."
  },
  {
   "property": "C90",
   "status": "proved",
   "theorems": [
    "C90_once",
    "C90_first",
    "C90_number_pool",
    "C90_one_process",
    "C90_each_process",
    "C90_other_pool"
   ],
   "note": "Broadcast.v replaces compute_pbest and compute_objective_function by versions with numpy's repetition of a single cost. A swarm of one particle is outside it; costs of several axes are in Axes.v (C91)."
  },
  {
   "property": "C91",
   "status": "proved",
   "theorems": [
    "C91_raises",
    "C91_later",
    "C91_square",
    "C91_fits",
    "C91_shapes",
    "C91_plain"
   ],
   "note": "Axes.v adds the shapes of arrays to Broadcast.v. What becomes of a run whose personal bests have three and two axes (C91_square) is outside the model (Unmodelled); C91_square speaks of compute_pbest only. C91_raises is about whole calls, C91_later about the evaluation in one later iteration, from a state of the usual shapes."
  }
 ]
}