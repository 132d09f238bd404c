# Formal model of pyswarms: design

Source: `/repo` (pyswarms at the pinned commit), read as text. Model and proofs:
`/verif/rocq/theories`, Coq 8.16.1, logical root `Verif`.

## How numbers are modelled

* `F64.v`: IEEE-754 binary64 with round-to-nearest-even, i.e. Flocq's
  `binary_float 53 1024`. NaN, infinities and signed zeros are present; all NaN
  payloads are identified (no code path looks at payloads). `+ - * /`, comparisons,
  `abs`, `fmod` and numpy's `mod` are total, computable functions.
* `Num.v`: a record of operations (no laws). Handlers and swarm operators are written once
  against this record and instantiated at binary64 (what the program computes) and at `R`
  (exact arithmetic, to state what the documentation promises). Where the two differ, both
  a theorem over `R` and a binary64 counterexample are given.
* `exp`, `pow` and summation order are not fixed by IEEE: they are parameters (closed
  Section variables or record fields), theorems hold for every choice.

## How the environment is modelled

* Matrices are `list (list T)`; a matrix is well-formed for (n,d) if it has n rows of
  length d. numpy broadcasting of length-1 axes is not modelled: a shape mismatch is the
  error value `ValueError`.
* Exceptions are values (`res`); a raising `optimize` also returns the state it leaves.
* Randomness is an explicit argument: an `env` record gives each iteration its draws.
  Theorems quantify over all `env`; unit draws are assumed in [0,1) only where needed.
* The user's objective is an arbitrary function of (iteration, position matrix), it may
  be noisy, stateful or raise.
* `scipy.spatial.cKDTree.query` and `scipy.spatial.Delaunay` are oracles of the `env`;
  their contracts appear as explicit hypotheses where a theorem needs them.
  `scipy.sparse.csgraph` (dijkstra / connected_components) is modelled by a computable
  reachability closure, proved correct.
* Logging, progress bars, plotting output and process creation are not modelled
  (a process pool is modelled by evaluating the chunks in order and concatenating).
* Array dtype is float64 throughout (BinaryPSO's 0/1 integers are the floats 0.0/1.0).

## Properties: plan

* **C01 Personal best is a strict per-particle improvement** - Operators.compute_pbest at binary64; row-by-row characterisation by list induction.
* **C02 Personal best equals the best evaluation of the run** - Optimizer loop model; invariant over executed iterations relating pbest to the list of (position row, cost) evaluations read off the position history.
* **C03 Global best is the minimum of everything evaluated** - Loop invariant + Star.compute_gbest; argmin/min lemmas over binary64 order.
* **C04 Returned position and returned cost belong together (first call)** - C02 + argmin lemma + covering hypothesis for neighbour lists.
* **C05 Calling optimize() twice with a star neighbourhood can return a mismatched pair** - Two-call composition of the loop invariant; vm_compute witness for the mismatch.
* **C06 Best-cost history never increases** - Loop invariant: best cost never increases; induction over a list of calls.
* **C07 Neighbour-based optimizers lose the best particle when positions coincide** - Contract of the k-NN oracle as a predicate; distinct positions imply self-membership; concrete tie witness.
* **C08 Default ftol runs exactly iters iterations** - Loop induction: comparison with -inf*(1+|b|) is never true.
* **C09 Early stopping is exactly the documented window test** - Loop induction with the deque model; specification is a window predicate over the cost history.
* **C10 History lists stay aligned and append-only** - Loop induction.
* **C11 An exception in the objective leaves a consistent optimizer** - Loop returns state together with the raised error; invariant evaluated at the raising state.
* **C12 nearest boundary handling is projection onto the box** - Generic handler model, instances binary64 and R.
* **C13 periodic boundary handling stays in the box and wraps** - Exact fmod on mantissas; monotone rounding; R instance with floor.
* **C14 reflective boundary handling: termination and result** - Fuelled loop; R: explicit pass bound by induction on overshoot; binary64: partial correctness + cycle invariant for divergence for every fuel.
* **C15 random boundary handling resamples whole particles inside the box** - Rounding lemma fl(fl(ub-lb)*u)+lb in [lb,ub].
* **C16 intermediate boundary handling stays in the box** - Rounding lemma for midpoint.
* **C17 shrink boundary handling** - R instance; binary64 vm_compute witness.
* **C18 Boundary handling never touches admissible particles** - Row-wise lemma per strategy.
* **C19 Swarm stays inside the bounds during a whole run** - Loop invariant over positions; per-strategy step lemma.
* **C20 Velocity clamping** - Elementwise lemma.
* **C21 Velocities stay clamped during a whole run** - Loop invariant over velocities + generate_velocity rounding lemma.
* **C22 invert and zero act exactly on out-of-bounds particles** - Row-wise lemma.
* **C23 vh_strategy='adjust' freezes the swarm** - Loop invariant: memory = position, velocity = 0.
* **C24 Velocity update equation is local and has the right fixed points** - Entry-wise lemma by list induction; IEEE zero arithmetic.
* **C25 Initial positions respect the bounds** - Rounding lemma; vm_compute witness for center.
* **C26 Initial velocities respect the clamp** - Rounding lemma.
* **C27 Discrete swarm generation** - argsort modelled as stable insertion sort of indices (any argsort: permutation contract).
* **C28 Parallel evaluation equals sequential evaluation** - array_split model; concat of chunks; congruence of the loop.
* **C29 cost decorator lifts a scalar cost to the swarm** - mapM lemma.
* **C30 Delannoy number counts the Von Neumann neighbourhood** - Bijection/counting: count of lattice points by recursion equals delannoy; proved against an explicit duplicate-free enumeration.
* **C31 Random topology graph is connected, symmetric and reflexive** - Adjacency as boolean matrix function; reachability closure computed by iteration, proved equal to the path relation.
* **C32 Neighbourhood best is optimal inside each neighbourhood** - argmin/min lemmas.
* **C33 Static topologies keep their neighbours** - Topology state in the loop; induction.
* **C34 Static one-neighbour Ring crashes after 32 best-neighbour updates** - Axis counter in the neighbour array; induction over calls.
* **C35 Grid search enumerates the full Cartesian product once** - Cartesian product model; membership iff and length.
* **C36 Hyper-parameter search returns an optimum of the scored grid** - Fold model of min/max with key.
* **C37 Random search grid stays in the requested ranges** - Rounding lemma for uniform, randint range.
* **C38 Options handler: selective, non-compounding variation** - dict as association list; induction.
* **C39 lin_variation and nonlin_mod interpolate between start and end** - R instance.
* **C40 exp_decay does not interpolate between start and end** - R instance, derivative-free monotonicity of exp; witness.
* **C41 Options strategy 'random' cannot be used with the optimizers** - Case analysis on handler + loop step.
* **C42 Binary PSO positions are bits** - Loop invariant.
* **C43 Binary sampling is monotone in the velocity** - Monotonicity; R sigmoid.
* **C44 reset() gives a fresh optimizer** - State equality after reset; refutation witness for static topologies.
* **C45 Degenerate calls raise instead of returning** - Loop unfolding.
* **C46 NaN never becomes a best cost** - Loop invariant.
* **C47 Bundled objective functions: domain checks** - Decision functions on R points.
* **C48 Bundled objective functions: documented minima** - Real analysis (nra, trigonometric bounds, sums of squares); the formulas by rewriting (ObjFormula.v); the functions with four minima by tangent inequalities and verified numerics (RealFacts.v, ObjCross.v, ObjHolder.v, ObjTable.v, ObjFour.v); eggholder by a Lagrangian bound on the two phases, then monotonicity and concavity (ObjEgg.v, ObjEggMin.v, ObjEggClaim.v).
* **C49 Mesh and 3-D history preparation** - array_split lemma, nth of map/concat.
* **C50 optimize() never mutates arrays it has handed out** - Heap model of array allocation and in-place writes, frame lemma; refinement to the pure model.
* **C51 Mean personal-best history never increases inside a call** - Monotone rounding of additions over an arbitrary summation tree; error of the tree sum by induction over the tree (Mean.v).
* **C52 Recorded motion obeys the PSO equations** - Relational rule between consecutive records (motion_link); velocity and position equations read off the histories.
* **C53 Misconfigured strategies surface only in the first iteration** - Case analysis on the strategy names at the first update; construction does not look at them.
* **C54 A longer run extends a shorter one; an early stop truncates** - Induction on the loop: the run with more iterations passes through the states of the shorter one.
* **C55 The objective is consulted only at the recorded positions** - Congruence of the loop in the objective, restricted to the recorded positions.
* **C56 Only the order of the costs matters** - Simulation between two runs whose costs are related by a strictly increasing map (Ranks.v), and by any relation that preserves comparisons (Rank.v; also over several calls).
* **C57 Every recorded move is what the boundary strategy makes of it** - motion_link with the boundary memory in the invariant; one equation per strategy.
* **C58 Ties: which of several equally good positions is returned** - Strengthened invariants (first evaluation wins) in RunMain, Ties.v; witness on a two-particle tie.
* **C59 A clamped run of moderate size never overflows and never produces NaN** - Entry-wise invariant rule for runs (Entries.v), magnitude bounds of rounded operations (Tame.v), the box and free cases (FiniteRun.v); NaN witness without a clamp.
* **C60 Velocities stay bounded without a clamp** - Domination of rounded expressions by rounded nonnegative ones (Tame.v), same rule.
* **C61 Rounding keeps the motion close to the exact PSO equations** - Flocq's relative/absolute error of one operation, propagated through the expression (Rounding.v), then C52.
* **C62 BinaryPSO's recorded motion obeys the binary PSO equations** - The rule of C52 for the binary update (BinaryMotion.v).
* **C63 A dimension in which the swarm has collapsed stays collapsed** - Entry-wise invariant rule (Entries.v): zero velocities and equal values reproduce themselves under rounding (Collapse.v).
* **C64 A call depends only on what it asked** - Induction on the loop with two environments (Locality.v).
* **C65 Exactly which arguments the constructors accept** - Equivalence by case analysis on the generators (Accept.v).
* **C66 The bundled objectives in float64: the documented minimum** - Bounds by monotone rounding, closed under the operations (ObjFloat.v); the refutations compute one value.
* **C67 A one-sided velocity clamp lets particles move one way only** - Equations of motion (C52) with the clamped velocity, monotone rounding of one addition (OneWay.v), C36 for the search.
* **C68 Every recorded array has the shape of the swarm** - Length facts of every operator, then the whole-run rule (Shapes.v).
* **C69 The cost history is the running minimum** - Invariant of the whole-run rule with the log of evaluations (RunningMin.v).
* **C70 The plots show the run** - C68 and C69 read through the plotting functions (Plots.v).
* **C71 Reporting does not influence a run and tells the truth** - A second loop that also returns the events; erasing them gives the first (ReportFacts.v).
* **C72 A process pool is closed only by a call that succeeds** - Shape of the event list of a call (ReportFacts.v).
* **C73 Which logging configuration is in force** - Case analysis (ReportFacts.v).
* **C74 No dimension is special** - Simulation: a relation between the two states is kept by every function of the model (Reorder.v).
* **C75 No direction is special** - The simulation of C74 (Like.v) with another row relation; opposites commute with the float operations up to the sign of zero (MirrorFacts.v).
* **C76 No particle is special** - A simulation like that of C74 whose relation permutes the particles; with untied costs the best of a neighbourhood is the same particle in both runs (ShuffleFacts.v, ShuffleTopo.v, Shuffle.v).
* **C77 A neighbourhood of everybody is a star** - A simulation between two runs that differ in best_pos (one vector or copies of it) and in the stored neighbours; untied costs make the old leader the only one (EverybodyTopo.v, Everybody.v).
* **C78 Another call is a fresh start at the current positions** - After the first evaluation the two states differ only in old histories and in the window entry of iteration 0, which has left the window when it is first consulted (Forget.v).
* **C79 Without a social coefficient the topology does not matter** - All strategies but shrink respect equality up to the signs of zeros (SameFacts.v); the social term is a zero because all bests stay within 2^1022; two-run simulation (Alone.v).
* **C80 Without attraction the swarm coasts, and stops if and only if the inertia is at most one half** - The attraction terms are zeros; halving and the subnormal numbers by Flocq's rounding lemmas (CoastFacts.v); chain over the velocity history by the run rule (Coast.v).
* **C81 What an objective writes into its argument becomes the swarm** - HeapWrite.v: the array is updated between the read and the rest of the pass. The position array of every iteration but the first is newer than every array anybody else holds (Apart in WriteRun.v); personal bests by the invariant of C05 for an objective that only answers.
* **C82 What the constructors of Swarm, Designer, Animator and Mesher accept** - The generated __init__ as three passes over a list of fields (Attrs.v): bind the arguments, set attributes in order, run validators in order. Each class computed once for arbitrary arguments (swarm_set, designer_set, ...), then the validators translated one by one.
* **C83 A call of optimize() terminates** - Potential argument with rounding: one pass takes a coordinate outside by more than half a width closer by at least half a width (ReflectEnd.v, pass/passes/coord_end, from the error bound of two float64 operations); the matrix loop is the pointwise iteration (it of BhReal.v). Runs by optimize_rule with OutOfFuel excluded from every operator's errors (ends_* lemmas). The refutation evaluates the first iteration up to the handler call and uses the lower bound of C14.
* **C84 The units of the dimensions do not matter** - A number that is a multiple of 2^l with l far above the least exponent is rounded at a relative position, so rounding commutes with powers of two (ScaleFacts.v, rnd_scale); each float64 operation of the velocity, clamp, position and boundary code keeps a pair of corresponding numbers on coarser or finer grids (on k l m). The run is the simulation of C74 (Like.v), now with premises per state (update_at), and the invariant that bests and handler memories are recorded positions.
* **C85 Which array types an optimizer accepts as init_pos** - The loop of Optimizers.v with a type for positions, personal bests and the handler memory beside each state; a simulation argument (loop_same) for the accepted combinations, with the frozen swarm of C23 for 'adjust'; case analysis of the first iteration for the others.
* **C86 The options dictionary stays the caller's** - A state with the dictionary's contents beside the object; one lock-step lemma for two runs that agree but for swarm.options (pair_optimize), from which the theorems about changes between and during calls and the one about schedules follow.
* **C87 Bounds of one element, and numbers as bounds** - Case analysis of the strategies for one move (position_small), then a simulation by the run with the bounds written out.
* **C88 One dimension and no cost below infinity** - An invariant for the first iteration (Idle) and one for the ruined object, preserved by every call; agreement with optimize by the shapes of C68.
* **C89 A well-configured optimizer does not raise** - An invariant of shapes and usable neighbourhoods that every iteration keeps, returned or raised (optimize_any in SafeFacts.v), and progress of each operator from it; the float64 denominators by Flocq's rounding lemmas (SafeMore.v).
* **C90 Objectives that return one number for the whole swarm** - Lock-step of two runs that agree but for swarm.current_cost (loop_sc in BroadcastFacts.v); array_split into as many chunks as rows by counting; an invariant that all personal best costs are equal.
* **C91 Objectives that return arrays of several axes** - numpy's broadcasting of shapes, last axis first, and its specification by axes (rev_case in AxesFacts.v); the last axis of the position mask is the number of particles and meets the number of dimensions. C91_plain is a lock-step with the run of Broadcast.v.

## File layout

Model (no proofs): `F64`, `Prelude`, `Num`, `Np`, `Handlers`, `Swarms`, `Operators`,
`Generators`, `Topology`, `Optimizers`, `Search`, `Objectives`, `Tools`, `Heap`, `HeapWrite`, `Report`, `Attrs`,
`DType`, `LiveOptions`, `SmallBounds`, `OneDim`, `Broadcast`,
`Axes`.
Specifications (vocabulary of the statements, independent of the model's helpers): `Spec*`.
Property theorems, each closed by `exact`, with `Print Assumptions` below and an `Example`
beside: `Properties*`. Concrete instances used by the examples: `Demo`, `Witness`,
`Examples*`. Everything else is proof.

## Coverage: source to model

| Source | Model | Left out |
|---|---|---|
| handlers.py:46-54 `_out_of_bounds` | Handlers `lower`, `greater`, `row_lower`, `row_greater` | index arrays are replaced by element and row tests |
| handlers.py:56-62 `_get_all_strategies` | `bh_known`, lookups in `vh_call`, `oh_call` | reflection: the method names are listed |
| handlers.py:39-44 `_merge_dicts` | not modelled | has no caller |
| handlers.py:65-393 `BoundaryHandler` | `nearest`, `reflective`, `shrink`, `random_bh`, `intermediate`, `periodic`, `bh_call` | log messages; `reflective` gets a number of passes, running out is the value `OutOfFuel` (C83: when it does not happen) |
| handlers.py:396-546 `VelocityHandler` | `apply_clamp`, `vh_*`, `vh_call` | log messages |
| handlers.py:549-764 `OptionsHandler` | `exp_decay`, `lin_variation`, `nonlin_mod`, random, `oh_call` | `OverflowError` of `math.exp`; `nonlin_mod` with iternow > itermax (complex result) is `Unmodelled` |
| generators.py:24-245 | Generators, all four functions | checks of argument types other than bounds, clamp and init_pos |
| swarms.py:18-121 `Swarm` | Swarms; constructor and validators in Attrs (C82) | - |
| operators.py:25-245 | Operators, all four functions | the `AttributeError` branches (argument is not a Swarm) |
| topology/base.py, star.py, ring.py, von_neumann.py, pyramid.py, random.py | Topology, all `compute_gbest`, `delannoy`, `__compute_neighbors` | `compute_velocity`/`compute_position` only delegate to the operators and are inlined in Optimizers |
| base_single.py, base_discrete.py | Optimizers `config`, `construct`, `reset`, `populate_history` | the abstract `optimize` |
| global_best.py, local_best.py, general_optimizer.py, binary.py | Optimizers, one definition `optimize` with an `opt_kind` | the `isinstance(topology, Topology)` check (except in Search) |
| the same, with the types of arrays | DType | integers are assumed to be at most 2^52; integer positions outside the bounds are `Unmodelled` |
| the same, with the caller's options dictionary | LiveOptions | the objective writes into it as a whole, before it returns or raises |
| the same, with bounds of one element or numbers as bounds | SmallBounds | lists of one element; two bounds of different lengths |
| the same, in one dimension without a best position | OneDim | BinaryPSO, which always has one |
| the same, with objectives that return a number or an array of one element | Broadcast | swarms of one particle with several costs |
| the same, with objectives that return arrays of several axes | Axes: shapes only | runs that go on with personal bests of three axes |
| the same, with aliasing of arrays | Heap, HeapWrite | cost vectors and options stay values |
| search/*.py | Search `generate_grid`s, `search`, `generate_score` for the four optimizer classes, `run_grid_search`, `run_random_search` with default clamp and type assertions | negative `n_selection_iters` |
| decorators.py | Tools `cost_dec` | - |
| functions/single_obj.py | Objectives, all seventeen functions | - |
| plotters.py:405-432 `_mesh`, formatters.py:169-212 | Tools `mesh`, `compute_history_3d` | - |
| plotters.py:84-139 `plot_cost_history`, 142-245 `plot_contour`, 248-390 `plot_surface`, 393-402 `_animate` | Tools `plot_cost_history`, `plot_contour`, `plot_surface`, `animate` | data handed to matplotlib; a user-supplied canvas, fonts, colours, contour levels, transparency and timing are left out |
| the same, `verbose` and `n_processes`: what is logged and shown, opening and closing the pool | Report `reported` | ERROR records of `except` blocks; the text of the records |
| reporter.py:62-118 `__init__`, 141-162 `print`, 164-188 `_setup_logger` | Report `setup_logger`, `log_file`, `print` | the contents of the default configuration; `log`, `pbar`, `hook` hand their arguments on |
| formatters.py (rest) | Attrs (C82) | the defaults of `colormap` and `levels` only by kind and shape |

## Trusted base

1. Coq 8.16.1's kernel, including `vm_compute`, used for the concrete examples and
   for the counterexamples.
2. The axioms that `Print Assumptions` lists. Four occur, all from the standard
   library, where they come with the classical real numbers: `sig_forall_dec` and
   `sig_not_dec` (ClassicalDedekindReals), `functional_extensionality_dep`, and `classic`
   (Classical_Prop). The table below gives them for each theorem. The development states no
   axiom of its own.
3. The libraries used: Coq's standard library, Flocq (definition of binary64 and of
   correct rounding) and Coquelicot (derivatives and least upper bounds, in the proofs of
   C48 only). Nothing is taken from the other installed libraries, except where these load
   them.
4. That the definitions say what the cited Python lines do, with the simplifications below.
   This is a reading of the text: nothing was run against the Python code.

### Simplifications

* numpy broadcasting of length-1 axes is a shape error in the model. The exceptions are that
  scalar clamps are repeated to rows of length d, the bounds in SmallBounds.v (C87) and the
  costs in Broadcast.v (C90) and Axes.v (C91).
* `best_pos` is empty before the first best is known. Combining it with positions of one
  column (numpy broadcasts an empty array with it) is `Unmodelled` in Operators.v and said in
  OneDim.v (C88); for d > 1 it is ValueError.
* NPY_MAXDIMS is 32, as in numpy 1.x (it bounds the calls with one neighbour, C34).
* The neighbour lists of Random and Pyramid may have different lengths (random.py:68,
  pyramid.py:81); `np.array` of them is an array of lists, as in numpy before 1.24.
* `argsort` is a stable insertion sort; numpy may order equal draws differently.
* The options `k`, `p` and `r` are integers; a float given for one of them is treated like a
  missing keyword.
* Positions of BinaryPSO and of discrete swarms are floats. What the type of `init_pos` changes is
  said in DType.v (C85): integers and booleans beside floats; float32 is not modelled.
* `np.random.randint(lo, hi)` is `lo + r mod (hi - lo)` for an arbitrary integer r; float
  bounds for `k` in RandomSearch are `Unmodelled`.
* `x ** 2` is `x * x`. `exp`, `cos`, `sqrt`, other powers and the order of summation in the
  bundled functions are parameters, and masked sums fill with 0.
* A process pool evaluates its chunks in order; the first failing chunk in that order raises.
* A cost function whose results have different shapes, an empty history for
  `compute_history_3d` and non-finite `arange` lengths are `Unmodelled`.
* `adjust` stores the position before a failing clamp in the code; the model leaves the
  memory as it was in that error state.
* The objective does not write into the position array it is given, except in HeapWrite.v (C81),
  and keeps no reference to it.
* Attrs.v writes out what `@attrs` 18.1 generates (requirements.txt:1), with validators switched
  on; of an argument only its kind, and the shape of an array, is looked at. `OOther` stands for
  objects without a `shape`.
* The bundled objectives of C48 are treated over the real numbers. Where the docstring gives
  rounded decimals (crossintray, eggholder, holdertable, himmelblau) the exact minimisers are
  shown to exist and located near those decimals.
* Star and VonNeumann objects always have `static=True` (star.py:28, von_neumann.py:20); the
  model allows both values for them, the theorems quantify over both.

### Assumptions of each theorem

All four: `sig_forall_dec`, `sig_not_dec`, `functional_extensionality_dep`, `classic`.
Three: all but `classic`. None: closed under the global context.

| Theorem | Axioms |
|---|---|
| `C79_alone` | all four |
| `C79_social_refuted` | all four |
| `C79_overflow_refuted` | all four |
| `C82_swarm` | none |
| `C82_attributes` | none |
| `C82_raises` | none |
| `C82_create` | all four |
| `C82_designer` | none |
| `C82_animator` | none |
| `C82_mesher` | all four |
| `C82_formatter_attributes` | all four |
| `C82_formatter_raises` | all four |
| `C91_raises` | all four |
| `C91_later` | all four |
| `C91_square` | none |
| `C91_fits` | none |
| `C91_shapes` | all four |
| `C91_plain` | all four |
| `C90_once` | all four |
| `C90_first` | all four |
| `C90_number_pool` | all four |
| `C90_one_process` | all four |
| `C90_each_process` | all four |
| `C90_other_pool` | all four |
| `C80_coasts` | all four |
| `C80_slows` | all four |
| `C80_rest` | all four |
| `C80_restless` | all four |
| `C85_plain` | all four |
| `C85_adjust` | all four |
| `C85_refused` | all four |
| `C85_type_error` | all four |
| `C85_exactly` | all four |
| `C52_star` | all four |
| `C52_neighbours` | all four |
| `C52_inside` | all four |
| `C53_constructor` | all four |
| `C53_boundary` | all four |
| `C53_velocity` | all four |
| `C53_unbounded` | all four |
| `C54_longer` | all four |
| `C54_scheduled_refuted` | all four |
| `C54_stop` | all four |
| `C55_objective` | all four |
| `C56_call` | all four |
| `C56_fresh` | all four |
| `C56_tolerance_refuted` | all four |
| `C57_moves` | all four |
| `C58_returned` | all four |
| `C58_leader` | all four |
| `C58_same_position_refuted` | all four |
| `C77_optimize` | all four |
| `C77_ties_refuted` | all four |
| `C78_forgets` | all four |
| `C78_keeps_only_best` | all four |
| `C78_star_refuted` | all four |
| `C78_infinite_refuted` | all four |
| `C12_nearest_projection` | all four |
| `C12_nearest_idempotent` | all four |
| `C12_nearest_exact` | functional_extensionality_dep, sig_forall_dec |
| `C13_periodic_inside` | all four |
| `C13_periodic_exact` | functional_extensionality_dep, sig_forall_dec |
| `C14_reflective_partial_correctness` | all four |
| `C14_reflective_exact` | functional_extensionality_dep, sig_forall_dec |
| `C14_reflective_hangs_far` | all four |
| `C14_reflective_hangs_infinite` | all four |
| `C14_reflective_hangs_flat` | functional_extensionality_dep, sig_forall_dec |
| `C15_random_resamples` | all four |
| `C16_intermediate_inside` | all four |
| `C16_intermediate_exact` | functional_extensionality_dep, sig_forall_dec |
| `C16_first_call` | none |
| `C17_shrink_exact` | functional_extensionality_dep, sig_forall_dec |
| `C17_shrink_float_refuted` | all four |
| `C18_row_inside` | none |
| `C18_shape` | none |
| `C20_clamped` | all four |
| `C20_unmodified_cut` | all four |
| `C20_adjust_cut` | all four |
| `C22_invert` | none |
| `C22_invert_default_z` | none |
| `C22_zero` | none |
| `C22_inside` | none |
| `C22_without_bounds` | none |
| `C24_velocity` | none |
| `C24_missing_option` | none |
| `C24_position` | none |
| `C24_at_rest` | all four |
| `C50_construct` | all four |
| `C50_construct_error` | all four |
| `C50_optimize` | all four |
| `C50_iteration` | all four |
| `C50_session` | all four |
| `C50_direct_boundary` | all four |
| `C50_direct_velocity` | all four |
| `C86_new` | all four |
| `C86_kept` | all four |
| `C86_alias` | all four |
| `C86_quiet` | all four |
| `C86_written` | all four |
| `C86_between` | all four |
| `C86_coefficients` | all four |
| `C86_general_refuted` | all four |
| `C86_schedule` | all four |
| `C75_construct` | all four |
| `C75_optimize` | all four |
| `C75_session` | all four |
| `C75_invert_refuted` | all four |
| `C75_shrink_refuted` | all four |
| `C51_mean_value` | all four |
| `C62_binary` | all four |
| `C63_collapsed` | all four |
| `C64_locality` | all four |
| `C65_accepted` | all four |
| `C19_run_in_box` | all four |
| `C19_first_run_in_box` | all four |
| `C21_run_in_clamp` | all four |
| `C21_first_run_in_clamp` | all four |
| `C21_zero_leaves_clamp_refuted` | all four |
| `C22_noop_run` | all four |
| `C23_adjust_freezes` | all four |
| `C25_bounded` | all four |
| `C25_overflow` | all four |
| `C25_unbounded` | all four |
| `C25_init_pos` | all four |
| `C25_start` | all four |
| `C25_center_refuted` | all four |
| `C26_clamped` | all four |
| `C26_unclamped` | all four |
| `C26_start` | all four |
| `C27_binary` | all four |
| `C27_permutations` | all four |
| `C27_init_pos` | all four |
| `C29_costs` | none |
| `C29_arrays` | none |
| `C29_raises` | none |
| `C29_rowwise` | all four |
| `C29_pool` | all four |
| `C47_wrong_dimension` | none |
| `C47_outside` | none |
| `C47_value` | none |
| `C47_rowwise` | all four |
| `C47_accepted_finite` | all four |
| `C48_minimum` | all four |
| `C48_himmelblau` | three |
| `C48_mirror` | all four |
| `C48_four` | all four |
| `C48_eggholder` | all four |
| `C48_eggholder_refuted` | all four |
| `C48_formula` | all four |
| `C48_levi_refuted` | all four |
| `C66_floor` | all four |
| `C66_exact` | all four |
| `C66_goldstein_refuted` | all four |
| `C66_ackley_refuted` | all four |
| `C66_levi_refuted` | all four |
| `C49_mesh` | all four |
| `C49_mesh_total` | all four |
| `C49_mesh_pool` | all four |
| `C49_arange` | all four |
| `C49_history` | all four |
| `C49_history_total` | all four |
| `C49_history_pool` | all four |
| `C88_agrees` | all four |
| `C88_first` | all four |
| `C88_forever` | all four |
| `C88_adjust` | all four |
| `C38_varied` | none |
| `C38_total` | none |
| `C38_key_error` | none |
| `C38_errors` | none |
| `C38_missing_raises` | none |
| `C38_run` | all four |
| `C39_lin` | all four |
| `C39_lin_monotone` | all four |
| `C39_nonlin` | all four |
| `C39_nonlin_monotone` | all four |
| `C40_value` | all four |
| `C40_strict` | all four |
| `C40_default_c2_negative` | all four |
| `C40_interpolates_refuted` | all four |
| `C41_real_range` | functional_extensionality_dep, sig_forall_dec |
| `C41_float_range` | all four |
| `C41_never_runs` | all four |
| `C42_run` | all four |
| `C42_session` | all four |
| `C42_returned` | all four |
| `C42_two_valued_refuted` | all four |
| `C43_rule` | all four |
| `C43_total` | all four |
| `C43_monotone` | all four |
| `C43_shared_draws` | all four |
| `C43_sigmoid_real` | all four |
| `C68_start` | all four |
| `C68_run` | all four |
| `C68_session` | all four |
| `C69_star` | all four |
| `C69_neighbors` | all four |
| `C70_curve` | all four |
| `C70_defaults` | all four |
| `C70_short_designer` | all four |
| `C70_contour` | all four |
| `C70_surface` | all four |
| `C70_axes` | all four |
| `C70_on_surface` | all four |
| `C56_start` | all four |
| `C56_pair` | all four |
| `C56_session` | all four |
| `C83_reflective` | all four |
| `C83_other` | all four |
| `C83_run` | all four |
| `C83_unclamped_refuted` | all four |
| `C74_construct` | all four |
| `C74_reset` | all four |
| `C74_optimize` | all four |
| `C74_session` | all four |
| `C74_shrink_refuted` | all four |
| `C71_same_run` | all four |
| `C71_bar` | all four |
| `C71_finish` | all four |
| `C71_quiet` | all four |
| `C72_pool` | all four |
| `C72_left_open` | all four |
| `C73_custom` | none |
| `C73_default` | none |
| `C01_pbest_strict` | all four |
| `C01_pbest_nan` | all four |
| `C01_pbest_total` | all four |
| `C02_pbest_of_call` | all four |
| `C03_star_minimum` | all four |
| `C04_neighbor_pair` | all four |
| `C05_second_call_mismatch_refuted` | all four |
| `C05_star_session` | all four |
| `C06_star_history` | all four |
| `C06_neighbor_history` | all four |
| `C07_neighbours_lose_best_refuted` | all four |
| `C07_knn_covers` | all four |
| `C08_default_ftol` | all four |
| `C09_stop_rule` | all four |
| `C10_histories` | all four |
| `C10_aligned` | all four |
| `C11_objective_error` | all four |
| `C28_pool_costs` | all four |
| `C28_pool_equal` | all four |
| `C28_chunks` | none |
| `C44_reset_like_new` | all four |
| `C44_reset_total` | all four |
| `C44_static_reset_refuted` | all four |
| `C45_zero_iterations` | all four |
| `C45_nothing_finite` | all four |
| `C45_zero_ftol_iter` | all four |
| `C45_zero_ftol_iter_err` | all four |
| `C45_missing_keys` | all four |
| `C45_zero_processes` | all four |
| `C46_no_nan_state` | all four |
| `C46_no_nan_returned` | all four |
| `C51_mean_history` | all four |
| `C89_returns` | all four |
| `C89_always` | all four |
| `C89_reflective` | all four |
| `C89_varied` | all four |
| `C84_construct` | all four |
| `C84_optimize` | all four |
| `C84_moderate` | all four |
| `C84_underflow_refuted` | all four |
| `C35_grid` | all four |
| `C35_empty` | all four |
| `C36_optimum` | all four |
| `C36_total` | all four |
| `C36_empty` | all four |
| `C36_error` | all four |
| `C36_score` | all four |
| `C36_grid_search` | all four |
| `C36_random_search` | all four |
| `C36_types` | all four |
| `C36_general` | all four |
| `C36_binary_bounds` | all four |
| `C37_range` | all four |
| `C37_total` | all four |
| `C37_options_kept` | all four |
| `C37_missing_p` | all four |
| `C37_missing_key` | all four |
| `C37_missing_raises` | all four |
| `C67_one_way` | all four |
| `C67_returned` | all four |
| `C67_score` | all four |
| `C67_search` | all four |
| `C76_construct` | all four |
| `C76_reset` | all four |
| `C76_optimize` | all four |
| `C76_ties_refuted` | all four |
| `C87_construct` | all four |
| `C87_free` | all four |
| `C87_agrees` | all four |
| `C87_inside` | all four |
| `C87_hopeless` | all four |
| `C59_box` | all four |
| `C59_free` | all four |
| `C59_unclamped_refuted` | all four |
| `C60_speed` | all four |
| `C61_step` | all four |
| `C61_star` | all four |
| `C61_neighbours` | all four |
| `C30_delannoy_counts` | none |
| `C30_delannoy_sym` | none |
| `C30_delannoy_pos` | none |
| `C31_random_graph` | none |
| `C31_random_degree` | none |
| `C31_random_extra` | none |
| `C31_random_total` | none |
| `C32_neighborhood_best` | all four |
| `C32_covered` | all four |
| `C32_complete` | all four |
| `C32_pyramid_few` | all four |
| `C32_one_neighbor` | all four |
| `C33_static_ignores_queries` | all four |
| `C33_static_session` | all four |
| `C33_reset_keeps` | all four |
| `C33_dynamic_query` | all four |
| `C34_one_neighbor_limit` | all four |
| `C34_one_neighbor_step` | all four |
| `C81_written` | all four |
| `C81_returned` | all four |
| `C81_init_array` | all four |
| `C81_pool` | all four |
| `C81_quiet` | all four |
| `C81_history_refuted` | all four |
