{"id": "C01", "title": "Personal best is a strict per-particle improvement", "statement": "compute_pbest(swarm) returns, for every particle, the current position and cost if the current cost is strictly lower (IEEE <) than the stored personal-best cost, and otherwise the stored position and cost; position row and cost are always taken from the same side, NaN current costs never replace anything.", "quantifier": "every swarm of n particles and d dimensions, every float64 cost vector incl. NaN and infinities", "why_tests_cant": "a test fixes one cost vector; the claim ranges over all float64 values and shapes", "anchors": ["pyswarms/backend/operators.py:compute_pbest"]}
{"id": "C02", "title": "Personal best equals the best evaluation of the run", "statement": "After any number of iterations of optimize(), each particle's personal-best cost is the minimum of all non-NaN costs below infinity that the objective returned for that particle in this call, and its personal-best position is the position at the first evaluation that attained it.", "quantifier": "every objective (also noisy / stateful), every random draw, every handler and topology, every iteration count", "why_tests_cant": "the history of evaluations is unbounded and random", "anchors": ["pyswarms/backend/operators.py:compute_pbest", "pyswarms/single/global_best.py:GlobalBestPSO.optimize", "pyswarms/single/local_best.py:LocalBestPSO.optimize", "pyswarms/single/general_optimizer.py:GeneralOptimizerPSO.optimize", "pyswarms/discrete/binary.py:BinaryPSO.optimize"]}
{"id": "C03", "title": "Global best is the minimum of everything evaluated", "statement": "On a fresh GlobalBestPSO (or GeneralOptimizerPSO with Star), the cost returned by optimize() is the least cost evaluated over all particles and iterations of the call: no evaluation was strictly lower, and one evaluation had exactly that cost.", "quantifier": "every objective, draw sequence, bounds/velocity/option strategy and iteration count", "why_tests_cant": "the minimum is over an unbounded random history", "anchors": ["pyswarms/single/global_best.py:GlobalBestPSO.optimize", "pyswarms/backend/topology/star.py:Star.compute_gbest"]}
{"id": "C04", "title": "Returned position and returned cost belong together (first call)", "statement": "The pair (cost, pos) returned by the first optimize() call of a fresh optimizer is an evaluated pair: in some iteration the objective was evaluated at pos for some particle and returned cost. For star neighbourhoods this holds unconditionally; for Ring/VonNeumann/Pyramid/Random topologies it holds whenever every particle belongs to some particle's neighbour list in the last iteration.", "quantifier": "every objective (also noisy), draw, topology, iteration count", "why_tests_cant": "depends on the whole random run", "anchors": ["pyswarms/single/global_best.py:GlobalBestPSO.optimize", "pyswarms/single/local_best.py:LocalBestPSO.optimize", "pyswarms/single/general_optimizer.py:GeneralOptimizerPSO.optimize", "pyswarms/backend/topology/star.py", "pyswarms/backend/topology/ring.py"]}
{"id": "C05", "title": "Calling optimize() twice with a star neighbourhood can return a mismatched pair", "statement": "A second optimize() on the same GlobalBestPSO keeps the best cost of the first call but recomputes the returned position from the second call only; the returned cost is the minimum over both calls, and there are runs in which the objective value at the returned position differs from the returned cost.", "quantifier": "all pairs of successive calls (positive part), one concrete run (negative part)", "why_tests_cant": "needs a specific two-call history; tests only call optimize once", "anchors": ["pyswarms/single/global_best.py:GlobalBestPSO.optimize"]}
{"id": "C06", "title": "Best-cost history never increases", "statement": "For star neighbourhoods the recorded best-cost history is non-increasing over the whole life of the optimizer object, across repeated optimize() calls, until reset(). For neighbour-based topologies it is non-increasing inside a call whenever every particle is covered by some neighbour list in each iteration.", "quantifier": "all runs and all call sequences", "why_tests_cant": "universal over histories", "anchors": ["pyswarms/single/global_best.py:GlobalBestPSO.optimize", "pyswarms/base/base_single.py:SwarmOptimizer._populate_history", "pyswarms/backend/topology/star.py:Star.compute_gbest"]}
{"id": "C07", "title": "Neighbour-based optimizers lose the best particle when positions coincide", "statement": "LocalBestPSO/BinaryPSO return the minimum personal-best cost only over best neighbours. If more than k particles share a position, a k-nearest-neighbour query that satisfies its contract may leave the best particle out of every neighbour list, and then the returned cost is not the cost of the returned position.", "quantifier": "positive part: all swarms with pairwise distinct positions; negative part: a concrete contract-abiding query", "why_tests_cant": "depends on tie-breaking inside the k-d tree", "anchors": ["pyswarms/backend/topology/ring.py:Ring.compute_gbest", "pyswarms/discrete/binary.py:BinaryPSO.optimize", "pyswarms/single/local_best.py:LocalBestPSO.optimize"]}
{"id": "C08", "title": "Default ftol runs exactly iters iterations", "statement": "With the default ftol = -inf, optimize(f, iters) that returns normally has evaluated the swarm exactly iters times and appended exactly iters entries to every history.", "quantifier": "all optimizers, objectives (NaN and infinite costs included), draws, iters", "why_tests_cant": "universal over runs including inf-inf arithmetic", "anchors": ["pyswarms/single/global_best.py", "pyswarms/single/local_best.py", "pyswarms/single/general_optimizer.py", "pyswarms/discrete/binary.py"]}
{"id": "C09", "title": "Early stopping is exactly the documented window test", "statement": "A call stops before iters iterations only if at least ftol_iter+1 iterations were made and each of the last ftol_iter iterations changed the best cost by less than ftol*(1+|previous best cost|); and it stops at the first iteration (index >= ftol_iter) at which that holds.", "quantifier": "all ftol, ftol_iter >= 1, objectives, runs", "why_tests_cant": "off-by-one at window edges, inf/NaN deltas in the first iteration", "anchors": ["pyswarms/single/global_best.py:GlobalBestPSO.optimize", "pyswarms/single/local_best.py", "pyswarms/single/general_optimizer.py", "pyswarms/discrete/binary.py"]}
{"id": "C10", "title": "History lists stay aligned and append-only", "statement": "All five history lists have equal length at all times, optimize() only appends to them (one entry per iteration, earlier entries kept), the k-th position entry of a call is the position matrix on which iteration k evaluated the objective, and the k-th cost entry is the best cost after iteration k.", "quantifier": "all runs and sequences of calls, including calls that raise", "why_tests_cant": "universal over histories and crash points", "anchors": ["pyswarms/base/base_single.py:SwarmOptimizer._populate_history", "pyswarms/single/global_best.py:GlobalBestPSO.optimize"]}
{"id": "C11", "title": "An exception in the objective leaves a consistent optimizer", "statement": "If the objective raises in iteration t, optimize() raises that error, exactly t new entries are in every history, personal bests describe exactly the t completed evaluations, and the swarm position is the one that was being evaluated.", "quantifier": "every objective, every iteration t at which it raises", "why_tests_cant": "every crash point", "anchors": ["pyswarms/backend/operators.py:compute_objective_function", "pyswarms/single/global_best.py:GlobalBestPSO.optimize"]}
{"id": "C12", "title": "nearest boundary handling is projection onto the box", "statement": "For lb <= ub the 'nearest' strategy returns positions inside [lb, ub], leaves in-bounds coordinates unchanged, is idempotent, and each returned coordinate is the closest point of [lb_d, ub_d] to the original (exact reals); it never leaves a coordinate strictly outside, for every float64 input incl. infinities.", "quantifier": "all position matrices and bounds", "why_tests_cant": "all floats", "anchors": ["pyswarms/backend/handlers.py:BoundaryHandler.nearest"]}
{"id": "C13", "title": "periodic boundary handling stays in the box and wraps", "statement": "For finite lb < ub and finite positions whose distance to the bounds does not overflow, 'periodic' returns float64 positions inside [lb, ub] despite rounding, leaves in-bounds coordinates unchanged, and (exact reals) moves each coordinate by an integer multiple of the box width. With lb = ub (or infinite positions) out-of-bounds coordinates become NaN.", "quantifier": "all float64 matrices and bounds", "why_tests_cant": "rounding of fmod and subtraction for all floats", "anchors": ["pyswarms/backend/handlers.py:BoundaryHandler.periodic"]}
{"id": "C14", "title": "reflective boundary handling: termination and result", "statement": "In exact arithmetic with lb < ub 'reflective' terminates for every position and returns the mirrored position inside the box; whenever it returns in float64 no coordinate is strictly outside. In float64 it never terminates when some finite coordinate exceeds 2^56 times both of its bounds in magnitude (e.g. x=1e30 in [0,1]) or is infinite with 2*lb and 2*ub finite; in exact arithmetic it never terminates for lb = ub with an out-of-box coordinate.", "quantifier": "all real matrices (termination), all float64 (partial correctness), concrete witnesses (divergence)", "why_tests_cant": "non-termination cannot be observed by a test; termination ranges over all positions", "anchors": ["pyswarms/backend/handlers.py:BoundaryHandler.reflective"]}
{"id": "C15", "title": "random boundary handling resamples whole particles inside the box", "statement": "'random' leaves every particle that is inside the box untouched and replaces every particle with an out-of-bounds coordinate by a vector inside [lb, ub] in float64 for every draw in [0,1), provided ub-lb does not overflow; all particles violating an upper bound only share the same vector, all violating a lower bound share the same vector.", "quantifier": "all float64 matrices, bounds, draws", "why_tests_cant": "rounding for all draws", "anchors": ["pyswarms/backend/handlers.py:BoundaryHandler.random"]}
{"id": "C16", "title": "intermediate boundary handling stays in the box", "statement": "With the previous positions inside finite bounds (no overflow of the sum), 'intermediate' returns positions inside the box, changes only the out-of-bounds coordinates and sets each to the midpoint of previous coordinate and violated bound.", "quantifier": "all float64 matrices and memories", "why_tests_cant": "rounding for all floats", "anchors": ["pyswarms/backend/handlers.py:BoundaryHandler.intermediate"]}
{"id": "C17", "title": "shrink boundary handling", "statement": "In exact arithmetic, with previous positions inside the box, 'shrink' returns positions inside the box lying on the segment from the previous to the attempted position, touching the boundary for each corrected particle, and leaves in-bounds particles unchanged. In float64 the result can be strictly outside the box.", "quantifier": "all real matrices and memories; float64 witness", "why_tests_cant": "all inputs; rounding", "anchors": ["pyswarms/backend/handlers.py:BoundaryHandler.shrink"]}
{"id": "C18", "title": "Boundary handling never touches admissible particles", "statement": "For every strategy and memory state, a particle whose coordinates all lie in [lb, ub] is returned unchanged, and the matrix shape is preserved.", "quantifier": "all strategies, matrices, memories, draws", "why_tests_cant": "universal over inputs and handler states", "anchors": ["pyswarms/backend/handlers.py:BoundaryHandler"]}
{"id": "C19", "title": "Swarm stays inside the bounds during a whole run", "statement": "With bounds given (finite lb <= ub) and an in-bounds start, every position matrix recorded by optimize(), and the final swarm position, has no coordinate strictly outside its bounds, for the strategies nearest, periodic, random (ub-lb not overflowing), intermediate (no overflow), and reflective whenever the call returns.", "quantifier": "all runs: objectives, draws, options, topologies, iterations", "why_tests_cant": "inductive over an unbounded random run", "anchors": ["pyswarms/single/global_best.py:GlobalBestPSO.optimize", "pyswarms/backend/operators.py:compute_position", "pyswarms/backend/handlers.py:BoundaryHandler"]}
{"id": "C20", "title": "Velocity clamping", "statement": "VelocityHandler with strategy unmodified, invert or adjust (once it has a previous position) returns velocities in [min,max] whenever min <= max and the value is not NaN, and velocities strictly inside the clamp are unchanged by clamping. Strategy zero ignores the clamp.", "quantifier": "all velocity matrices, clamps, positions, bounds", "why_tests_cant": "all floats", "anchors": ["pyswarms/backend/handlers.py:VelocityHandler"]}
{"id": "C21", "title": "Velocities stay clamped during a whole run", "statement": "With velocity_clamp=(a,b), a<=b, every velocity matrix recorded by optimize() for strategies unmodified, adjust and invert has no entry strictly outside [a,b], including the generated initial velocity; with strategy zero there are runs that leave the clamp.", "quantifier": "all runs", "why_tests_cant": "inductive over unbounded runs", "anchors": ["pyswarms/single/global_best.py:GlobalBestPSO.optimize", "pyswarms/backend/generators.py:generate_velocity", "pyswarms/backend/handlers.py:VelocityHandler"]}
{"id": "C22", "title": "invert and zero act exactly on out-of-bounds particles", "statement": "invert multiplies the velocity of a particle outside the box on one side by -z and leaves in-bounds particles unchanged; a particle that violates a lower and an upper bound simultaneously is multiplied twice (net +z^2). zero sets the velocity of exactly the out-of-bounds particles to zero. During optimize() with an in-bounds swarm both leave the (clamped) velocity unchanged.", "quantifier": "all matrices", "why_tests_cant": "combination of violated sides", "anchors": ["pyswarms/backend/handlers.py:VelocityHandler.invert", "pyswarms/backend/handlers.py:VelocityHandler.zero"]}
{"id": "C23", "title": "vh_strategy='adjust' freezes the swarm", "statement": "With vh_strategy='adjust' (no clamp or a clamp containing 0) and a finite in-bounds start, every position recorded by optimize() equals the initial position: the swarm never moves.", "quantifier": "all runs, objectives, draws, boundary strategies", "why_tests_cant": "universal over runs; tests only check the handler in isolation", "anchors": ["pyswarms/backend/handlers.py:VelocityHandler.adjust", "pyswarms/single/global_best.py:GlobalBestPSO.optimize"]}
{"id": "C24", "title": "Velocity update equation is local and has the right fixed points", "statement": "compute_velocity with the unmodified handler gives for particle i, dimension j: w*v + c1*r1*(pbest-x) + c2*r2*(best-x) with entries of particle i only (best taken from the common vector or from row i); missing c1/c2/w raise KeyError. A particle resting (v=0) at x = pbest = best gets velocity zero for every draw.", "quantifier": "all swarms, draws, options", "why_tests_cant": "all shapes and broadcasting cases", "anchors": ["pyswarms/backend/operators.py:compute_velocity"]}
{"id": "C25", "title": "Initial positions respect the bounds", "statement": "generate_swarm with finite bounds lb <= ub and center=1 returns float64 positions inside [lb,ub] for every draw, or raises OverflowError when ub-lb overflows; an init_pos is used as is and accepted iff it lies within the bounds (otherwise ValueError); without bounds and init_pos coordinates are in [0,1) times center. With center != 1 positions may lie outside the bounds.", "quantifier": "all draws, bounds, shapes", "why_tests_cant": "rounding for all draws", "anchors": ["pyswarms/backend/generators.py:generate_swarm"]}
{"id": "C26", "title": "Initial velocities respect the clamp", "statement": "generate_velocity returns an n x d matrix with entries in [min,max] for every draw in [0,1) and finite min<=max whose difference does not overflow ([0,1) without clamp).", "quantifier": "all draws, clamps, shapes", "why_tests_cant": "rounding for all draws", "anchors": ["pyswarms/backend/generators.py:generate_velocity"]}
{"id": "C27", "title": "Discrete swarm generation", "statement": "generate_discrete_swarm: binary random swarms contain only 0/1; non-binary random swarms have every row a permutation of 0..d-1 (the indices in non-decreasing order of that row's draws); with binary=True an init_pos is accepted iff it has at most two distinct values (they need not be 0 and 1), otherwise ValueError.", "quantifier": "all draws, shapes, init_pos", "why_tests_cant": "all inputs", "anchors": ["pyswarms/backend/generators.py:generate_discrete_swarm"]}
{"id": "C28", "title": "Parallel evaluation equals sequential evaluation", "statement": "For an objective that scores each particle independently, evaluating with a process pool of any size >= 1 (including more processes than particles) yields exactly the same cost vector as evaluating without a pool; hence the whole optimize() run is identical. Chunks are contiguous, in order, and differ in size by at most one.", "quantifier": "all swarms, pool sizes, row-wise objectives, runs", "why_tests_cant": "all sizes/pool combinations", "anchors": ["pyswarms/backend/operators.py:compute_objective_function", "pyswarms/single/global_best.py:GlobalBestPSO.optimize"]}
{"id": "C29", "title": "cost decorator lifts a scalar cost to the swarm", "statement": "A function decorated with @cost returns the vector whose i-th entry is the cost of particle i; it raises ValueError when the wrapped function returns arrays of equal length; the decorated function is row-wise, so parallel evaluation of it equals sequential evaluation.", "quantifier": "all cost functions and swarms", "why_tests_cant": "all functions", "anchors": ["pyswarms/utils/decorators/decorators.py:cost"]}
{"id": "C30", "title": "Delannoy number counts the Von Neumann neighbourhood", "statement": "VonNeumann.delannoy(d, r) equals the number of points of the integer lattice Z^d whose L1 distance from the origin is at most r; it is symmetric in d and r and at least 1.", "quantifier": "all naturals d, r", "why_tests_cant": "all d, r (tests check membership in a set for d,r<3)", "anchors": ["pyswarms/backend/topology/von_neumann.py:VonNeumann.delannoy"]}
{"id": "C31", "title": "Random topology graph is connected, symmetric and reflexive", "statement": "The adjacency matrix built by the Random topology is symmetric, has ones on the diagonal, contains every drawn edge, gives every particle at least k neighbours besides itself, is connected, and the repair loop terminates after at most one pass, for every draw.", "quantifier": "all n, k <= n-1, all random draws", "why_tests_cant": "all random graphs", "anchors": ["pyswarms/backend/topology/random.py:Random.__compute_neighbors"]}
{"id": "C32", "title": "Neighbourhood best is optimal inside each neighbourhood", "statement": "For Ring, VonNeumann, Pyramid and Random: row i of the returned best position is the personal-best position of a particle of i's neighbour list with minimal personal-best cost in that list, and the returned cost is the minimum over these; when every particle is in some neighbour list the returned cost is the minimum over the swarm. Star, and Pyramid with at most as many particles as dimensions, store complete neighbour lists, and that Pyramid sends every particle to the first best personal best; with a single neighbour (ring k=1, von Neumann r=0) every particle follows its own personal best.", "quantifier": "all swarms, neighbour lists", "why_tests_cant": "all inputs", "anchors": ["pyswarms/backend/topology/ring.py:Ring.compute_gbest", "pyswarms/backend/topology/random.py:Random.compute_gbest", "pyswarms/backend/topology/pyramid.py:Pyramid.compute_gbest", "pyswarms/backend/topology/von_neumann.py:VonNeumann.compute_gbest"]}
{"id": "C33", "title": "Static topologies keep their neighbours", "statement": "With a static topology the neighbour lists computed in the first iteration are used in all later iterations and calls (also after reset()); with a dynamic topology the lists of each iteration are computed from that iteration's positions.", "quantifier": "all runs", "why_tests_cant": "history property", "anchors": ["pyswarms/backend/topology/base.py:Topology", "pyswarms/backend/topology/ring.py:Ring.compute_gbest", "pyswarms/backend/topology/random.py:Random.compute_gbest", "pyswarms/backend/topology/pyramid.py:Pyramid.compute_gbest"]}
{"id": "C34", "title": "Static one-neighbour Ring crashes after 32 best-neighbour updates", "statement": "A static Ring topology with k=1 (equivalently VonNeumann with r=0) adds an array axis at each compute_gbest call, so calls 1..31 succeed and the 32nd call raises IndexError (numpy's 32-dimension limit): optimize() with such a topology never completes 32 iterations.", "quantifier": "every swarm, all call counts", "why_tests_cant": "needs more than 31 calls with a specific configuration", "anchors": ["pyswarms/backend/topology/ring.py:Ring.compute_gbest", "pyswarms/backend/topology/von_neumann.py"]}
{"id": "C35", "title": "Grid search enumerates the full Cartesian product once", "statement": "GridSearch.generate_grid() returns exactly one dict per element of the Cartesian product of the option lists (scalars count as one-element lists), each dict having exactly the keys of options; its length is the product of the list lengths.", "quantifier": "all option dicts", "why_tests_cant": "all sizes", "anchors": ["pyswarms/utils/search/grid_search.py:GridSearch.generate_grid"]}
{"id": "C36", "title": "Hyper-parameter search returns an optimum of the scored grid", "statement": "search(maximum) scores every grid entry once and returns the first entry with the least (maximum=True: greatest) score together with that score; on an empty grid it raises ValueError. GridSearch(...).search() runs a new optimizer (all other arguments at their defaults, velocity clamp (0,1) unless given) once for every combination of candidates and returns a best one; RandomSearch likewise for every drawn combination. An optimizer class without `optimize` is a TypeError. Because bounds are passed as the fourth positional argument, GeneralOptimizerPSO always ends in TypeError and BinaryPSO with bounds in ValueError or AttributeError.", "quantifier": "all grids, scorers, NaN-free scores", "why_tests_cant": "all inputs", "anchors": ["pyswarms/utils/search/base_search.py:SearchBase.search"]}
{"id": "C37", "title": "Random search grid stays in the requested ranges", "statement": "RandomSearch.generate_grid() returns n_selection_iters dicts with keys c1,c2,w,k,p; c1,c2,w lie in the given closed ranges, k is an integer with lo <= k < hi, p is the given constant; the caller's options dict is not modified; missing keys raise KeyError.", "quantifier": "all draws, options", "why_tests_cant": "all draws", "anchors": ["pyswarms/utils/search/random_search.py:RandomSearch.generate_grid"]}
{"id": "C38", "title": "Options handler: selective, non-compounding variation", "statement": "OptionsHandler returns a dict with the same keys; options without a strategy keep their value; the value of a varied option depends only on the start options and the iteration number (never on the previously varied value); unknown strategies raise KeyError, as does varying an option other than c1,c2,w without an explicit end value.", "quantifier": "all dicts, strategies, iterations", "why_tests_cant": "all inputs", "anchors": ["pyswarms/backend/handlers.py:OptionsHandler"]}
{"id": "C39", "title": "lin_variation and nonlin_mod interpolate between start and end", "statement": "In exact arithmetic lin_variation and nonlin_mod (n>0) give the start value at iteration 0, the end value at itermax, stay between them and move monotonically.", "quantifier": "all start/end values, 0<=iternow<=itermax, exponents n>0", "why_tests_cant": "all reals", "anchors": ["pyswarms/backend/handlers.py:OptionsHandler.lin_variation", "pyswarms/backend/handlers.py:OptionsHandler.nonlin_mod"]}
{"id": "C40", "title": "exp_decay does not interpolate between start and end", "statement": "exp_decay equals (start-end-d1)*exp(1/(1+d2*iternow/itermax)); it is strictly decreasing in iternow iff start-end-d1>0; contrary to its documentation it is not confined to the interval between start and end, and for the default c2 (end=start) it is always negative.", "quantifier": "all reals; concrete witness for the violation", "why_tests_cant": "all inputs", "anchors": ["pyswarms/backend/handlers.py:OptionsHandler.exp_decay"]}
{"id": "C41", "title": "Options strategy 'random' cannot be used with the optimizers", "statement": "The 'random' options strategy raises KeyError unless end_opts is passed; as optimize() never passes end_opts, an optimizer with oh_strategy mapping one of its options to 'random' raises KeyError in its first iteration whenever it gets to the options update. With end_opts the value lies between start and end.", "quantifier": "all configurations", "why_tests_cant": "needs a configuration no test uses", "anchors": ["pyswarms/backend/handlers.py:OptionsHandler.random", "pyswarms/single/global_best.py:GlobalBestPSO.optimize"]}
{"id": "C42", "title": "Binary PSO positions are bits", "statement": "Every position BinaryPSO evaluates after the first iteration has only entries 0 and 1, as has the returned best position when the initial positions are bits (random start or 0/1 init_pos); a two-valued non-0/1 init_pos is accepted and may be returned as best position.", "quantifier": "all runs", "why_tests_cant": "all random runs", "anchors": ["pyswarms/discrete/binary.py:BinaryPSO._compute_position", "pyswarms/discrete/binary.py:BinaryPSO.optimize"]}
{"id": "C43", "title": "Binary sampling is monotone in the velocity", "statement": "For a fixed random draw, increasing a velocity entry can only turn the sampled bit from 0 to 1; the sigmoid lies strictly between 0 and 1 and is strictly increasing (exact reals); in one step all particles share the same random vector, so particles with equal velocity get equal bits.", "quantifier": "all reals, draws", "why_tests_cant": "all inputs", "anchors": ["pyswarms/discrete/binary.py:BinaryPSO._compute_position", "pyswarms/discrete/binary.py:BinaryPSO._sigmoid"]}
{"id": "C44", "title": "reset() gives a fresh optimizer", "statement": "After any sequence of optimize() calls, reset() empties all histories and regenerates the swarm so that, for star or dynamic topologies, a following optimize() behaves exactly as on a newly constructed optimizer given the same random draws; for static topologies the stale neighbour lists survive the reset.", "quantifier": "all call sequences", "why_tests_cant": "history property", "anchors": ["pyswarms/base/base_single.py:SwarmOptimizer.reset", "pyswarms/base/base_discrete.py:DiscreteSwarmOptimizer.reset"]}
{"id": "C45", "title": "Degenerate calls raise instead of returning", "statement": "optimize(f, 0) on a fresh optimizer raises AttributeError; on a fresh star-based optimizer of at least two dimensions a first iteration in which no cost is below +inf (all inf/NaN) makes the call raise; ftol_iter = 0 raises AssertionError at construction; n_processes = 0 raises ValueError; LocalBestPSO and BinaryPSO without option 'k' or 'p' raise KeyError at construction.", "quantifier": "all configurations with these inputs", "why_tests_cant": "error branches over all configurations", "anchors": ["pyswarms/single/global_best.py:GlobalBestPSO.optimize", "pyswarms/base/base_single.py:SwarmOptimizer.__init__"]}
{"id": "C46", "title": "NaN never becomes a best cost", "statement": "Whatever the objective returns, personal-best costs, best costs, and the returned cost are never NaN; a NaN cost for a particle leaves its personal best unchanged.", "quantifier": "all objectives", "why_tests_cant": "NaN placement is unbounded", "anchors": ["pyswarms/backend/operators.py:compute_pbest", "pyswarms/backend/topology/star.py:Star.compute_gbest", "pyswarms/backend/topology/ring.py:Ring.compute_gbest"]}
{"id": "C47", "title": "Bundled objective functions: domain checks", "statement": "Each bundled objective raises ValueError exactly when some coordinate leaves its documented domain, raises IndexError exactly when a two-dimensional function gets another dimension (checked before the domain), and otherwise returns one cost per particle depending only on that particle.", "quantifier": "all inputs", "why_tests_cant": "all inputs", "anchors": ["pyswarms/utils/functions/single_obj.py"]}
{"id": "C48", "title": "Bundled objective functions: documented minima", "statement": "Over the reals, each bundled function with a closed-form optimum (ackley, beale, booth, bukin6, easom, goldstein, himmelblau, levi, matyas, rastrigin, rosenbrock, schaffer2, sphere, threehump) attains its documented minimum at the documented point and is nowhere smaller on its domain; crossintray and holdertable have exactly four minimisers, which differ in the signs of their coordinates only; they and the minima (-2.06261 and -19.2085) agree with the documented numbers to 1e-5; eggholder has exactly one minimiser, (512, y) with y within 1e-5 of 404.23181, and its minimum agrees with the documented -959.6407 to 5e-5, but the documented point (512, 404.3219) has transposed digits and is not the minimiser. All seventeen functions compute the formulas of the test functions, except that levi has (x1-1)^2 where the Levy function has (w1-1)^2, and so agrees with it only where x1 = 1.", "quantifier": "all points of the domain, all dimensions where applicable", "why_tests_cant": "a global minimum quantifies over a continuum", "anchors": ["pyswarms/utils/functions/single_obj.py"]}
{"id": "C49", "title": "Mesh and 3-D history preparation", "statement": "The mesh helper returns zz[i][j] = func(x[j], y[i]) for a row-wise func, identically for every number of processes; compute_history_3d appends to each position its fitness, identically for every number of processes.", "quantifier": "all grids, histories, pool sizes, row-wise functions", "why_tests_cant": "all sizes", "anchors": ["pyswarms/utils/plotters/plotters.py:_mesh", "pyswarms/utils/plotters/formatters.py:Mesher.compute_history_3d"]}
{"id": "C50", "title": "optimize() never mutates arrays it has handed out", "statement": "The user's init_pos array, every array already stored in the position/velocity histories and earlier personal-best arrays are never written by optimize(); only freshly allocated arrays are modified in place. Calling a boundary strategy other than nearest directly, however, overwrites the caller's array.", "quantifier": "all runs, all allocation states", "why_tests_cant": "aliasing over unbounded runs", "anchors": ["pyswarms/backend/operators.py:compute_position", "pyswarms/backend/operators.py:compute_velocity", "pyswarms/backend/handlers.py:BoundaryHandler"]}
{"id": "C51", "title": "Mean personal-best history never increases inside a call", "statement": "Within a call the recorded mean personal-best cost is non-increasing in float64, for every association order of the summation, as long as the values are not NaN. After a fresh optimizer's call with n particles, entry t, if finite, is within ((1+2^-53)^n - 1) times the mean magnitude plus 2^-1075 of the exact mean of the particles' least costs up to iteration t.", "quantifier": "all runs, all summation orders", "why_tests_cant": "rounding of sums for all values", "anchors": ["pyswarms/single/global_best.py:GlobalBestPSO.optimize"]}
{"id": "C52", "title": "Recorded motion obeys the PSO equations", "statement": "In every run with the default velocity strategy 'unmodified', every velocity entry recorded after the first equals w*v + c1*r1*(p-x) + c2*r2*(g-x) (float64, in this order, then the clamp) and the recorded position is x+v (then the boundary strategy; projection for 'nearest'), where w, c1, c2 are that iteration's (possibly scheduled) coefficients, r1, r2 that iteration's draws, p the particle's best of all evaluations so far, and g the best of all evaluations so far (star) or the first best in the particle's neighbour list (neighbour topologies: the list of the current positions, or for a static topology the list of the first iteration or the one it already had); ties in p and g go to the earliest iteration, then the lowest index. Whatever the strategies, a particle whose move violates no bound ends exactly at x+v.", "quantifier": "all configurations, objectives, draws, runs, iterations, particles, dimensions", "why_tests_cant": "an end-to-end equation over whole runs", "anchors": ["pyswarms/backend/operators.py:compute_velocity", "pyswarms/backend/operators.py:compute_position", "pyswarms/single/global_best.py:GlobalBestPSO.optimize", "pyswarms/single/local_best.py:LocalBestPSO.optimize"]}
{"id": "C53", "title": "Misconfigured strategies surface only in the first iteration", "statement": "Constructors accept any bh_strategy / vh_strategy string; an unknown bh_strategy (with bounds, continuous optimizers) or vh_strategy makes optimize() raise in its first iteration with the swarm not moved, and the exception is KeyError whenever a known strategy would have let the call succeed; 'invert' or 'zero' without bounds (always for BinaryPSO) likewise raise TypeError.", "quantifier": "all configurations, runs", "why_tests_cant": "error branches over all configurations", "anchors": ["pyswarms/backend/handlers.py:BoundaryHandler.__call__", "pyswarms/backend/handlers.py:VelocityHandler.__call__"]}
{"id": "C54", "title": "A longer run extends a shorter one; an early stop truncates", "statement": "Without options schedules, for the same draws and m <= n, every history of optimize(f, m) is a prefix of that of optimize(f, n), and if the first ended early both are identical; a run ended by the ftol criterion has the same histories, bests and result as the run with ftol disabled over as many iterations as it recorded. With a schedule the prefix claim is false.", "quantifier": "all configurations, objectives, draws, m, n", "why_tests_cant": "relates pairs of runs", "anchors": ["pyswarms/single/global_best.py:GlobalBestPSO.optimize", "pyswarms/single/local_best.py:LocalBestPSO.optimize"]}
{"id": "C55", "title": "The objective is consulted only at the recorded positions", "statement": "If two objectives agree on the positions recorded in the history (and, when the call raises, on the position being scored), optimize() behaves identically for both, including exceptions.", "quantifier": "all objectives, runs, pool sizes", "why_tests_cant": "relates pairs of runs over all objectives", "anchors": ["pyswarms/backend/operators.py:compute_objective_function", "pyswarms/single/general_optimizer.py:GeneralOptimizerPSO.optimize"]}
{"id": "C56", "title": "Only the order of the costs matters", "statement": "With the default tolerance ftol=-inf, replacing the objective by phi(objective), for any phi that preserves the strict order and NaN-ness on the costs that can occur and maps inf to inf, changes no position, velocity, personal-best position, neighbour list or returned position; all costs (returned, best, personal-best, histories) are mapped by phi; exceptions are the same. The same holds for any two objectives that rank all positions alike, and across any number of calls. With a finite tolerance this is false.", "quantifier": "all objectives, relabellings, configurations, topologies, runs", "why_tests_cant": "relates pairs of runs over all objectives and relabellings", "anchors": ["pyswarms/backend/operators.py:compute_pbest", "pyswarms/backend/topology/star.py:Star.compute_gbest", "pyswarms/backend/topology/ring.py:Ring.compute_gbest", "pyswarms/single/global_best.py:GlobalBestPSO.optimize"]}
{"id": "C57", "title": "Every recorded move is what the boundary strategy makes of it", "statement": "With bounds, in every run of a continuous optimizer the position recorded for a particle at t+1 is the configured boundary strategy applied in float64 to x+v (x its position recorded at t, v its velocity recorded at t+1): unchanged if it violates no bound; otherwise cut off at the bound (nearest), wrapped by the box width (periodic), mirrored until inside (reflective), the midpoint of x and the violated bound per violated coordinate (intermediate), x plus the smallest admissible fraction of the move (shrink), or a fresh point from that iteration's draws (random). In particular the 'previous position' that shrink and intermediate use is always the position recorded one iteration earlier, from the first move on.", "quantifier": "all configurations with bounds, all six strategies, objectives, draws, runs, iterations, particles", "why_tests_cant": "an end-to-end statement about the handler's hidden memory over whole runs", "anchors": ["pyswarms/backend/handlers.py:BoundaryHandler", "pyswarms/backend/operators.py:compute_position", "pyswarms/single/global_best.py:GlobalBestPSO.optimize", "pyswarms/single/local_best.py:LocalBestPSO.optimize"]}
{"id": "C58", "title": "Ties: which of several equally good positions is returned", "statement": "After optimize() on a new optimizer, with any topology, the returned position is the earliest best of the lowest-numbered particle whose personal best is the least; the star topology's best position (the one attracting the swarm) is the position evaluated earliest, and within one iteration with the lowest index, among the best of all evaluations. Both have the same cost, but they can be different positions.", "quantifier": "all configurations, topologies, objectives, runs", "why_tests_cant": "tie-breaking is hit only by special objectives; the statement is over whole runs", "anchors": ["pyswarms/single/global_best.py:GlobalBestPSO.optimize", "pyswarms/backend/topology/star.py:Star.compute_gbest", "pyswarms/backend/operators.py:compute_pbest"]}
{"id": "C59", "title": "A clamped run of moderate size never overflows and never produces NaN", "statement": "With a velocity clamp, the 'unmodified' velocity strategy, coefficients (scheduled ones included), clamp and bounds at most 2^500 in magnitude and draws from [0,1): every recorded position and velocity of every run is finite, positions stay inside the bounds (any box strategy; for 'periodic' bounds of positive width) and velocities inside the clamp; the objective may return anything, NaN and inf included. Without bounds the positions recorded at iteration t are at most (K+t)*2^m if the clamp is at most 2^m and the start at most K*2^m. Without clamp and bounds this is false: finite coefficients can lead to NaN positions.", "quantifier": "all configurations, topologies, objectives, draws, runs", "why_tests_cant": "rounding and overflow for all magnitudes and run lengths", "anchors": ["pyswarms/backend/operators.py:compute_velocity", "pyswarms/backend/operators.py:compute_position", "pyswarms/backend/handlers.py:BoundaryHandler", "pyswarms/backend/handlers.py:VelocityHandler"]}
{"id": "C60", "title": "Velocities stay bounded without a clamp", "statement": "Without a clamp, inside bounds: if the float64 value of W*V + C1*D + C2*D is at most V, where W, C1, C2 bound the coefficients, D the widths of the box and V the initial speeds, then in every run every recorded velocity is between -V and V and every position inside the bounds.", "quantifier": "all configurations, topologies, objectives, draws, runs", "why_tests_cant": "an invariant over unbounded runs with rounding", "anchors": ["pyswarms/backend/operators.py:compute_velocity", "pyswarms/backend/operators.py:compute_position"]}
{"id": "C61", "title": "Rounding keeps the motion close to the exact PSO equations", "statement": "Every recorded finite velocity that the clamp did not cut differs from the exact real value w*v + c1*r1*(p-x) + c2*r2*(g-x) of the recorded quantities by at most 8*2^-53 times the sum of the magnitudes of the three terms plus 2^-1070*(1+|c1 r1|+|p-x|+|c2 r2|+|g-x|); without bounds a recorded finite position differs from x+v by at most 2^-53*|x+v|.", "quantifier": "all configurations, objectives, draws, runs, iterations, particles, dimensions", "why_tests_cant": "rounding errors for all values", "anchors": ["pyswarms/backend/operators.py:compute_velocity", "pyswarms/backend/operators.py:compute_position"]}
{"id": "C62", "title": "BinaryPSO's recorded motion obeys the binary PSO equations", "statement": "In every run of BinaryPSO with the default velocity strategy, every velocity entry recorded after the first equals w*v + c1*r1*(p-x) + c2*r2*(g-x) in float64 (then the clamp), with the given constant coefficients (option schedules are ignored), that iteration's draws, p the particle's best and g the first best in its neighbour list of all evaluations so far; the recorded bit is 1 exactly if the iteration's draw u_j for the dimension (shared by all particles) is below 1/(1+exp(-v)), else 0.", "quantifier": "all configurations, objectives, draws, runs, iterations, particles, dimensions", "why_tests_cant": "an end-to-end equation over whole runs", "anchors": ["pyswarms/discrete/binary.py:BinaryPSO", "pyswarms/backend/operators.py:compute_velocity"]}
{"id": "C63", "title": "A dimension in which the swarm has collapsed stays collapsed", "statement": "If in dimension j all positions, personal bests and the best position have the same finite value x0 and all velocities are zero, then, with the 'unmodified' velocity strategy, finite coefficients, draws from [0,1), a clamp (if any) containing 0 and bounds (if any) containing x0 handled by 'nearest', every position recorded by every later call has x0 in dimension j, every velocity is zero there, and so has the returned position, whatever the objective does: no mechanism of the optimizer restarts a collapsed dimension.", "quantifier": "all configurations, topologies, objectives, draws, runs", "why_tests_cant": "an invariant over unbounded runs", "anchors": ["pyswarms/backend/operators.py:compute_velocity", "pyswarms/backend/operators.py:compute_position"]}
{"id": "C64", "title": "A call depends only on what it asked", "statement": "Two environments that give the same answers at the recorded positions (and at the position being scored when the call raises) and the same draws in the executed iterations make optimize() return the same result and leave the same state: nothing else of the objective, of the random stream of later iterations or of the k-NN/Delaunay libraries influences a call.", "quantifier": "all configurations, environments, pool sizes, runs", "why_tests_cant": "relates pairs of runs over all environments", "anchors": ["pyswarms/single/global_best.py:GlobalBestPSO.optimize", "pyswarms/single/local_best.py:LocalBestPSO.optimize", "pyswarms/single/general_optimizer.py:GeneralOptimizerPSO.optimize", "pyswarms/discrete/binary.py:BinaryPSO.optimize"]}
{"id": "C65", "title": "Exactly which arguments the constructors accept", "statement": "Construction succeeds if and only if: ftol_iter > 0; LocalBestPSO/BinaryPSO have options 'k' and 'p'; a clamp has one entry per dimension on both sides; for continuous optimizers with init_pos and bounds, the bounds have one entry per column of init_pos and contain it; with bounds and no init_pos, the bounds have one entry per dimension and every width is finite in float64; without init_pos the center has one entry per dimension; BinaryPSO's init_pos takes at most two values. Nothing else is checked: not the order of the bounds, the shape of init_pos, the coefficients or the strategy names, and never the random draws.", "quantifier": "all configurations, topologies, draws", "why_tests_cant": "an equivalence over all configurations", "anchors": ["pyswarms/base/base_single.py:SwarmOptimizer.__init__", "pyswarms/backend/generators.py"]}
{"id": "C66", "title": "The bundled objectives in float64: the documented minimum", "statement": "In float64, for every accepted input, beale, booth, bukin6, himmelblau, levi, rastrigin (up to 2^53/10 dimensions), rosenbrock, schaffer2 and sphere never return a cost below 0 and easom never one below -1, if sin and cos stay in [-1,1], sqrt and exp are not negative, exp(x) <= 1 for x <= 0, and sums are sums in some order; a search on them cannot undercut the documented minimum. At the documented point beale, booth, bukin6, easom, goldstein, himmelblau, matyas, rastrigin, rosenbrock, schaffer2, sphere and threehump return exactly the documented minimum. Not so for the others: goldstein returns less than 3 near (0,-1); ackley(0,0) > 0 and levi(1,1) is not 0.", "quantifier": "all accepted inputs, all dimensions, all library functions within the stated ranges", "why_tests_cant": "rounding for all inputs", "anchors": ["pyswarms/utils/functions/single_obj.py"]}
{"id": "C67", "title": "A one-sided velocity clamp lets particles move one way only", "statement": "Without bounds and with velocity handler 'unmodified', a coordinate whose clamp interval lies at or above 0 never decreases from one recorded position to a later one (and one whose interval lies at or below 0 never increases), so the returned position is not below (above) the start of the particle that found it. In particular the default velocity_clamp=(0, 1) of GridSearch and RandomSearch means that a search without bounds never evaluates, and never returns from a run, a position with a negative coordinate: minima there cannot be found.", "quantifier": "all configurations without bounds, environments, pool sizes, runs, grids", "why_tests_cant": "an invariant over all runs", "anchors": ["pyswarms/utils/search/base_search.py:SearchBase.generate_score", "pyswarms/utils/search/grid_search.py:GridSearch.__init__", "pyswarms/backend/operators.py:compute_velocity", "pyswarms/backend/handlers.py:VelocityHandler.unmodified"]}
{"id": "C68", "title": "Every recorded array has the shape of the swarm", "statement": "If the random generators deliver (n_particles, dimensions) arrays and init_pos (when given) has that shape, the position, velocity and personal-best arrays of a new or reset optimizer have it, every entry that any later call appends to the position and velocity histories has it (also when the call raises), and every returned position has `dimensions` entries. No boundary strategy, velocity strategy, topology or optimizer class changes a shape.", "quantifier": "all configurations, topologies, environments, pool sizes, sessions", "why_tests_cant": "all sizes and all paths through the handlers", "anchors": ["pyswarms/base/base_single.py:SwarmOptimizer.reset", "pyswarms/backend/generators.py", "pyswarms/backend/operators.py:compute_velocity", "pyswarms/backend/operators.py:compute_position", "pyswarms/backend/handlers.py:BoundaryHandler"]}
{"id": "C69", "title": "The cost history is the running minimum", "statement": "With the star topology, over any number of optimize() calls on a new optimizer, entry t of cost_history is the least of all costs the objective has returned up to that iteration (inf if none was below inf). With the other topologies, for one call on a new optimizer, entry t is the least cost found so far by one of the particles, and the least of all if the neighbour lists together contain every particle.", "quantifier": "all configurations, objectives, draws, runs, iterations", "why_tests_cant": "an exact characterisation over whole runs", "anchors": ["pyswarms/single/global_best.py:GlobalBestPSO.optimize", "pyswarms/single/local_best.py:LocalBestPSO.optimize", "pyswarms/base/base_single.py:SwarmOptimizer._populate_history"]}
{"id": "C70", "title": "The plots show the run", "statement": "plot_cost_history draws the points (t, cost_history[t]); plot_contour of a two-dimensional run has one frame per recorded iteration and frame t shows exactly the recorded positions; plot_surface of a star run's history with Mesher heights (row-wise objective) has the same frames as the cost curve has points, frame t shows each particle at (x, y, objective(x, y)), and the curve's value at t is the height of the lowest point shown up to frame t, for every number of processes. With the default Designer all three succeed; with fewer than two (three) labels or limits plot_contour (plot_surface) raises IndexError.", "quantifier": "all sessions, histories, designers, pool sizes, row-wise objectives", "why_tests_cant": "relates the plotted data to whole runs", "anchors": ["pyswarms/utils/plotters/plotters.py:plot_cost_history", "pyswarms/utils/plotters/plotters.py:plot_contour", "pyswarms/utils/plotters/plotters.py:plot_surface", "pyswarms/utils/plotters/plotters.py:_animate", "pyswarms/utils/plotters/formatters.py:Mesher.compute_history_3d"]}
{"id": "C71", "title": "Reporting does not influence a run and tells the truth", "statement": "optimize(verbose=True) and optimize(verbose=False) end in the same state with the same result or exception. With verbose=True the sequence of best_cost values shown next to the progress bar is exactly the sequence appended to cost_history by the call, also when it raises, and an 'Optimization finished' record with a cost and a position is logged if and only if the call returns them. With verbose=False no bar is shown and no record is visible from level INFO on; at level DEBUG only the objective's arguments are.", "quantifier": "all configurations, environments, pool sizes, runs, logging levels", "why_tests_cant": "relates the output to whole runs", "anchors": ["pyswarms/single/global_best.py:GlobalBestPSO.optimize", "pyswarms/single/local_best.py:LocalBestPSO.optimize", "pyswarms/single/general_optimizer.py:GeneralOptimizerPSO.optimize", "pyswarms/discrete/binary.py:BinaryPSO.optimize", "pyswarms/utils/reporter/reporter.py:Reporter"]}
{"id": "C72", "title": "A process pool is closed only by a call that succeeds", "statement": "optimize(n_processes=n) opens a pool exactly if n > 0 and closes it exactly if it returns a result: whenever the call raises (objective, strategy, library or zero iterations), the pool it opened is left open.", "quantifier": "all configurations, environments, pool sizes, runs", "why_tests_cant": "all exits of the function", "anchors": ["pyswarms/single/global_best.py:GlobalBestPSO.optimize", "pyswarms/single/local_best.py:LocalBestPSO.optimize", "pyswarms/single/general_optimizer.py:GeneralOptimizerPSO.optimize", "pyswarms/discrete/binary.py:BinaryPSO.optimize"]}
{"id": "C73", "title": "Which logging configuration is in force", "statement": "A Reporter uses the document at config_path, or, if that is missing or empty, at the environment variable LOG_CFG, exactly if it can be loaded and configured; log_path has no influence on it. It uses the default configuration, with log_path or else <cwd>/report.log as its file, exactly if no document is named or loading or configuring it raises TypeError or FileNotFoundError, so a misspelt path is silently ignored; any other failure (unreadable or malformed file, invalid configuration) escapes.", "quantifier": "all paths, environments, file systems, configuration outcomes", "why_tests_cant": "equivalences over all outcomes of the libraries", "anchors": ["pyswarms/utils/reporter/reporter.py:Reporter.__init__", "pyswarms/utils/reporter/reporter.py:Reporter._setup_logger", "pyswarms/utils/reporter/reporter.py:Reporter._load_defaults"]}
{"id": "C74", "title": "No dimension is special", "statement": "Reorder the dimensions of a problem: the bounds, clamp, center, init_pos, every random draw per coordinate and the objective's argument. Then construction and reset give the reordered swarm or the same exception, and every optimize() call, over any number of calls, ends with the same cost, the reordered position and reordered positions, velocities and histories, the same cost histories and neighbours, or raises the same exception. This holds bit for bit in float64 for all optimizer classes, topologies (whose neighbour queries do not depend on the order), velocity strategies and boundary strategies except 'shrink', where the sign of a zero can depend on the order.", "quantifier": "all permutations of the dimensions, configurations, draws, objectives, pool sizes, runs", "why_tests_cant": "an equivariance over all runs and all permutations", "anchors": ["pyswarms/backend/operators.py:compute_velocity", "pyswarms/backend/operators.py:compute_position", "pyswarms/backend/operators.py:compute_pbest", "pyswarms/backend/handlers.py:BoundaryHandler", "pyswarms/backend/handlers.py:VelocityHandler", "pyswarms/backend/topology/star.py:Star.compute_gbest", "pyswarms/backend/topology/ring.py:Ring.compute_gbest", "pyswarms/backend/generators.py:create_swarm"]}
{"id": "C75", "title": "No direction is special", "statement": "Mirror some dimensions of a problem (x becomes -x there): bounds [lo, hi] become [-hi, -lo], likewise the clamp, initial positions and velocities change sign there, and the objective takes the mirrored argument. Then with the same draws every optimize() call of GlobalBestPSO, LocalBestPSO and GeneralOptimizerPSO, over any number of calls, ends with the same cost, the mirrored position (up to the sign of zeros), mirrored positions, velocities and histories and the same cost histories and neighbours, or raises the same exception, in float64 with all its overflows and NaNs. It holds for the boundary strategies nearest, reflective, intermediate and periodic and the velocity strategies unmodified, adjust and zero, for bounds and clamps with lo <= hi. It fails for 'invert' if some but not all dimensions are mirrored, because a particle that has left through a lower and an upper face has its velocity inverted twice, and for 'shrink' if a particle outside the bounds has not moved.", "quantifier": "all subsets of the dimensions, configurations, draws, objectives, pool sizes, runs", "why_tests_cant": "a symmetry over all runs, including rounding", "anchors": ["pyswarms/backend/operators.py:compute_velocity", "pyswarms/backend/operators.py:compute_position", "pyswarms/backend/handlers.py:BoundaryHandler.nearest", "pyswarms/backend/handlers.py:BoundaryHandler.reflective", "pyswarms/backend/handlers.py:BoundaryHandler.intermediate", "pyswarms/backend/handlers.py:BoundaryHandler.periodic", "pyswarms/backend/handlers.py:VelocityHandler"]}
{"id": "C76", "title": "No particle is special", "statement": "Renumber the particles: their initial positions, their random draws and their neighbour lists. Then construction and reset give the renumbered swarm or the same exception, and an optimize() call ends with the same position and the same cost (up to the sign of zero), with renumbered positions, velocities, personal bests, neighbourhood bests and histories and the same cost history, or raises the same exception, for all optimizer classes, topologies, boundary and velocity strategies, whenever the objective evaluates every row for itself, all costs of the first run are below infinity and different positions evaluated in it had different costs. With ties it fails: the particle of the lower number wins.", "quantifier": "all permutations of the particles, configurations, draws, objectives, sequential runs", "why_tests_cant": "an equivariance over all runs and all permutations", "anchors": ["pyswarms/backend/operators.py:compute_velocity", "pyswarms/backend/operators.py:compute_position", "pyswarms/backend/operators.py:compute_pbest", "pyswarms/backend/topology/star.py:Star.compute_gbest", "pyswarms/backend/topology/ring.py:Ring.compute_gbest", "pyswarms/backend/topology/pyramid.py:Pyramid.compute_gbest", "pyswarms/backend/topology/random.py:Random.compute_gbest", "pyswarms/backend/generators.py:create_swarm"]}
{"id": "C77", "title": "A neighbourhood of everybody is a star", "statement": "Give the same arguments and draws to GlobalBestPSO (or any non-binary optimizer with the Star topology) and to an optimizer whose topology makes everybody a neighbour of everybody: Ring with k = n_particles, VonNeumann whose ball has n_particles points, Random with k = n_particles - 1, or Pyramid with n_particles <= dimensions. Then the first optimize() call of both goes through identical positions, velocities and personal bests, records equal costs, and ends with equal costs and the same position or the same exception, whenever all costs of the star's run are below infinity and different positions evaluated in it had different costs. With ties it fails: the star keeps its old leader and the others follow the tied particle of the lowest number.", "quantifier": "all configurations, draws, objectives, sequential first calls, four topologies", "why_tests_cant": "relates pairs of whole runs over all environments", "anchors": ["pyswarms/backend/topology/star.py:Star.compute_gbest", "pyswarms/backend/topology/ring.py:Ring.compute_gbest", "pyswarms/backend/topology/von_neumann.py:VonNeumann.compute_gbest", "pyswarms/backend/topology/pyramid.py:Pyramid.compute_gbest", "pyswarms/backend/topology/random.py:Random.compute_gbest", "pyswarms/backend/operators.py:compute_velocity"]}
{"id": "C78", "title": "Another call is a fresh start at the current positions", "statement": "Calling optimize() again on an object whose topology is not Star gives the result, the new history entries and the final swarm of a call on a new object put at the current positions and velocities with the same topology: personal bests, swarm best and early-stopping window of earlier calls have no influence, whatever happened in them. With Star the same holds if the new object is also given the swarm's best cost and position; that is all that is remembered. It is assumed that the costs of the first evaluation are below infinity; without that, or with Star and without the best, it is false.", "quantifier": "all states of shaped swarms, configurations, environments, pool sizes, positive numbers of iterations", "why_tests_cant": "relates the calls from all pairs of states", "anchors": ["pyswarms/single/global_best.py:GlobalBestPSO.optimize", "pyswarms/single/local_best.py:LocalBestPSO.optimize", "pyswarms/single/general_optimizer.py:GeneralOptimizerPSO.optimize", "pyswarms/discrete/binary.py:BinaryPSO.optimize", "pyswarms/backend/operators.py:compute_pbest", "pyswarms/backend/topology/star.py:Star.compute_gbest", "pyswarms/backend/topology/ring.py:Ring.compute_gbest"]}
{"id": "C79", "title": "Without a social coefficient the topology does not matter", "statement": "Give the same arguments, initial draws and cognitive draws to two non-binary optimizers with c2 = 0, no options strategy and no early stopping, but any topologies, neighbour queries and social draws. If the first optimize() calls of both return, then all recorded positions and velocities, the personal bests and the returned position are the same up to the signs of zeros, and the personal best costs and mean costs are the same, for every boundary strategy but 'shrink' and every velocity strategy, provided the objective does not look at the signs of zeros and no recorded coordinate exceeds 2^1022 in magnitude. Beyond that magnitude it fails: zero times an overflowing difference is NaN. With c2 > 0 it fails.", "quantifier": "all configurations, pairs of topologies and environments, pool sizes, returning first calls", "why_tests_cant": "relates pairs of whole runs, including rounding and overflow", "anchors": ["pyswarms/backend/operators.py:compute_velocity", "pyswarms/backend/operators.py:compute_position", "pyswarms/backend/operators.py:compute_pbest", "pyswarms/backend/handlers.py:BoundaryHandler", "pyswarms/backend/handlers.py:VelocityHandler", "pyswarms/backend/topology/star.py:Star.compute_gbest", "pyswarms/backend/topology/ring.py:Ring.compute_gbest", "pyswarms/backend/topology/von_neumann.py:VonNeumann.compute_gbest", "pyswarms/backend/topology/pyramid.py:Pyramid.compute_gbest", "pyswarms/backend/topology/random.py:Random.compute_gbest"]}
{"id": "C80", "title": "Without attraction the swarm coasts, and stops if and only if the inertia is at most one half", "statement": "With c1 = c2 = 0 and vh_strategy 'unmodified' every velocity recorded by a first optimize() call of a non-binary optimizer is the inertia weight of that iteration, constant or scheduled, times the previous velocity, rounded, up to the sign of a zero and the clamp. If all |w| <= 1 (and the clamp allows zero) no component ever grows. If all |w| <= 1/2, every velocity is zero from the iteration with index 2099 on and every particle inside the bounds stays at its place for good; 2098 is not enough. If all |w| > 1/2 and there is no clamp, a component that is not zero at the start is never zero, however long the run: the least positive numbers round back up. Draws are finite and no recorded coordinate exceeds 2^1022 in magnitude.", "quantifier": "all configurations, schedules of w, topologies, boundary strategies, environments, pool sizes, runs", "why_tests_cant": "whole runs of any length in float64, down to the subnormal numbers", "anchors": ["pyswarms/backend/operators.py:compute_velocity", "pyswarms/backend/operators.py:compute_position", "pyswarms/backend/handlers.py:VelocityHandler.unmodified", "pyswarms/backend/handlers.py:VelocityHandler.__apply_clamp", "pyswarms/backend/handlers.py:OptionsHandler"]}
{"id": "C81", "title": "What an objective writes into its argument becomes the swarm", "statement": "An objective called without a pool is given the swarm's own position array. Whatever it writes into it, in a first optimize() call: every entry of pos_history is the array as the objective left it; its costs are those returned; without bounds the next positions are the written ones plus the new velocities; the personal bests are rows of the written arrays, compared by the costs returned, and so is the returned position, so that an objective repairing infeasible positions in place gets a feasible result. The array passed as init_pos is written in the first iteration, and no other array of the caller. With a pool what the workers write is lost, and an objective that writes nothing gives the runs without writing. Histories are not safe from it: after a call that stopped early, the next call's objective writes into the last array of the history.", "quantifier": "all writers, objectives, configurations, topologies, environments, numbers of iterations", "why_tests_cant": "all in-place writes in all runs, with aliasing", "anchors": ["pyswarms/backend/operators.py:compute_objective_function", "pyswarms/single/global_best.py:GlobalBestPSO.optimize", "pyswarms/single/local_best.py:LocalBestPSO.optimize", "pyswarms/single/general_optimizer.py:GeneralOptimizerPSO.optimize", "pyswarms/discrete/binary.py:BinaryPSO.optimize", "pyswarms/backend/generators.py:generate_swarm", "pyswarms/base/base_single.py:SwarmOptimizer._populate_history"]}
{"id": "C82", "title": "What the constructors of Swarm, Designer, Animator and Mesher accept", "statement": "Swarm(...) succeeds if and only if the call binds (no more than ten positional arguments, no unknown or repeated keyword), position and velocity are arrays, position has at least one axis unless n_particles is passed and at least two unless dimensions is passed, every other passed argument has the declared kind (bool counts as int). A passed argument becomes the attribute unchanged - a passed n_particles is not compared with the position's shape - and otherwise n_particles and dimensions are the sizes of the first two axes, pbest_pos is the position, best_cost infinite. A failing call raises AttributeError exactly when position is not an array and a size has to be read from it, IndexError exactly when it has too few axes for that, and TypeError otherwise. The call in create_swarm never fails and sets the attributes the other theorems start from. Designer, Animator and Mesher accept exactly the declared kinds (Mesher's alpha must be a float: alpha=1 is refused), keep what is passed, and only raise TypeError.", "quantifier": "all positional and keyword arguments of any kinds and shapes", "why_tests_cant": "unbounded combinations of arguments and kinds, with the interplay of defaults and validators", "anchors": ["pyswarms/backend/swarms.py:Swarm", "pyswarms/backend/generators.py:create_swarm", "pyswarms/utils/plotters/formatters.py:Designer", "pyswarms/utils/plotters/formatters.py:Animator", "pyswarms/utils/plotters/formatters.py:Mesher"]}
{"id": "C83", "title": "A call of optimize() terminates", "statement": "The two while loops reached from optimize() end. Random's connectivity loop always does, so that a call with any bh_strategy but 'reflective', without bounds, or of BinaryPSO, of any optimizer class, topology and velocity strategy, returns or raises after its iterations, whatever the objective's values (NaN and infinities included) as long as its own calls end. The loop of 'reflective' in float64 ends after at most k passes if k times the width of the box is at least four times the magnitudes |x|+|lo|+|hi| of each coordinate and the width is not below 2^-51 times those; the result is then inside the bounds and a mirror image of the coordinate up to k rounding errors; NaN stays NaN. So a whole run with 'reflective', a velocity clamp and vh_strategy 'unmodified', 'invert' or 'adjust' always ends, of any length, if the magnitudes in bounds and clamp together are small enough against the width. Without a clamp it does not: a run in [0, 1] with inertia 1e30 hangs in its first iteration.", "quantifier": "all configurations, objectives, draws, topologies, pool sizes, run lengths", "why_tests_cant": "termination over all inputs and run lengths; a hang needs no wrong value to show", "anchors": ["pyswarms/backend/handlers.py:BoundaryHandler.reflective", "pyswarms/backend/topology/random.py:Random.__compute_neighbors", "pyswarms/single/global_best.py:GlobalBestPSO.optimize", "pyswarms/single/local_best.py:LocalBestPSO.optimize", "pyswarms/single/general_optimizer.py:GeneralOptimizerPSO.optimize", "pyswarms/discrete/binary.py:BinaryPSO.optimize", "pyswarms/backend/operators.py:compute_position"]}
{"id": "C84", "title": "The units of the dimensions do not matter", "statement": "If every dimension of a continuous problem is measured in another unit, smaller or larger by a power of two from 2^-100 to 2^100 (bounds, velocity clamp, first positions and velocities, and the objective reading its argument in the new units; options and draws unchanged), then an optimize() call of any non-binary optimizer does exactly the same: every cost and every mean recorded or returned is the same float64, bit for bit, every position and velocity recorded, kept or returned differs by exactly the factors of its dimension, and an exception is the same exception. This holds for all topologies, boundary strategies but 'shrink', velocity strategies, schedules and pool sizes, in float64 with all its roundings, as long as the bounds and the recorded positions and velocities of the one run are multiples of 2^-400 not above 2^400 in magnitude (every number that is 0 or between 2^-347 and 2^400 is), the draws multiples of 2^-60 and the coefficients multiples of 2^-60 up to 2^60. It fails for velocities near the least positive number.", "quantifier": "all configurations, powers of two per dimension, objectives, draws, topologies, pool sizes, run lengths", "why_tests_cant": "a relation between two whole runs, exact in float64, over all inputs; tests compare a few runs up to a tolerance", "anchors": ["pyswarms/backend/operators.py:compute_velocity", "pyswarms/backend/operators.py:compute_position", "pyswarms/backend/handlers.py:BoundaryHandler", "pyswarms/backend/handlers.py:VelocityHandler", "pyswarms/single/global_best.py:GlobalBestPSO.optimize", "pyswarms/single/local_best.py:LocalBestPSO.optimize", "pyswarms/single/general_optimizer.py:GeneralOptimizerPSO.optimize"]}
{"id": "C85", "title": "Which array types an optimizer accepts as init_pos", "statement": "An init_pos that is an array of integers, or of booleans, passes every constructor. With booleans no optimizer, BinaryPSO included, ever returns from optimize(): numpy cannot subtract them. With integers BinaryPSO runs as with the same floats, and so does any optimizer with vh_strategy 'adjust' whose velocity clamp is absent or of integers; every other combination never returns, because numpy does not add a float velocity to integer positions in place. Where the same values as floats give a result, the exception is TypeError, raised in the first iteration after one evaluation of the swarm and one history entry, the same as the first entry of the run with floats; the positions are unchanged.", "quantifier": "all configurations, objectives, topologies, draws, pool sizes, numbers of iterations", "why_tests_cant": "a characterisation over all combinations of strategies and types; the test suite passes only float arrays to the continuous optimizers", "anchors": ["pyswarms/backend/operators.py:compute_position", "pyswarms/backend/operators.py:compute_velocity", "pyswarms/backend/handlers.py:VelocityHandler.adjust", "pyswarms/backend/handlers.py:VelocityHandler.__apply_clamp", "pyswarms/backend/generators.py:generate_swarm", "pyswarms/backend/generators.py:generate_discrete_swarm", "pyswarms/discrete/binary.py:BinaryPSO._compute_position"]}
{"id": "C86", "title": "The options dictionary stays the caller's", "statement": "The dictionary passed as options is never written by the library: after an optimize() call it holds exactly what the objective's own calls, on the recorded positions in order, have made of it (with a pool, nothing). It is not copied either: without options strategies swarm.options is that dictionary throughout the run. If the caller changes it between two calls, or the objective during a call, then without options strategies the new values of c1, c2 and w are used from the next velocity update on; k, p and r are read again only by GeneralOptimizerPSO, while LocalBestPSO and BinaryPSO keep those of their construction: two runs whose dictionaries agree in c1, c2 and w at every step are the same run. So an objective that writes the values of a schedule into the dictionary in each call gives the same run, up to swarm.options, as the options strategies that compute them. An objective that leaves the dictionary alone gives the runs of the other properties.", "quantifier": "all configurations, writers, topologies, environments, pool sizes, numbers of iterations", "why_tests_cant": "all ways of writing into a shared object during and between runs", "anchors": ["pyswarms/base/base_single.py:SwarmOptimizer.__init__", "pyswarms/base/base_discrete.py:DiscreteSwarmOptimizer.__init__", "pyswarms/backend/handlers.py:OptionsHandler.__call__", "pyswarms/single/local_best.py:LocalBestPSO.optimize", "pyswarms/single/general_optimizer.py:GeneralOptimizerPSO.optimize", "pyswarms/single/global_best.py:GlobalBestPSO.optimize", "pyswarms/discrete/binary.py:BinaryPSO.optimize"]}
{"id": "C87", "title": "Bounds of one element, and numbers as bounds", "statement": "Bounds are not checked against the number of dimensions (two or more here). With arrays of one element, bounds=([lo],[hi]) as numpy arrays, every constructor works as with the bounds repeated over the dimensions; with plain numbers, bounds=(lo, hi), it raises IndexError unless init_pos is given. optimize() then behaves as with the repeated bounds for bh_strategy 'nearest', and for 'random' with one element. With 'periodic', and with one element also 'reflective', 'shrink' and 'intermediate', it does so until a particle's move first leaves the bounds in a dimension other than the first, and raises IndexError then: the histories are the beginning of those of the run with repeated bounds, and a call that returns has made no such move and returned the same. With numbers 'reflective' raises TypeError at the first move that leaves the bounds in any dimension, and 'random', 'shrink' and 'intermediate' never get through an iteration.", "quantifier": "all configurations, bounds, objectives, topologies, draws, pool sizes, run lengths", "why_tests_cant": "which moves leave the bounds depends on the whole run; a test passes when none happens to", "anchors": ["pyswarms/backend/handlers.py:HandlerMixin._out_of_bounds", "pyswarms/backend/handlers.py:BoundaryHandler", "pyswarms/backend/generators.py:generate_swarm", "pyswarms/backend/operators.py:compute_position", "pyswarms/single/global_best.py:GlobalBestPSO.optimize", "pyswarms/single/local_best.py:LocalBestPSO.optimize", "pyswarms/single/general_optimizer.py:GeneralOptimizerPSO.optimize"]}
{"id": "C88", "title": "One dimension and no cost below infinity", "statement": "In one dimension numpy combines the initial, empty best_pos with the positions instead of refusing. If the first evaluation of a new star optimizer (GlobalBestPSO, or GeneralOptimizerPSO with a Star) with dimensions=1 returns no cost below infinity, then optimize() raises ValueError in the position update of the first iteration, after swarm.velocity was replaced by an array of shape (n, 0) (vh_strategy 'unmodified', 'invert' or 'zero'). The optimizer does not recover: every later call with at least one iteration raises, whatever the objective then returns, and the positions stay; only reset() helps. In two or more dimensions the exception comes before the assignment and the next call can succeed. With vh_strategy 'adjust' the velocities are computed from the positions: without bounds and clamp all iterations are made, and the call ends in AttributeError if none finds anything. In all other cases the run is that of the other properties.", "quantifier": "all numbers of particles, configurations, objectives, draws, and all sequences of later calls", "why_tests_cant": "the damage shows only in later calls, and only with a failed first evaluation in one dimension", "anchors": ["pyswarms/backend/operators.py:compute_velocity", "pyswarms/backend/operators.py:compute_position", "pyswarms/backend/handlers.py:VelocityHandler", "pyswarms/backend/swarms.py:Swarm", "pyswarms/backend/topology/star.py:Star.compute_gbest"]}
{"id": "C89", "title": "A well-configured optimizer does not raise", "statement": "Take an optimizer that was constructed with options containing c1, c2 and w, strategy names that exist and fit together ('invert' and 'zero' with bounds, the three strategies that need numpy arrays with numpy arrays), and a topology whose options fit it (2 <= k <= n for Ring, k <= n-1 for Random, a neighbourhood that fits into the swarm for VonNeumann). If the random generators and scipy return arrays of the requested sizes, the schedules have values, and the objective returns one number per particle, then optimize() with at least one iteration raises nothing: it returns a cost and a position, for every optimizer class, topology, boundary and velocity strategy, pool size and run length, NaN and infinite costs included. The only other outcome is the endless loop of 'reflective' (C83), excluded by a velocity clamp that is small enough against the box, and a star needs a first cost below infinity. Earlier calls do not matter, even if the objective raised in the middle of them or returned arrays of a wrong length: the object stays usable (for a star in one dimension only the first call, see C88). lin_variation and exp_decay have a value for c1, c2 and w in every iteration: their denominators do not vanish in float64; nonlin_mod does if the power of the number of iterations is not zero.", "quantifier": "all configurations, objectives, topologies, draws, pool sizes, run lengths, and all sequences of earlier calls", "why_tests_cant": "the absence of every exception over all combinations of settings and after any failures of earlier calls", "anchors": ["pyswarms/single/global_best.py:GlobalBestPSO.optimize", "pyswarms/single/local_best.py:LocalBestPSO.optimize", "pyswarms/single/general_optimizer.py:GeneralOptimizerPSO.optimize", "pyswarms/discrete/binary.py:BinaryPSO.optimize", "pyswarms/backend/operators.py:compute_pbest", "pyswarms/backend/operators.py:compute_velocity", "pyswarms/backend/operators.py:compute_position", "pyswarms/backend/operators.py:compute_objective_function", "pyswarms/backend/handlers.py:BoundaryHandler", "pyswarms/backend/handlers.py:VelocityHandler", "pyswarms/backend/handlers.py:OptionsHandler", "pyswarms/backend/topology/ring.py:Ring.compute_gbest", "pyswarms/backend/topology/random.py:Random.compute_gbest"]}
{"id": "C90", "title": "Objectives that return one number for the whole swarm", "statement": "numpy compares a single number, or an array of one element, with all entries of pbest_cost, so that an objective written for one particle raises nothing in a swarm of two or more. Without a pool such a run is, up to swarm.current_cost, the run with the objective that returns the same number for every particle: all personal best costs stay equal, the personal best positions are those of one whole recorded swarm, and the returned position is the first particle's. With n_processes the result depends on their number: a number always raises ValueError in the first iteration, with positions, bests and histories unchanged; arrays of one element give, with one process, the run without a pool, with exactly as many processes as particles the run in which every particle has its own cost, and with any other number of processes ValueError in the first iteration. Arrays of other lengths are treated as in the other properties.", "quantifier": "all swarms of at least two particles, configurations, objectives, topologies, draws, process counts, run lengths", "why_tests_cant": "a silent misuse: no exception shows it, and whether there is one depends on the number of processes", "anchors": ["pyswarms/backend/operators.py:compute_pbest", "pyswarms/backend/operators.py:compute_objective_function", "pyswarms/single/global_best.py:GlobalBestPSO.optimize", "pyswarms/single/local_best.py:LocalBestPSO.optimize", "pyswarms/single/general_optimizer.py:GeneralOptimizerPSO.optimize", "pyswarms/discrete/binary.py:BinaryPSO.optimize"]}
{"id": "C91", "title": "Objectives that return arrays of several axes", "statement": "An objective that returns its costs as a column of shape (n, 1), a row, or any array of two or more axes makes optimize raise ValueError in the first iteration whenever the swarm has at least two particles and two dimensions and their numbers differ; with and without a pool, in all four optimizers, with positions, velocities, bests and histories unchanged. The same holds of any later iteration whose evaluation returns such an array. With as many dimensions as particles, or one dimension, compute_pbest raises nothing: a column turns the personal best positions into an array of shape (n, n, n) and the costs into (n, n). The shape of a combination is numpy's: axes counted from the last agree, or one of them is 1 or missing. Results of no or one axis are treated as in C90.", "quantifier": "all shapes of two or more axes, configurations, objectives, topologies, draws, process counts, run lengths", "why_tests_cant": "whether the misuse is noticed depends on the sizes of the swarm: tests with as many particles as dimensions take another path", "anchors": ["pyswarms/backend/operators.py:compute_pbest", "pyswarms/backend/operators.py:compute_objective_function", "pyswarms/single/global_best.py:GlobalBestPSO.optimize", "pyswarms/single/local_best.py:LocalBestPSO.optimize", "pyswarms/single/general_optimizer.py:GeneralOptimizerPSO.optimize", "pyswarms/discrete/binary.py:BinaryPSO.optimize"]}
