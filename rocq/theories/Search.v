(** Hyper-parameter search: pyswarms/utils/search/{base_search,grid_search,random_search}.py. *)
From Coq Require Import String ZArith List Arith Bool.
From Verif Require Import Prelude F64 Num Np Handlers Swarms Operators Generators Topology Optimizers.
Import ListNotations.
Local Open Scope string_scope.
Local Open Scope list_scope.
Local Open Scope nat_scope.

Definition popts := options F64num.

(** *** GridSearch *)

(** A value of the options dict: a Python list, or anything else. (grid_search.py:78-81.) *)
Inductive gval : Type := Many (l : list (pyval F64num)) | Single (v : pyval F64num).
(** grid_search.py:78-81: [x if type(x) == list else [x]] *)
Definition items_of (x : gval) : list (pyval F64num) := match x with Many l => l | Single v => [v] end.

(** [itertools.product]: the last factor varies fastest. (grid_search.py:85.) *)
Fixpoint product {A} (ls : list (list A)) : list (list A) :=
  match ls with
  | [] => [[]]
  | l :: r => concat (map (fun x => map (fun t => x :: t) (product r)) l)
  end.

(** grid_search.py:73-88 [generate_grid].  On an empty dict [list(zip())[1]] raises. *)
Definition grid_search (opts : dict gval) : res (list popts) :=
  match opts with
  | [] => Err IndexError
  | _ => let params := map fst opts in
         let items := map (fun p => items_of (snd p)) opts in
         Ok (map (fun x => combine params x) (product items))
  end.

(** *** RandomSearch *)

(** A value of the options dict: a pair of bounds, or a plain number. (random_search.py:121-124.) *)
Inductive rval : Type := RPair (lo hi : pyval F64num) | RNum (v : pyval F64num).
(** The unit draws behind [np.random.uniform] per key, and raw integers behind
    [np.random.randint]. (random_search.py:113-124.) *)
Record rs_draws : Type := mkRs { rs_unit : string -> nat -> f64; rs_int : nat -> Z }.

(** [dict.pop(k)]: the value and the dict without it. (random_search.py:109.) *)
Fixpoint dpop {V} (d : dict V) (k : string) : option (V * dict V) :=
  match d with
  | [] => None
  | (k', v) :: r =>
      if String.eqb k k' then Some (v, r)
      else match dpop r k with Some (x, r') => Some (x, (k', v) :: r') | None => None end
  end.

(** [np.random.uniform(lo, hi, size=n)]. (random_search.py:114-116, 122-124.) *)
Definition np_uniform (lo hi : f64) (u : nat -> f64) (n : nat) : res (list f64) :=
  if ffinite (fsub hi lo) then Ok (map (fun i => fadd lo (fmul (fsub hi lo) (u i))) (seq 0 n))
  else Err OverflowError.
(** [np.random.randint(lo, hi, size=n)] for integer bounds. (random_search.py:117, 122-124.) *)
Definition np_randint (lo hi : Z) (r : nat -> Z) (n : nat) : res (list Z) :=
  if Z.leb hi lo then Err ValueError else Ok (map (fun i => (lo + r i mod (hi - lo))%Z) (seq 0 n)).

(** random_search.py:121-124: one pass of the loop for the item [(idx, bounds)] *)
Definition random_column (dr : rs_draws) (n : nat) (idx : string) (b : rval) : res (list (pyval F64num)) :=
  if String.eqb idx "c1" || String.eqb idx "c2" || String.eqb idx "w" then
    match b with
    | RPair lo hi => do l <- np_uniform (pnum lo) (pnum hi) (rs_unit dr idx) n; Ok (map (fun x => PFloat (x : F64num)) l)
    | RNum _ => Err TypeError
    end
  else if String.eqb idx "k" then
    match b with
    | RPair (PInt lo) (PInt hi) => do l <- np_randint lo hi (rs_int dr) n; Ok (map (fun z => PInt z) l)
    | RPair _ _ => Err Unmodelled
    | RNum _ => Err TypeError
    end
  else Err KeyError.
(** random_search.py:121-124, the whole loop *)
Fixpoint random_columns (dr : rs_draws) (n : nat) (opts : dict rval) : res (dict (list (pyval F64num))) :=
  match opts with
  | [] => Ok []
  | (idx, b) :: r => do c <- random_column dr n idx b; do cs <- random_columns dr n r; Ok ((idx, c) :: cs)
  end.
(** [params[key][i]]. (random_search.py:127-136.) *)
Definition at_key (params : dict (list (pyval F64num))) (key : string) (i : nat) : res (pyval F64num) :=
  do c <- of_option KeyError (dget params key); of_option IndexError (nth_error c i).
(** random_search.py:127-136: the [i]-th dict *)
Definition random_row (params : dict (list (pyval F64num))) (p : pyval F64num) (i : nat) : res popts :=
  do c1 <- at_key params "c1" i;
  do c2 <- at_key params "c2" i;
  do w <- at_key params "w" i;
  do k <- at_key params "k" i;
  Ok [("c1", c1); ("c2", c2); ("w", w); ("k", k); ("p", p)].

(** random_search.py:102-136 [generate_grid]; first component: [self.options] afterwards
    ([options = dict(self.options)] is a copy, [pop] works on the copy).  [p] must be a number
    here; any other value would only be passed on. *)
Definition random_search (dr : rs_draws) (n : nat) (self_options : dict rval) : dict rval * res (list popts) :=
  let options := self_options in
  (self_options,
   match dpop options "p" with
   | None => Err KeyError
   | Some (RPair _ _, _) => Err Unmodelled
   | Some (RNum p, options') =>
       do params <- random_columns dr n options';
       mapM (random_row params p) (seq 0 n)
   end).

(** *** SearchBase *)

(** [min(enumerate(scores), key=itemgetter(1))]: the first entry no other is below;
    [max] likewise. (base_search.py:133-137.) *)
Fixpoint pick (better : f64 -> f64 -> bool) (best : nat * f64) (i : nat) (l : list f64) : nat * f64 :=
  match l with
  | [] => best
  | x :: r => pick better (if better x (snd best) then (i, x) else best) (S i) r
  end.
(** base_search.py:133-137: [min]/[max] of an empty sequence raise ValueError *)
Definition py_opt (better : f64 -> f64 -> bool) (l : list f64) : res (nat * f64) :=
  match l with [] => Err ValueError | x :: r => Ok (pick better (0, x) 1 r) end.

(** base_search.py:113-141 [search] on the result of [generate_grid]; [score i] is
    [generate_score], called for the [i]-th entry. *)
Definition search (maximum : bool) (score : nat -> popts -> res f64) (grid : list popts) : res (f64 * popts) :=
  do scores <- mapM (fun p => score (fst p) (snd p)) (combine (seq 0 (length grid)) grid);
  do m <- py_opt flt scores;
  do b <- (if maximum then py_opt (fun x y => flt y x) scores else Ok m);
  do g <- of_option IndexError (nth_error grid (fst b));
  Ok (snd b, g).

(** base_search.py:98-107: [self.optimizer(n, dims, options, bounds, velocity_clamp=vclamp)], all
    other arguments at their defaults.  The fourth positional parameter is [bounds] for
    GlobalBestPSO and LocalBestPSO (global_best.py:80, local_best.py:89), [init_pos] for BinaryPSO
    (binary.py:76) and [topology] for GeneralOptimizerPSO (general_optimizer.py:81). *)
Definition score_config (kind : opt_kind) (n d : nat) (b : option (bounds F64num)) (vclamp : option (clamp_t F64num))
    (init : option fmatrix) (opts : popts) : config :=
  mkConfig kind n d opts b vclamp (repeat fone d) fninf 1 init "periodic" "unmodified" [].
(** GlobalBestPSO uses Star (global_best.py:153), LocalBestPSO and BinaryPSO Ring(static=False)
    (local_best.py:177, binary.py:142) *)
Definition score_topology (kind : opt_kind) : topology :=
  match kind with LocalBest | Binary => mkTopo Ring false None | _ => mkTopo Star true None end.
(** base_search.py:98-107.  GeneralOptimizerPSO builds its swarm without bounds, then finds that
    the bounds are no Topology (general_optimizer.py:186-189).  BinaryPSO takes the tuple of bounds
    as initial positions (binary.py:128-137); a tuple with at most two values has no attribute
    [shape] (swarms.py:111-113). *)
Definition score_object (kind : opt_kind) (n d : nat) (b : option (bounds F64num)) (vclamp : option (clamp_t F64num))
    (opts : popts) (dr : create_draws) : res (config * ostate) :=
  let new b init := construct (score_config kind n d b vclamp init opts) (score_topology kind) dr in
  match kind, b with
  | General, _ => do _ <- new None None; Err TypeError
  | Binary, Some q => do _ <- new None (Some [b_lb q; b_ub q]); Err AttributeError
  | _, _ => do o <- new b None; Ok (score_config kind n d b vclamp None opts, o)
  end.
(** base_search.py:91-111 [generate_score]: a new optimizer with these options is built and run,
    its best cost is the score. *)
Definition generate_score (kind : opt_kind) (n d : nat) (b : option (bounds F64num)) (vclamp : option (clamp_t F64num))
    (iters : nat) (dr : nat -> create_draws) (e : nat -> env) (i : nat) (opts : popts) : res f64 :=
  do co <- score_object kind n d b vclamp opts (dr i);
  do r <- snd (optimize (fst co) (e i) None iters (snd co));
  Ok (fst r).

(** The arguments of GridSearch and RandomSearch other than the options (base_search.py:25-36):
    an optimizer class, [None] for an object without attribute [optimize]; [sa_vclamp = None] if
    the argument is omitted. *)
Record search_args : Type := mkSa {
  sa_optimizer : option opt_kind; sa_n : nat; sa_d : nat; sa_iters : nat;
  sa_bounds : option (bounds F64num); sa_vclamp : option (option (clamp_t F64num)) }.
(** The default [velocity_clamp=(0, 1)], base_search.py:35, grid_search.py:55, random_search.py:76 *)
Definition sa_clamp (a : search_args) : option (clamp_t F64num) :=
  match sa_vclamp a with None => Some (repeat fzero (sa_d a), repeat fone (sa_d a)) | Some c => c end.
(** base_search.py:113-141 after the assertion base_search.py:20-23 of the constructor *)
Definition search_with (a : search_args) (maximum : bool) (dr : nat -> create_draws) (e : nat -> env)
    (grid : res (list popts)) : res (f64 * popts) :=
  do kind <- of_option TypeError (sa_optimizer a);
  do g <- grid;
  search maximum (generate_score kind (sa_n a) (sa_d a) (sa_bounds a) (sa_clamp a) (sa_iters a) dr e) g.
(** [GridSearch(..., options, ...).search(maximum)], grid_search.py:45-88 *)
Definition run_grid_search (a : search_args) (opts : dict gval) (maximum : bool) (dr : nat -> create_draws) (e : nat -> env)
  : res (f64 * popts) :=
  search_with a maximum dr e (grid_search opts).
(** [RandomSearch(..., options, ..., n_selection_iters, ...).search(maximum)], random_search.py:58-136;
    [None] for [n_selection_iters] that is no int.  (Negative numbers are not modelled.) *)
Definition run_random_search (a : search_args) (rd : rs_draws) (n_selection_iters : option nat) (opts : dict rval) (maximum : bool)
    (dr : nat -> create_draws) (e : nat -> env) : res (f64 * popts) :=
  do _ <- of_option TypeError (sa_optimizer a);
  do n <- of_option TypeError n_selection_iters;
  search_with a maximum dr e (snd (random_search rd n opts)).
