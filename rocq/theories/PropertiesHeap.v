(** Properties of references: which arrays the optimizers write into (C50). *)
From Coq Require Import String ZArith List Arith Bool.
From Verif Require Import Prelude F64 Num Np Handlers Swarms Operators Generators Topology Optimizers Spec Heap SpecHeap HeapRun Demo ExamplesHeap.
Import ListNotations.
Local Open Scope string_scope.
Local Open Scope list_scope.
Local Open Scope nat_scope.

(** *** C50: arrays already handed out are never written *)
(** Construction: the given array becomes the position and the personal-best array, and stays as it is. *)
Theorem C50_construct : forall c top dr init h h1 x, init_at h init (c_init c) -> h_construct c top dr init h = (h1, Ok x) ->
  untouched h h1 /\ (exists o, construct c top dr = Ok o /\ Rep h1 x o) /\ hs_pbest_pos (hs x) = hs_position (hs x) /\
  (forall a, init = Some a -> hs_position (hs x) = a).
Proof. exact heap_construct. Qed.
Print Assumptions C50_construct.
Theorem C50_construct_error : forall c top dr init h ex, init_at h init (c_init c) -> construct c top dr = Err ex -> h_construct c top dr init h = (h, Err ex).
Proof. exact heap_construct_error. Qed.
Print Assumptions C50_construct_error.
(** One call: every array existing before the call is the same after it, also when the call raises; the
    result and all attributes are those of the run on values. *)
Theorem C50_optimize : forall c e pool iters h x o h' x' r, Rep h x o -> h_optimize c e pool iters h x = (h', (x', r)) ->
  untouched h h' /\ exists o', optimize c e pool iters o = (o', r) /\ Rep h' x' o'.
Proof. exact heap_optimize. Qed.
Print Assumptions C50_optimize.
(** The same within a call, iteration by iteration: arrays recorded in the histories stay. *)
Theorem C50_iteration : forall c e pool iters i h x o q h' st, Rep h x o -> h_iteration c e pool iters i h x q = (h', st) -> untouched h h'.
Proof. exact heap_iteration. Qed.
Print Assumptions C50_iteration.
(** Any number of calls of optimize and reset. *)
Theorem C50_session : forall c top dr init h h1 x1 h2 x2, init_at h init (c_init c) -> h_construct c top dr init h = (h1, Ok x1) -> HSession c init h1 x1 h2 x2 ->
  untouched h h2 /\ untouched h1 h2 /\ exists o, Rep h2 x2 o /\ Reachable c o.
Proof. exact heap_session. Qed.
Print Assumptions C50_session.
Example C50_example : exists (c : config) (init : option addr) (h0 h1 : heap) (x1 : hstate) (h3 : heap) (x3 : hstate) (c3 : f64),
  init_at h0 init (c_init c) /\ h_construct c star (d_cd 0 3 2) init h0 = (h1, Ok x1) /\ HSession c init h1 x1 h3 x3 /\ hx_test h3 x3 c3 = true.
Proof. exact hx_session. Qed.
Example C50_example_all : map (fun bh => hx_run bh hx_test) ["nearest"; "reflective"; "shrink"; "random"; "intermediate"; "periodic"] = [true; true; true; true; true; true].
Proof. exact hx_runs. Qed.
(** A boundary strategy called directly: every strategy but nearest leaves its result in the caller's array and
    returns that same array; nearest returns a new one. *)
Theorem C50_direct_boundary : forall strategy dr mem vm b a p h h' r, nth_error h a = Some p -> at_mem h mem vm -> mem <> Some a ->
  h_bh strategy dr mem b a h = (h', r) ->
  untouched_but a h h' /\
  match bh_call (N := F64num) strategy dr vm b p with
  | Err ex => r = Err ex
  | Ok (q, vm') => exists x mem', r = Ok (x, mem') /\ nth_error h' x = Some q /\ at_mem h' mem' vm' /\
      (strategy <> "nearest" -> x = a) /\ (strategy = "nearest" -> nth_error h x = None /\ nth_error h' a = Some p)
  end.
Proof. exact direct_bh. Qed.
Print Assumptions C50_direct_boundary.
Example C50_example_boundary : map hx_direct ["nearest"; "reflective"; "shrink"; "random"; "intermediate"; "periodic"] =
  [(true, false, false); (true, true, true); (true, true, true); (true, true, true); (true, true, true); (true, true, true)].
Proof. exact hx_direct_runs. Qed.
(** A velocity strategy called directly: invert and zero write into the caller's array. *)
Theorem C50_direct_velocity : forall strategy c mem vm bo ap a x v h h' r, nth_error h ap = Some x -> nth_error h a = Some v -> ap <> a ->
  at_mem h mem vm -> mem <> Some a -> h_vh strategy c mem bo ap a h = (h', r) ->
  untouched_but a h h' /\
  match vh_call (N := F64num) strategy c vm (mkVk (Some x) (Some bo) None) v with
  | Err ex => r = Err ex
  | Ok (q, vm') => exists y mem', r = Ok (y, mem') /\ nth_error h' y = Some q /\ at_mem h' mem' vm' /\
      (strategy = "unmodified" \/ strategy = "adjust" -> nth_error h' a = Some v) /\
      (strategy = "invert" -> exists b, bo = Some b /\ nth_error h' a = Some (map2 (invert_row (N := F64num) b (fdec 1 2)) x v)) /\
      (strategy = "zero" -> y = a)
  end.
Proof. exact direct_vh. Qed.
Print Assumptions C50_direct_velocity.
Example C50_example_velocity : map hx_vdirect ["unmodified"; "adjust"; "invert"; "zero"] =
  [(true, false, false); (true, false, false); (true, false, true); (true, true, true)].
Proof. exact hx_vdirect_runs. Qed.
