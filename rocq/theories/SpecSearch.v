(** Vocabulary of the search properties. *)
From Coq Require Import String ZArith List Arith Bool.
From Verif Require Import Prelude F64 Num Handlers Swarms Generators Topology Optimizers Search Spec SpecHandlers.
Import ListNotations.
Local Open Scope string_scope.
Local Open Scope list_scope.
Local Open Scope nat_scope.

(** [v] is the [i]-th candidate of an option. *)
Definition candidate (x : gval) (i : nat) (v : pyval F64num) : Prop :=
  match x with Many l => nth_error l i = Some v | Single w => i = 0 /\ v = w end.
Definition n_candidates (x : gval) : nat := match x with Many l => length l | Single _ => 1 end.
(** One candidate number per option. *)
Definition selection (opts : dict gval) (idx : list nat) : Prop :=
  Forall2 (fun p i => i < n_candidates (snd p)) opts idx.
(** [g] has the keys of [opts], with the selected candidates. *)
Definition selects (opts : dict gval) (idx : list nat) (g : popts) : Prop :=
  map fst g = map fst opts /\
  forall j key x i, nth_error opts j = Some (key, x) -> nth_error idx j = Some i ->
    exists v, nth_error g j = Some (key, v) /\ candidate x i v.
Definition n_selections (opts : dict gval) : nat := fold_right (fun p n => n_candidates (snd p) * n) 1 opts.

(** Every entry of the grid was scored, in order. *)
Definition scored (score : nat -> popts -> res f64) (grid : list popts) (scores : list f64) : Prop :=
  length scores = length grid /\
  forall i g s, nth_error grid i = Some g -> nth_error scores i = Some s -> score i g = Ok s.

(** An optimizer built with these arguments and every default: no early stop, unit centre, random
    initial positions, the periodic and the unmodified strategy. *)
Definition plain_config (kind : opt_kind) (n d : nat) (b : option (bounds F64num)) (cl : option (clamp_t F64num))
    (g : popts) (c : config) : Prop :=
  c_kind c = kind /\ c_n c = n /\ c_d c = d /\ c_options c = g /\ c_bounds c = b /\ c_clamp c = cl /\
  c_center c = repeat fone d /\ c_ftol c = fninf /\ c_ftol_iter c = 1 /\ c_init c = None /\
  c_bh c = "periodic" /\ c_vh c = "unmodified" /\ c_oh c = [].

(** The clamp a search passes on: the given one, by default (0, 1) in every dimension. *)
Definition given_clamp (a : search_args) (cl : option (clamp_t F64num)) : Prop :=
  (sa_vclamp a = None -> cl = Some (repeat fzero (sa_d a), repeat fone (sa_d a))) /\ (forall c, sa_vclamp a = Some c -> cl = c).
(** One entry of a search: a whole run of a new optimizer. *)
Definition entry_run (kind : opt_kind) (a : search_args) (cl : option (clamp_t F64num)) (dr : nat -> create_draws) (e : nat -> env)
    (i : nat) (g : popts) (s : f64) : Prop :=
  exists c o o' pos, plain_config kind (sa_n a) (sa_d a) (sa_bounds a) cl g c /\ construct c (o_top o) (dr i) = Ok o /\
    (kind = GlobalBest -> t_kind (o_top o) = Star) /\ (kind <> GlobalBest -> t_kind (o_top o) = Ring /\ t_static (o_top o) = false) /\
    optimize c (e i) None (sa_iters a) o = (o', Ok (s, pos)).
(** A run without bounds and with clamp (0, 1) in which no recorded position and not the returned one has a negative coordinate. *)
Definition positive_run (kind : opt_kind) (n d iters : nat) (dr : create_draws) (e : env) (g : popts) (s : f64) : Prop :=
  exists c o o' pos, plain_config kind n d None (Some (repeat fzero d, repeat fone d)) g c /\ construct c (o_top o) dr = Ok o /\
    optimize c e None iters o = (o', Ok (s, pos)) /\
    (forall t X a j x, nth_error (o_pos_history o') t = Some X -> entry X a j = Some x -> flt x fzero = false) /\
    (forall j x, nth_error pos j = Some x -> flt x fzero = false).
