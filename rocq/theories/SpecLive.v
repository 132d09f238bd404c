(** Vocabulary of the property about the options dictionary (C86). *)
From Coq Require Import String ZArith List Arith Bool.
From Verif Require Import Prelude F64 Num Handlers Swarms Operators Generators Topology Optimizers LiveOptions Spec.
Import ListNotations.
Local Open Scope string_scope.
Local Open Scope list_scope.

(** Two dictionaries have the same values under some keys. *)
Definition same_at (keys : list string) (u u' : options F64num) : Prop := forall k, In k keys -> dget u' k = dget u k.
(** What the equation of motion reads. *)
Definition coefficients : list string := ["c1"; "c2"; "w"].
(** What the topologies are asked with. *)
Definition knobs : list string := ["k"; "p"; "r"].
(** Two objects that agree in everything but the contents of [swarm.options]. *)
Definition but_options (o o' : ostate) : Prop := exists u, o' = with_swarm o (set_options (o_swarm o) u).
(** The same settings up to the dictionary and the strategies. *)
Definition same_settings (c c' : config) : Prop := exists u s, c' =
  {| c_kind := c_kind c; c_n := c_n c; c_d := c_d c; c_options := u; c_bounds := c_bounds c; c_clamp := c_clamp c; c_center := c_center c; c_ftol := c_ftol c; c_ftol_iter := c_ftol_iter c; c_init := c_init c;
     c_bh := c_bh c; c_vh := c_vh c; c_oh := s |}.
(** The dictionary after the objective has been called on [xs] in turn, starting with call number [i]. *)
Fixpoint written (wr : writer) (i : nat) (xs : list fmatrix) (u : options F64num) : options F64num :=
  match xs with [] => u | x :: xs => written wr (S i) xs (wr i x u) end.
(** The object and the dictionary as they stand between two calls: if [swarm.options] is the dictionary, it has its contents; BinaryPSO's always is. *)
Definition coherent (c : config) (s : lstate) : Prop :=
  (l_same s = true -> s_options (o_swarm (l_o s)) = l_u s) /\ (c_kind c = Binary -> l_same s = true).
(** Strategies that give [opts i] in iteration [i]. *)
Definition schedule (c : config) (e : env) (iters : nat) (opts : nat -> options F64num) : Prop :=
  forall i, i < iters -> oh_call (e_oh e i) (c_oh c) (c_options c) (mkOk (Some (Z.of_nat i)) (Some (Z.of_nat iters)) None None None None) = Ok (opts i).
(** An objective that does not write into the dictionary: none does with a pool, where the processes have copies. *)
Definition quiet (wr : writer) (pool : option nat) : Prop := pool <> None \/ forall i x u, wr i x u = u.
(** The same optimizer without strategies. *)
Definition no_strategy (c : config) : config :=
  {| c_kind := c_kind c; c_n := c_n c; c_d := c_d c; c_options := c_options c; c_bounds := c_bounds c; c_clamp := c_clamp c; c_center := c_center c; c_ftol := c_ftol c; c_ftol_iter := c_ftol_iter c; c_init := c_init c;
     c_bh := c_bh c; c_vh := c_vh c; c_oh := [] |}.
