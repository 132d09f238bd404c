(** Vocabulary of the property that a well-configured optimizer does not raise (C89). *)
From Coq Require Import String ZArith List Arith Bool.
From Verif Require Import Prelude F64 Num Handlers Swarms Operators Generators Topology Optimizers Spec SpecHandlers SpecOpts SpecRun.
Import ListNotations.
Local Open Scope string_scope.
Local Open Scope list_scope.

(** The settings name coefficients and strategies that exist and fit together. *)
Definition consistent (c : config) : Prop :=
  1 <= c_n c /\ 1 <= c_d c /\ NoDup (dkeys (c_options c)) /\ (forall k, In k ["c1"; "c2"; "w"] -> dget (c_options c) k <> None) /\
  (c_vh c = "unmodified" \/ c_vh c = "adjust" \/ ((c_vh c = "invert" \/ c_vh c = "zero") /\ c_kind c <> Binary /\ c_bounds c <> None)) /\
  (c_kind c <> Binary -> forall b, c_bounds c = Some b ->
     In (c_bh c) ["nearest"; "random"; "periodic"] \/ (In (c_bh c) ["reflective"; "shrink"; "intermediate"] /\ b_arr b = true)).
(** The options fit the topology. Rings of one neighbour are left out (C34). *)
Definition suits (c : config) (t : topo_kind) : Prop :=
  match t with
  | Star | Pyramid => True
  | Ring => c_kind c <> GlobalBest /\ exists p k, dget (c_options c) "p" = Some (PInt p) /\ dget (c_options c) "k" = Some (PInt k) /\ (2 <= k <= Z.of_nat (c_n c))%Z
  | VonNeumann => c_kind c = General /\ exists p r, dget (c_options c) "p" = Some (PInt p) /\ dget (c_options c) "r" = Some (PInt r) /\ (1 <= r)%Z /\ delannoy (c_d c) (Z.to_nat r) <= c_n c
  | Random => c_kind c <> GlobalBest /\ exists k, dget (c_options c) "k" = Some (PInt k) /\ (0 <= k <= Z.of_nat (c_n c) - 1)%Z
  end.
(** One non-empty list of particles for each particle. *)
Definition hoods (n : nat) (rows : list (list nat)) : Prop := length rows = n /\ Forall (fun r => r <> [] /\ Forall (fun j => j < n) r) rows.
(** numpy and scipy deliver: arrays of the requested sizes, neighbours for every particle, a value for every varied option. *)
Definition delivers (c : config) (t : topo_kind) (e : env) (iters : nat) : Prop := forall i, i < iters ->
  is_matrix (c_n c) (c_d c) (vd_u1 (e_vel e i)) /\ is_matrix (c_n c) (c_d c) (vd_u2 (e_vel e i)) /\
  (c_kind c = Binary -> length (e_bits e i) = c_d c) /\
  (c_bh c = "random" -> length (bd_greater (e_bh e i)) = c_d c /\ length (bd_lower (e_bh e i)) = c_d c) /\
  (c_kind c <> Binary -> forall opt s, In opt (dkeys (c_options c)) -> dget (c_oh c) opt = Some s ->
     exists x, new_value (N := F64num) (e_oh e i) (c_options c) (mkOk (Some (Z.of_nat i)) (Some (Z.of_nat iters)) None None None None) opt s x) /\
  (t = Ring \/ t = VonNeumann -> forall p k X, 1 <= k <= c_n c -> is_matrix (c_n c) (c_d c) X -> exists rows, te_knn (e_top e i) p k X = Ok rows /\ hoods (c_n c) rows) /\
  (t = Pyramid -> forall X, is_matrix (c_n c) (c_d c) X -> exists rows, te_delaunay (e_top e i) X = Ok rows /\ hoods (c_n c) rows).
(** The objective gives one number for each row, whatever part of the swarm it is asked about. *)
Definition answers (d : nat) (e : env) (iters : nat) : Prop :=
  forall i X, i < iters -> Forall (fun r => length r = d) X -> exists cs, e_obj e i X = Ok cs /\ length cs = length X.
(** The first evaluation finds a cost below infinity. *)
Definition promising (e : env) (pool : option nat) (o : ostate) : Prop :=
  forall cs, compute_objective_function (N := F64num) pool (e_obj e 0) (s_position (o_swarm o)) = Ok cs -> exists v, In v cs /\ flt v finf = true.
(** Calls made one after another, whatever their outcome. *)
Record request : Type := mkRequest { q_env : env; q_pool : option nat; q_iters : nat }.
Fixpoint served (c : config) (l : list request) (o : ostate) : ostate :=
  match l with [] => o | q :: l' => served c l' (fst (optimize c (q_env q) (q_pool q) (q_iters q) o)) end.
(** The costs of the first evaluation are numbers below infinity. *)
Definition stays_below (d : nat) (e : env) : Prop :=
  forall X cs v, Forall (fun r => length r = d) X -> e_obj e 0 X = Ok cs -> In v cs -> flt v finf = true.
