(** A well-configured optimizer does not raise (C89). *)
From Coq Require Import String ZArith List Arith Bool.
From Verif Require Import Prelude F64 Num Np Handlers Swarms Operators Generators Topology Optimizers
  Spec SpecHandlers SpecOpts SpecRun SpecReflect SpecSafe SafeFacts SafeMore Demo ExamplesOne ExamplesSafe.
Import ListNotations.
Local Open Scope string_scope.
Local Open Scope list_scope.
Local Open Scope nat_scope.

(** *** C89: no exceptions of its own *)
(** After any earlier calls, returned or raised, a call returns, or hangs in "reflective". (One dimension with a star: only the first call, see C88.) *)
Theorem C89_returns : forall c top dr o l e pool iters, construct c top dr = Ok o -> t_nb top = None -> shaped_draws (c_n c) (c_d c) dr -> (forall p, c_init c = Some p -> is_matrix (c_n c) (c_d c) p) ->
  consistent c -> suits c (t_kind top) -> (t_kind top = Star -> l = [] \/ 2 <= c_d c) -> Forall (fun q => delivers c (t_kind top) (q_env q) (q_iters q)) l ->
  delivers c (t_kind top) e iters -> answers (c_d c) e iters -> pool <> Some 0 -> 1 <= iters ->
  (t_kind top = Star -> s_best_pos (o_swarm (served c l o)) = BPEmpty -> promising e pool (served c l o)) ->
  (exists v, snd (optimize c e pool iters (served c l o)) = Ok v) \/
  (endless (snd (optimize c e pool iters (served c l o))) /\ c_kind c <> Binary /\ c_bounds c <> None /\ c_bh c = "reflective").
Proof. exact never_raises. Qed.
Print Assumptions C89_returns.
(** Without "reflective" and with an objective whose first costs are below infinity it always returns. *)
Theorem C89_always : forall c top dr o l e pool iters, construct c top dr = Ok o -> t_nb top = None -> shaped_draws (c_n c) (c_d c) dr -> (forall p, c_init c = Some p -> is_matrix (c_n c) (c_d c) p) ->
  consistent c -> suits c (t_kind top) -> (t_kind top = Star -> l = [] \/ 2 <= c_d c) -> Forall (fun q => delivers c (t_kind top) (q_env q) (q_iters q)) l ->
  delivers c (t_kind top) e iters -> answers (c_d c) e iters -> stays_below (c_d c) e -> pool <> Some 0 -> 1 <= iters -> c_bh c <> "reflective" ->
  exists v, snd (optimize c e pool iters (served c l o)) = Ok v.
Proof. exact always_returns. Qed.
Print Assumptions C89_always.
(** With "reflective" as well, if a clamp keeps the moves small against the width of the box (C83). *)
Theorem C89_reflective : forall c top dr o l e pool iters b cl k, construct c top dr = Ok o -> t_nb top = None -> shaped_draws (c_n c) (c_d c) dr -> (forall p, c_init c = Some p -> is_matrix (c_n c) (c_d c) p) ->
  consistent c -> suits c (t_kind top) -> (t_kind top = Star -> l = [] \/ 2 <= c_d c) -> Forall (fun q => delivers c (t_kind top) (q_env q) (q_iters q)) l ->
  delivers c (t_kind top) e iters -> answers (c_d c) e iters -> stays_below (c_d c) e -> pool <> Some 0 -> 1 <= iters ->
  c_kind c <> Binary -> c_bh c = "reflective" -> c_vh c = "unmodified" \/ c_vh c = "invert" \/ c_vh c = "adjust" -> c_bounds c = Some b -> finite_box b ->
  (c_init c = None -> c_center c = repeat fone (c_d c) /\ unit_matrix (c_n c) (c_d c) (cd_pos dr)) ->
  c_clamp c = Some cl -> roomy_run b cl k -> (forall t, k <= bd_fuel (e_bh e t)) -> callbacks_end e ->
  exists v, snd (optimize c e pool iters (served c l o)) = Ok v.
Proof. exact reflective_returns. Qed.
Print Assumptions C89_reflective.
(** The three schedules with default end values always have a value to give for c1, c2 and w: their denominators do not vanish in float64. *)
Theorem C89_varied : forall (lib : oh_lib F64num) (start : options F64num) i m opt s, In opt ["c1"; "c2"; "w"] -> (forall k, In k ["c1"; "c2"; "w"] -> dget start k <> None) -> (0 <= i < m)%Z ->
  s = "lin_variation" \/ s = "exp_decay" \/ (s = "nonlin_mod" /\ feq (l_pow lib (fofZ m) (fdec 12 10)) fzero = false) ->
  exists x, new_value (N := F64num) lib start (mkOk (Some i) (Some m) None None None None) opt s x.
Proof. exact varied. Qed.
Print Assumptions C89_varied.
(** Every topology and every boundary strategy, after a call whose objective raised and one that returned. *)
Example C89_returns_example : forall t bh, In bh ["nearest"; "random"; "periodic"; "reflective"; "shrink"; "intermediate"] -> exists c top dr o l e pool iters,
  t_kind top = t /\ c_bh c = bh /\ length l = 2 /\ construct c top dr = Ok o /\ t_nb top = None /\ shaped_draws (c_n c) (c_d c) dr /\ (forall p, c_init c = Some p -> is_matrix (c_n c) (c_d c) p) /\
  consistent c /\ suits c (t_kind top) /\ 2 <= c_d c /\ Forall (fun q => delivers c (t_kind top) (q_env q) (q_iters q)) l /\
  delivers c (t_kind top) e iters /\ answers (c_d c) e iters /\ stays_below (c_d c) e /\ pool <> Some 0 /\ 1 <= iters.
Proof. exact safe_demo. Qed.
Example C89_always_example : exists o, construct (sf_c "shrink") (sf_t Star) (d_cd 0 6 2) = Ok o /\ snd (optimize (sf_c "shrink") (sf_env sf_fail) None 5 o) = Err (UserError 0) /\
  exists v, snd (optimize (sf_c "shrink") (sf_env sf_obj) (Some 3) 10 (served (sf_c "shrink") [mkRequest (sf_env sf_fail) None 5] o)) = Ok v.
Proof. exact recovers_demo. Qed.
Example C89_reflective_example : forall t, exists c top dr o l e pool iters b cl k,
  t_kind top = t /\ length l = 2 /\ construct c top dr = Ok o /\ t_nb top = None /\ shaped_draws (c_n c) (c_d c) dr /\ consistent c /\ suits c (t_kind top) /\ 2 <= c_d c /\
  Forall (fun q => delivers c (t_kind top) (q_env q) (q_iters q)) l /\ delivers c (t_kind top) e iters /\ answers (c_d c) e iters /\ stays_below (c_d c) e /\ pool <> Some 0 /\ 1 <= iters /\
  c_kind c <> Binary /\ c_bh c = "reflective" /\ c_vh c = "invert" /\ c_bounds c = Some b /\ finite_box b /\ (c_init c = None /\ c_center c = repeat fone (c_d c) /\ unit_matrix (c_n c) (c_d c) (cd_pos dr)) /\
  c_clamp c = Some cl /\ roomy_run b cl k /\ (forall t, k <= bd_fuel (e_bh e t)) /\ callbacks_end e.
Proof. exact reflective_demo. Qed.
Example C89_varied_example : In "w" ["c1"; "c2"; "w"] /\ (forall k, In k ["c1"; "c2"; "w"] -> dget d_options k <> None) /\ (0 <= 3 < 10)%Z.
Proof. exact varied_demo. Qed.
(** The first costs do have to be below infinity for a star. *)
Example C89_promising_needed : exists o, construct (sf_c "shrink") (sf_t Star) (d_cd 0 6 2) = Ok o /\ consistent (sf_c "shrink") /\ delivers (sf_c "shrink") Star (sf_env on_nan) 5 /\ answers 2 (sf_env on_nan) 5 /\
  snd (optimize (sf_c "shrink") (sf_env on_nan) None 5 o) = Err ValueError.
Proof. exact promising_needed. Qed.
