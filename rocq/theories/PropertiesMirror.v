(** No direction is special (C75). *)
From Coq Require Import String ZArith List Arith Bool.
From Verif Require Import Prelude F64 Num Np Handlers Swarms Operators Generators Topology Optimizers
  Spec SpecLike SpecMirror Mirror Demo ExamplesMirror.
Import ListNotations.
Local Open Scope string_scope.
Local Open Scope list_scope.
Local Open Scope nat_scope.

(** *** C75: mirroring some dimensions mirrors the run *)
(** Optimizers built with mirrored first positions and velocities are in mirrored states. *)
Theorem C75_construct : forall flips c c' top dr dr' o o', mirrored_config flips c c' -> construct c top dr = Ok o -> construct c' top dr' = Ok o' ->
  Forall2 (mirrored flips) (s_position (o_swarm o)) (s_position (o_swarm o')) -> Forall2 (mirrored flips) (s_velocity (o_swarm o)) (s_velocity (o_swarm o')) ->
  state_like (length flips) (mirrored flips) o o'.
Proof. exact mirror_construct. Qed.
Print Assumptions C75_construct.
(** The same cost and the mirrored position, or the same exception, whatever happens; all recorded costs agree. *)
Theorem C75_optimize : forall flips c c' e e' pool iters o o', mirrored_config flips c c' -> mirrored_env flips e e' -> c_kind c <> Binary -> c_bh c <> "shrink" -> c_bh c <> "random" ->
  (c_vh c = "invert" -> Forall (fun m => m = true) flips) -> state_like (length flips) (mirrored flips) o o' ->
  state_like (length flips) (mirrored flips) (fst (optimize c e pool iters o)) (fst (optimize c' e' pool iters o')) /\
  result_like (mirrored flips) (snd (optimize c e pool iters o)) (snd (optimize c' e' pool iters o')).
Proof. exact mirror_optimize. Qed.
Print Assumptions C75_optimize.
Theorem C75_session : forall flips c c' calls calls' o o' o1, mirrored_config flips c c' -> c_kind c <> Binary -> c_bh c <> "shrink" -> c_bh c <> "random" ->
  (c_vh c = "invert" -> Forall (fun m => m = true) flips) -> Forall2 (mirrored_call flips) calls calls' -> state_like (length flips) (mirrored flips) o o' -> Session c o calls o1 ->
  exists o1', Session c' o' calls' o1' /\ state_like (length flips) (mirrored flips) o1 o1'.
Proof. exact mirror_session. Qed.
Print Assumptions C75_session.
(** "invert" multiplies the velocity once for the lower and once more for the upper faces through which a particle has left: mirroring one of two dimensions changes the number. *)
Theorem C75_invert_refuted : exists flips b b' (p p' v v' w w' : fmatrix) m m', mirrored_bounds flips b b' /\ Forall2 (mirrored flips) p p' /\ Forall2 (mirrored flips) v v' /\
  vh_call (N := F64num) "invert" None None (mkVk (N := F64num) (Some p) (Some (Some b)) None) v = Ok (w, m) /\
  vh_call (N := F64num) "invert" None None (mkVk (N := F64num) (Some p') (Some (Some b')) None) v' = Ok (w', m') /\ ~ Forall2 (mirrored flips) w w'.
Proof. exact invert_mirror. Qed.
Print Assumptions C75_invert_refuted.
(** "shrink" divides by the distance to the last position; for a distance of 0 the quotient's sign depends on the direction. *)
Theorem C75_shrink_refuted : exists flips dr b b' (y y' x x' p p' : fmatrix) m m', mirrored_bounds flips b b' /\ Forall2 (mirrored flips) y y' /\ Forall2 (mirrored flips) x x' /\
  bh_call (N := F64num) "shrink" dr (Some y) b x = Ok (p, m) /\ bh_call (N := F64num) "shrink" dr (Some y') b' x' = Ok (p', m') /\ ~ Forall2 (mirrored flips) p p'.
Proof. exact shrink_mirror. Qed.
Print Assumptions C75_shrink_refuted.
Example C75_example : exists flips c c' e e' o o' dr dr' q cost pos,
  mirrored_config flips c c' /\ mirrored_env flips e e' /\ c_kind c <> Binary /\ c_bh c <> "shrink" /\ c_bh c <> "random" /\ (c_vh c = "invert" -> Forall (fun m => m = true) flips) /\ In true flips /\ In false flips /\
  construct c star dr = Ok o /\ construct c' star dr' = Ok o' /\ state_like (length flips) (mirrored flips) o o' /\ optimize c e None 4 o = (q, Ok (cost, pos)) /\ feq (nth 0 pos fzero) fzero = false /\
  exists x v, In (x, v) (combine (o_pos_history q) (tl (o_velocity_history q))) /\ any_out (N := F64num) (map2 (map2 fadd) x v) m_bounds = true /\ c_bounds c = Some m_bounds.
Proof. exact mirror_demo. Qed.
