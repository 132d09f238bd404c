(** The options dictionary stays the caller's (C86). *)
From Coq Require Import String ZArith List Arith Bool.
From Verif Require Import Prelude F64 Num Np Handlers Swarms Operators Generators Topology Optimizers LiveOptions
  Spec SpecLive LiveFacts Demo ExamplesLive.
Import ListNotations.
Local Open Scope string_scope.
Local Open Scope list_scope.
Local Open Scope nat_scope.

(** *** C86: the options dictionary is shared with the caller *)
(** A new object is coherent with the dictionary, and stays so in every call. *)
Theorem C86_new : forall c top dr o, construct c top dr = Ok o -> coherent c (mkL o (c_options c) true).
Proof. exact live_new. Qed.
Print Assumptions C86_new.
Theorem C86_kept : forall c e wr pool iters s, coherent c s -> coherent c (fst (optimize_live c e wr pool iters s)).
Proof. exact live_optimize_coherent. Qed.
Print Assumptions C86_kept.
(** Without strategies, [swarm.options] stays the dictionary itself. *)
Theorem C86_alias : forall c e wr pool iters s, c_kind c = Binary \/ c_oh c = [] -> coherent c s -> l_same s = true ->
  l_same (fst (optimize_live c e wr pool iters s)) = true /\ s_options (o_swarm (l_o (fst (optimize_live c e wr pool iters s)))) = l_u (fst (optimize_live c e wr pool iters s)).
Proof. exact live_alias. Qed.
Print Assumptions C86_alias.
(** If the objective does not write into the dictionary (or there is a pool), the dictionary is as before and the run is the one of the other files. *)
Theorem C86_quiet : forall c e wr pool iters s, quiet wr pool -> l_u s = c_options c -> coherent c s ->
  l_u (fst (optimize_live c e wr pool iters s)) = l_u s /\ l_o (fst (optimize_live c e wr pool iters s)) = fst (optimize c e pool iters (l_o s)) /\
  snd (optimize_live c e wr pool iters s) = snd (optimize c e pool iters (l_o s)).
Proof. exact live_quiet. Qed.
Print Assumptions C86_quiet.
(** The library never writes into it: it holds what the objective's calls on the recorded positions made of it. *)
Theorem C86_written : forall c e wr iters s s' v, optimize_live c e wr None iters s = (s', Ok v) ->
  exists xs, o_pos_history (l_o s') = o_pos_history (l_o s) ++ xs /\ l_u s' = written wr 0 xs (l_u s).
Proof. exact live_written. Qed.
Print Assumptions C86_written.
(** A dictionary changed between two calls: c1, c2 and w count from the next call on; k, p and r for GeneralOptimizerPSO only. *)
Theorem C86_between : forall c e wr pool iters s u' o', quiet wr pool -> c_oh c = [] -> coherent c s ->
  same_at coefficients (l_u s) u' -> same_at knobs (match c_kind c with General => l_u s | _ => c_options c end) u' -> but_options (l_o s) o' -> s_options (o_swarm o') = u' ->
  but_options (l_o (fst (optimize_live c e wr pool iters s))) (fst (optimize (with_options c u') e pool iters o')) /\
  snd (optimize (with_options c u') e pool iters o') = snd (optimize_live c e wr pool iters s).
Proof. exact live_between. Qed.
Print Assumptions C86_between.
(** During a call, too, nothing but c1, c2 and w counts for the others. *)
Theorem C86_coefficients : forall c e wr wr' pool iters s s', c_kind c <> General -> c_oh c = [] -> coherent c s -> coherent c s' -> but_options (l_o s) (l_o s') ->
  (forall i x u u', same_at coefficients u u' -> same_at coefficients (wr i x u) (wr' i x u')) -> same_at coefficients (l_u s) (l_u s') ->
  but_options (l_o (fst (optimize_live c e wr pool iters s))) (l_o (fst (optimize_live c e wr' pool iters s'))) /\
  snd (optimize_live c e wr' pool iters s') = snd (optimize_live c e wr pool iters s).
Proof. exact live_coefficients. Qed.
Print Assumptions C86_coefficients.
(** Not so for GeneralOptimizerPSO. *)
Theorem C86_general_refuted : exists c e top dr o wr wr' s s' v x, construct c top dr = Ok o /\ c_kind c = General /\ c_oh c = [] /\ (forall i x u u', same_at coefficients u u' -> same_at coefficients (wr i x u) (wr' i x u')) /\
  optimize_live c e wr None 4 (mkL o (c_options c) true) = (s, Ok v) /\ optimize_live c e wr' None 4 (mkL o (c_options c) true) = (s', Err x).
Proof. exact live_general_refuted. Qed.
Print Assumptions C86_general_refuted.
(** Writing the values of a schedule into the dictionary is the same as having the strategies compute them. *)
Theorem C86_schedule : forall c e wr iters o opts, c_kind c <> Binary -> s_options (o_swarm o) = c_options c -> schedule c e iters opts ->
  (forall i x u, i < iters -> same_at coefficients (opts i) (wr i x u)) -> (c_kind c = General -> forall i x u, i < iters -> same_at knobs (c_options c) (wr i x u)) ->
  let s := mkL o (c_options c) true in
  but_options (fst (optimize c e None iters o)) (l_o (fst (optimize_live (no_strategy c) e wr None iters s))) /\
  snd (optimize_live (no_strategy c) e wr None iters s) = snd (optimize c e None iters o).
Proof. exact live_schedule. Qed.
Print Assumptions C86_schedule.
Example C86_written_example : exists c e top dr o wr s' v, construct c top dr = Ok o /\ optimize_live c e wr None 4 (mkL o (c_options c) true) = (s', Ok v) /\ exists u, wr 1 [] u <> u.
Proof. exact written_demo. Qed.
Example C86_between_example : exists c e s u' o' o2 v, c_kind c = LocalBest /\ c_oh c = [] /\ coherent c s /\ ~ same_at coefficients (c_options c) (l_u s) /\ same_at coefficients (l_u s) u' /\ same_at knobs (c_options c) u' /\
  but_options (l_o s) o' /\ s_options (o_swarm o') = u' /\ optimize (with_options c u') e None 4 o' = (o2, Ok v).
Proof. exact between_demo. Qed.
Example C86_coefficients_example : exists c e top dr o wr wr' s' v, construct c top dr = Ok o /\ c_kind c <> General /\ c_oh c = [] /\ (forall i x u u', same_at coefficients u u' -> same_at coefficients (wr i x u) (wr' i x u')) /\
  wr <> wr' /\ optimize_live c e wr' None 4 (mkL o (c_options c) true) = (s', Ok v).
Proof. exact coefficients_demo. Qed.
Example C86_schedule_example : exists c e top dr o opts o2 v, construct c top dr = Ok o /\ c_oh c <> [] /\ c_kind c = GlobalBest /\ s_options (o_swarm o) = c_options c /\ schedule c e 4 opts /\ optimize c e None 4 o = (o2, Ok v).
Proof. exact schedule_demo. Qed.
Example C86_alias_example : exists c e top dr o wr s' v, construct c top dr = Ok o /\ c_kind c = LocalBest /\ c_oh c = [] /\ coherent c (mkL o (c_options c) true) /\ optimize_live c e wr None 4 (mkL o (c_options c) true) = (s', Ok v) /\ exists u, wr 1 [] u <> u.
Proof. exact alias_demo. Qed.
