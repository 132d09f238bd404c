(** Ties: which of several equally good evaluations an optimizer keeps and returns. *)
From Coq Require Import String ZArith List Arith Bool Lia.
From Verif Require Import Prelude ListFacts F64 F64Facts Num Np NpFacts Handlers Swarms Operators Generators Topology Optimizers
  Spec SpecHandlers SpecDyn RunFacts PbestFacts ShapeFacts GbestFacts RunBest RunMain RunClaims Trajectory Textbook Demo Witness Examples.
Import ListNotations.
Local Open Scope list_scope.
Local Open Scope nat_scope.

(** The returned position is determined by the evaluations. *)
Lemma returned_first : forall c e pool iters o o' cost pos, Fresh c o -> optimize c e pool iters o = (o', Ok (cost, pos)) ->
  exists C, logged e pool (o_pos_history o') C /\ all_evaluated (c_n c) (o_pos_history o') C /\
  exists a x0 v, nth_error (s_position (o_swarm o)) a = Some x0 /\ best_of_run (o_pos_history o') C a x0 pos v /\
    forall b z y w, nth_error (s_position (o_swarm o)) b = Some z -> best_of_run (o_pos_history o') C b z y w ->
      fle v w = true /\ (b < a -> flt v w = true).
Proof.
  intros c e pool iters o o' cost pos F E. destruct (optimize_ok _ _ _ _ _ _ _ E) as (FR & k & h & C & B & K & R).
  destruct (Fresh_inv _ _ F) as (dim & ps & vel & S & _ & _ & _ & P0 & _).
  pose proof (ru_p _ _ _ _ _ _ _ _ _ R) as P. pose proof (ru_h _ _ _ _ _ _ _ _ _ R) as HI.
  assert (HH : o_pos_history o' = h) by (rewrite (pi_hist _ _ _ _ _ _ _ _ P), P0; reflexivity).
  rewrite HH. exists C. split; [apply P|].
  destruct (final_result_inv _ _ _ FR) as (NP & _ & j & A & PJ).
  assert (K0 : exists t, k = Datatypes.S t).
  { destruct k as [|t]; [|eauto]. exfalso. destruct (hi_last _ _ _ _ _ _ HI) as [_ Q]. rewrite S in Q. cbn in Q. congruence. }
  destruct K0 as [t ->]. split; [apply P|].
  pose proof (hi_nonan _ _ _ _ _ _ HI) as NN. destruct (np_argmin_spec _ _ NN A) as (x & X & X1 & X2).
  destruct (run_pbest _ _ _ _ _ _ _ _ _ _ _ F R PJ) as (x0 & py & X0 & PY & BR).
  pose proof (eq_trans (eq_sym PY) X) as EQ. injection EQ as ->.
  exists j, x0, x. split; [exact X0|]. split; [exact BR|].
  intros b z y w Z BR'. destruct P. destruct (pi_n ltac:(lia)) as (L1 & _).
  assert (LL : b < length (s_pbest_pos (o_swarm o))) by (rewrite S; apply nth_error_lt in Z; rewrite S in Z; exact Z).
  destruct (nth_error_ex (s_pbest_pos (o_swarm o')) b) as [px PX]; [ftypes; lia|].
  destruct (run_pbest _ _ _ _ _ _ _ _ _ _ _ F R PX) as (x1 & py & X1' & PY' & BR1).
  pose proof (eq_trans (eq_sym X1') Z) as EZ. injection EZ as ->. destruct (best_of_run_unique _ _ _ _ _ _ _ _ BR1 BR') as [-> ->].
  split; [exact (X1 _ _ PY')|]. intros LT. exact (X2 _ _ LT PY').
Qed.
(** So is the position the swarm is drawn to. *)
Lemma leader_first : forall c e pool iters o o' v g, Fresh c o -> t_kind (o_top o) = Star ->
  optimize c e pool iters o = (o', Ok v) -> s_best_pos (o_swarm o') = BPVec g ->
  exists C y, logged e pool (o_pos_history o') C /\ swarm_best (o_pos_history o') C g y /\ feq y (fst v) = true.
Proof.
  intros c e pool iters o o' v g F K E G. destruct (optimize_ok _ _ _ _ _ _ _ E) as (FR & k & h & C & B & _ & R).
  destruct (Fresh_inv _ _ F) as (dim & ps & vel & S & _ & _ & _ & P0 & _). pose proof (ru_p _ _ _ _ _ _ _ _ _ R) as P.
  rewrite (pi_hist _ _ _ _ _ _ _ _ P), P0. cbn [app]. exists C.
  assert (B0 : s_best_pos (o_swarm o) = BPEmpty) by (rewrite S; reflexivity).
  assert (C0 : s_best_cost (o_swarm o) = finf) by (rewrite S; reflexivity).
  destruct (ru_g _ _ _ _ _ _ _ _ _ R K B0 C0) as [[Q _]|(y & a & s & w & Q & EV & W & FST)]; [congruence|].
  assert (y = g) by congruence. subst y. exists w. split; [apply P|]. split.
  2:{ destruct v as [cost pos]. destruct (final_result_inv _ _ _ FR) as (_ & -> & _). exact W. }
  exists a, s. split; [exact EV|]. split; [|exact FST].
  intros a' s' z w' E'. pose proof (evaluated_lt _ _ _ _ _ _ E') as LT. pose proof (pi_len _ _ _ _ _ _ _ _ P) as LH.
  destruct (PInv_particle _ _ _ _ _ _ _ _ _ _ _ _ P ltac:(lia) E') as [v0 V].
  pose proof (PInv_lower _ _ _ _ _ _ _ _ _ _ _ _ _ P ltac:(lia) E' V) as L1.
  assert (NB : fisnan (s_best_cost (o_swarm o)) = false) by (rewrite C0; reflexivity).
  pose proof (si_pc _ _ _ _ _ _ (ru_s _ _ _ _ _ _ _ _ _ R K NB) ltac:(lia) v0 (nth_error_In _ _ V)) as L2.
  pose proof (nonan_nth _ _ _ (hi_nonan _ _ _ _ _ _ (ru_h _ _ _ _ _ _ _ _ _ R)) V). forder.
Qed.

(** On ties the two differ: particle 1 is the first to cost 1, particle 0 does so later. *)
Definition tie_g (r : frow) : f64 := if flt (fdec (-48) 10) (nth 0 r fzero) && flt (nth 0 r fzero) fone then fone else ftwo.
Definition tie_obj (_ : nat) (X : fmatrix) : res (list f64) := Ok (map tie_g X).
Definition tie_test (o' : ostate) (pos : frow) : bool :=
  match s_best_pos (o_swarm o') with BPVec g => flt (nth 0 pos fzero) (nth 0 g fzero) && feq (tie_g g) (tie_g pos) | _ => false end.
Lemma tie_ok : is_ok (d_run (run_c GlobalBest) star (d_cd 0 3 2) (d_env 3 2 tie_obj) None 3) = true.
Proof. vm_compute. reflexivity. Qed.
Lemma tie_run : d_test false (d_run (run_c GlobalBest) star (d_cd 0 3 2) (d_env 3 2 tie_obj) None 3) (fun o' _ pos => tie_test o' pos) = true.
Proof. vm_compute. reflexivity. Qed.
Theorem tie_split : exists c o e o' v g (h : frow -> f64), Fresh c o /\ t_kind (o_top o) = Star /\
  (forall t X, e_obj e t X = Ok (map h X)) /\ optimize c e None 3 o = (o', Ok v) /\ s_best_pos (o_swarm o') = BPVec g /\
  feq (h g) (h (snd v)) = true /\ flt (nth 0 (snd v) fzero) (nth 0 g fzero) = true.
Proof.
  destruct (d_run_test _ _ _ _ _ _ _ _ _ _ tie_ok tie_run) as (o & o' & cost & pos & _ & F & T & E & H).
  unfold tie_test in H. destruct (s_best_pos (o_swarm o')) as [|g|] eqn:G; [discriminate H| |discriminate H].
  apply andb_prop in H. destruct H as [H1 H2].
  exists (run_c GlobalBest), o, (d_env 3 2 tie_obj), o', (cost, pos), g, tie_g.
  split; [exact F|]. split; [rewrite T; reflexivity|]. split; [reflexivity|]. auto.
Qed.
