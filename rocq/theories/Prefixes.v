(** Longer runs extend shorter ones; early stopping only truncates (C54). *)
From Coq Require Import String ZArith List Arith Bool Lia.
From Flocq Require Import IEEE754.BinarySingleNaN.
From Verif Require Import Prelude ListFacts F64 F64Facts Num Np Handlers Swarms Operators Generators Topology Optimizers Spec SpecDyn RunFacts PbestFacts RunStop NpFacts Trajectory.
Import ListNotations.
Local Open Scope nat_scope.

Lemma hist_prefix_refl : forall o, hist_prefix o o.
Proof. intros o. repeat split; apply prefix_refl. Qed.
Lemma prefix_trans : forall A (l m n : list A), prefix l m -> prefix m n -> prefix l n.
Proof. intros A l m n (a & ->) (b & ->). exists (a ++ b). rewrite app_assoc. reflexivity. Qed.
Lemma hist_prefix_trans : forall o o1 o2, hist_prefix o o1 -> hist_prefix o1 o2 -> hist_prefix o o2.
Proof. intros o o1 o2 (A1 & A2 & A3 & A4 & A5) (B1 & B2 & B3 & B4 & B5). repeat split; eapply prefix_trans; eauto. Qed.
Lemma hist_prefix_core : forall o o', core_eq o o' -> hist_prefix o o'.
Proof. intros o o' E. destruct E. unfold hist_prefix. rewrite ce_ch, ce_mp, ce_mn, ce_ph, ce_vh. repeat split; apply prefix_refl. Qed.
Lemma hist_prefix_eval : forall c e pool i o o3 cost pp pc t bp bc np, Evald c e pool i o o3 cost pp pc t bp bc np -> hist_prefix o o3.
Proof. intros c e pool i o o3 cost pp pc t bp bc np (_ & _ & _ & ->). repeat split; cbn; eexists; reflexivity. Qed.
Lemma hist_prefix_raise : forall c e pool i o o' x, EvalRaise c e pool i o o' x -> hist_prefix o o'.
Proof. intros c e pool i o o' x E. inversion E; subst; repeat split; cbn; apply prefix_refl. Qed.

Lemma iteration_grows : forall c e pool iters i o q,
  match iteration c e pool iters i o q with
  | Next o' _ => hist_prefix o o' /\ length (o_pos_history o') = S (length (o_pos_history o))
  | Break o' => hist_prefix o o' /\ length (o_pos_history o') = S (length (o_pos_history o))
  | Raise o' _ => hist_prefix o o' /\ length (o_pos_history o') <= S (length (o_pos_history o))
  end.
Proof.
  intros c e pool iters i o q. unfold iteration. pose proof (evaluate_cases c e pool i o q) as EC.
  assert (L : forall o3 cost pp pc t bp bc np, Evald c e pool i o o3 cost pp pc t bp bc np -> length (o_pos_history o3) = S (length (o_pos_history o))).
  { intros o3 cost pp pc t bp bc np (_ & _ & _ & ->). cbn. rewrite app_length. cbn. lia. }
  destruct (evaluate_swarm c e pool i o q) as [o3 q3|o3|o3 x].
  - destruct EC as (cost & pp & pc & t & bp & bc & np & EV & _). pose proof (update_cases c e iters i o3 q3) as UC.
    pose proof (hist_prefix_eval _ _ _ _ _ _ _ _ _ _ _ _ _ EV) as HP. pose proof (L _ _ _ _ _ _ _ _ EV) as LE.
    destruct (update_swarm c e iters i o3 q3) as [o4 q4|o4|o4 x].
    + destruct UC as (_ & CE & _). split; [eapply hist_prefix_trans; [exact HP|apply hist_prefix_core; exact CE]|]. rewrite (ce_ph _ _ CE). exact LE.
    + contradiction.
    + destruct UC as (CE & _). split; [eapply hist_prefix_trans; [exact HP|apply hist_prefix_core; exact CE]|]. rewrite (ce_ph _ _ CE). ftypes. lia.
  - destruct EC as (cost & pp & pc & t & bp & bc & np & EV & _). split; [eapply hist_prefix_eval; eauto|eauto].
  - split; [eapply hist_prefix_raise; eauto|]. inversion EC; subst; cbn; lia.
Qed.
Definition end_state (r : loop_end) : ostate := match r with LDone o => o | LRaise o _ => o end.
Lemma loop_grows : forall c e pool iters m i o q, hist_prefix o (end_state (opt_loop c e pool iters m i o q)).
Proof.
  intros c e pool iters. induction m as [|m IH]; intros i o q; cbn [opt_loop]; [apply hist_prefix_refl|].
  pose proof (iteration_grows c e pool iters i o q) as G. destruct (iteration c e pool iters i o q) as [o' q'|o'|o' x]; cbn [end_state].
  - eapply hist_prefix_trans; [apply G|apply IH].
  - apply G.
  - apply G.
Qed.

(** Without a schedule an iteration does not depend on the number of iterations. *)
Lemma iteration_iters : forall c e pool m n i o q, unscheduled c -> iteration c e pool m i o q = iteration c e pool n i o q.
Proof.
  intros c e pool m n i o q U. unfold iteration. destruct (evaluate_swarm c e pool i o q); auto. unfold update_swarm.
  assert (Q : forall k, match c_kind c with Binary => Ok (s_options (o_swarm o0)) | _ => oh_call (e_oh e i) (c_oh c) (c_options c)
    (mkOk (Some (Z.of_nat i)) (Some (Z.of_nat k)) None None None None) end = match c_kind c with Binary => Ok (s_options (o_swarm o0)) | _ => Ok (c_options c) end).
  { intros k. destruct U as [U|U]; rewrite U; [reflexivity|]. destruct (c_kind c); reflexivity. }
  rewrite (Q m), (Q n). reflexivity.
Qed.
Lemma loop_iters : forall c e pool m n k i o q, unscheduled c -> opt_loop c e pool m k i o q = opt_loop c e pool n k i o q.
Proof.
  intros c e pool m n k. induction k as [|k IH]; intros i o q U; cbn [opt_loop]; [reflexivity|].
  rewrite (iteration_iters c e pool m n i o q U). destruct (iteration c e pool n i o q); auto.
Qed.
(** More fuel. *)
Lemma loop_more : forall c e pool iters m j i o q,
  opt_loop c e pool iters (m + j) i o q = opt_loop c e pool iters m i o q \/
  exists o' q', opt_loop c e pool iters m i o q = LDone o' /\ length (o_pos_history o') = m + length (o_pos_history o) /\
    opt_loop c e pool iters (m + j) i o q = opt_loop c e pool iters j (i + m) o' q'.
Proof.
  intros c e pool iters. induction m as [|m IH]; intros j i o q.
  - right. exists o, q. split; [reflexivity|]. split; [reflexivity|]. rewrite Nat.add_0_r. reflexivity.
  - cbn [Nat.add opt_loop]. pose proof (iteration_grows c e pool iters i o q) as G. destruct (iteration c e pool iters i o q) as [o1 q1|o1|o1 x]; auto.
    destruct (IH j (S i) o1 q1) as [E|(o' & q' & E1 & E2 & E3)]; auto. right. exists o', q'. split; [exact E1|].
    split; [rewrite E2, (proj2 G); lia|]. rewrite E3. f_equal. lia.
Qed.
Lemma optimize_loop : forall c e pool iters o, pool <> Some 0 ->
  optimize c e pool iters o = match opt_loop c e pool iters iters 0 (started c o) [] with LRaise o' x => (o', Err x) | LDone o' => (o', final_result o') end.
Proof. intros c e [[|p]|] iters o NP; [congruence|reflexivity|reflexivity]. Qed.
Lemma fst_loop : forall r o' v, match r with LRaise o1 x => (o1, Err x) | LDone o1 => (o1, final_result o1) end = (o', v) -> end_state r = o'.
Proof. intros [o|o x] o' v H; cbn; congruence. Qed.

Lemma longer_run : forall c e pool m n o o1 r1 o2 r2, unscheduled c -> m <= n ->
  optimize c e pool m o = (o1, r1) -> optimize c e pool n o = (o2, r2) ->
  hist_prefix o1 o2 /\ (length (o_pos_history o1) < m + length (o_pos_history o) -> (o2, r2) = (o1, r1)).
Proof.
  intros c e pool m n o o1 r1 o2 r2 U L E1 E2.
  assert (D : pool = Some 0 \/ pool <> Some 0) by (destruct pool as [[|p]|]; [left; reflexivity|right; congruence|right; congruence]).
  destruct D as [->|NP].
  { unfold optimize in E1, E2. assert (Q : (o2, r2) = (o1, r1)) by congruence. split; [|auto]. injection Q as -> _. apply hist_prefix_refl. }
  rewrite optimize_loop in E1, E2 by exact NP. rewrite (loop_iters c e pool m n m) in E1 by exact U.
  replace n with (m + (n - m)) in E2 at 2 by lia.
  destruct (started_facts c o) as (_ & _ & _ & _ & E5 & _).
  destruct (loop_more c e pool n m (n - m) 0 (started c o) []) as [Q|(o' & q' & Q1 & Q2 & Q3)].
  - rewrite Q in E2. assert (Z : (o2, r2) = (o1, r1)) by congruence. split; [|auto]. injection Z as -> _. apply hist_prefix_refl.
  - rewrite Q1 in E1. injection E1 as <- <-. rewrite Q3 in E2. split.
    + rewrite <- (fst_loop _ _ _ E2). apply loop_grows.
    + rewrite E5 in Q2. ftypes. intros. lia.
Qed.

(** *** Early stopping *)
Lemma small_never : forall yet bc, small_change fninf yet bc = false.
Proof.
  intros yet bc. apply not_true_is_false. intros H. apply (never_stalled yet [bc] 0). exists yet, bc. repeat split. exact H.
Qed.
Lemma deque_false : forall m q, 0 < m -> forallb (fun x : bool => x) (deque_append m q false) = false.
Proof.
  intros m q M. unfold deque_append. apply not_true_is_false. intros H. rewrite forallb_forall in H.
  specialize (H false). discriminate H. rewrite skipn_app. apply in_or_app. right. rewrite app_length. cbn [length].
  replace (length q + 1 - m - length q) with 0 by lia. left. reflexivity.
Qed.
(** Evaluations do not depend on the tolerance, except for the stop. *)
Lemma evaluate_ftol : forall c e pool i o q q0, 0 < c_ftol_iter c ->
  match evaluate_swarm c e pool i o q with
  | Next o1 _ | Break o1 => exists q1, evaluate_swarm (with_ftol c fninf) e pool i o q0 = Next o1 q1
  | Raise o1 x => evaluate_swarm (with_ftol c fninf) e pool i o q0 = Raise o1 x
  end.
Proof.
  intros c e pool i o q q0 F. unfold evaluate_swarm. cbn [c_ftol c_ftol_iter with_ftol].
  destruct (compute_objective_function _ _ _); [|reflexivity]. destruct (compute_pbest _) as [[pp pc]|]; [|reflexivity].
  change (gbest_args (with_ftol c fninf)) with (gbest_args c).
  destruct (compute_gbest _ _ _ _) as [t [[[bp bc] np]|]]; [|reflexivity].
  rewrite small_never, deque_false, andb_false_r by exact F.
  destruct (_ && _); eexists; reflexivity.
Qed.
Lemma core_eq_refl : forall o, core_eq o o. Proof. intros o. constructor; reflexivity. Qed.
Lemma loop_ftol : forall c e pool iters, 0 < c_ftol_iter c -> forall m i o q q0 o1, opt_loop c e pool iters m i o q = LDone o1 ->
  exists k, k <= m /\ length (o_pos_history o1) = k + length (o_pos_history o) /\
    core_eq o1 (end_state (opt_loop (with_ftol c fninf) e pool iters k i o q0)).
Proof.
  intros c e pool iters F. induction m as [|m IH]; intros i o q q0 o1 H; cbn [opt_loop] in H.
  - injection H as <-. exists 0. split; [lia|]. split; [reflexivity|apply core_eq_refl].
  - unfold iteration in H. pose proof (evaluate_ftol c e pool i o q q0 F) as EF. pose proof (evaluate_cases c e pool i o q) as EC.
    assert (L : forall o3 cost pp pc t bp bc np, Evald c e pool i o o3 cost pp pc t bp bc np -> length (o_pos_history o3) = S (length (o_pos_history o))).
    { intros o3 cost pp pc t bp bc np (_ & _ & _ & ->). cbn. rewrite app_length. cbn. lia. }
    destruct (evaluate_swarm c e pool i o q) as [o3 q3|o3|o3 x].
    + destruct EF as (q1 & EF). destruct EC as (cost & pp & pc & t & bp & bc & np & EV & _). apply L in EV.
      pose proof (update_cases c e iters i o3 q3) as UC.
      assert (UE : forall q2, update_swarm (with_ftol c fninf) e iters i o3 q2 = match update_swarm c e iters i o3 q3 with Next o4 _ => Next o4 q2 | r => r end).
      { intros q2. unfold update_swarm. cbn [c_kind c_oh c_options c_bounds c_vh c_clamp c_bh with_ftol].
        destruct (match c_kind c with Binary => Ok _ | _ => oh_call _ _ _ _ end); [|reflexivity].
        destruct (compute_velocity _ _ _ _ _ _) as [[v vm]|]; [|reflexivity].
        destruct (c_kind c); try (destruct (compute_position _ _ _ _ _) as [[p bm]|]; reflexivity).
        destruct (binary_position _ _ _); reflexivity. }
      destruct (update_swarm c e iters i o3 q3) as [o4 q4|o4|o4 x]; [|contradiction|discriminate].
      destruct UC as (_ & CE & _). destruct (IH (S i) o4 q4 q1 o1 H) as (k & K1 & K2 & K3).
      exists (S k). split; [lia|]. split; [rewrite K2, (ce_ph _ _ CE); ftypes; lia|].
      cbn [opt_loop]. unfold iteration. rewrite EF, UE. exact K3.
    + injection H as <-. destruct EF as (q1 & EF). destruct EC as (cost & pp & pc & t & bp & bc & np & EV & _). apply L in EV.
      exists 1. split; [lia|]. split; [ftypes; lia|]. cbn [opt_loop]. unfold iteration. rewrite EF.
      pose proof (update_cases (with_ftol c fninf) e iters i o3 q1) as UC.
      destruct (update_swarm (with_ftol c fninf) e iters i o3 q1) as [o4 q4|o4|o4 x]; [|contradiction|]; cbn [end_state]; apply UC.
    + discriminate.
Qed.
Lemma final_core : forall o o', core_eq o o' -> final_result o' = final_result o.
Proof. intros o o' E. destruct E. unfold final_result. rewrite ce_np, ce_pc, ce_pp, ce_bc. reflexivity. Qed.

Lemma core_records : forall o o', core_eq o o' -> same_records o o'.
Proof. intros o o' E. destruct E. unfold same_records. auto 15. Qed.

(** A run that returned equals, in everything recorded and returned, the run without early
    stopping over as many iterations as it recorded. *)
Lemma stop_truncates : forall c e pool iters o o1 v o2 r2, unscheduled c -> 0 < c_ftol_iter c ->
  optimize c e pool iters o = (o1, Ok v) ->
  optimize (with_ftol c fninf) e pool (length (o_pos_history o1) - length (o_pos_history o)) o = (o2, r2) ->
  same_records o1 o2 /\ (r2 = Ok v \/ exists x, r2 = Err x).
Proof.
  intros c e pool iters o o1 v o2 r2 U F E1 E2.
  assert (NP : pool <> Some 0) by (intros ->; discriminate E1).
  rewrite optimize_loop in E1, E2 by exact NP.
  destruct (opt_loop c e pool iters iters 0 (started c o) []) as [o1'|] eqn:LP; [|discriminate].
  injection E1 as -> FR. destruct (loop_ftol c e pool iters F _ _ _ _ [] _ LP) as (k & K1 & K2 & K3).
  destruct (started_facts c o) as (_ & _ & _ & _ & E5 & _). rewrite E5 in K2.
  replace (length (o_pos_history o1) - length (o_pos_history o)) with k in E2 by (ftypes; lia).
  change (started (with_ftol c fninf) o) with (started c o) in E2.
  assert (U' : unscheduled (with_ftol c fninf)) by exact U.
  rewrite (loop_iters (with_ftol c fninf) e pool k iters k) in E2 by exact U'.
  destruct (opt_loop (with_ftol c fninf) e pool iters k 0 (started c o) []) as [o3|o3 x]; cbn [end_state] in K3; injection E2 as <- <-; (split; [apply core_records; exact K3|]).
  - left. rewrite (final_core _ _ K3). exact FR.
  - right. eauto.
Qed.

(** *** The objective is asked only about recorded positions *)
Lemma mapM_ext_in : forall A B (f g : A -> res B) l, (forall x, In x l -> f x = g x) -> mapM f l = mapM g l.
Proof.
  intros A B f g. induction l as [|a l IH]; intros H; [reflexivity|]. cbn. rewrite (H a (or_introl eq_refl)), IH; [reflexivity|].
  intros x X. apply H. right. exact X.
Qed.
Lemma in_concat_block : forall A (bs : list (list A)) b, In b bs -> exists u v, concat bs = u ++ b ++ v.
Proof.
  intros A bs b I. apply in_split in I. destruct I as (l1 & l2 & ->). exists (concat l1), (concat l2). rewrite concat_app. reflexivity.
Qed.
Lemma objective_ext : forall pool (f g : fmatrix -> res (list f64)) X, pool <> Some 0 -> (forall b, part_of pool b X -> f b = g b) ->
  compute_objective_function (N := F64num) pool f X = compute_objective_function (N := F64num) pool g X.
Proof.
  intros [[|k]|] f g X NP H; unfold compute_objective_function; [congruence| |apply H; reflexivity].
  rewrite (mapM_ext_in _ _ f g); [reflexivity|]. intros b I. apply H. cbn. destruct (in_concat_block _ _ _ I) as (u & v & E).
  exists u, v. refine (eq_trans (eq_sym _) E). apply array_split_concat. discriminate.
Qed.
Lemma evaluate_obj : forall c e f pool i o q, pool <> Some 0 -> (forall b, part_of pool b (s_position (o_swarm o)) -> f i b = e_obj e i b) ->
  evaluate_swarm c (with_obj e f) pool i o q = evaluate_swarm c e pool i o q.
Proof.
  intros c e f pool i o q NP H. unfold evaluate_swarm. cbn [e_obj e_top e_tree with_obj].
  rewrite (objective_ext pool (f i) (e_obj e i) (s_position (o_swarm o)) NP H). reflexivity.
Qed.
Definition raised (r : loop_end) : Prop := match r with LDone _ => False | LRaise _ _ => True end.
Lemma prefix_nth : forall A (l m : list A) i x, prefix l m -> nth_error l i = Some x -> nth_error m i = Some x.
Proof. intros A l m i x (k & ->) H. rewrite nth_error_app1; auto. eapply nth_error_lt; eauto. Qed.
Lemma loop_obj : forall c e f pool iters, pool <> Some 0 -> forall m i o q, 
  let R := opt_loop c e pool iters m i o q in
  (forall t X b, nth_error (o_pos_history (end_state R)) (length (o_pos_history o) + t) = Some X \/
     (raised R /\ length (o_pos_history o) + t = length (o_pos_history (end_state R)) /\ X = s_position (o_swarm (end_state R))) ->
     part_of pool b X -> f (i + t) b = e_obj e (i + t) b) ->
  opt_loop c (with_obj e f) pool iters m i o q = R.
Proof.
  intros c e f pool iters NP. induction m as [|m IH]; intros i o q R H; [reflexivity|]. subst R. cbn [opt_loop] in H |- *.
  pose proof (evaluate_cases c e pool i o q) as EC.
  assert (EV : evaluate_swarm c (with_obj e f) pool i o q = evaluate_swarm c e pool i o q).
  { apply evaluate_obj; auto. intros b Pb. specialize (H 0). rewrite !Nat.add_0_r in H. apply (H (s_position (o_swarm o))); auto.
    unfold iteration in *. destruct (evaluate_swarm c e pool i o q) as [o3 q3|o3|o3 x] eqn:EV.
    - left. destruct EC as (cost & pp & pc & t & bp & bc & np & (_ & _ & _ & E3) & _).
      assert (N3 : nth_error (o_pos_history o3) (length (o_pos_history o)) = Some (s_position (o_swarm o))).
      { rewrite E3. cbn. rewrite nth_error_app2, Nat.sub_diag by lia. reflexivity. }
      pose proof (update_cases c e iters i o3 q3) as UC. destruct (update_swarm c e iters i o3 q3) as [o4 q4|o4|o4 x].
      + eapply prefix_nth; [apply loop_grows|]. destruct UC as (_ & CE & _). rewrite (ce_ph _ _ CE). exact N3.
      + contradiction.
      + cbn. destruct UC as (CE & _). rewrite (ce_ph _ _ CE). exact N3.
    - left. destruct EC as (cost & pp & pc & t & bp & bc & np & (_ & _ & _ & E3) & _). rewrite E3. cbn. rewrite nth_error_app2, Nat.sub_diag by lia. reflexivity.
    - right. cbn. split; auto. inversion EC; subst; auto. }
  assert (UE : forall o3 q3, update_swarm c (with_obj e f) iters i o3 q3 = update_swarm c e iters i o3 q3) by reflexivity.
  unfold iteration in *. rewrite EV. destruct (evaluate_swarm c e pool i o q) as [o3 q3|o3|o3 x] eqn:EV'; auto.
  rewrite UE. pose proof (update_cases c e iters i o3 q3) as UC. destruct (update_swarm c e iters i o3 q3) as [o4 q4|o4|o4 x]; auto.
  apply IH. intros t X b Q Pb. replace (S i + t) with (i + S t) by lia. apply (H (S t) X b); auto.
  destruct EC as (cost & pp & pc & tt & bp & bc & np & (_ & _ & _ & E3) & _). destruct UC as (_ & CE & _).
  assert (L : length (o_pos_history o4) = S (length (o_pos_history o))) by (rewrite (ce_ph _ _ CE), E3; cbn; rewrite app_length; cbn; lia).
  rewrite L in Q. rewrite <- Nat.add_succ_comm. exact Q.
Qed.
(** Another objective that agrees on the positions of the run gives the same run. *)
Lemma objective_local : forall c e f pool iters o o' r, optimize c e pool iters o = (o', r) ->
  (forall t X b, (nth_error (o_pos_history o') (length (o_pos_history o) + t) = Some X \/
      ((exists x, r = Err x) /\ length (o_pos_history o) + t = length (o_pos_history o') /\ X = s_position (o_swarm o'))) ->
     part_of pool b X -> f t b = e_obj e t b) ->
  optimize c (with_obj e f) pool iters o = (o', r).
Proof.
  intros c e f pool iters o o' r E H.
  assert (D : pool = Some 0 \/ pool <> Some 0) by (destruct pool as [[|p]|]; [left; reflexivity|right; congruence|right; congruence]).
  destruct D as [->|NP]; [exact E|]. rewrite optimize_loop in E |- * by exact NP.
  destruct (started_facts c o) as (_ & _ & _ & _ & E5 & _).
  rewrite (loop_obj c e f pool iters NP); [exact E|]. pose proof (fst_loop _ _ _ E) as ES. rewrite ES, E5.
  intros t X b Q Pb. cbn. apply (H t X b); auto. destruct Q as [Q|(Q1 & Q2 & Q3)]; [left; exact Q|right].
  split; auto. destruct (opt_loop c e pool iters iters 0 (started c o) []) as [|o1 x]; [contradiction|]. injection E as _ <-. eauto.
Qed.
