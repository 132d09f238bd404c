(** A call depends on the answers it asked for and on nothing else (C64). *)
From Coq Require Import String ZArith List Arith Bool Lia.
From Verif Require Import Prelude ListFacts F64 F64Facts Num Np NpFacts Handlers Swarms Operators Generators Topology Optimizers Spec SpecDyn SpecRun RunFacts PbestFacts RunMisc Trajectory Prefixes.
Import ListNotations.
Local Open Scope nat_scope.

Lemma mapM_ext_in : forall A B (f g : A -> res B) l, (forall x, In x l -> f x = g x) -> mapM f l = mapM g l.
Proof. intros A B f g l. induction l as [|x l IH]; intros H; cbn; auto. rewrite (H x) by (left; auto). destruct (g x); cbn; auto. rewrite IH; auto. intros y I. apply H. right; auto. Qed.
Lemma map2_ext : forall A B C (f g : A -> B -> C) a b, (forall x y, f x y = g x y) -> map2 f a b = map2 g a b.
Proof. intros A B C f g a. induction a as [|x a IH]; intros [|y b] H; cbn; auto. rewrite H, IH; auto. Qed.
Lemma in_concat_block : forall A (bs : list (list A)) b, In b bs -> exists a z, concat bs = a ++ b ++ z.
Proof.
  intros A bs b. induction bs as [|x bs IH]; intros I; [destruct I|]. destruct I as [->|I].
  - exists [], (concat bs). reflexivity.
  - destruct (IH I) as (a & z & E). exists (x ++ a), z. cbn. rewrite E, app_assoc. reflexivity.
Qed.
Lemma same_objective : forall e e' pool t X, pool <> Some 0 -> same_answers e e' pool t X ->
  compute_objective_function (N := F64num) pool (e_obj e t) X = compute_objective_function (N := F64num) pool (e_obj e' t) X.
Proof.
  intros e e' [[|k]|] t X NP H; cbn in *; [congruence| |exact H].
  rewrite (mapM_ext_in _ _ (e_obj e t) (e_obj e' t)); auto. intros b I. destruct (in_concat_block _ _ _ I) as (a & z & E).
  destruct (chunks _ X k) as (Q & _). apply (H a b z). exact (eq_trans (eq_sym Q) E).
Qed.
Lemma same_evaluate : forall c e e' pool t o q, pool <> Some 0 -> (forall m, e_tree e m = e_tree e' m) -> same_iteration e e' pool t (s_position (o_swarm o)) ->
  evaluate_swarm c e pool t o q = evaluate_swarm c e' pool t o q.
Proof.
  intros c e e' pool t o q NP TR (A & _ & _ & _ & TP & _). unfold evaluate_swarm. rewrite (same_objective _ _ _ _ _ NP A), TP.
  destruct (compute_objective_function pool (e_obj e' t) (s_position (o_swarm o))); auto. destruct (compute_pbest _) as [[pp pc]|]; auto.
  destruct (compute_gbest _ _ _ _) as [tp [[[bp bc] np]|]]; auto. unfold np_mean. rewrite TR. reflexivity.
Qed.
Lemma same_update : forall c e e' pool iters t o q X, (forall x, e_exp e x = e_exp e' x) -> same_iteration e e' pool t X ->
  update_swarm c e iters t o q = update_swarm c e' iters t o q.
Proof.
  intros c e e' pool iters t o q X EX (_ & V & B & O & _ & BI). unfold update_swarm. rewrite O.
  destruct (match c_kind c with Binary => _ | _ => _ end) as [opts|]; auto. rewrite V.
  destruct (compute_velocity _ _ _ _ _ _) as [[v vm]|]; auto. rewrite B, BI.
  assert (BP : forall u m, binary_position (e_exp e) u m = binary_position (e_exp e') u m).
  { intros u m. unfold binary_position. destruct (forallb _ m); auto. f_equal. apply map_ext. intros r.
    apply map2_ext. intros x y. unfold sigmoid. rewrite EX. reflexivity. }
  rewrite BP. reflexivity.
Qed.

Lemma loop_local : forall c e e' pool iters, pool <> Some 0 -> (forall x, e_exp e x = e_exp e' x) -> (forall m, e_tree e m = e_tree e' m) ->
  forall m i o q, exists hp, o_pos_history (end_state (opt_loop c e pool iters m i o q)) = o_pos_history o ++ hp /\
    ((forall k X, nth_error hp k = Some X -> same_iteration e e' pool (i + k) X) ->
     (forall o' x, opt_loop c e pool iters m i o q = LRaise o' x -> same_iteration e e' pool (i + length hp) (s_position (o_swarm o'))) ->
     opt_loop c e' pool iters m i o q = opt_loop c e pool iters m i o q).
Proof.
  intros c e e' pool iters NP EX TR. induction m as [|m IH]; intros i o q; cbn [opt_loop end_state].
  { exists []. rewrite app_nil_r. auto. }
  unfold iteration at 1 2. pose proof (evaluate_cases c e pool i o q) as EC.
  destruct (evaluate_swarm c e pool i o q) as [o3 q3|o3|o3 x] eqn:EV.
  - destruct EC as (cost & pp & pc & tp & bp & bc & np & (E1 & E2 & E3 & E4) & _).
    pose proof (update_cases c e iters i o3 q3) as UC. destruct (update_swarm c e iters i o3 q3) as [o4 q4|o4|o4 x] eqn:UP.
    + destruct UC as (_ & CE & _). destruct (IH (S i) o4 q4) as (hp & H1 & H2).
      exists (s_position (o_swarm o) :: hp). split.
      { rewrite H1, (ce_ph _ _ CE), E4. cbn. rewrite <- app_assoc. reflexivity. }
      intros A R. pose proof (A 0 _ eq_refl) as A0. rewrite Nat.add_0_r in A0. unfold iteration.
      rewrite <- (same_evaluate c e e' pool i o q NP TR A0), EV, <- (same_update c e e' pool iters i o3 q3 _ EX A0), UP.
      apply H2.
      * intros k X K. replace (S i + k) with (i + S k) by lia. apply A. exact K.
      * intros o' x L. replace (S i + length hp) with (i + length (s_position (o_swarm o) :: hp)) by (cbn; lia). exact (R o' x L).
    + contradiction.
    + destruct UC as (CE & PE). exists [s_position (o_swarm o)]. cbn [end_state]. split.
      { rewrite (ce_ph _ _ CE), E4. reflexivity. }
      intros A R. pose proof (A 0 _ eq_refl) as A0. rewrite Nat.add_0_r in A0. unfold iteration.
      rewrite <- (same_evaluate c e e' pool i o q NP TR A0), EV, <- (same_update c e e' pool iters i o3 q3 _ EX A0), UP. reflexivity.
  - destruct EC as (cost & pp & pc & tp & bp & bc & np & (E1 & E2 & E3 & E4) & _). exists [s_position (o_swarm o)]. cbn [end_state]. split.
    { rewrite E4. reflexivity. }
    intros A R. pose proof (A 0 _ eq_refl) as A0. rewrite Nat.add_0_r in A0. unfold iteration.
    rewrite <- (same_evaluate c e e' pool i o q NP TR A0), EV. reflexivity.
  - exists []. cbn [end_state]. split. { inversion EC; subst; cbn; rewrite app_nil_r; reflexivity. }
    intros A R. specialize (R o3 x eq_refl). cbn in R. rewrite Nat.add_0_r in R.
    assert (P : s_position (o_swarm o3) = s_position (o_swarm o)) by (inversion EC; subst; reflexivity). rewrite P in R.
    unfold iteration. rewrite <- (same_evaluate c e e' pool i o q NP TR R), EV. reflexivity.
Qed.
Lemma locality : forall c e e' pool iters o o' r, optimize c e pool iters o = (o', r) -> (forall x, e_exp e x = e_exp e' x) -> (forall m, e_tree e m = e_tree e' m) ->
  exists hp, o_pos_history o' = o_pos_history o ++ hp /\
    ((forall t X, nth_error hp t = Some X -> same_iteration e e' pool t X) ->
     (forall x, r = Err x -> same_iteration e e' pool (length hp) (s_position (o_swarm o'))) ->
     optimize c e' pool iters o = (o', r)).
Proof.
  intros c e e' pool iters o o' r E EX TR. unfold optimize in *.
  assert (D : pool = Some 0 \/ pool <> Some 0) by (destruct pool as [[|k]|]; [left|right|right]; congruence).
  assert (H0 : o_pos_history (start_pbest c (start_memory c o)) = o_pos_history o) by exact (proj1 (proj2 (proj2 (proj2 (proj2 (started_facts c o)))))).
  destruct D as [->|NP].
  - injection E as <- <-. exists []. split; [|auto]. rewrite app_nil_r. destruct (c_kind c) eqn:K; unfold start_memory; rewrite K; reflexivity.
  - destruct (loop_local c e e' pool iters NP EX TR iters 0 (start_pbest c (start_memory c o)) []) as (hp & H1 & H2).
    assert (E' : match opt_loop c e pool iters iters 0 (start_pbest c (start_memory c o)) [] with LDone o'0 => (o'0, final_result o'0) | LRaise o'0 x => (o'0, Err x) end = (o', r))
      by (destruct pool as [[|k]|]; [congruence|exact E|exact E]).
    clear E. exists hp. split.
    + rewrite <- H0, <- H1. destruct (opt_loop c e pool iters iters 0 _ []) as [o1|o1 x]; cbn [end_state]; congruence.
    + intros A R. cbn [Nat.add] in H2.
      assert (Q : opt_loop c e' pool iters iters 0 (start_pbest c (start_memory c o)) [] = opt_loop c e pool iters iters 0 (start_pbest c (start_memory c o)) []).
      { apply H2; [exact A|]. intros o1 x L. rewrite L in E'. injection E' as <- <-. exact (R x eq_refl). }
      destruct pool as [[|k]|]; [congruence| |]; rewrite Q; exact E'.
Qed.
