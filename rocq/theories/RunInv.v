(** A rule for invariants of the positions, velocities and handler memories of a call. *)
From Coq Require Import String ZArith List Arith Bool Lia.
From Verif Require Import Prelude ListFacts F64 F64Facts Num Np NpFacts Handlers Swarms Operators
  Generators Topology Optimizers Spec RunFacts.
Import ListNotations.
Local Open Scope nat_scope.

Definition motion := (fmatrix * fmatrix * option fmatrix * option fmatrix)%type.
Definition motion_of (o : ostate) : motion :=
  (s_position (o_swarm o), s_velocity (o_swarm o), o_bmem o, o_vmem o).

Lemma motion_eval : forall c e pool i o o3 cost pp pc t bp bc np,
  Evald c e pool i o o3 cost pp pc t bp bc np -> motion_of o3 = motion_of o /\
  o_pos_history o3 = o_pos_history o ++ [s_position (o_swarm o)] /\
  o_velocity_history o3 = o_velocity_history o ++ [s_velocity (o_swarm o)].
Proof. intros c e pool i o o3 cost pp pc t bp bc np (_ & _ & _ & ->). auto. Qed.
Lemma motion_raise : forall c e pool i o o' x, EvalRaise c e pool i o o' x ->
  motion_of o' = motion_of o /\ o_pos_history o' = o_pos_history o /\ o_velocity_history o' = o_velocity_history o.
Proof. intros c e pool i o o' x H. destruct H; auto. Qed.

(** [I] holds at the start and survives every completed update: then it holds at every recorded
    iteration, and the final position (with some velocity and memories) satisfies it. *)
Lemma motion_rule : forall c e pool iters o (I : fmatrix -> fmatrix -> option fmatrix -> option fmatrix -> Prop),
  I (s_position (o_swarm o)) (s_velocity (o_swarm o)) (o_bmem (started c o)) (o_vmem (started c o)) ->
  (forall i o1 o2 opts v vm p bm, i < iters ->
     I (s_position (o_swarm o1)) (s_velocity (o_swarm o1)) (o_bmem o1) (o_vmem o1) ->
     Updated c e iters i o1 o2 opts v vm p bm -> I p v bm vm) ->
  forall o' r, optimize c e pool iters o = (o', r) ->
  exists hp hv, o_pos_history o' = o_pos_history o ++ hp /\ o_velocity_history o' = o_velocity_history o ++ hv /\
    Forall2 (fun p v => exists bm vm, I p v bm vm) hp hv /\
    (exists v bm vm, I (s_position (o_swarm o')) v bm vm) /\
    (forall x, r = Ok x -> exists bm vm, I (s_position (o_swarm o')) (s_velocity (o_swarm o')) bm vm).
Proof.
  intros c e pool iters o I H0 HU o' r E.
  set (J := fun (o1 : ostate) => I (s_position (o_swarm o1)) (s_velocity (o_swarm o1)) (o_bmem o1) (o_vmem o1)).
  set (K := fun (o1 : ostate) => exists hp hv, o_pos_history o1 = o_pos_history o ++ hp /\
     o_velocity_history o1 = o_velocity_history o ++ hv /\ Forall2 (fun p v => exists bm vm, I p v bm vm) hp hv).
  assert (JM : forall o1 o2, motion_of o2 = motion_of o1 -> J o1 -> J o2).
  { intros o1 o2 M. unfold motion_of in M. injection M as M1 M2 M3 M4. unfold J. rewrite M1, M2, M3, M4. auto. }
  assert (KE : forall i o1 o3 cost pp pc t bp bc np, Evald c e pool i o1 o3 cost pp pc t bp bc np -> J o1 -> K o1 -> K o3).
  { intros i o1 o3 cost pp pc t bp bc np EV j (hp & hv & A & B & C). destruct (motion_eval _ _ _ _ _ _ _ _ _ _ _ _ _ EV) as (_ & P & V).
    exists (hp ++ [s_position (o_swarm o1)]), (hv ++ [s_velocity (o_swarm o1)]).
    rewrite P, V, A, B, <- !app_assoc. split; auto. split; auto. apply Forall2_app; auto. constructor; auto. exists (o_bmem o1), (o_vmem o1). exact j. }
  assert (FIN : forall o1, J o1 -> exists v bm vm, I (s_position (o_swarm o1)) v bm vm) by (intros o1 j; unfold J in j; eauto).
  destruct (optimize_rule c e pool iters o
    (fun i o1 _ => J o1 /\ K o1) (fun i o1 _ => J o1 /\ K o1) (fun o1 => J o1 /\ K o1)
    (fun o1 x => (exists v bm vm, I (s_position (o_swarm o1)) v bm vm) /\ K o1)) with (o' := o') (r := r) as [(P & -> & ->)|[(P & (Q1 & Q2) & ->)|(P & x & (Q1 & Q2) & ->)]]; auto.
  - destruct (started_facts c o) as (_ & _ & _ & _ & E5 & E6 & E7 & _). split.
    + unfold J. rewrite E7. exact H0.
    + exists [], []. rewrite E5, E6, !app_nil_r. auto.
  - intros i o1 q Hi (j & k). pose proof (evaluate_cases c e pool i o1 q) as EC.
    destruct (evaluate_swarm c e pool i o1 q) as [o2 q2|o2|o2 x].
    + destruct EC as (cost & pp & pc & t & bp & bc & np & EV & _). split; [|eapply KE; eauto].
      eapply JM; [|exact j]. eapply motion_eval; eauto.
    + destruct EC as (cost & pp & pc & t & bp & bc & np & EV & _). split; [|eapply KE; eauto].
      eapply JM; [|exact j]. eapply motion_eval; eauto.
    + destruct (motion_raise _ _ _ _ _ _ _ EC) as (M & P & V). split.
      * apply FIN. eapply JM; eauto.
      * destruct k as (hp & hv & A & B & C). exists hp, hv. rewrite P, V. auto.
  - intros i o1 q Hi (j & k). pose proof (update_cases c e iters i o1 q) as UC.
    destruct (update_swarm c e iters i o1 q) as [o2 q2|o2|o2 x].
    + destruct UC as (_ & CE & opts & v & vm & p & bm & U). pose proof (HU i o1 o2 _ _ _ _ _ Hi j U) as j'.
      destruct U as (_ & S & Vm & Bm). split.
      * unfold J. rewrite S, Vm, Bm. exact j'.
      * destruct k as (hp & hv & A & B & C). exists hp, hv. rewrite (ce_ph _ _ CE), (ce_vh _ _ CE). auto.
    + contradiction.
    + destruct UC as (CE & P). split.
      * rewrite P. apply FIN. exact j.
      * destruct k as (hp & hv & A & B & C). exists hp, hv. rewrite (ce_ph _ _ CE), (ce_vh _ _ CE). auto.
  - destruct (started_facts c o) as (_ & _ & _ & _ & E5 & E6 & E7 & _). unfold start_memory.
    exists [], []. rewrite !app_nil_r.
    split; [destruct (c_kind c); reflexivity|]. split; [destruct (c_kind c); reflexivity|]. split; [constructor|]. split; [|discriminate].
    destruct (c_kind c); cbn [with_vmem with_bmem o_swarm]; eauto.
  - destruct Q2 as (hp & hv & A & B & C). exists hp, hv. split; auto. split; auto. split; auto. split; [apply FIN; exact Q1|].
    intros x _. exists (o_bmem o'), (o_vmem o'). exact Q1.
  - destruct Q2 as (hp & hv & A & B & C). exists hp, hv. split; auto. split; auto. split; auto. split; auto. discriminate.
Qed.
