(** A rule for invariants of the entries of positions, velocities, personal and global bests. *)
From Coq Require Import String ZArith List Arith Bool Lia.
From Verif Require Import Prelude ListFacts F64 F64Facts Num Np NpFacts Handlers Swarms Operators
  Generators Topology Optimizers Spec SpecHandlers HandlerFacts RunFacts PbestFacts GbestFacts RunInv.
Import ListNotations.
Local Open Scope nat_scope.

Definition all_e (P : nat -> f64 -> Prop) (m : list (list f64)) : Prop := forall i j x, entry m i j = Some x -> P j x.
Definition best_e (P : nat -> f64 -> Prop) (b : fbestpos) : Prop := forall i j x, best_entry (N := F64num) b i j = Some x -> P j x.

Lemma row_entries : forall P m i r, all_e P m -> nth_error m i = Some r -> forall j x, nth_error r j = Some x -> P j x.
Proof. intros P m i r H R j x X. apply (H i j x). exact (entry_of _ _ _ _ _ R X). Qed.
Lemma pbest_entries : forall P (s : fswarm) pp pc, compute_pbest s = Ok (pp, pc) -> all_e P (s_position s) -> all_e P (s_pbest_pos s) -> all_e P pp.
Proof.
  intros P s pp pc H A B i j x X. destruct (entry_row _ _ _ _ X) as (r & R & Rj).
  pose proof (compute_pbest_lengths _ _ _ H) as (L1 & L2 & L3 & L4 & L5). apply same_shape_length in L3. apply nth_error_lt in R as Li.
  destruct (nth_error_ex (s_current_cost s) i) as [n N]; [ftypes; lia|].
  destruct (nth_error_ex (s_pbest_cost s) i) as [o O]; [ftypes; lia|].
  destruct (nth_error_ex (s_position s) i) as [xn XN]; [ftypes; lia|].
  destruct (nth_error_ex (s_pbest_pos s) i) as [xo XO]; [ftypes; lia|].
  destruct (compute_pbest_nth _ _ _ _ _ _ _ _ H N O XN XO) as [K _].
  pose proof (eq_trans (eq_sym R) K) as Q. injection Q as ->.
  destruct (flt n o); [exact (row_entries _ _ _ _ A XN j x Rj)|exact (row_entries _ _ _ _ B XO j x Rj)].
Qed.
Lemma take_entries : forall P (m : fmatrix) l p, np_take m l = Ok p -> all_e P m -> all_e P p.
Proof.
  intros P m l p H A i j x X. destruct (entry_row _ _ _ _ X) as (r & R & Rj). apply np_take_Ok in H.
  assert (I : exists k, nth_error m k = Some r).
  { clear -H R. revert i R. induction H as [|a b l p E H IH]; intros [|i] R; cbn in R; try discriminate; [injection R as <-; eauto|eauto]. }
  destruct I as (k & K). exact (row_entries _ _ _ _ A K j x Rj).
Qed.
Lemma gbest_entries : forall P te a t (s : fswarm) t' bp bc np, compute_gbest te a t s = (t', Ok (bp, bc, np)) ->
  all_e P (s_pbest_pos s) -> best_e P (s_best_pos s) -> best_e P bp.
Proof.
  intros P te a t s t' bp bc np H A B.
  assert (PB : forall bn, pick_best s bn = Ok (bp, bc, np) -> best_e P bp).
  { intros bn Q. unfold pick_best in Q. apply bind_Ok in Q. destruct Q as (cs & _ & Q). apply bind_Ok in Q. destruct Q as (m & _ & Q).
    apply bind_Ok in Q. destruct Q as (p & Q1 & Q). injection Q as <- _ _. exact (take_entries _ _ _ _ Q1 A). }
  assert (NB : forall rows, neighborhood_gbest s rows = Ok (bp, bc, np) -> best_e P bp).
  { intros rows Q. unfold neighborhood_gbest in Q. apply bind_Ok in Q. destruct Q as (bn & _ & Q). eauto. }
  assert (VE : forall k p, of_option IndexError (nth_error (s_pbest_pos s) k) = Ok p -> best_e P (BPVec p : fbestpos)).
  { intros k p Q i j x X. apply of_option_Ok in Q. cbn in X. exact (row_entries _ _ _ _ A Q j x X). }
  assert (RG : forall p k t', ring_gbest te p k t s = (t', Ok (bp, bc, np)) -> best_e P bp).
  { clear t' H. intros p k t' H. unfold ring_gbest in H. destruct (if needs_neighbors t then _ else _) as [t1 [nb|]]; [|discriminate].
    destruct (k =? 1)%Z.
    - destruct (Nat.leb max_dims (nb_ndim nb)); [discriminate|]. injection H as _ H. eauto.
    - destruct (Nat.eqb (nb_ndim nb) 2); [|discriminate]. injection H as _ H. eauto. }
  unfold compute_gbest in H. destruct (t_kind t).
  - unfold star_gbest in H. injection H as _ H. apply bind_Ok in H. destruct H as (m & _ & H).
    destruct (flt m (s_best_cost s)).
    + apply bind_Ok in H. destruct H as (k & _ & H). apply bind_Ok in H. destruct H as (p & Q & H). injection H as <- _ _. eauto.
    + injection H as <- _ _. exact B.
  - destruct (ga_p a); [|discriminate]. destruct (ga_k a); [|discriminate]. eauto.
  - destruct (ga_p a); [|discriminate]. destruct (ga_r a); [|discriminate]. unfold von_neumann_gbest in H. destruct (z0 <? 0)%Z; [discriminate|]. eauto.
  - unfold pyramid_gbest in H. destruct (Nat.ltb (s_n s) (s_d s + 1)).
    + injection H as _ H. apply bind_Ok in H. destruct H as (k & _ & H). apply bind_Ok in H. destruct H as (p & Q & H).
      apply bind_Ok in H. destruct H as (m & _ & H). injection H as <- _ _. eauto.
    + destruct (if needs_neighbors t then _ else _) as [t1 [rows|]]; [|discriminate]. injection H as _ H. eauto.
  - destruct (ga_k a); [|discriminate]. unfold random_gbest in H.
    destruct (if needs_neighbors t then _ else _) as [t1 [rows|]]; [|discriminate]. injection H as _ H. eauto.
Qed.

Section Rule.
Variables (c : config) (e : env) (pool : option nat) (iters : nat) (o : ostate).
Variables (P V : nat -> nat -> f64 -> Prop) (J : fmatrix -> option fmatrix -> Prop).
Record EInv (t : nat) (o1 : ostate) : Prop := {
  ei_pos : all_e (P t) (s_position (o_swarm o1));
  ei_vel : all_e (V t) (s_velocity (o_swarm o1));
  ei_pb : all_e (P t) (s_pbest_pos (o_swarm o1));
  ei_best : best_e (P t) (s_best_pos (o_swarm o1));
  ei_mem : J (s_position (o_swarm o1)) (o_bmem o1) }.
Definition EHist (t : nat) (o1 : ostate) : Prop := exists hp hv, o_pos_history o1 = o_pos_history o ++ hp /\ o_velocity_history o1 = o_velocity_history o ++ hv /\
  length hp = t /\ length hv = t /\ (forall k X, nth_error hp k = Some X -> all_e (P k) X) /\ (forall k X, nth_error hv k = Some X -> all_e (V k) X).
Hypothesis mono : forall t j x, P t j x -> P (S t) j x.
Hypothesis start : EInv 0 (started c o).
Hypothesis step : forall t o1 o2 opts v vm p bm, t < iters -> EInv t o1 -> Updated c e iters t o1 o2 opts v vm p bm ->
  all_e (P (S t)) p /\ all_e (V (S t)) v /\ J p bm.

Lemma EHist_snoc : forall t o1 o3 cost pp pc tp bp bc np, Evald c e pool t o1 o3 cost pp pc tp bp bc np -> EInv t o1 -> EHist t o1 -> EHist (S t) o3.
Proof.
  intros t o1 o3 cost pp pc tp bp bc np EV I (hp & hv & A & B & C & D & F & G).
  destruct (motion_eval _ _ _ _ _ _ _ _ _ _ _ _ _ EV) as (_ & Hp & Hv).
  exists (hp ++ [s_position (o_swarm o1)]), (hv ++ [s_velocity (o_swarm o1)]). rewrite Hp, Hv, A, B, <- !app_assoc, !app_length. cbn [length].
  split; auto. split; auto. split; [lia|]. split; [lia|]. destruct I. split; intros k X E.
  - destruct (Nat.lt_ge_cases k (length hp)). { rewrite nth_error_app1 in E by auto. eauto. }
    rewrite nth_error_app2 in E by auto. assert (k = t). { apply nth_error_lt in E. cbn [length] in E. lia. }
    replace (k - length hp) with 0 in E by lia. injection E as <-. subst k. auto.
  - destruct (Nat.lt_ge_cases k (length hv)). { rewrite nth_error_app1 in E by auto. eauto. }
    rewrite nth_error_app2 in E by auto. assert (k = t). { apply nth_error_lt in E. cbn [length] in E. lia. }
    replace (k - length hv) with 0 in E by lia. injection E as <-. subst k. auto.
Qed.
Lemma EInv_eval : forall t o1 o3 cost pp pc tp bp bc np, Evald c e pool t o1 o3 cost pp pc tp bp bc np -> EInv t o1 -> EInv t o3.
Proof.
  intros t o1 o3 cost pp pc tp bp bc np (E1 & E2 & E3 & ->) [A1 A2 A3 A4 A5].
  pose proof (pbest_entries _ _ _ _ E2 A1 A3) as PE. constructor; try assumption.
  cbn. eapply gbest_entries; [exact E3| |]; cbn; assumption.
Qed.
Lemma EInv_raise : forall t o1 o3 x, EvalRaise c e pool t o1 o3 x -> EInv t o1 -> EInv t o3.
Proof.
  intros t o1 o3 x H I. destruct H as [x E1|cost x E1 E2|cost pp pc tp x E1 E2 E3]; auto; destruct I as [A1 A2 A3 A4 A5]; constructor; try assumption.
  cbn. eapply pbest_entries; [exact E2| |]; cbn; assumption.
Qed.
Lemma entries_rule : forall o' r, pool <> Some 0 -> optimize c e pool iters o = (o', r) ->
  exists t, t <= iters /\ EHist t o' /\ all_e (P t) (s_position (o_swarm o')) /\ all_e (P t) (s_pbest_pos (o_swarm o')) /\ best_e (P t) (s_best_pos (o_swarm o')).
Proof.
  intros o' r NP E.
  set (K := fun o1 => exists t, t <= iters /\ EHist t o1 /\ all_e (P t) (s_position (o_swarm o1)) /\ all_e (P t) (s_pbest_pos (o_swarm o1)) /\ best_e (P t) (s_best_pos (o_swarm o1))).
  assert (UP : forall t m, all_e (P t) m -> all_e (P (S t)) m). { intros t m H i j x X. apply mono. eauto. }
  assert (UB : forall t m, best_e (P t) m -> best_e (P (S t)) m). { intros t m H i j x X. apply mono. eauto. }
  destruct (optimize_rule c e pool iters o (fun t o1 _ => EInv t o1 /\ EHist t o1) (fun t o1 _ => EInv t o1 /\ EHist (S t) o1) K (fun o1 _ => K o1)) with (o' := o') (r := r)
    as [(Q & -> & ->)|[(Q & Q1 & ->)|(Q & x & Q1 & ->)]]; auto.
  - split; [exact start|]. destruct (started_facts c o) as (_ & _ & _ & _ & E5 & E6 & _).
    exists [], []. rewrite E5, E6, !app_nil_r. repeat split; auto; intros [|k] X; discriminate.
  - intros t o1 q Ht (I & H). pose proof (evaluate_cases c e pool t o1 q) as EC.
    destruct (evaluate_swarm c e pool t o1 q) as [o2 q2|o2|o2 x].
    + destruct EC as (cost & pp & pc & tp & bp & bc & np & EV & _). split; [eapply EInv_eval; eauto|eapply EHist_snoc; eauto].
    + destruct EC as (cost & pp & pc & tp & bp & bc & np & EV & _). exists (S t). split; [lia|]. split; [eapply EHist_snoc; eauto|].
      destruct (EInv_eval _ _ _ _ _ _ _ _ _ _ EV I). auto.
    + destruct (EInv_raise _ _ _ _ EC I). exists t. split; [lia|]. split; auto.
      destruct (motion_raise _ _ _ _ _ _ _ EC) as (_ & Mp & Mv). destruct H as (hp & hv & H). exists hp, hv. rewrite Mp, Mv. exact H.
  - intros t o1 q Ht (I & H). pose proof (update_cases c e iters t o1 q) as UC.
    assert (HC : forall o2, core_eq o1 o2 -> EHist (S t) o2).
    { intros o2 CE. destruct H as (hp & hv & H). exists hp, hv. rewrite (ce_ph _ _ CE), (ce_vh _ _ CE). exact H. }
    destruct (update_swarm c e iters t o1 q) as [o2 q2|o2|o2 x].
    + destruct UC as (_ & CE & opts & v & vm & p & bm & U). destruct (step t o1 o2 _ _ _ _ _ Ht I U) as (S1 & S2 & S3).
      pose proof U as (_ & S & Vm & Bm). split; [|auto]. destruct I as [A1 A2 A3 A4 A5]. constructor.
      * rewrite S. exact S1.
      * rewrite S. exact S2.
      * rewrite (ce_pp _ _ CE). auto.
      * rewrite (ce_bp _ _ CE). auto.
      * rewrite Bm, S. exact S3.
    + contradiction.
    + destruct UC as (CE & Ps). destruct I as [A1 A2 A3 A4 A5]. exists (S t). split; [lia|]. split; [auto|]. rewrite Ps, (ce_pp _ _ CE), (ce_bp _ _ CE). auto.
  - intros o1 q (I & H). exists iters. destruct I. auto.
  - congruence.
Qed.
End Rule.
