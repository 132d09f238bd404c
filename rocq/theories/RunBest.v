(** Loop invariants: histories, and the global best. *)
From Coq Require Import String ZArith List Arith Bool Lia.
From Verif Require Import Prelude ListFacts F64 F64Facts Num Np NpFacts Handlers Swarms Operators
  Generators Topology Optimizers Spec RunFacts PbestFacts ShapeFacts GbestFacts.
Import ListNotations.

(** *** Histories and bookkeeping; holds in every state, also after an error *)
Record HInv (c : config) (o0 : ostate) (k : nat) (o : ostate) (h : list fmatrix) (B : list f64) : Prop := {
  hi_ph : o_pos_history o = o_pos_history o0 ++ h /\ length h = k;
  hi_ch : o_cost_history o = o_cost_history o0 ++ B /\ length B = k;
  hi_mp : exists l, o_mean_pbest_history o = o_mean_pbest_history o0 ++ l /\ length l = k;
  hi_mn : o_mean_neighbor_history o = o_mean_neighbor_history o0 ++ B;
  hi_vh : exists l, o_velocity_history o = o_velocity_history o0 ++ l /\ length l = k;
  hi_nonan : nonan (s_pbest_cost (o_swarm o));
  hi_pc : length (s_pbest_cost (o_swarm o)) = c_n c;
  hi_topo : same_topo (o_top o0) (o_top o);
  hi_n : s_n (o_swarm o) = s_n (o_swarm o0);
  hi_d : s_d (o_swarm o) = s_d (o_swarm o0);
  hi_pos : length (s_position (o_swarm o)) = length (s_position (o_swarm o0));
  hi_best : fisnan (s_best_cost (o_swarm o0)) = false ->
            fisnan (s_best_cost (o_swarm o)) = false /\ Forall (fun b => fisnan b = false) B;
  hi_last : match k with
            | O => s_best_cost (o_swarm o) = s_best_cost (o_swarm o0) /\ s_best_np (o_swarm o) = s_best_np (o_swarm o0)
            | S j => nth_error B j = Some (s_best_cost (o_swarm o))
            end
}.

Lemma HInv_start : forall c o, HInv c o 0 (started c o) [] [].
Proof.
  intros. destruct (started_facts c o) as (E1 & E2 & E3 & E4 & E5 & E6 & E7 & _).
  constructor; rewrite ?E1, ?E2, ?E3, ?E4, ?E5, ?E6, ?E7, ?app_nil_r; cbn; auto.
  - exists []. rewrite app_nil_r. auto.
  - exists []. rewrite app_nil_r. auto.
  - apply Forall_forall. intros x I. apply repeat_spec in I. subst. reflexivity.
  - apply repeat_length.
  - apply same_topo_refl.
Qed.

Lemma same_topo_trans : forall a b c, same_topo a b -> same_topo b c -> same_topo a c.
Proof. unfold same_topo. intuition congruence. Qed.

Lemma gbest_not_nan : forall te a t (s : fswarm) t' bp bc np, nonan (s_pbest_cost s) ->
  compute_gbest te a t s = (t', Ok (bp, bc, np)) -> fisnan (s_best_cost s) = false -> fisnan bc = false.
Proof.
  intros te a t s t' bp bc np N H F. destruct (t_kind t) eqn:K.
  1:{ unfold compute_gbest in H. rewrite K in H.
      destruct (star_gbest_ok _ _ _ _ _ _ H N) as (m & E & [(F1 & -> & _)|(_ & -> & _)]); auto.
      apply (np_min_spec _ _ N E). }
  all: assert (K' : t_kind t <> Star) by congruence;
       destruct (gbest_neighbor_ok _ _ _ _ _ _ _ _ N K' H) as (_ & I & _);
       unfold nonan in N; rewrite Forall_forall in N; auto.
Qed.

Lemma HInv_eval : forall c e pool o0 k o h B o3 cost pp pc t bp bc np,
  HInv c o0 k o h B -> Evald c e pool k o o3 cost pp pc t bp bc np ->
  HInv c o0 (S k) o3 (h ++ [s_position (o_swarm o)]) (B ++ [bc]).
Proof.
  intros c e pool o0 k o h B o3 cost pp pc t bp bc np I (E1 & E2 & E3 & ->).
  pose proof (compute_pbest_lengths _ _ _ E2) as (L1 & L2 & L3 & L4 & L5). cbn in L1, L2, L3, L4, L5.
  destruct I as [[I1 I1'] [I2 I2'] (lm & I3 & I3') I4 (lv & I5 & I5') I6 I7 I8 I9 I10 I11 I12 I13].
  assert (NP : nonan pc) by (eapply compute_pbest_nonan; eauto).
  constructor; cbn.
  - rewrite I1, app_assoc, app_length; simpl; split; auto. flia.
  - rewrite I2, app_assoc, app_length; simpl; split; auto. flia.
  - exists (lm ++ [np_mean (e_tree e) pc]). rewrite I3, app_assoc, app_length; simpl; split; auto. flia.
  - rewrite I4, app_assoc. reflexivity.
  - exists (lv ++ [s_velocity (o_swarm o)]). rewrite I5, app_assoc, app_length; simpl; split; auto. flia.
  - auto.
  - flia.
  - eapply same_topo_trans; eauto. eapply compute_gbest_kind; eauto.
  - auto.
  - auto.
  - auto.
  - intros F. destruct (I12 F) as [G1 G2].
    assert (fisnan bc = false) by (eapply gbest_not_nan; [|exact E3|]; cbn; auto).
    split; auto. apply Forall_app; split; auto.
  - rewrite <- I2'. apply nth_error_snoc_last.
Qed.

Lemma HInv_core : forall c o0 k o o' h B, HInv c o0 k o h B -> core_eq o o' ->
  length (s_position (o_swarm o')) = length (s_position (o_swarm o)) -> HInv c o0 k o' h B.
Proof.
  intros c o0 k o o' h B [I1 I2 I3 I4 I5 I6 I7 I8 I9 I10 I11 I12 I13] E L. destruct E.
  constructor; rewrite ?ce_ph, ?ce_ch, ?ce_mp, ?ce_mn, ?ce_vh, ?ce_pc, ?ce_top, ?ce_n, ?ce_d, ?ce_bc, ?ce_np, ?L; auto.
Qed.

Lemma Updated_length : forall c e iters i o o' opts v vmem p bmem,
  Updated c e iters i o o' opts v vmem p bmem -> shape_eq (s_position (o_swarm o)) p /\ shape_eq (s_position (o_swarm o)) v.
Proof.
  intros c e iters i o o' opts v vmem p bmem H. unfold Updated in H. destruct H as [H _].
  assert (G : forall b, compute_velocity (e_vel e i) (c_vh c) (o_vmem o) (set_options (o_swarm o) opts) (c_clamp c) b = Ok (v, vmem)
    -> shape_eq (s_position (o_swarm o)) v).
  { intros b E. apply compute_velocity_shape in E. auto. }
  destruct (c_kind c).
  1-3: destruct H as (_ & H1 & H2); split; eauto; apply compute_position_shape in H2; auto.
  destruct H as (_ & H1 & H2 & _). apply G in H1. split; auto.
  eapply shape_eq_trans; [exact H1|]. unfold binary_position in H2.
  destruct (forallb _ v) eqn:F; try discriminate. injection H2 as <-. apply map_shape.
  intros r I. rewrite forallb_forall in F. specialize (F r I). apply Nat.eqb_eq in F. rewrite map2_length. flia.
Qed.

Lemma HInv_raise : forall c e pool o0 k o h B o' x, HInv c o0 k o h B -> EvalRaise c e pool k o o' x -> HInv c o0 k o' h B.
Proof.
  intros c e pool o0 k o h B o' x I H. destruct H as [x E|cost x E1 E2|cost pp pc t x E1 E2 E3]; auto.
  - destruct I. constructor; cbn; auto.
  - pose proof (compute_pbest_lengths _ _ _ E2) as (L1 & L2 & L3 & L4 & L5). cbn in L1, L2, L3, L4, L5.
    destruct I. constructor; cbn; auto.
    + eapply compute_pbest_nonan; eauto.
    + flia.
    + eapply same_topo_trans; eauto. eapply compute_gbest_kind; eauto.
Qed.

(** *** Star neighbourhoods *)
Record SInv (o0 : ostate) (k : nat) (o : ostate) (h : list fmatrix) (C : list (list f64)) (B : list f64) : Prop := {
  si_pc : 0 < k -> forall v, In v (s_pbest_cost (o_swarm o)) -> flt v (s_best_cost (o_swarm o)) = false;
  si_le : fle (s_best_cost (o_swarm o)) (s_best_cost (o_swarm o0)) = true;
  si_src : (s_best_cost (o_swarm o) = s_best_cost (o_swarm o0) /\ s_best_np (o_swarm o) = s_best_np (o_swarm o0)) \/
           (s_best_np (o_swarm o) = true /\
            (exists a t x, evaluated h C a t x (s_best_cost (o_swarm o))) /\
            (flt (s_best_cost (o_swarm o)) (s_best_cost (o_swarm o0)) = true) /\
            exists v, In v (s_pbest_cost (o_swarm o)) /\ feq v (s_best_cost (o_swarm o)) = true);
  si_hist : forall j b, nth_error B j = Some b ->
     fle b (s_best_cost (o_swarm o0)) = true /\ fle (s_best_cost (o_swarm o)) b = true /\
     (forall a t x w, t <= j -> evaluated h C a t x w -> flt w b = false) /\
     (b = s_best_cost (o_swarm o0) \/ exists a t x, t <= j /\ evaluated h C a t x b);
  si_mono : nonincreasing B
}.

Lemma SInv_start : forall c o, fisnan (s_best_cost (o_swarm o)) = false -> SInv o 0 (started c o) [] [] [].
Proof.
  intros c o F. destruct (started_facts c o) as (E1 & E2 & E3 & E4 & E5 & E6 & E7 & _).
  constructor; rewrite ?E7; cbn.
  - lia.
  - apply fle_refl; auto.
  - left. auto.
  - intros [|j]; discriminate.
  - intros [|i] [|j] x y; discriminate.
Qed.

(** An in-run personal best below infinity was evaluated. *)
Lemma PInv_evaluated : forall c e pool o0 k o h C a v, PInv c e pool o0 k o h C -> 0 < k ->
  nth_error (s_pbest_cost (o_swarm o)) a = Some v -> flt v finf = true ->
  exists t x, evaluated h C a t x v /\ nth_error (s_pbest_pos (o_swarm o)) a = Some x.
Proof.
  intros c e pool o0 k o h C a v I K E F. destruct (pi_n _ _ _ _ _ _ _ _ I K) as (N1 & _).
  assert (A : a < c_n c) by (rewrite <- (pi_pc _ _ _ _ _ _ _ _ I); eapply nth_error_lt; eauto).
  pose proof (pi_pp _ _ _ _ _ _ _ _ I) as PP.
  destruct (nth_error_ex (s_pbest_pos (o_swarm o0)) a) as [x0 E0]. flia.
  destruct (nth_error_ex (s_pbest_pos (o_swarm o)) a) as [x Ex]. flia.
  destruct (pi_best _ _ _ _ _ _ _ _ I a x0 x v E0 Ex E) as [(-> & _)|(_ & t & T & _)].
  - discriminate.
  - exists t, x. auto.
Qed.

(** Everything evaluated for a particle is at least its personal best. *)
Lemma PInv_lower : forall c e pool o0 k o h C a t x w v, PInv c e pool o0 k o h C -> 0 < k ->
  evaluated h C a t x w -> nth_error (s_pbest_cost (o_swarm o)) a = Some v -> flt w v = false.
Proof.
  intros c e pool o0 k o h C a t x w v I K E V. destruct (pi_n _ _ _ _ _ _ _ _ I K) as (N1 & _).
  assert (A : a < c_n c) by (rewrite <- (pi_pc _ _ _ _ _ _ _ _ I); eapply nth_error_lt; eauto).
  pose proof (pi_pp _ _ _ _ _ _ _ _ I) as PP.
  destruct (nth_error_ex (s_pbest_pos (o_swarm o0)) a) as [x0 E0]. flia.
  destruct (nth_error_ex (s_pbest_pos (o_swarm o)) a) as [x' Ex]. flia.
  destruct (pi_best _ _ _ _ _ _ _ _ I a x0 x' v E0 Ex V) as [(-> & _ & H)|(_ & t' & _ & H & _)]; eauto.
Qed.

Lemma PInv_particle : forall c e pool o0 k o h C a t x w, PInv c e pool o0 k o h C -> 0 < k ->
  evaluated h C a t x w -> exists v, nth_error (s_pbest_cost (o_swarm o)) a = Some v.
Proof.
  intros c e pool o0 k o h C a t x w I K (X & cs & E1 & E2 & E3 & E4).
  destruct (pi_n _ _ _ _ _ _ _ _ I K) as (_ & _ & N). apply nth_error_ex. rewrite (pi_pc _ _ _ _ _ _ _ _ I).
  rewrite Forall_forall in N. rewrite <- (N cs); [eapply nth_error_lt; eauto|eapply nth_error_In; eauto].
Qed.

Lemma Evald_pbest : forall c e pool k o o3 cost pp pc t bp bc np, Evald c e pool k o o3 cost pp pc t bp bc np ->
  s_pbest_cost (o_swarm o3) = pc /\ s_pbest_pos (o_swarm o3) = pp /\ s_best_cost (o_swarm o3) = bc /\
  s_best_np (o_swarm o3) = np /\ s_best_pos (o_swarm o3) = bp.
Proof. intros c e pool k o o3 cost pp pc t bp bc np (_ & _ & _ & ->). repeat split. Qed.

Lemma evaluated_old : forall h C X cs a t x v, length C = length h -> evaluated h C a t x v ->
  evaluated (h ++ [X]) (C ++ [cs]) a t x v.
Proof. intros. apply evaluated_snoc; auto. Qed.

Lemma nonincreasing_snoc : forall l b, nonincreasing l -> (forall x, In x l -> flt x b = false) -> nonincreasing (l ++ [b]).
Proof.
  intros l b H1 H2 i j x y L E1 E2. apply nth_error_snoc in E1, E2.
  destruct E1 as [E1|[-> ->]], E2 as [E2|[-> ->]].
  - eauto.
  - apply H2. eapply nth_error_In; eauto.
  - apply nth_error_lt in E2. lia.
  - lia.
Qed.

Lemma SInv_eval : forall c e pool o0 k o h C B o3 cost pp pc t bp bc np,
  pool <> Some 0 ->
  PInv c e pool o0 k o h C -> HInv c o0 k o h B -> SInv o0 k o h C B ->
  t_kind (o_top o0) = Star -> fisnan (s_best_cost (o_swarm o0)) = false ->
  Evald c e pool k o o3 cost pp pc t bp bc np ->
  SInv o0 (S k) o3 (h ++ [s_position (o_swarm o)]) (C ++ [cost]) (B ++ [bc]).
Proof.
  intros c e pool o0 k o h C B o3 cost pp pc t bp bc np NPool P H S K NB E.
  pose proof (PInv_eval _ _ _ _ _ _ _ _ _ _ _ _ _ _ _ _ NPool P E) as P3.
  destruct (Evald_pbest _ _ _ _ _ _ _ _ _ _ _ _ _ E) as (Q1 & Q2 & Q3 & Q4 & _).
  destruct E as (E1 & E2 & E3 & _).
  assert (NP : nonan pc) by (eapply compute_pbest_nonan; eauto; apply H).
  assert (K' : t_kind (o_top o) = Star) by (destruct (hi_topo _ _ _ _ _ _ H); congruence).
  unfold compute_gbest in E3. rewrite K' in E3.
  destruct (star_gbest_ok _ _ _ _ _ _ E3 NP) as (m & M & CASES). cbn in M, CASES.
  destruct (np_min_spec _ _ NP M) as (M1 & M2 & M3).
  set (best := s_best_cost (o_swarm o)) in *. set (best0 := s_best_cost (o_swarm o0)) in *.
  destruct (hi_best _ _ _ _ _ _ H NB) as [NB' _]. fold best in NB'.
  assert (LB : fle bc best = true).
  { destruct CASES as [(F & -> & _)|(F & -> & _)]; forder. }
  pose proof (si_le _ _ _ _ _ _ S) as LE0. fold best best0 in LE0.
  assert (LE : fle bc best0 = true) by (eapply fle_trans; eauto).
  assert (PC : forall v, In v pc -> flt v bc = false).
  { intros v I. specialize (M2 v I). destruct CASES as [(F & -> & _)|(F & -> & _)]; forder. }
  assert (LC : length C = length h) by (apply P).
  assert (EV : flt bc best0 = true -> exists a t x, t <= k /\ evaluated (h ++ [s_position (o_swarm o)]) (C ++ [cost]) a t x bc).
  { intros F. destruct CASES as [(F1 & -> & _)|(F1 & -> & _)].
    - apply In_nth_error in M1. destruct M1 as [a A]. rewrite <- Q1 in A.
      destruct (PInv_evaluated _ _ _ _ _ _ _ _ a m P3 ltac:(lia) A) as (t' & x & T & _).
      { pose proof (fle_finf best0 NB). forder. }
      exists a, t', x. split; auto. apply evaluated_lt in T. rewrite app_length in T. simpl in T.
      pose proof (pi_len _ _ _ _ _ _ _ _ P). lia.
    - destruct (si_src _ _ _ _ _ _ S) as [(G & _)|(_ & (a & t' & x & G) & _)].
      + fold best best0 in G. rewrite G, flt_irrefl in F. discriminate.
      + exists a, t', x. split. apply evaluated_lt in G. pose proof (pi_len _ _ _ _ _ _ _ _ P). lia.
        apply evaluated_old; auto. }
  constructor; rewrite ?Q1, ?Q3, ?Q4; fold best0; auto.
  - destruct CASES as [(F & -> & -> & _)|(F & -> & -> & _)].
    + right. assert (F0 : flt m best0 = true) by forder. repeat split; auto.
      * destruct (EV F0) as (a & t' & x & _ & G). eauto.
      * exists m. split; auto. forder.
    + destruct (si_src _ _ _ _ _ _ S) as [(G & G')|(G1 & G2 & G3 & v & G4 & G5)]; auto.
      right. repeat split; auto.
      * destruct (EV G3) as (a & t' & x & _ & G). eauto.
      * apply In_nth_error in G4. destruct G4 as [a A].
        assert (L : a < length pc).
        { pose proof (pi_pc _ _ _ _ _ _ _ _ P3) as Z1. rewrite Q1 in Z1. pose proof (pi_pc _ _ _ _ _ _ _ _ P).
          apply nth_error_lt in A. flia. }
        destruct (nth_error_ex _ _ L) as [v' V']. exists v'. split. eapply nth_error_In; eauto.
        assert (D : fle v' v = true) by (eapply (compute_pbest_decreases _ _ _ a v v' E2); cbn; auto; apply H).
        specialize (M2 v' (nth_error_In _ _ V')). fold best in G5, G3. forder.
  - intros j b E. apply nth_error_snoc in E. destruct E as [E|[-> ->]].
    + destruct (si_hist _ _ _ _ _ _ S j b E) as (G1 & G2 & G3 & G4). fold best best0 in G1, G2, G4.
      split; auto. split; [exact (fle_trans _ _ _ LB G2)|]. split.
      * intros a t' x w T W. apply evaluated_snoc in W; auto. destruct W as [W|(-> & _)]; eauto.
        destruct H as [_ [_ HB] _ _ _ _ _ _ _ _ _ _ _]. apply nth_error_lt in E.
        pose proof (pi_len _ _ _ _ _ _ _ _ P). lia.
      * destruct G4 as [G4|(a & t' & x & T & G4)]; auto. right. exists a, t', x. split; auto.
        apply evaluated_old; auto.
    + split; auto. split; [apply fle_refl; forder|]. split.
      * intros a t' x w _ W. destruct (PInv_particle _ _ _ _ _ _ _ _ _ _ _ _ P3 ltac:(lia) W) as [v V].
        pose proof (PInv_lower _ _ _ _ _ _ _ _ _ _ _ _ _ P3 ltac:(lia) W V) as G.
        rewrite Q1 in V. pose proof (PC v (nth_error_In _ _ V)). pose proof (nonan_nth _ _ _ NP V).
        assert (fisnan bc = false) by forder. forder.
      * assert (HB : length B = k) by (apply H). rewrite HB.
        destruct (flt bc best0) eqn:F; [right; auto|]. left.
        destruct CASES as [(F1 & -> & _)|(F1 & -> & _)]; [forder|].
        destruct (si_src _ _ _ _ _ _ S) as [(G & _)|(_ & _ & G & _)]; auto.
        fold best best0 in G. congruence.
  - apply nonincreasing_snoc. apply S. intros x I. apply In_nth_error in I. destruct I as [j I].
    destruct (si_hist _ _ _ _ _ _ S j x I) as (G1 & G2 & _). fold best in G2. forder.
Qed.

Lemma SInv_core : forall o0 k o o' h C B, SInv o0 k o h C B -> core_eq o o' -> SInv o0 k o' h C B.
Proof.
  intros o0 k o o' h C B [I1 I2 I3 I4 I5] E. destruct E.
  constructor; rewrite ?ce_bc, ?ce_np, ?ce_pc; auto.
Qed.
