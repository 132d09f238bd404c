(** Statements about whole calls, derived from [RunMain]. *)
From Coq Require Import String ZArith List Arith Bool Lia Reals Lra.
From Flocq Require Import BinarySingleNaN.
From Verif Require Import Prelude ListFacts F64 F64Facts Num Np NpFacts Handlers Swarms Operators
  Generators Topology Optimizers Spec RunFacts PbestFacts ShapeFacts GbestFacts RunBest RunMain.
Import ListNotations.

(** *** C02 *)
Lemma pbest_of_call : forall c e pool iters o o' v, optimize c e pool iters o = (o', Ok v) ->
  exists h C, o_pos_history o' = o_pos_history o ++ h /\ logged e pool h C /\ all_evaluated (c_n c) h C /\
    length (s_pbest_cost (o_swarm o')) = c_n c /\
    length (s_pbest_pos (o_swarm o')) = length (s_pbest_pos (o_swarm o)) /\
    forall a x0 x w, nth_error (s_pbest_pos (o_swarm o)) a = Some x0 ->
      nth_error (s_pbest_pos (o_swarm o')) a = Some x -> nth_error (s_pbest_cost (o_swarm o')) a = Some w ->
      best_of_run h C a x0 x w.
Proof.
  intros c e pool iters o o' v H. apply optimize_ok in H. destruct H as (_ & k & h & C & B & _ & R).
  exists h, C. destruct (ru_p _ _ _ _ _ _ _ _ _ R). repeat split; auto; apply pi_log.
Qed.

(** *** Star neighbourhoods, any outcome *)
Lemma star_any : forall c e pool iters o o' r, optimize c e pool iters o = (o', r) -> pool <> Some 0 ->
  t_kind (o_top o) = Star -> fisnan (s_best_cost (o_swarm o)) = false ->
  exists k h C B, k <= iters /\ HInv c o k o' h B /\ SInv o k o' h C B /\ logged e pool h C /\
    all_evaluated (c_n c) h C.
Proof.
  intros c e pool iters o o' r H NP K NB.
  destruct (optimize_run _ _ _ _ _ _ _ H) as [(Z & _)|[(_ & Z & k & h & C & B & Hk & R)|(_ & x & Z & R)]].
  - congruence.
  - exists k, h, C, B. destruct R as [P I S _].
    split; [exact Hk|]. split; [exact I|]. split; [exact (S K NB)|]. split; apply P.
  - destruct R as [k o1 h C B o2 x Hk R E|k o1 h C B q o2 x Hk R E].
    + exists k, h, C, B. split; [lia|]. split; [eapply HInv_raise; eauto; apply R|].
      destruct R as [P I S _]. split; [|split; apply P]. specialize (S K NB).
      destruct E as [x E|cost x E1 E2|cost pp pc t x E1 E2 E3]; auto.
      * destruct S. constructor; auto.
      * pose proof (compute_pbest_lengths _ _ _ E2) as (L1 & L2 & L3 & L4 & L5). cbn in L1, L2, L3, L4, L5.
        assert (K' : t_kind (o_top o1) = Star) by (destruct (hi_topo _ _ _ _ _ _ I); congruence).
        unfold compute_gbest in E3. rewrite K' in E3.
        apply star_gbest_err in E3; [|cbn; flia]. cbn in E3. subst pc.
        assert (Z0 : s_pbest_cost (o_swarm o1) = []) by (destruct (s_pbest_cost (o_swarm o1)); auto; simpl in *; flia).
        destruct S. constructor; cbn; auto.
        -- intros _ v [].
        -- destruct si_src as [G|(_ & _ & _ & v & G & _)]; auto. rewrite Z0 in G. destruct G.
    + exists (S k), h, C, B. split; [lia|]. pose proof (update_cases c e iters k o1 q) as U. rewrite E in U.
      destruct U as [U1 U2]. assert (R' : Run c e pool o (S k) o2 h C B).
      { eapply Run_core; eauto. ftypes. rewrite U2. auto. }
      destruct R' as [P I S _]. split; [exact I|]. split; [exact (S K NB)|]. split; apply P.
Qed.

(** *** The returned pair, star *)
Lemma star_returned : forall c e pool iters o o' cost pos,
  optimize c e pool iters o = (o', Ok (cost, pos)) -> t_kind (o_top o) = Star ->
  fisnan (s_best_cost (o_swarm o)) = false ->
  exists h C, o_pos_history o' = o_pos_history o ++ h /\ logged e pool h C /\ all_evaluated (c_n c) h C /\
    cost = s_best_cost (o_swarm o') /\
    fle cost (s_best_cost (o_swarm o)) = true /\
    (forall a t x w, evaluated h C a t x w -> flt w cost = false) /\
    (cost = s_best_cost (o_swarm o) \/ exists a t x, evaluated h C a t x cost) /\
    (s_best_np (o_swarm o) = false ->
     (exists a t x, evaluated h C a t x cost) /\
     (exists a t w, evaluated h C a t pos w /\ feq w cost = true)).
Proof.
  intros c e pool iters o o' cost pos H K NB. apply optimize_ok in H.
  destruct H as (F & k & h & C & B & _ & [P I S _]). specialize (S K NB).
  destruct (final_result_inv _ _ _ F) as (F1 & -> & j & F2 & F3).
  exists h, C. split; [apply I|]. split; [apply P|]. split; [apply P|]. split; auto. split; [apply S|].
  assert (EV : forall a t x w, evaluated h C a t x w -> flt w (s_best_cost (o_swarm o')) = false).
  { intros a t x w E. destruct k.
    - apply evaluated_lt in E. rewrite (pi_len _ _ _ _ _ _ _ _ P) in E. lia.
    - pose proof (hi_last _ _ _ _ _ _ I) as L. cbn in L.
      destruct (si_hist _ _ _ _ _ _ S _ _ L) as (_ & _ & G & _). apply (G a t x w); auto.
      apply evaluated_lt in E. rewrite (pi_len _ _ _ _ _ _ _ _ P) in E. lia. }
  split; auto. split.
  - destruct (si_src _ _ _ _ _ _ S) as [(G & _)|(_ & G & _)]; auto.
  - intros NPF. destruct (si_src _ _ _ _ _ _ S) as [(_ & G)|(_ & G & L & v & V1 & V2)]; [congruence|].
    split; auto.
    assert (KP : 0 < k).
    { destruct G as (a & t & x & G). apply evaluated_lt in G. rewrite (pi_len _ _ _ _ _ _ _ _ P) in G. lia. }
    destruct (np_argmin_spec _ _ (hi_nonan _ _ _ _ _ _ I) F2) as (w & W1 & W2 & _).
    assert (Q : feq w (s_best_cost (o_swarm o')) = true).
    { apply In_nth_error in V1. destruct V1 as [i V1]. specialize (W2 _ _ V1).
      pose proof (si_pc _ _ _ _ _ _ S KP w (nth_error_In _ _ W1)). forder. }
    destruct (PInv_evaluated _ _ _ _ _ _ _ _ j w P KP W1) as (t & x & T & X).
    { pose proof (fle_finf _ NB). forder. }
    exists j, t, w. split; auto. ftypes. rewrite F3 in X. injection X as <-. auto.
Qed.

(** *** The returned pair, neighbour-based topologies *)
Lemma neighbor_returned : forall c e pool iters o o' cost pos,
  optimize c e pool iters o = (o', Ok (cost, pos)) -> t_kind (o_top o) <> Star -> wf_n o ->
  s_best_np (o_swarm o) = false ->
  topo_covers (c_n c) (o_top o') ->
  exists h C, o_pos_history o' = o_pos_history o ++ h /\ logged e pool h C /\ all_evaluated (c_n c) h C /\
    (forall a t x w, evaluated h C a t x w -> flt w cost = false) /\
    ((exists a t w, evaluated h C a t pos w /\ feq w cost = true) \/
     (cost = finf /\ exists a, nth_error (s_pbest_pos (o_swarm o)) a = Some pos /\ a < c_n c)).
Proof.
  intros c e pool iters o o' cost pos H K W NPF COV. apply optimize_ok in H.
  destruct H as (F & k & h & C & B & _ & [P I _ L]). specialize (L K W).
  destruct (final_result_inv _ _ _ F) as (F1 & -> & j & F2 & F3).
  assert (KP : 0 < k).
  { destruct k; [|lia]. pose proof (hi_last _ _ _ _ _ _ I) as [_ Z]. cbn in Z. congruence. }
  exists h, C. split; [apply I|]. split; [apply P|]. split; [apply P|].
  pose proof (hi_pc _ _ _ _ _ _ I) as PC.
  assert (COV' : topo_covers (length (s_pbest_cost (o_swarm o'))) (o_top o')) by (ftypes; rewrite PC; auto).
  pose proof (li_le _ _ L KP COV') as LE. pose proof (li_in _ _ L KP) as IN.
  destruct (np_argmin_spec _ _ (hi_nonan _ _ _ _ _ _ I) F2) as (w & W1 & W2 & _).
  assert (Q : feq w (s_best_cost (o_swarm o')) = true).
  { apply In_nth_error in IN. destruct IN as [i IN]. specialize (W2 _ _ IN).
    pose proof (LE w (nth_error_In _ _ W1)). forder. }
  split.
  - intros a t x v E. destruct (PInv_particle _ _ _ _ _ _ _ _ _ _ _ _ P KP E) as [u U].
    pose proof (PInv_lower _ _ _ _ _ _ _ _ _ _ _ _ _ P KP E U).
    pose proof (LE u (nth_error_In _ _ U)). forder.
  - pose proof (nonan_nth _ _ _ (hi_nonan _ _ _ _ _ _ I) W1) as NW.
    destruct (flt w finf) eqn:FW.
    + left. destruct (PInv_evaluated _ _ _ _ _ _ _ _ j w P KP W1 FW) as (t & x & T & X).
      exists j, t, w. split; auto. ftypes. rewrite F3 in X. injection X as <-. auto.
    + right. destruct (pi_n _ _ _ _ _ _ _ _ P KP) as (N1 & _).
      assert (A : j < c_n c) by (rewrite <- PC; eapply nth_error_lt; eauto).
      destruct (nth_error_ex (s_pbest_pos (o_swarm o)) j) as [x0 E0]. flia.
      destruct (pi_best _ _ _ _ _ _ _ _ P j x0 pos w E0 F3 W1) as [(-> & -> & _)|(Z & _)].
      * split; [|eauto]. clear - Q IN. 
        destruct (s_best_cost (o_swarm o')) as [s|[]| |s m ex Hx]; try discriminate; auto.
      * congruence.
Qed.

(** *** C03/C05: the life of a star optimizer *)
Definition best_is_min (o : ostate) (logs : list (list fmatrix * list (list f64))) : Prop :=
  (forall h C a t x w, In (h, C) logs -> evaluated h C a t x w -> flt w (s_best_cost (o_swarm o)) = false) /\
  (s_best_cost (o_swarm o) = finf \/
   exists h C a t x, In (h, C) logs /\ evaluated h C a t x (s_best_cost (o_swarm o))).

Lemma Session_RI : forall c o l o', Session c o l o' -> RI o -> RI o'.
Proof. induction 1; intros; auto. eapply optimize_RI; eauto. Qed.
Lemma optimize_topo : forall c e pool iters o o' r, optimize c e pool iters o = (o', r) -> same_topo (o_top o) (o_top o').
Proof.
  intros c e pool iters o o' r H.
  destruct (match pool with Some O => true | _ => false end) eqn:EP.
  - destruct pool as [[|n]|]; try discriminate. unfold optimize in H. injection H as <- <-.
    unfold start_memory. destruct (c_kind c); apply same_topo_refl.
  - destruct (optimize_hinv _ _ _ _ _ _ _ H) as (k & h & B & _ & I). { destruct pool as [[|n]|]; congruence. }
    apply I.
Qed.
Lemma Session_topo : forall c o l o', Session c o l o' -> same_topo (o_top o) (o_top o').
Proof. induction 1. apply same_topo_refl. eapply same_topo_trans; eauto. eapply optimize_topo; eauto. Qed.

Lemma star_session : forall c o calls o', Fresh c o -> t_kind (o_top o) = Star -> Session c o calls o' ->
  exists logs, Forall2 (fun k hc => logged (k_env k) (k_pool k) (fst hc) (snd hc) /\
                                    all_evaluated (c_n c) (fst hc) (snd hc)) calls logs /\
    concat (map fst logs) = o_pos_history o' /\ best_is_min o' logs.
Proof.
  intros c o calls o' F K S. induction S as [o|o l o1 k o2 r S IH H].
  - exists []. destruct (Fresh_inv _ _ F) as (d & p & v & E & _ & _ & _ & E4 & _). rewrite E4.
    split; [constructor|]. split; [reflexivity|]. split; [intros h C a t x w []|].
    left. rewrite E. reflexivity.
  - destruct (IH F K) as (logs & L1 & L2 & L3 & L4).
    pose proof (ri_nan _ (Session_RI _ _ _ _ S (Fresh_RI _ _ F))) as NB.
    assert (K1 : t_kind (o_top o1) = Star) by (destruct (Session_topo _ _ _ _ S); congruence).
    destruct (match k_pool k with Some O => true | _ => false end) eqn:EP.
    + destruct k as [e pool iters]. cbn in *. destruct pool as [[|n]|]; try discriminate.
      unfold optimize in H. injection H as <- <-. exists (logs ++ [([], [])]).
      assert (Q : o_swarm (start_memory c o1) = o_swarm o1 /\ o_pos_history (start_memory c o1) = o_pos_history o1)
        by (unfold start_memory; destruct (c_kind c); auto).
      destruct Q as [Q1 Q2]. rewrite Q2, map_app, concat_app. simpl. rewrite !app_nil_r. unfold best_is_min. rewrite Q1.
      assert (E0 : forall a t x w, ~ evaluated [] [] a t x w) by (intros a [|t] x w (X & cs & Z & _); discriminate).
      split; [|split; [auto|split]].
      * apply Forall2_app; auto. constructor; auto. split. split; auto. intros [|t]; discriminate.
        intros t a Ht. simpl in Ht. lia.
      * intros h C a t x w I E. apply in_app_or in I. destruct I as [I|[I|[]]]; eauto. injection I as <- <-. exfalso; eapply E0; eauto.
      * destruct L4 as [L4|(h & C & a & t & x & I & L4)]; auto. right. exists h, C, a, t, x. split; auto. apply in_or_app; auto.
    + destruct (star_any _ _ _ _ _ _ _ H) as (n & h & C & B & _ & I & SI & LG & AE); auto.
      { destruct (k_pool k) as [[|m]|]; congruence. }
      exists (logs ++ [(h, C)]). rewrite map_app, concat_app, L2. simpl. rewrite app_nil_r.
      split; [apply Forall2_app; auto; constructor; auto|]. split; [symmetry; apply I|].
      pose proof (si_le _ _ _ _ _ _ SI) as LE. split.
      * intros h' C' a t x w IN E. apply in_app_or in IN. destruct IN as [IN|[IN|[]]].
        -- pose proof (L3 _ _ _ _ _ _ IN E). forder.
        -- injection IN as <- <-. destruct n.
           ++ apply evaluated_lt in E. destruct I as [[_ Z] _ _ _ _ _ _ _ _ _ _ _ _]. lia.
           ++ pose proof (hi_last _ _ _ _ _ _ I) as L. cbn in L.
              destruct (si_hist _ _ _ _ _ _ SI _ _ L) as (_ & _ & G & _). apply (G a t x w); auto.
              apply evaluated_lt in E. destruct I as [[_ Z] _ _ _ _ _ _ _ _ _ _ _ _]. lia.
      * destruct (si_src _ _ _ _ _ _ SI) as [(G & _)|(_ & (a & t & x & G) & _)].
        -- rewrite G. destruct L4 as [L4|(h' & C' & a & t & x & IN & L4)]; auto.
           right. exists h', C', a, t, x. split; auto. apply in_or_app; auto.
        -- right. exists h, C, a, t, x. split; auto. apply in_or_app. right. left. reflexivity.
Qed.

(** *** C06 *)
Lemma nonincreasing_app : forall l m b, nonincreasing l -> nonincreasing m ->
  (forall x, In x l -> fle b x = true) -> (forall y, In y m -> fle y b = true) -> nonincreasing (l ++ m).
Proof.
  intros l m b H1 H2 Hl Hm i j x y L E1 E2.
  destruct (Nat.lt_ge_cases i (length l)); destruct (Nat.lt_ge_cases j (length l)).
  - rewrite nth_error_app1 in E1, E2 by auto. eauto.
  - rewrite nth_error_app1 in E1 by auto. rewrite nth_error_app2 in E2 by auto.
    apply nth_error_In in E1, E2. specialize (Hl _ E1). specialize (Hm _ E2). forder.
  - lia.
  - rewrite nth_error_app2 in E1, E2 by auto. eapply H2; [|eauto|eauto]. lia.
Qed.

Lemma star_history : forall c o, Reachable c o -> t_kind (o_top o) = Star ->
  nonincreasing (o_cost_history o) /\ (forall b, In b (o_cost_history o) -> fle (s_best_cost (o_swarm o)) b = true).
Proof.
  intros c o R. induction R as [top dr o H|dr o0 o R IH H|e pool iters o0 o r R IH H]; intros K.
  - apply construct_inv in H. destruct H as (s & _ & -> & _). cbn. split; [intros [|i] j x y; discriminate|tauto].
  - apply reset_inv in H. destruct H as (s & _ & ->). cbn. split; [intros [|i] j x y; discriminate|tauto].
  - assert (K0 : t_kind (o_top o0) = Star) by (destruct (optimize_topo _ _ _ _ _ _ _ H); congruence).
    destruct (IH K0) as [IH1 IH2]. pose proof (ri_nan _ (Reachable_RI _ _ R)) as NB.
    destruct (match pool with Some O => true | _ => false end) eqn:EP.
    + destruct pool as [[|n]|]; try discriminate. unfold optimize in H. injection H as <- <-.
      assert (Q : o_swarm (start_memory c o0) = o_swarm o0 /\ o_cost_history (start_memory c o0) = o_cost_history o0)
        by (unfold start_memory; destruct (c_kind c); auto). destruct Q as [-> ->]. auto.
    + destruct (star_any _ _ _ _ _ _ _ H) as (n & h & C & B & _ & I & SI & _); auto.
      { destruct pool as [[|m]|]; congruence. }
      destruct (hi_ch _ _ _ _ _ _ I) as [-> _]. pose proof (si_le _ _ _ _ _ _ SI) as LE.
      assert (HB : forall y, In y B -> fle y (s_best_cost (o_swarm o0)) = true /\ fle (s_best_cost (o_swarm o)) y = true).
      { intros y Y. apply In_nth_error in Y. destruct Y as [j Y]. destruct (si_hist _ _ _ _ _ _ SI _ _ Y) as (G1 & G2 & _). auto. }
      split.
      * eapply nonincreasing_app; eauto. apply SI. intros y Y. apply HB; auto.
      * intros b Ib. apply in_app_or in Ib. destruct Ib as [Ib|Ib]; [|apply HB; auto].
        specialize (IH2 _ Ib). forder.
Qed.
