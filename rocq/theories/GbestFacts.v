(** [compute_gbest] of the five topologies. *)
From Coq Require Import String ZArith List Arith Bool Lia.
From Verif Require Import Prelude ListFacts F64 F64Facts Num Np NpFacts Handlers Swarms Operators
  Generators Topology Optimizers Spec RunFacts.
Import ListNotations.

(** [star_gbest] *)
Lemma star_gbest_ok : forall t s t' bp bc np,
  star_gbest t s = (t', Ok (bp, bc, np)) -> nonan (s_pbest_cost s) ->
  exists m, np_min (N := F64num) (s_pbest_cost s) = Ok m /\
  ((flt m (s_best_cost s) = true /\ bc = m /\ np = true /\
      exists k p, np_argmin (N := F64num) (s_pbest_cost s) = Ok k /\
                  nth_error (s_pbest_pos s) k = Some p /\ bp = BPVec p) \/
   (flt m (s_best_cost s) = false /\ bc = s_best_cost s /\ np = s_best_np s /\ bp = s_best_pos s)).
Proof.
  intros t s t' bp bc np H N. unfold star_gbest in H. injection H as _ H.
  apply bind_Ok in H. destruct H as (m & E & H). exists m. split; auto.
  change (@flt) with flt in *.
  destruct (flt m (s_best_cost s)) eqn:F.
  - left. apply bind_Ok in H. destruct H as (k & Ek & H). apply bind_Ok in H. destruct H as (p & Ep & H).
    apply of_option_Ok in Ep. injection H as <- <- <-. repeat split; auto. exists k, p. auto.
  - right. injection H as <- <- <-. auto.
Qed.
Lemma star_gbest_err : forall t s t' x, star_gbest t s = (t', Err x) ->
  length (s_pbest_pos s) = length (s_pbest_cost s) -> s_pbest_cost s = [].
Proof.
  intros t s t' x H L. unfold star_gbest in H. injection H as _ H.
  destruct (s_pbest_cost s) as [|c0 l] eqn:E; auto. exfalso.
  destruct (np_min_ok (c0 :: l)) as [m Em]; [discriminate|]. rewrite Em in H. cbn [bind] in H.
  destruct (flt m (s_best_cost s)); [|discriminate].
  destruct (np_argmin_ok (c0 :: l)) as [k Ek]; [discriminate|]. rewrite Ek in H. cbn [bind] in H.
  apply np_argmin_lt in Ek. ftypes. rewrite <- L in Ek. destruct (nth_error_ex _ _ Ek) as [p Ep].
  rewrite Ep in H. discriminate.
Qed.

(** Neighbour lists *)
Lemma best_of_ok : forall cost nbs j, nonan cost -> best_of cost nbs = Ok j ->
  In j nbs /\ exists v, nth_error cost j = Some v /\
    forall k w, In k nbs -> nth_error cost k = Some w -> fle v w = true.
Proof.
  unfold best_of. intros cost nbs j N H.
  apply bind_Ok in H. destruct H as (cs & E & H). apply bind_Ok in H. destruct H as (q & Eq & H).
  apply of_option_Ok in H.
  pose proof (np_take_nonan _ _ _ N E) as NC. apply np_take_Ok in E.
  destruct (np_argmin_spec _ _ NC Eq) as (v & V1 & V2 & V3).
  split; [eapply nth_error_In; eauto|].
  assert (G : forall i a, nth_error nbs i = Some a -> exists b, nth_error cs i = Some b /\ nth_error cost a = Some b).
  { clear -E. induction E; intros [|i] a Ha; simpl in *; try discriminate; eauto. injection Ha as <-. eauto. }
  destruct (G _ _ H) as (b & B1 & B2). exists v. split; [congruence|].
  intros k w I W. apply In_nth_error in I. destruct I as [i I]. destruct (G _ _ I) as (b' & B1' & B2').
  apply V2 with i. congruence.
Qed.

Lemma best_of_leads : forall cost nbs j, nonan cost -> best_of cost nbs = Ok j -> exists v, leads cost nbs j v.
Proof.
  unfold best_of. intros cost nbs j N H.
  apply bind_Ok in H. destruct H as (cs & E & H). apply bind_Ok in H. destruct H as (q & Eq & H).
  apply of_option_Ok in H.
  pose proof (np_take_nonan _ _ _ N E) as NC. apply np_take_Ok in E.
  destruct (np_argmin_spec _ _ NC Eq) as (v & V1 & V2 & V3).
  assert (G : forall i a, nth_error nbs i = Some a -> exists b, nth_error cs i = Some b /\ nth_error cost a = Some b).
  { clear -E. induction E; intros [|i] a Ha; simpl in *; try discriminate; eauto. injection Ha as <-. eauto. }
  destruct (G _ _ H) as (b & B1 & B2). exists v, q. split; [exact H|]. split; [congruence|].
  intros i k w I W. destruct (G _ _ I) as (b' & B1' & B2'). assert (b' = w) by congruence. subst b'. split.
  - apply V2 with i. exact B1'.
  - intros L. apply V3 with i; auto.
Qed.
Lemma leads_least : forall cost nbs j v, leads cost nbs j v -> In j nbs /\ nth_error cost j = Some v /\
  forall k w, In k nbs -> nth_error cost k = Some w -> fle v w = true.
Proof.
  intros cost nbs j v (q & A & B & H). split; [eapply nth_error_In; eauto|]. split; [exact B|].
  intros k w I W. apply In_nth_error in I. destruct I as [i I]. apply (H i k w I W).
Qed.

Lemma pick_best_ok : forall (s : fswarm) bn bp bc np, nonan (s_pbest_cost s) -> pick_best s bn = Ok (bp, bc, np) ->
  np = true /\ (exists a, In a bn /\ nth_error (s_pbest_cost s) a = Some bc) /\
  (forall a v, In a bn -> nth_error (s_pbest_cost s) a = Some v -> fle bc v = true) /\
  exists m, bp = BPMat m /\ Forall2 (fun a r => nth_error (s_pbest_pos s) a = Some r) bn m.
Proof.
  unfold pick_best. intros s bn bp bc np N H.
  apply bind_Ok in H. destruct H as (cs & E & H). apply bind_Ok in H. destruct H as (m & Em & H).
  apply bind_Ok in H. destruct H as (p & Ep & H). injection H as <- <- <-.
  pose proof (np_take_nonan _ _ _ N E) as NC. apply np_take_Ok in E. apply np_take_Ok in Ep.
  destruct (np_min_spec _ _ NC Em) as (M1 & M2 & M3).
  split; auto. split; [|split].
  - clear -E M1. induction E; simpl in *; [tauto|]. destruct M1 as [<-|M1]; eauto.
    destruct (IHE M1) as (a & A & B). eauto.
  - intros a v I V. assert (I' : In v cs); auto.
    clear -E I V. induction E; simpl in *; [tauto|]. destruct I as [<-|I]; eauto. left. congruence.
  - exists p. split; auto.
Qed.

Lemma neighborhood_gbest_ok : forall (s : fswarm) rows bp bc np, nonan (s_pbest_cost s) ->
  neighborhood_gbest s rows = Ok (bp, bc, np) ->
  np = true /\ In bc (s_pbest_cost s) /\
  (exists bn m, bp = BPMat m /\
     Forall2 (fun row j => In j row /\ exists v, nth_error (s_pbest_cost s) j = Some v /\
        forall k w, In k row -> nth_error (s_pbest_cost s) k = Some w -> fle v w = true) rows bn /\
     Forall2 (fun a r => nth_error (s_pbest_pos s) a = Some r) bn m /\
     (exists a, In a bn /\ nth_error (s_pbest_cost s) a = Some bc) /\
     (forall a v, In a bn -> nth_error (s_pbest_cost s) a = Some v -> fle bc v = true)) /\
  (forall row a v, In row rows -> In a row -> nth_error (s_pbest_cost s) a = Some v -> fle bc v = true).
Proof.
  unfold neighborhood_gbest. intros s rows bp bc np N H.
  apply bind_Ok in H. destruct H as (bn & E & H).
  destruct (pick_best_ok _ _ _ _ _ N H) as (-> & (a & A1 & A2) & B & m & -> & F).
  apply mapM_Ok in E.
  assert (E' : Forall2 (fun row j => In j row /\ exists v, nth_error (s_pbest_cost s) j = Some v /\
        forall k w, In k row -> nth_error (s_pbest_cost s) k = Some w -> fle v w = true) rows bn).
  { clear -E N. induction E; constructor; auto. apply best_of_ok; auto. }
  repeat split; auto.
  - eapply nth_error_In; eauto.
  - exists bn, m. repeat split; eauto.
  - intros row k v I1 I2 V.
    assert (G : exists j, In j bn /\ In j row /\ exists v, nth_error (s_pbest_cost s) j = Some v /\
        forall k w, In k row -> nth_error (s_pbest_cost s) k = Some w -> fle v w = true).
    { clear -E' I1. induction E'; simpl in *; [tauto|]. destruct I1 as [<-|I1].
      - exists y. split; auto.
      - destruct (IHE' I1) as (j & J1 & J2). exists j. split; auto. }
    destruct G as (j & J1 & J2 & vj & V1 & V2).
    eapply fle_trans; [eapply B; eauto|]. eauto.
Qed.

(** Static attributes never change. *)
Definition same_topo (t t' : topology) : Prop := t_kind t' = t_kind t /\ t_static t' = t_static t.
Lemma same_topo_set : forall t t' nb, same_topo t t' -> same_topo t (set_nb t' nb).
Proof. intros t t' nb [H1 H2]; split; auto. Qed.
Lemma same_topo_refl : forall t, same_topo t t. Proof. split; auto. Qed.
Lemma ring_gbest_kind : forall te p k t s t' r, ring_gbest te p k t s = (t', r) -> same_topo t t'.
Proof.
  intros te p k t s t' r H. unfold ring_gbest in H.
  destruct (if needs_neighbors t then _ else _) as [t1 r1] eqn:E.
  assert (T1 : same_topo t t1).
  { destruct (needs_neighbors t).
    - destruct (k <? 1)%Z; [injection E as <- _; apply same_topo_refl|].
      destruct (te_knn _ _ _ _); injection E as <- _; auto using same_topo_set, same_topo_refl.
    - destruct (t_nb t); injection E as <- _; apply same_topo_refl. }
  destruct r1 as [nb|x]; [|injection H as <- _; auto].
  destruct (k =? 1)%Z.
  - destruct (Nat.leb max_dims (nb_ndim nb)); injection H as <- _; auto using same_topo_set.
  - destruct (Nat.eqb (nb_ndim nb) 2); injection H as <- _; auto.
Qed.
Lemma compute_gbest_kind : forall te a t s t' r, compute_gbest te a t s = (t', r) -> same_topo t t'.
Proof.
  intros te a t s t' r H. unfold compute_gbest in H.
  destruct (t_kind t) eqn:K.
  - unfold star_gbest in H. injection H as <- _. destruct (t_nb t); auto using same_topo_set, same_topo_refl.
  - destruct (ga_p a), (ga_k a); try (injection H as <- _; apply same_topo_refl).
    eapply ring_gbest_kind; eauto.
  - destruct (ga_p a), (ga_r a); try (injection H as <- _; apply same_topo_refl).
    unfold von_neumann_gbest in H. destruct (z0 <? 0)%Z; [injection H as <- _; apply same_topo_refl|].
    eapply ring_gbest_kind; eauto.
  - unfold pyramid_gbest in H. destruct (Nat.ltb _ _); [injection H as <- _; auto using same_topo_set, same_topo_refl|].
    destruct (if needs_neighbors t then _ else _) as [t1 r1] eqn:E.
    assert (T1 : same_topo t t1).
    { destruct (needs_neighbors t).
      - destruct (te_delaunay _ _); injection E as <- _; auto using same_topo_set, same_topo_refl.
      - destruct (t_nb t); injection E as <- _; apply same_topo_refl. }
    destruct r1; injection H as <- _; auto.
  - destruct (ga_k a); [|injection H as <- _; apply same_topo_refl].
    unfold random_gbest in H.
    destruct (if needs_neighbors t then _ else _) as [t1 r1] eqn:E.
    assert (T1 : same_topo t t1).
    { destruct (needs_neighbors t).
      - destruct (random_adj _ _ _ _); injection E as <- _; auto using same_topo_set, same_topo_refl.
      - destruct (t_nb t); injection E as <- _; apply same_topo_refl. }
    destruct r1; injection H as <- _; auto.
Qed.

(** The neighbour lists an iteration has used, as left in the topology object. *)
Definition topo_covers (n : nat) (t : topology) : Prop :=
  exists nb, t_nb t = Some nb /\ covers n (nb_rows nb).

Lemma ring_gbest_ok : forall te p k t (s : fswarm) t' bp bc np, nonan (s_pbest_cost s) ->
  ring_gbest te p k t s = (t', Ok (bp, bc, np)) ->
  np = true /\ In bc (s_pbest_cost s) /\
  (s_n s = length (s_pbest_cost s) -> topo_covers (s_n s) t' ->
   forall v, In v (s_pbest_cost s) -> fle bc v = true).
Proof.
  intros te p k t s t' bp bc np N H. unfold ring_gbest in H.
  destruct (if needs_neighbors t then _ else _) as [t1 [nb|x]] eqn:E; [|discriminate].
  assert (T1 : t_nb t1 = Some nb).
  { destruct (needs_neighbors t).
    - destruct (k <? 1)%Z; try discriminate. destruct (te_knn _ _ _ _); try discriminate.
      injection E as <- <-. reflexivity.
    - destruct (t_nb t) eqn:Q; try discriminate. injection E as <- <-. auto. }
  destruct (k =? 1)%Z.
  - destruct (Nat.leb max_dims (nb_ndim nb)); try discriminate. injection H as <- H.
    destruct (pick_best_ok _ _ _ _ _ N H) as (-> & (a & A1 & A2) & B & _).
    repeat split; auto. eapply nth_error_In; eauto.
    intros SN _ v I. apply In_nth_error in I. destruct I as [i I]. apply B with i; auto.
    apply in_seq. apply nth_error_lt in I. flia.
  - destruct (Nat.eqb (nb_ndim nb) 2); try discriminate. injection H as <- H.
    destruct (neighborhood_gbest_ok _ _ _ _ _ N H) as (-> & I & _ & B).
    repeat split; auto. intros SN (nb' & Q & C) v V. rewrite T1 in Q. injection Q as <-.
    apply In_nth_error in V. destruct V as [i V].
    destruct (C i) as (r & R1 & R2). { apply nth_error_lt in V. flia. } eauto.
Qed.

Lemma gbest_neighbor_ok : forall te a t (s : fswarm) t' bp bc np, nonan (s_pbest_cost s) ->
  t_kind t <> Star -> compute_gbest te a t s = (t', Ok (bp, bc, np)) ->
  np = true /\ In bc (s_pbest_cost s) /\
  (s_n s = length (s_pbest_cost s) -> topo_covers (s_n s) t' ->
   forall v, In v (s_pbest_cost s) -> fle bc v = true).
Proof.
  intros te a t s t' bp bc np N K H. unfold compute_gbest in H.
  destruct (t_kind t); try congruence.
  - destruct (ga_p a), (ga_k a); try discriminate. eapply ring_gbest_ok; eauto.
  - destruct (ga_p a), (ga_r a); try discriminate. unfold von_neumann_gbest in H.
    destruct (z0 <? 0)%Z; try discriminate. eapply ring_gbest_ok; eauto.
  - unfold pyramid_gbest in H. destruct (Nat.ltb _ _).
    + injection H as <- H. bind_inv.
      destruct (np_min_spec _ _ N E1) as (M1 & M2 & M3). repeat split; auto.
    + destruct (if needs_neighbors t then _ else _) as [t1 [rows|x]] eqn:E; [|discriminate].
      assert (T1 : exists nb, t_nb t1 = Some nb /\ nb_rows nb = rows).
      { destruct (needs_neighbors t).
        - destruct (te_delaunay _ _); try discriminate. injection E as <- <-. eexists; split; reflexivity.
        - destruct (t_nb t) eqn:Q; try discriminate. injection E as <- <-. eauto. }
      destruct T1 as (nb & T1 & <-). injection H as <- H.
      destruct (neighborhood_gbest_ok _ _ _ _ _ N H) as (-> & I & _ & B).
      repeat split; auto. intros SN (nb' & Q & C) v V. rewrite T1 in Q. injection Q as <-.
      apply In_nth_error in V. destruct V as [i V].
      destruct (C i) as (r & R1 & R2). { apply nth_error_lt in V. flia. } eauto.
  - destruct (ga_k a); try discriminate. unfold random_gbest in H.
    destruct (if needs_neighbors t then _ else _) as [t1 [rows|x]] eqn:E; [|discriminate].
    assert (T1 : exists nb, t_nb t1 = Some nb /\ nb_rows nb = rows).
    { destruct (needs_neighbors t).
      - destruct (random_adj _ _ _ _); try discriminate. injection E as <- <-. eexists; split; reflexivity.
      - destruct (t_nb t) eqn:Q; try discriminate. injection E as <- <-. eauto. }
    destruct T1 as (nb & T1 & <-). injection H as <- H.
    destruct (neighborhood_gbest_ok _ _ _ _ _ N H) as (-> & I & _ & B).
    repeat split; auto. intros SN (nb' & Q & C) v V. rewrite T1 in Q. injection Q as <-.
    apply In_nth_error in V. destruct V as [i V].
    destruct (C i) as (r & R1 & R2). { apply nth_error_lt in V. flia. } eauto.
Qed.

Lemma static_rows_kept : forall te a t nb (s : fswarm) t' r, t_static t = true -> t_nb t = Some nb ->
  (t_kind t = Pyramid -> s_d s < s_n s) ->
  compute_gbest te a t s = (t', r) -> exists nb', t_nb t' = Some nb' /\ nb_rows nb' = nb_rows nb.
Proof.
  intros te a t nb s t' r S E P H.
  assert (R : forall p k, ring_gbest te p k t s = (t', r) -> exists nb', t_nb t' = Some nb' /\ nb_rows nb' = nb_rows nb).
  { clear - S E. intros p k H. unfold ring_gbest, needs_neighbors in H. rewrite S, E in H. cbn [andb orb negb] in H.
    destruct (k =? 1)%Z.
    - destruct (max_dims <=? nb_ndim nb); injection H as <- _; eauto. eexists; split; reflexivity.
    - destruct (nb_ndim nb =? 2); injection H as <- _; eauto. }
  unfold compute_gbest in H. destruct (t_kind t) eqn:K.
  - unfold star_gbest in H. rewrite E in H. injection H as <- _. eauto.
  - destruct (ga_p a), (ga_k a); try (injection H as <- _; eauto). eauto.
  - destruct (ga_p a), (ga_r a); try (injection H as <- _; eauto). unfold von_neumann_gbest in H.
    destruct (z0 <? 0)%Z; [injection H as <- _; eauto|eauto].
  - unfold pyramid_gbest, needs_neighbors in H. rewrite S, E in H. cbn [andb orb negb] in H.
    specialize (P eq_refl). destruct (Nat.ltb_spec (s_n s) (s_d s + 1)); [lia|]. injection H as <- _; eauto.
  - destruct (ga_k a); [|injection H as <- _; eauto]. unfold random_gbest, needs_neighbors in H. rewrite S, E in H. cbn [andb orb negb] in H.
    injection H as <- _; eauto.
Qed.
Lemma ring_gbest_nb : forall te p k t (s : fswarm) t' g, ring_gbest te p k t s = (t', Ok g) ->
  exists nb, t_nb t' = Some nb.
Proof.
  intros te p k t s t' g H. unfold ring_gbest in H. destruct (needs_neighbors t).
  - destruct (k <? 1)%Z; try discriminate. destruct (te_knn te p (Z.to_nat k) (s_position s)); try discriminate.
    destruct (k =? 1)%Z; cbn in H; injection H as <- _; eexists; reflexivity.
  - destruct (t_nb t) as [nb|] eqn:Q; try discriminate. destruct (k =? 1)%Z.
    + destruct (max_dims <=? nb_ndim nb); try discriminate. injection H as <- _; eexists; reflexivity.
    + destruct (nb_ndim nb =? 2); try discriminate. injection H as <- _; eauto.
Qed.
Lemma compute_gbest_nb : forall te a t (s : fswarm) t' g, compute_gbest te a t s = (t', Ok g) ->
  exists nb, t_nb t' = Some nb.
Proof.
  intros te a t s t' g H. unfold compute_gbest in H. destruct (t_kind t).
  - unfold star_gbest in H. injection H as <- _. destruct (t_nb t) eqn:Q; [eauto|eexists; reflexivity].
  - destruct (ga_p a); try discriminate. destruct (ga_k a); try discriminate. eapply ring_gbest_nb; eauto.
  - destruct (ga_p a); try discriminate. destruct (ga_r a); try discriminate. unfold von_neumann_gbest in H.
    destruct (z0 <? 0)%Z; try discriminate. eapply ring_gbest_nb; eauto.
  - unfold pyramid_gbest in H. destruct (s_n s <? s_d s + 1). { injection H as <- _; eexists; reflexivity. }
    destruct (needs_neighbors t).
    + destruct (te_delaunay te (s_position s)); try discriminate. injection H as <- _; eexists; reflexivity.
    + destruct (t_nb t) eqn:Q; try discriminate. injection H as <- _; eauto.
  - destruct (ga_k a); try discriminate. unfold random_gbest in H. destruct (needs_neighbors t).
    + destruct (random_adj 1 (s_n s) z (te_choice te)); try discriminate. injection H as <- _; eexists; reflexivity.
    + destruct (t_nb t) eqn:Q; try discriminate. injection H as <- _; eauto.
Qed.
