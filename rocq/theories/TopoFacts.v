(** Topologies: neighbourhood optima, neighbour-list reuse, the axis-growing Ring, and
    coverage of nearest-neighbour queries. *)
From Coq Require Import String ZArith List Arith Bool Lia Reals Lra.
From Verif Require Import Prelude ListFacts F64 F64Facts Num Np NpFacts Handlers Swarms Operators
  Generators Topology Optimizers Spec RunFacts PbestFacts ShapeFacts GbestFacts RunBest RunMain RunResults RunStop RunMono.
Import ListNotations.
Local Close Scope R_scope.
Local Open Scope string_scope.
Local Open Scope list_scope.
Local Open Scope nat_scope.

(** *** C32: best neighbour per row *)
Lemma neighborhood_rows : forall (s : fswarm) rows bp bc np, nonan (s_pbest_cost s) ->
  neighborhood_gbest s rows = Ok (bp, bc, np) ->
  exists m, bp = BPMat m /\ Forall2 (fun row r => exists j v, leads (s_pbest_cost s) row j v /\ nth_error (s_pbest_pos s) j = Some r) rows m /\
    (exists row j, In row rows /\ In j row /\ nth_error (s_pbest_cost s) j = Some bc) /\
    (forall row k w, In row rows -> In k row -> nth_error (s_pbest_cost s) k = Some w -> fle bc w = true).
Proof.
  intros s rows bp bc np N H. unfold neighborhood_gbest in H. apply bind_Ok in H. destruct H as (bn & E & H).
  destruct (pick_best_ok _ _ _ _ _ N H) as (_ & (a & Ia & Ea) & LE & m & -> & FM).
  exists m. split; auto.
  assert (FB : Forall2 (fun row j => best_of (s_pbest_cost s) row = Ok j) rows bn) by (apply mapM_Ok; auto).
  assert (G : Forall2 (fun row j => exists v, leads (s_pbest_cost s) row j v) rows bn).
  { clear - FB N. induction FB; constructor; auto. apply best_of_leads; auto. }
  split; [|split].
  - clear - G FM. revert m FM. induction G; intros m FM; inversion FM; subst; constructor; eauto.
    exists y. destruct H as (v & G1). eauto.
  - clear - G Ia Ea. revert Ia. induction G; intros Ia; [destruct Ia|destruct Ia as [<-|Ia]].
    + exists x, y. destruct H as (v & H). destruct (leads_least _ _ _ _ H) as (H1 & _). repeat split; auto. left; auto.
    + destruct (IHG Ia) as (row & j & I1 & I2 & I3). exists row, j. repeat split; auto. right; auto.
  - intros row k w Ir Ik Ek. clear - G Ir Ik Ek LE.
    induction G; [destruct Ir|destruct Ir as [<-|Ir]].
    + destruct H as (v & H). destruct (leads_least _ _ _ _ H) as (H1 & H2 & H3). pose proof (H3 _ _ Ik Ek). pose proof (LE y v (or_introl eq_refl) H2). forder.
    + apply IHG; auto. intros a v Ia Ev. apply (LE a v); auto. right; auto.
Qed.

(** *** C33: reuse of neighbour lists *)
Definition neighbor_kind (t : topology) : Prop := t_kind t <> Star.

Lemma static_oracle_free : forall te te' a t nb (s : fswarm), t_static t = true -> t_nb t = Some nb ->
  compute_gbest te a t s = compute_gbest te' a t s.
Proof.
  intros te te' a t nb s S E. unfold compute_gbest, von_neumann_gbest, ring_gbest, pyramid_gbest, random_gbest, needs_neighbors.
  rewrite S, E. reflexivity.
Qed.
(** The result of a static topology is that of its stored lists. *)
Lemma static_uses_rows : forall te a t nb (s : fswarm), t_static t = true -> t_nb t = Some nb ->
  t_kind t = Random \/ (t_kind t = Pyramid /\ s_d s < s_n s) -> forall t' g,
  compute_gbest te a t s = (t', Ok g) -> neighborhood_gbest s (nb_rows nb) = Ok g.
Proof.
  intros te a t nb s S E K t' g H. unfold compute_gbest in H. destruct K as [K|[K L]]; rewrite K in H.
  - destruct (ga_k a); [|discriminate]. unfold random_gbest, needs_neighbors in H. rewrite S, E in H. injection H as _ H; auto.
  - unfold pyramid_gbest, needs_neighbors in H. rewrite S, E in H.
    destruct (Nat.ltb_spec (s_n s) (s_d s + 1)); [lia|]. injection H as _ H; auto.
Qed.
Lemma static_ring_uses_rows : forall te a t nb (s : fswarm) k, t_static t = true -> t_nb t = Some nb ->
  t_kind t = Ring -> ga_k a = Some k -> k <> 1%Z -> forall t' g,
  compute_gbest te a t s = (t', Ok g) -> neighborhood_gbest s (nb_rows nb) = Ok g.
Proof.
  intros te a t nb s k S E K Ek Nk t' g H. unfold compute_gbest in H. rewrite K, Ek in H.
  destruct (ga_p a); [|discriminate]. unfold ring_gbest, needs_neighbors in H. rewrite S, E in H. cbn in H.
  destruct (Z.eqb_spec k 1); [contradiction|]. destruct (nb_ndim nb =? 2); [|discriminate]. injection H as _ H; auto.
Qed.
(** Dynamic: the stored lists are irrelevant. *)
Lemma dynamic_forgets : forall te a t (s : fswarm) nb, t_static t = false ->
  let t2 := mkTopo (t_kind t) false nb in
  snd (compute_gbest te a t s) = snd (compute_gbest te a t2 s) /\
  (t_kind t <> Star -> forall g, snd (compute_gbest te a t s) = Ok g ->
   fst (compute_gbest te a t s) = fst (compute_gbest te a t2 s)).
Proof.
  intros te a t s nb S t2. destruct t as [kd st nb0]. cbn in S. subst st. cbn in t2. unfold compute_gbest; cbn [t_kind]; subst t2. cbn [t_kind].
  destruct kd.
  - split; [reflexivity|]. congruence.
  - destruct (ga_p a); [|split; [reflexivity|discriminate]]. destruct (ga_k a); [|split; [reflexivity|discriminate]].
    unfold ring_gbest, needs_neighbors. cbn [t_static andb orb negb].
    destruct (z0 <? 1)%Z; [split; [reflexivity|discriminate]|].
    destruct (te_knn te z (Z.to_nat z0) (s_position s)); [|split; [reflexivity|discriminate]].
    destruct (z0 =? 1)%Z; split; reflexivity.
  - destruct (ga_p a); [|split; [reflexivity|discriminate]]. destruct (ga_r a); [|split; [reflexivity|discriminate]].
    unfold von_neumann_gbest, ring_gbest, needs_neighbors. cbn [t_static andb orb negb].
    destruct (z0 <? 0)%Z; [split; [reflexivity|discriminate]|].
    set (kk := Z.of_nat _). destruct (kk <? 1)%Z; [split; [reflexivity|discriminate]|].
    destruct (te_knn te z (Z.to_nat kk) (s_position s)); [|split; [reflexivity|discriminate]].
    destruct (kk =? 1)%Z; split; reflexivity.
  - unfold pyramid_gbest, needs_neighbors. cbn [t_static andb orb negb]. destruct (s_n s <? s_d s + 1); [split; reflexivity|].
    destruct (te_delaunay te (s_position s)); split; try reflexivity. discriminate.
  - destruct (ga_k a); [|split; [reflexivity|discriminate]]. unfold random_gbest, needs_neighbors. cbn [t_static andb orb negb].
    destruct (random_adj 1 (s_n s) z (te_choice te)); split; try reflexivity. discriminate.
Qed.

(** *** C32 for every neighbour-based topology *)
Definition one_neighbor (a : gargs) (t : topology) : Prop :=
  (t_kind t = Ring /\ ga_k a = Some 1%Z) \/ (t_kind t = VonNeumann /\ ga_r a = Some 0%Z).

Lemma delannoy_0 : forall d, delannoy d 0 = 1. Proof. destruct d; reflexivity. Qed.
Lemma delannoy_0_l : forall r, delannoy 0 r = 1. Proof. destruct r; reflexivity. Qed.

Lemma ring_gbest_rows : forall te p k t (s : fswarm) t' g, k <> 1%Z -> ring_gbest te p k t s = (t', Ok g) ->
  exists nb, t_nb t' = Some nb /\ neighborhood_gbest s (nb_rows nb) = Ok g.
Proof.
  intros te p k t s t' g Nk H. unfold ring_gbest in H. apply Z.eqb_neq in Nk. rewrite Nk in H.
  destruct (needs_neighbors t).
  - destruct (k <? 1)%Z; [discriminate|]. destruct (te_knn te p (Z.to_nat k) (s_position s)); [|discriminate].
    cbn in H. injection H as <- H. eexists. split; [reflexivity|]. exact H.
  - destruct (t_nb t) as [nb|] eqn:E; [|discriminate]. destruct (nb_ndim nb =? 2); [|discriminate].
    injection H as <- H. eauto.
Qed.
Lemma ring_gbest_one : forall te p t (s : fswarm) t' g, ring_gbest te p 1 t s = (t', Ok g) ->
  pick_best s (seq 0 (s_n s)) = Ok g.
Proof.
  intros te p t s t' g H. unfold ring_gbest in H. cbn [Z.eqb] in H. change (Z.eqb 1 1) with true in H.
  destruct (if needs_neighbors t then _ else _) as [t1 [nb|x]]; [|discriminate].
  destruct (max_dims <=? nb_ndim nb); [discriminate|]. injection H as _ H. auto.
Qed.

Lemma gbest_rows : forall te a t (s : fswarm) t' g, t_kind t <> Star ->
  compute_gbest te a t s = (t', Ok g) ->
  (exists nb, t_nb t' = Some nb /\ neighborhood_gbest s (nb_rows nb) = Ok g) \/
  (pick_best s (seq 0 (s_n s)) = Ok g /\
   (one_neighbor a t \/ (t_kind t = VonNeumann /\ s_d s = 0))) \/
  (t_kind t = Pyramid /\ s_n s <= s_d s /\
   exists i p c, np_argmin (N := F64num) (s_pbest_cost s) = Ok i /\ nth_error (s_pbest_pos s) i = Some p /\
     np_min (N := F64num) (s_pbest_cost s) = Ok c /\ g = (BPVec p, c, true)).
Proof.
  intros te a t s t' g NS H. unfold compute_gbest in H. destruct (t_kind t) eqn:K; [congruence| | | |].
  - destruct (ga_p a); [|discriminate]. destruct (ga_k a) eqn:Ek; [|discriminate].
    destruct (Z.eq_dec z0 1) as [->|Nk].
    + right; left. split. eapply ring_gbest_one; eauto. left. left. auto.
    + left. eapply ring_gbest_rows; eauto.
  - destruct (ga_p a); [|discriminate]. destruct (ga_r a) eqn:Er; [|discriminate]. unfold von_neumann_gbest in H.
    destruct (Z.ltb_spec z0 0); [discriminate|].
    destruct (Nat.eq_dec (delannoy (s_d s) (Z.to_nat z0)) 1) as [E|E].
    + right; left. rewrite E in H. split. eapply ring_gbest_one; eauto.
      destruct (s_d s) as [|d]; auto. left. right. split; auto. rewrite Er. f_equal.
      destruct (Z.to_nat z0) as [|r] eqn:Q; [lia|]. exfalso. cbn in E.
      assert (P : forall d r, 1 <= delannoy d r).
      { clear. induction d; intros [|r]; cbn; try lia. specialize (IHd r). lia. }
      pose proof (P d (S r)). pose proof (P d r). lia.
    + left. eapply ring_gbest_rows; eauto. lia.
  - unfold pyramid_gbest in H. destruct (Nat.ltb_spec (s_n s) (s_d s + 1)).
    + right; right. injection H as _ H. bind_inv. repeat split; auto. lia. do 3 eexists; eauto.
    + left. destruct (needs_neighbors t).
      * destruct (te_delaunay te (s_position s)); [|discriminate]. injection H as <- H. eexists. split; [reflexivity|]. exact H.
      * destruct (t_nb t) eqn:E; [|discriminate]. injection H as <- H. eauto.
  - destruct (ga_k a); [|discriminate]. unfold random_gbest in H. left. destruct (needs_neighbors t).
    + destruct (random_adj 1 (s_n s) z (te_choice te)); [|discriminate]. injection H as <- H. eexists. split; [reflexivity|]. exact H.
    + destruct (t_nb t) eqn:E; [|discriminate]. injection H as <- H. eauto.
Qed.

(** *** C34 *)
Definition axes (t : topology) : nat := match t_nb t with None => 1 | Some nb => nb_ndim nb end.

Lemma ring_axes : forall te p t (s : fswarm) t' r, t_static t = true ->
  ring_gbest te p 1 t s = (t', r) ->
  (axes t' = axes t /\ (exists x, r = Err x)) \/ (axes t' = S (axes t) /\ axes t < max_dims).
Proof.
  intros te p t s t' r S H. unfold ring_gbest in H. change (Z.eqb 1 1) with true in H. change (Z.ltb 1 1) with false in H.
  unfold needs_neighbors in H. rewrite S in H. cbn [andb orb negb] in H. destruct (t_nb t) as [nb|] eqn:E.
  - cbn [andb orb] in H. destruct (Nat.leb_spec max_dims (nb_ndim nb)).
    + injection H as <- <-. left. eauto.
    + injection H as <- <-. right. unfold axes. rewrite E. cbn. auto.
  - cbn [andb orb] in H. destruct (te_knn te p (Z.to_nat 1) (s_position s)); cbv beta iota in H.
    + assert (Q : (max_dims <=? nb_ndim {| nb_rows := a; nb_ndim := 1 |}) = false) by reflexivity.
      rewrite Q in H. injection H as <- <-. right. unfold axes. rewrite E. cbn. unfold max_dims. split; auto. lia.
    + injection H as <- <-. left. eauto.
Qed.
Lemma one_neighbor_axes : forall te a t (s : fswarm) t' r, t_static t = true -> one_neighbor a t ->
  compute_gbest te a t s = (t', r) ->
  (axes t' = axes t /\ (exists x, r = Err x)) \/ (axes t' = S (axes t) /\ axes t < max_dims).
Proof.
  intros te a t s t' r S [[K E]|[K E]] H; unfold compute_gbest in H; rewrite K, E in H.
  - destruct (ga_p a); [|injection H as <- <-; left; eauto]. eapply ring_axes; eauto.
  - destruct (ga_p a); [|injection H as <- <-; left; eauto]. unfold von_neumann_gbest in H.
    change (Z.ltb 0 0) with false in H. change (Z.to_nat 0) with 0 in H. rewrite delannoy_0 in H. eapply ring_axes; eauto.
Qed.

Record XInv (c : config) (o0 o : ostate) : Prop := {
  xi_topo : same_topo (o_top o0) (o_top o);
  xi_ax : length (o_cost_history o) + axes (o_top o0) <= length (o_cost_history o0) + axes (o_top o);
  xi_max : axes (o_top o0) <= max_dims -> axes (o_top o) <= max_dims
}.
Lemma XInv_gbest : forall c te o0 o (s : fswarm) t' r (e : ostate), XInv c o0 o -> t_static (o_top o0) = true -> one_neighbor (gbest_args c) (o_top o0) ->
  compute_gbest te (gbest_args c) (o_top o) s = (t', r) -> o_top e = t' ->
  length (o_cost_history e) <= length (o_cost_history o) + (match r with Ok _ => 1 | Err _ => 0 end) ->
  XInv c o0 e.
Proof.
  intros c te o0 o s t' r e [T A M] S ON H ET LE.
  assert (S' : t_static (o_top o) = true) by (destruct T; congruence).
  assert (ON' : one_neighbor (gbest_args c) (o_top o)) by (destruct T as [TK _]; unfold one_neighbor in *; rewrite TK; auto).
  pose proof (compute_gbest_kind _ _ _ _ _ _ H) as K. subst t'.
  destruct (one_neighbor_axes _ _ _ _ _ _ S' ON' H) as [(E & x & ->)|(E & L)].
  - constructor. eapply same_topo_trans; eauto. lia. lia.
  - constructor. eapply same_topo_trans; eauto. destruct r; lia. lia.
Qed.
Lemma optimize_axes : forall c e pool iters o o' r, optimize c e pool iters o = (o', r) ->
  t_static (o_top o) = true -> one_neighbor (gbest_args c) (o_top o) -> XInv c o o'.
Proof.
  intros c e pool iters o o' r H S ON.
  destruct (optimize_rule c e pool iters o (fun _ s _ => XInv c o s) (fun _ s _ => XInv c o s)
     (XInv c o) (fun s _ => XInv c o s)) with (o' := o') (r := r) as [(_ & -> & _)|[(_ & Q & ->)|(_ & x & Q & ->)]]; auto.
  - destruct (started_facts c o) as (E1 & E2 & _). constructor; rewrite ?E1, ?E2; auto. apply same_topo_refl.
  - intros i s q _ I. pose proof (evaluate_cases c e pool i s q) as EC.
    destruct (evaluate_swarm c e pool i s q) as [o1 q1|o1|o1 x].
    + destruct EC as (cost & pp & pc & t & bp & bc & np & (_ & _ & E3 & ->) & _). eapply XInv_gbest; eauto; cbn; auto.
      rewrite app_length. cbn. lia.
    + destruct EC as (cost & pp & pc & t & bp & bc & np & (_ & _ & E3 & ->) & _). eapply XInv_gbest; eauto; cbn; auto.
      rewrite app_length. cbn. lia.
    + destruct EC as [x E|cost x E1 E2|cost pp pc t x E1 E2 E3]; auto.
      * destruct I. constructor; auto.
      * eapply XInv_gbest; eauto; cbn; auto. lia.
  - intros i s q _ I. pose proof (update_cases c e iters i s q) as UC.
    destruct (update_swarm c e iters i s q) as [o1 q1|o1|o1 x].
    + destruct UC as (_ & CE & _). destruct I, CE. constructor; rewrite ?ce_top, ?ce_ch; auto.
    + contradiction.
    + destruct UC as (CE & _). destruct I, CE. constructor; rewrite ?ce_top, ?ce_ch; auto.
  - unfold start_memory. destruct (c_kind c); constructor; cbn; auto using same_topo_refl.
Qed.
Lemma XInv_trans : forall c a b d, XInv c a b -> XInv c b d -> XInv c a d.
Proof.
  intros c a b d [A1 A2 A3] [B1 B2 B3]. constructor. eapply same_topo_trans; eauto. lia. auto.
Qed.
Lemma Session_axes : forall c o calls o', Session c o calls o' ->
  t_static (o_top o) = true -> one_neighbor (gbest_args c) (o_top o) -> XInv c o o'.
Proof.
  induction 1 as [o|o l o1 k o2 r SS IH H]; intros S ON.
  - constructor; auto. apply same_topo_refl.
  - specialize (IH S ON). eapply XInv_trans; eauto. destruct (xi_topo _ _ _ IH) as [T1 T2].
    eapply optimize_axes; [exact H| |]. congruence. unfold one_neighbor in *. rewrite T1. auto.
Qed.
Lemma args_k : forall c k, ga_k (gbest_args c) = Some k -> int_option c "k" k.
Proof. unfold gbest_args, int_option. intros c k H. destruct (c_kind c); cbn in H; try discriminate; unfold as_int in H; destruct (dget (c_options c) "k") as [[]|]; try discriminate; injection H as ->; reflexivity. Qed.
Lemma args_p : forall c k, ga_p (gbest_args c) = Some k -> int_option c "p" k.
Proof. unfold gbest_args, int_option. intros c k H. destruct (c_kind c); cbn in H; try discriminate; unfold as_int in H; destruct (dget (c_options c) "p") as [[]|]; try discriminate; injection H as ->; reflexivity. Qed.
Lemma args_r : forall c k, ga_r (gbest_args c) = Some k -> int_option c "r" k.
Proof. unfold gbest_args, int_option. intros c k H. destruct (c_kind c); cbn in H; try discriminate; unfold as_int in H; destruct (dget (c_options c) "r") as [[]|]; try discriminate; injection H as ->; reflexivity. Qed.
Lemma one_neighbor_limit : forall c top dr o calls o', construct c top dr = Ok o -> t_nb top = None ->
  t_static top = true -> one_neighbor (gbest_args c) top -> Session c o calls o' ->
  length (o_cost_history o') <= 31.
Proof.
  intros c top dr o calls o' H N S ON SS. apply construct_inv in H. destruct H as (sw & _ & -> & _).
  pose proof (Session_axes _ _ _ _ SS S ON) as [_ A M]. cbn in A, M. unfold axes in A, M. rewrite N in A, M.
  unfold max_dims in M. lia.
Qed.
Lemma one_neighbor_configured : forall c top dr o calls o', construct c top dr = Ok o -> t_nb top = None ->
  t_static top = true ->
  (t_kind top = Ring /\ c_kind c <> GlobalBest /\ int_option c "k" 1) \/ (t_kind top = VonNeumann /\ c_kind c = General /\ int_option c "r" 0) ->
  Session c o calls o' ->
  length (o_cost_history o') <= 31.
Proof.
  intros c top dr o calls o' H N S ON SS. apply (one_neighbor_limit c top dr o calls o' H N S); auto.
  destruct ON as [(K & G & I)|(K & G & I)]; [left|right]; split; auto; unfold gbest_args, int_option in *.
  - destruct (c_kind c); try congruence; cbn; rewrite I; reflexivity.
  - rewrite G. cbn. rewrite I. reflexivity.
Qed.
(** Neighbour lists of the star, and of the pyramid with few particles. *)
Lemma complete_lists : forall te a t (s : fswarm) t' g, (t_kind t = Star /\ t_nb t = None) \/ (t_kind t = Pyramid /\ s_n s <= s_d s) ->
  compute_gbest te a t s = (t', g) -> exists nb, t_nb t' = Some nb /\ complete (s_n s) (nb_rows nb).
Proof.
  intros te a t s t' g H E. assert (Q : t_nb t' = Some (complete_nb (s_n s))).
  { unfold compute_gbest in E. destruct H as [[K N]|[K L]]; rewrite K in E.
    - unfold star_gbest in E. rewrite N in E. injection E as <- _. reflexivity.
    - unfold pyramid_gbest in E. destruct (Nat.ltb_spec (s_n s) (s_d s + 1)); [|lia]. injection E as <- _. reflexivity. }
  exists (complete_nb (s_n s)). split; auto. unfold complete, complete_nb. cbn [nb_rows]. split; [apply repeat_length|].
  intros i row R. apply nth_error_In, repeat_spec in R. subst row. split; [apply seq_length|]. intros j J.
  assert (X : nth_error (seq 0 (s_n s)) j = Some (nth j (seq 0 (s_n s)) 0)) by (apply nth_error_nth'; rewrite seq_length; exact J).
  rewrite X, seq_nth by exact J. reflexivity.
Qed.
(** The pyramid with few particles: all follow the best personal best. *)
Lemma pyramid_few : forall te a t (s : fswarm) t' bp bc np, t_kind t = Pyramid -> s_n s <= s_d s -> no_nan (s_pbest_cost s) ->
  compute_gbest te a t s = (t', Ok (bp, bc, np)) ->
  exists j v p, leads (s_pbest_cost s) (seq 0 (length (s_pbest_cost s))) j v /\ feq bc v = true /\ nth_error (s_pbest_pos s) j = Some p /\ bp = BPVec p /\ np = true.
Proof.
  intros te a t s t' bp bc np K L NN E. unfold compute_gbest in E. rewrite K in E. unfold pyramid_gbest in E.
  destruct (Nat.ltb_spec (s_n s) (s_d s + 1)); [|lia]. injection E as _ E.
  apply bind_Ok in E. destruct E as (j & E1 & E). apply bind_Ok in E. destruct E as (p & E2 & E). apply bind_Ok in E. destruct E as (m & E3 & E). injection E as <- <- <-.
  apply of_option_Ok in E2.
  assert (N1 : nonan (s_pbest_cost s)) by (unfold nonan; apply Forall_forall; exact NN).
  destruct (np_argmin_spec _ _ N1 E1) as (v & V & M1 & M2). destruct (np_min_spec _ _ N1 E3) as (I1 & I2 & I3).
  exists j, v, p. split; [|split; auto].
  2:{ apply nth_error_In in V as V'. specialize (I2 _ V'). apply In_nth_error in I1. destruct I1 as (q & I1). specialize (M1 _ _ I1). forder. }
  exists j. split.
  { assert (X : nth_error (seq 0 (length (s_pbest_cost s))) j = Some (nth j (seq 0 (length (s_pbest_cost s))) 0)).
    { apply nth_error_nth'. rewrite seq_length. apply nth_error_lt in V. exact V. }
    rewrite X, seq_nth by (apply nth_error_lt in V; exact V). reflexivity. }
  split; auto. intros q k w Q W.
  assert (q < length (s_pbest_cost s)) by (apply nth_error_lt in Q; rewrite seq_length in Q; exact Q).
  assert (X : nth_error (seq 0 (length (s_pbest_cost s))) q = Some (nth q (seq 0 (length (s_pbest_cost s))) 0)) by (apply nth_error_nth'; rewrite seq_length; auto).
  rewrite seq_nth in X by auto. cbn in X. pose proof (eq_trans (eq_sym X) Q) as EQ. injection EQ as <-. split; [eauto|]. intros. eauto.
Qed.
(** With one neighbour every particle follows its own personal best. *)
Lemma Forall2_nth_l : forall A B (P : A -> B -> Prop) l l', Forall2 P l l' -> forall i x, nth_error l i = Some x -> exists y, nth_error l' i = Some y /\ P x y.
Proof. intros A B P l l' H. induction H as [|a b l l' R H IH]; intros [|i] x X; cbn in X; try discriminate; [injection X as ->; cbn; eauto|exact (IH i x X)]. Qed.
Lemma np_take_all : forall A (l : list A) n r, length l = n -> np_take l (seq 0 n) = Ok r -> r = l.
Proof.
  intros A l n r L H. apply np_take_Ok in H. apply nth_error_ext. intros i.
  destruct (Nat.lt_ge_cases i n) as [I|I].
  - assert (X : nth_error (seq 0 n) i = Some i).
    { rewrite (nth_error_nth' _ 0) by (rewrite seq_length; exact I). rewrite seq_nth by exact I. reflexivity. }
    destruct (Forall2_nth_l _ _ _ _ _ H _ _ X) as (y & Y & Z). congruence.
  - assert (Q : n = length r) by (rewrite <- (seq_length n 0) at 1; clear -H; induction H; cbn; congruence).
    rewrite (proj2 (nth_error_None l i)), (proj2 (nth_error_None r i)); auto; lia.
Qed.
Lemma one_neighbor_self : forall te a t (s : fswarm) t' bp bc np, one_neighbor a t -> no_nan (s_pbest_cost s) ->
  length (s_pbest_cost s) = s_n s -> length (s_pbest_pos s) = s_n s -> compute_gbest te a t s = (t', Ok (bp, bc, np)) ->
  bp = BPMat (s_pbest_pos s) /\ In bc (s_pbest_cost s) /\ (forall w, In w (s_pbest_cost s) -> fle bc w = true).
Proof.
  intros te a t s t' bp bc np ON NN L1 L2 E.
  assert (PB : pick_best s (seq 0 (s_n s)) = Ok (bp, bc, np)).
  { unfold compute_gbest in E. destruct ON as [[K G]|[K G]]; rewrite K in E.
    - destruct (ga_p a); [|discriminate]. rewrite G in E. eapply ring_gbest_one; eauto.
    - destruct (ga_p a); [|discriminate]. rewrite G in E. unfold von_neumann_gbest in E. cbn [Z.ltb Z.compare Z.to_nat] in E.
      replace (delannoy (s_d s) 0) with 1 in E by (destruct (s_d s); reflexivity). eapply ring_gbest_one; eauto. }
  unfold pick_best in PB. apply bind_Ok in PB. destruct PB as (cs & P1 & PB). apply bind_Ok in PB. destruct PB as (m & P2 & PB). apply bind_Ok in PB. destruct PB as (p & P3 & PB).
  injection PB as <- <- <-. apply (np_take_all _ _ _ _ L1) in P1. apply (np_take_all _ _ _ _ L2) in P3. subst cs p.
  assert (N1 : nonan (s_pbest_cost s)) by (unfold nonan; apply Forall_forall; exact NN).
  destruct (np_min_spec _ _ N1 P2) as (I1 & I2 & _). auto.
Qed.
