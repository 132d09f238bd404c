(** Static topologies over whole runs. *)
From Coq Require Import String ZArith List Arith Bool Lia Sorted.
From Verif Require Import Prelude ListFacts F64 F64Facts Num Np NpFacts Handlers Swarms Operators
  Generators Topology Optimizers Spec RunFacts PbestFacts ShapeFacts GbestFacts RunBest RunMain RunResults RunStop RunMono TopoFacts RunMisc.
Import ListNotations.

Lemma static_eval_any : forall c e pool i o q f f', t_static (o_top o) = true -> t_nb (o_top o) <> None \/ f i = f' i ->
  evaluate_swarm c (with_tops e f) pool i o q = evaluate_swarm c (with_tops e f') pool i o q.
Proof.
  intros c e pool i o q f f' S N. unfold evaluate_swarm. cbn [e_obj e_top e_tree with_tops].
  destruct (compute_objective_function _ _ _) as [cost|x]; auto. destruct (compute_pbest _) as [[pp pc]|x]; auto.
  assert (E : forall s, compute_gbest (f i) (gbest_args c) (o_top o) s = compute_gbest (f' i) (gbest_args c) (o_top o) s).
  { intros s. destruct N as [N|N]; [|rewrite N; auto]. destruct (t_nb (o_top o)) as [nb|] eqn:E; [|congruence].
    eapply static_oracle_free; eauto. }
  rewrite E. reflexivity.
Qed.
Lemma update_tops : forall c e iters i o q f f',
  update_swarm c (with_tops e f) iters i o q = update_swarm c (with_tops e f') iters i o q.
Proof. reflexivity. Qed.
Lemma static_loop_any : forall c e pool iters f f' m i o q, t_static (o_top o) = true ->
  t_nb (o_top o) <> None \/ f i = f' i -> 
  opt_loop c (with_tops e f) pool iters m i o q = opt_loop c (with_tops e f') pool iters m i o q.
Proof.
  intros c e pool iters f f'. induction m; intros i o q S N; cbn [opt_loop]; auto.
  unfold iteration. rewrite (static_eval_any c e pool i o q f f') by auto.
  pose proof (evaluate_cases c (with_tops e f') pool i o q) as EC.
  destruct (evaluate_swarm c (with_tops e f') pool i o q) as [o1 q1|o1|o1 x]; auto.
  destruct EC as (cost & pp & pc & t & bp & bc & np & (_ & _ & G & ->) & _).
  set (o1 := populate_history _ _ _ _ _ _) in *.
  rewrite (update_tops c e iters i o1 q1 f f').
  pose proof (update_cases c (with_tops e f') iters i o1 q1) as UC.
  destruct (update_swarm c (with_tops e f') iters i o1 q1) as [o2 q2|o2|o2 x]; auto.
  destruct UC as (_ & CE & _). apply IHm.
  - rewrite (ce_top _ _ CE). subst o1. cbn. apply compute_gbest_kind in G. destruct G as [_ ->]. auto.
  - left. rewrite (ce_top _ _ CE). subst o1. cbn. apply compute_gbest_nb in G. destruct G as [nb ->]. discriminate.
Qed.
(** C33: once the lists are stored no query is made; before that, only the first one counts. *)
Theorem static_ignores_queries : forall c e pool iters o f f', t_static (o_top o) = true ->
  t_nb (o_top o) <> None \/ f 0 = f' 0 ->
  optimize c (with_tops e f) pool iters o = optimize c (with_tops e f') pool iters o.
Proof.
  intros c e pool iters o f f' S N. unfold optimize. rewrite (static_loop_any c e pool iters f f'); auto.
  - unfold start_pbest, start_memory. destruct (c_kind c); auto.
  - unfold start_pbest, start_memory. destruct (c_kind c); auto.
Qed.

(** The stored lists themselves survive. *)
Record KInv (o0 o : ostate) : Prop := {
  ki_static : t_static (o_top o) = t_static (o_top o0);
  ki_kind : t_kind (o_top o) = t_kind (o_top o0);
  ki_n : s_n (o_swarm o) = s_n (o_swarm o0);
  ki_d : s_d (o_swarm o) = s_d (o_swarm o0);
  ki_rows : t_static (o_top o0) = true -> (t_kind (o_top o0) = Pyramid -> s_d (o_swarm o0) < s_n (o_swarm o0)) ->
     forall nb, t_nb (o_top o0) = Some nb -> exists nb', t_nb (o_top o) = Some nb' /\ nb_rows nb' = nb_rows nb
}.
Lemma KInv_refl : forall o, KInv o o.
Proof. intros o. constructor; auto. intros; eauto. Qed.
Lemma KInv_trans : forall a b c, KInv a b -> KInv b c -> KInv a c.
Proof.
  intros a b c [A1 A2 A3 A4 A5] [B1 B2 B3 B4 B5]. constructor; try congruence.
  intros S P nb E. destruct (A5 S P nb E) as (nb1 & E1 & R1).
  destruct (B5 ltac:(congruence)) with (nb := nb1) as (nb2 & E2 & R2); auto.
  - rewrite A2, A3, A4. auto.
  - exists nb2. split; congruence.
Qed.
Lemma KInv_gbest : forall te a o (s : fswarm) t r (o' : ostate), compute_gbest te a (o_top o) s = (t, r) ->
  s_n s = s_n (o_swarm o) -> s_d s = s_d (o_swarm o) -> o_top o' = t -> s_n (o_swarm o') = s_n (o_swarm o) ->
  s_d (o_swarm o') = s_d (o_swarm o) -> KInv o o'.
Proof.
  intros te a o s t r o' G N1 D1 T N2 D2. pose proof (compute_gbest_kind _ _ _ _ _ _ G) as [K1 K2]. subst t.
  constructor; try congruence. intros S P nb E. eapply (static_rows_kept te a (o_top o) nb s); eauto.
  rewrite N1, D1. auto.
Qed.
Lemma KInv_core : forall o o', core_eq o o' -> KInv o o'.
Proof. intros o o' H. destruct H. constructor; try congruence. intros. rewrite ce_top. eauto. Qed.
Lemma optimize_keeps : forall c e pool iters o o' r, optimize c e pool iters o = (o', r) -> KInv o o'.
Proof.
  intros c e pool iters o o' r H.
  assert (EK : forall i s q, KInv o s -> match evaluate_swarm c e pool i s q with
     | Next a _ => KInv o a | Break a => KInv o a | Raise a _ => KInv o a end).
  { intros i s q I. pose proof (evaluate_cases c e pool i s q) as EC.
    destruct (evaluate_swarm c e pool i s q) as [o1 q1|o1|o1 x].
    - destruct EC as (cost & pp & pc & t & bp & bc & np & (_ & _ & G & ->) & _).
      eapply KInv_trans; [exact I|]. eapply KInv_gbest; eauto.
    - destruct EC as (cost & pp & pc & t & bp & bc & np & (_ & _ & G & ->) & _).
      eapply KInv_trans; [exact I|]. eapply KInv_gbest; eauto.
    - destruct EC as [x E|cost x E1 E2|cost pp pc t x E1 E2 E3]; auto.
      + eapply KInv_trans; [exact I|]. constructor; auto. intros; eauto.
      + eapply KInv_trans; [exact I|]. eapply KInv_gbest; eauto. }
  destruct (optimize_rule c e pool iters o (fun _ s _ => KInv o s) (fun _ s _ => KInv o s)
     (KInv o) (fun s _ => KInv o s)) with (o' := o') (r := r) as [(_ & -> & _)|[(_ & Q & ->)|(_ & x & Q & ->)]]; auto.
  - destruct (started_facts c o) as (E1 & E2 & E3 & E4 & E5 & E6 & E7 & _).
    constructor; rewrite ?E1, ?E7; auto. intros; eauto.
  - intros i s q _ I. exact (EK i s q I).
  - intros i s q _ I. pose proof (update_cases c e iters i s q) as UC.
    destruct (update_swarm c e iters i s q) as [o1 q1|o1|o1 x].
    + destruct UC as (_ & CE & _). eapply KInv_trans; eauto. apply KInv_core; auto.
    + contradiction.
    + destruct UC as (CE & _). eapply KInv_trans; eauto. apply KInv_core; auto.
  - unfold start_memory. destruct (c_kind c); constructor; auto; intros; eauto.
Qed.
Theorem static_session_rows : forall c o calls o' nb, Session c o calls o' -> t_static (o_top o) = true ->
  (t_kind (o_top o) = Pyramid -> s_d (o_swarm o) < s_n (o_swarm o)) -> t_nb (o_top o) = Some nb ->
  exists nb', t_nb (o_top o') = Some nb' /\ nb_rows nb' = nb_rows nb.
Proof.
  intros c o calls o' nb S. assert (K : KInv o o').
  { induction S. apply KInv_refl. eapply KInv_trans; eauto. eapply optimize_keeps; eauto. }
  intros; eapply ki_rows; eauto.
Qed.
Theorem reset_keeps_topology : forall c dr o o', reset c dr o = Ok o' -> o_top o' = o_top o.
Proof. intros c dr o o' H. apply reset_inv in H. destruct H as (s & _ & ->). reflexivity. Qed.

(** *** The queries of a topology *)
Lemma sorted_seq : forall n a, StronglySorted lt (seq a n).
Proof. induction n; intros a; cbn; constructor; auto. apply Forall_forall. intros x I. apply in_seq in I. lia. Qed.
Lemma sorted_filter : forall (f : nat -> bool) l, StronglySorted lt l -> StronglySorted lt (filter f l).
Proof.
  intros f l H. induction H as [|a l H IH F]; cbn; [constructor|]. destruct (f a); auto. constructor; auto.
  rewrite Forall_forall in *. intros x I. apply filter_In in I. apply F, I.
Qed.
Lemma neighbor_query : forall te a t (s : fswarm) t' g nb, t_kind t <> Star -> needs_neighbors t = true ->
  (t_kind t = Pyramid -> s_d s < s_n s) ->
  compute_gbest te a t s = (t', Ok g) -> t_nb t' = Some nb ->
  match t_kind t with
  | Star => False
  | Ring => exists p k, ga_p a = Some p /\ ga_k a = Some k /\ te_knn te p (Z.to_nat k) (s_position s) = Ok (nb_rows nb)
  | VonNeumann => exists p r, ga_p a = Some p /\ ga_r a = Some (Z.of_nat r) /\
                    te_knn te p (delannoy (s_d s) r) (s_position s) = Ok (nb_rows nb)
  | Pyramid => te_delaunay te (s_position s) = Ok (nb_rows nb)
  | Random => exists k adj, ga_k a = Some k /\ random_adj 1 (s_n s) k (te_choice te) = Ok adj /\
                forall i row, nth_error (nb_rows nb) i = Some row -> StronglySorted lt row /\
                  forall j, In j row <-> j < s_n s /\ adj i j = true
  end.
Proof.
  intros te a t s t' g nb K S P H E.
  assert (RG : forall p k t', ring_gbest te p k t s = (t', Ok g) -> t_nb t' = Some nb ->
             te_knn te p (Z.to_nat k) (s_position s) = Ok (nb_rows nb)).
  { clear t' H E. intros p k t' H E. unfold ring_gbest in H. rewrite S in H.
    destruct (k <? 1)%Z; [discriminate|]. destruct (te_knn te p (Z.to_nat k) (s_position s)) as [rows|x]; [|discriminate].
    destruct (k =? 1)%Z; cbv beta iota in H.
    - destruct (max_dims <=? _); [discriminate|]. injection H as <- _. cbn in E. injection E as <-. reflexivity.
    - destruct (nb_ndim _ =? 2); [|discriminate]. injection H as <- _. cbn in E. injection E as <-. reflexivity. }
  unfold compute_gbest in H. destruct (t_kind t) eqn:KT; try contradiction.
  - destruct (ga_p a) as [p|]; [|discriminate]. destruct (ga_k a) as [k|]; [|discriminate]. exists p, k. eauto.
  - destruct (ga_p a) as [p|]; [|discriminate]. destruct (ga_r a) as [r|]; [|discriminate].
    unfold von_neumann_gbest in H. destruct (Z.ltb_spec r 0); [discriminate|]. exists p, (Z.to_nat r).
    rewrite Z2Nat.id by auto. split; auto. split; auto. specialize (RG _ _ _ H E). rewrite Nat2Z.id in RG. exact RG.
  - specialize (P eq_refl). unfold pyramid_gbest in H. destruct (Nat.ltb_spec (s_n s) (s_d s + 1)); [lia|].
    rewrite S in H. destruct (te_delaunay te (s_position s)) as [rows|]; [|discriminate].
    injection H as <- _. cbn in E. injection E as <-. reflexivity.
  - destruct (ga_k a) as [k|]; [|discriminate]. unfold random_gbest in H. rewrite S in H.
    destruct (random_adj 1 (s_n s) k (te_choice te)) as [adj|] eqn:RA; [|discriminate].
    injection H as <- _. cbn [t_nb set_nb] in E. injection E as <-. cbn [nb_rows]. exists k, adj. split; auto. split; auto.
    intros i row ER. unfold random_rows in ER. rewrite nth_error_map in ER.
    destruct (nth_error (seq 0 (s_n s)) i) as [i'|] eqn:Q; [|discriminate]. cbn in ER. injection ER as <-.
    assert (i < s_n s) by (pose proof (nth_error_lt _ _ _ Q) as L; rewrite seq_length in L; exact L).
    assert (i' = i). { pose proof (nth_error_nth _ _ 0 Q) as W. rewrite seq_nth in W by auto. lia. }
    subst i'. split; [apply sorted_filter, sorted_seq|]. intros j. rewrite filter_In, in_seq. split; intros [A B]; split; auto; lia.
Qed.
Lemma fresh_query : forall te a t (s : fswarm) t' g nb, t_kind t <> Star -> t_static t = false \/ t_nb t = None ->
  (t_kind t = Pyramid -> s_d s < s_n s) ->
  compute_gbest te a t s = (t', Ok g) -> t_nb t' = Some nb ->
  match t_kind t with
  | Star => False
  | Ring => exists p k, ga_p a = Some p /\ ga_k a = Some k /\ te_knn te p (Z.to_nat k) (s_position s) = Ok (nb_rows nb)
  | VonNeumann => exists p r, ga_p a = Some p /\ ga_r a = Some (Z.of_nat r) /\
                    te_knn te p (delannoy (s_d s) r) (s_position s) = Ok (nb_rows nb)
  | Pyramid => te_delaunay te (s_position s) = Ok (nb_rows nb)
  | Random => exists k adj, ga_k a = Some k /\ random_adj 1 (s_n s) k (te_choice te) = Ok adj /\
                forall i row, nth_error (nb_rows nb) i = Some row -> StronglySorted lt row /\
                  forall j, In j row <-> j < s_n s /\ adj i j = true
  end.
Proof.
  intros te a t s t' g nb K S. apply neighbor_query; [exact K|]. unfold needs_neighbors. destruct S as [-> | ->]; [reflexivity|destruct (t_static t); reflexivity].
Qed.

(** The one-neighbour ring with its axes used up. *)
Lemma one_neighbor_step : forall te a t nb (s : fswarm), t_static t = true -> one_neighbor a t -> ga_p a <> None ->
  t_nb t = Some nb ->
  (nb_ndim nb < 32 -> fst (compute_gbest te a t s) = mkTopo (t_kind t) true (Some (mkNb (nb_rows nb) (S (nb_ndim nb))))) /\
  (32 <= nb_ndim nb -> compute_gbest te a t s = (t, Err IndexError)).
Proof.
  intros te a t nb s ST ON PN E.
  assert (RG : forall p, (nb_ndim nb < 32 -> fst (ring_gbest te p 1 t s) = mkTopo (t_kind t) true (Some (mkNb (nb_rows nb) (S (nb_ndim nb))))) /\
    (32 <= nb_ndim nb -> ring_gbest te p 1 t s = (t, Err IndexError))).
  { intros p. unfold ring_gbest. change (Z.eqb 1 1) with true. unfold needs_neighbors. rewrite ST, E. cbn [andb orb negb].
    cbv beta iota. unfold max_dims. destruct (Nat.leb_spec 32 (nb_ndim nb)); split; intros; try lia; auto.
    unfold set_nb. cbn. rewrite ST. reflexivity. }
  unfold compute_gbest. destruct ON as [[K A]|[K A]]; rewrite K, A; rewrite K in RG; destruct (ga_p a) as [p|]; try contradiction.
  - apply RG.
  - unfold von_neumann_gbest. change (Z.ltb 0 0) with false. change (Z.to_nat 0) with 0. rewrite delannoy_0. apply RG.
Qed.
