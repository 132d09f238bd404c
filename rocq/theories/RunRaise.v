(** Errors raised by the user's objective. *)
From Coq Require Import String ZArith List Arith Bool Lia.
From Verif Require Import Prelude ListFacts F64 F64Facts Num Np NpFacts Handlers Swarms Operators
  Generators Topology Optimizers Spec RunFacts PbestFacts ShapeFacts GbestFacts RunBest RunMain RunResults.
Import ListNotations.

(** Not an error of the user's objective. *)
Definition nu {A} (r : res A) : Prop := forall code, r <> Err (UserError code).
Lemma nu_Ok : forall A (a : A), nu (Ok a). Proof. intros A a code. discriminate. Qed.
Lemma nu_bind : forall A B (x : res A) (f : A -> res B), nu x -> (forall a, nu (f a)) -> nu (bind x f).
Proof. intros A B [a|e] f H1 H2 code; cbn. apply H2. intros E. injection E as ->. apply (H1 code). reflexivity. Qed.
Lemma nu_option : forall A e (o : option A), (forall code, e <> UserError code) -> nu (of_option e o).
Proof. intros A e [a|] H code; cbn; congruence. Qed.
Lemma nu_mapM : forall A B (f : A -> res B) l, (forall a, nu (f a)) -> nu (mapM f l).
Proof.
  induction l; intros H; cbn. apply nu_Ok. apply nu_bind; auto. intros y. apply nu_bind; auto. intros; apply nu_Ok.
Qed.
Ltac nu_tac :=
  repeat first
   [ apply nu_Ok | apply nu_option; discriminate | assumption
   | apply nu_bind; [|intros ?] | apply nu_mapM; intros ?
   | (intros ?; discriminate)
   | match goal with |- nu (match ?x with _ => _ end) => destruct x end
   | match goal with |- nu (let _ := _ in _) => cbv zeta end ].

Lemma nu_np_min : forall l, nu (np_min (N := F64num) l). Proof. intros [|x l]; nu_tac. Qed.
Lemma nu_np_argmin : forall l, nu (np_argmin (N := F64num) l). Proof. intros [|x l]; nu_tac. Qed.
Lemma nu_np_take : forall A (l : list A) idx, nu (np_take l idx). Proof. intros. unfold np_take. nu_tac. Qed.

Lemma nu_compute_pbest : forall s : fswarm, nu (compute_pbest s).
Proof. intros. unfold compute_pbest. nu_tac. Qed.

(** Neighbour queries do not raise the objective's error. *)
Definition nu_top (te : topo_env) : Prop :=
  (forall p k X, nu (te_knn te p k X)) /\ (forall X, nu (te_delaunay te X)).

Lemma nu_neighborhood : forall s rows, nu (neighborhood_gbest s rows).
Proof.
  intros. unfold neighborhood_gbest, pick_best, best_of. nu_tac; auto using nu_np_take, nu_np_min, nu_np_argmin.
Qed.
Lemma nu_repair : forall fuel n d a, nu (repair fuel n d a).
Proof. induction fuel; intros; cbn; nu_tac. apply IHfuel. Qed.
Lemma nu_ring : forall te p k t s, nu_top te -> nu (snd (ring_gbest te p k t s)).
Proof.
  intros te p k t s [T1 T2]. specialize (T1 p (Z.to_nat k) (s_position s)). unfold ring_gbest.
  assert (NP : nu (pick_best s (seq 0 (s_n s)))) by (unfold pick_best; nu_tac; auto using nu_np_take, nu_np_min).
  destruct (needs_neighbors t).
  - destruct (k <? 1)%Z; cbn; [nu_tac|]. destruct (te_knn te p (Z.to_nat k) (s_position s)); cbn.
    + destruct (k =? 1)%Z; [exact NP|apply nu_neighborhood].
    + intros code E. injection E as ->. apply (T1 code). reflexivity.
  - destruct (t_nb t) as [n|]; [|nu_tac]. cbv beta iota. destruct (k =? 1)%Z.
    + destruct (max_dims <=? nb_ndim n); [nu_tac|exact NP].
    + destruct (nb_ndim n =? 2); [apply nu_neighborhood|nu_tac].
Qed.
Lemma nu_compute_gbest : forall te a t s, nu_top te -> nu (snd (compute_gbest te a t s)).
Proof.
  intros te a t s T. unfold compute_gbest. destruct (t_kind t).
  - unfold star_gbest. cbn. nu_tac; auto using nu_np_min, nu_np_argmin.
  - destruct (ga_p a), (ga_k a); cbn; auto using nu_ring; nu_tac.
  - destruct (ga_p a), (ga_r a); cbn; try nu_tac. unfold von_neumann_gbest. destruct (z0 <? 0)%Z; cbn; auto using nu_ring. nu_tac.
  - unfold pyramid_gbest. destruct (s_n s <? s_d s + 1).
    + cbn [snd]. nu_tac; auto using nu_np_min, nu_np_argmin.
    + destruct (needs_neighbors t).
      * destruct T as [_ T]. specialize (T (s_position s)). destruct (te_delaunay te (s_position s)); cbn; auto using nu_neighborhood.
        intros code E. injection E as ->. apply (T code). reflexivity.
      * destruct (t_nb t); cbn; auto using nu_neighborhood. nu_tac.
  - destruct (ga_k a); cbn; [|nu_tac]. unfold random_gbest. destruct (needs_neighbors t).
    + assert (Q : nu (random_adj 1 (s_n s) z (te_choice te))) by (unfold random_adj; nu_tac; apply nu_repair).
      destruct (random_adj 1 (s_n s) z (te_choice te)); cbn; auto using nu_neighborhood.
      intros code E. injection E as ->. apply (Q code). reflexivity.
    + destruct (t_nb t); cbn; auto using nu_neighborhood. nu_tac.
Qed.

Section Handlers.
Context {N : Num}.
Lemma nu_num_of : forall (o : options N) k, nu (num_of o k). Proof. intros. unfold num_of. nu_tac. Qed.
Lemma nu_end_value : forall (o : options N) k kw, nu (end_value o k kw).
Proof. intros. unfold end_value. nu_tac; apply nu_num_of. Qed.
Lemma nu_iters_of : forall k : oh_kwargs N, nu (iters_of k). Proof. intros. unfold iters_of. nu_tac. Qed.
Lemma nu_oh_one : forall (l : oh_lib N) s st o k, nu (oh_one l s st o k).
Proof.
  intros. unfold oh_one, oh_exp_decay, oh_lin_variation, oh_random, oh_nonlin_mod.
  nu_tac; auto using nu_num_of, nu_end_value, nu_iters_of.
Qed.
Lemma nu_oh_loop : forall (l : oh_lib N) s st k keys ret, nu (oh_loop l s st k keys ret).
Proof.
  induction keys; intros; cbn. nu_tac. destruct (dget s a); auto. apply nu_bind. apply nu_oh_one. intros; apply IHkeys.
Qed.
Lemma nu_oh_call : forall (l : oh_lib N) s st k, nu (oh_call l s st k).
Proof. intros. unfold oh_call. destruct s. nu_tac. apply nu_oh_loop. Qed.
Lemma nu_maybe_clamp : forall (c : option (clamp_t N)) v, nu (maybe_clamp c v).
Proof. intros [c|] v; cbn; unfold apply_clamp; nu_tac. Qed.
Lemma nu_vh_call : forall s (c : option (clamp_t N)) m k v, nu (vh_call s c m k v).
Proof.
  intros. unfold vh_call, vh_unmodified, vh_adjust, vh_invert, vh_zero, vk_get. nu_tac; apply nu_maybe_clamp.
Qed.
Lemma nu_compute_velocity : forall dr vh m (s : swarm N) c b, nu (compute_velocity dr vh m s c b).
Proof.
  intros. unfold compute_velocity. nu_tac; try apply nu_num_of; try apply nu_vh_call.
  unfold best_rows. nu_tac.
Qed.
Lemma nu_reflective_loop : forall fuel (b : bounds N) m, nu (reflective_loop fuel b m).
Proof. induction fuel; intros; cbn; nu_tac. apply IHfuel. Qed.
Lemma nu_bh_call : forall s dr m (b : bounds N) p, nu (bh_call s dr m b p).
Proof.
  intros. unfold bh_call, reflective, shrink, random_bh, intermediate, shrink_row. nu_tac; try apply nu_reflective_loop.
  destruct (map4 _ _ _ _ _); nu_tac.
Qed.
Lemma nu_compute_position : forall dr bh m (s : swarm N) b, nu (compute_position dr bh m s b).
Proof. intros. unfold compute_position. nu_tac; apply nu_bh_call. Qed.
End Handlers.

Lemma nu_update : forall c e iters i o q o' code, update_swarm c e iters i o q = Raise o' (UserError code) -> False.
Proof.
  intros c e iters i o q o' code H. unfold update_swarm in H.
  assert (NB : forall u v, nu (binary_position (e_exp e) u v)) by (intros; unfold binary_position; nu_tac).
  pose proof (nu_oh_call (e_oh e i) (c_oh c) (c_options c)
             (mkOk (Some (Z.of_nat i)) (Some (Z.of_nat iters)) None None None None)) as NO.
  destruct (match c_kind c with Binary => _ | _ => _ end) as [opts|x] eqn:E.
  2:{ injection H as _ ->. destruct (c_kind c); try discriminate; eapply NO; eauto. }
  destruct (compute_velocity _ _ _ _ _ _) as [[v vm]|x] eqn:E2.
  2:{ injection H as _ ->. eapply nu_compute_velocity; eauto. }
  destruct (c_kind c).
  4:{ destruct (binary_position _ _ _) eqn:E3; try discriminate. injection H as _ ->. eapply NB; eauto. }
  all: destruct (compute_position _ _ _ _ _) as [[p bm]|x] eqn:E3; try discriminate; injection H as _ ->; eapply nu_compute_position; eauto.
Qed.

Lemma mapM_Err : forall A B (f : A -> res B) l x, mapM f l = Err x -> exists a, In a l /\ f a = Err x.
Proof.
  induction l as [|a l IH]; intros x H; cbn in H; [discriminate|].
  destruct (f a) as [y|e] eqn:E; cbn in H.
  - destruct (mapM f l) as [ys|e]; cbn in H; [discriminate|]. injection H as <-. destruct (IH _ eq_refl) as (a' & I & F).
    exists a'. split; auto. right. auto.
  - injection H as <-. exists a. split; auto. left. auto.
Qed.
Lemma concat_block : forall A (l : list (list A)) b, In b l -> exists u v, concat l = u ++ b ++ v.
Proof.
  induction l as [|a l IH]; intros b []; cbn.
  - subst. exists [], (concat l). reflexivity.
  - destruct (IH _ H) as (u & v & E). exists (a ++ u), v. rewrite E, app_assoc. reflexivity.
Qed.

Lemma objective_raises : forall pool f X x, pool <> Some 0 ->
  compute_objective_function (N := F64num) pool f X = Err x -> raises f pool X x.
Proof.
  intros pool f X x NP H. unfold compute_objective_function in H. destruct pool as [n|]; [|exact H].
  destruct (mapM f (array_split X n)) eqn:E; cbn in H; [discriminate|]. injection H as ->.
  apply mapM_Err in E. destruct E as (b & I & F). exists b. split; auto.
  apply concat_block in I. rewrite array_split_concat in I; auto.
Qed.

Lemma objective_exception : forall c e pool iters o o' code,
  optimize c e pool iters o = (o', Err (UserError code)) -> (forall i, nu_top (e_top e i)) ->
  exists h C B M V, length h < iters /\ length B = length h /\ length M = length h /\ length V = length h /\
    o_pos_history o' = o_pos_history o ++ h /\ o_cost_history o' = o_cost_history o ++ B /\
    o_mean_neighbor_history o' = o_mean_neighbor_history o ++ B /\
    o_mean_pbest_history o' = o_mean_pbest_history o ++ M /\
    o_velocity_history o' = o_velocity_history o ++ V /\
    logged e pool h C /\ all_evaluated (c_n c) h C /\
    raises (e_obj e (length h)) pool (s_position (o_swarm o')) (UserError code) /\
    length (s_pbest_cost (o_swarm o')) = c_n c /\
    forall a x0 x w, nth_error (s_pbest_pos (o_swarm o)) a = Some x0 ->
      nth_error (s_pbest_pos (o_swarm o')) a = Some x -> nth_error (s_pbest_cost (o_swarm o')) a = Some w ->
      best_of_run h C a x0 x w.
Proof.
  intros c e pool iters o o' code H T.
  destruct (optimize_run _ _ _ _ _ _ _ H) as [(_ & _ & Z)|[(_ & Z & _)|(NP & x & Z & R)]].
  - discriminate.
  - exfalso. unfold final_result in Z. destruct (negb (s_best_np (o_swarm o'))); [discriminate|].
    assert (N : nu (do j <- np_argmin (N:=F64num) (s_pbest_cost (o_swarm o'));
      do p <- of_option IndexError (nth_error (s_pbest_pos (o_swarm o')) j); Ok (s_best_cost (o_swarm o'), p))).
    { apply nu_bind. apply nu_np_argmin. intros. nu_tac. }
    apply (N code). symmetry. exact Z.
  - destruct R as [k o1 h C B o2 x Hk R E|k o1 h C B q o2 x Hk R E].
    + injection Z as <-. inversion E as [x' E0|cost x' E1 E2|cost pp pc t x' E1 E2 E3]; subst.
      * destruct R as [P I _ _].
        destruct I as [[I1 I1'] [I2 I2'] (lm & I3 & I3') I4 (lv & I5 & I5') _ _ _ _ _ _ _ _].
        exists h, C, B, lm, lv. split; [lia|]. split; [lia|]. split; [lia|]. split; [lia|].
        repeat (split; [assumption|]). split; [apply P|]. split; [apply P|]. split; [rewrite I1'; apply objective_raises; auto|].
        split; apply P.
      * exfalso. exact (nu_compute_pbest _ _ E2).
      * exfalso. pose proof (nu_compute_gbest (e_top e k) (gbest_args c) (o_top o1)
          (set_pbest (set_current_cost (o_swarm o1) cost) pp pc) (T k)) as N. rewrite E3 in N. cbn in N.
        apply (N code). reflexivity.
    + injection Z as <-. exfalso. eapply nu_update; eauto.
Qed.
