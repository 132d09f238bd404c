(** The optimizer on references follows the pure optimizer and never writes into an array that
    existed before the call (C50). *)
From Coq Require Import String ZArith List Arith Bool Lia.
From Verif Require Import Prelude ListFacts F64 Num Np NpFacts Handlers Swarms Operators Generators Topology Optimizers Spec ListFacts StartRun RunMain Heap SpecHeap HeapFacts.
Import ListNotations.
Local Open Scope string_scope.
Local Open Scope list_scope.
Local Open Scope nat_scope.

Notation keeps h h' := (same (length h%list) h%list h'%list).
Lemma keeps_at : forall h h' a m, keeps h h' -> nth_error h a = Some m -> nth_error h' a = Some m.
Proof. intros h h' a m S M. eapply same_nth; eauto. eapply nth_lt; eauto. Qed.
Lemma keeps_mem : forall h h' a m, keeps h h' -> at_mem h a m -> at_mem h' a m.
Proof. intros h h' [a|] [m|] S M; cbn in *; auto. eapply keeps_at; eauto. Qed.
Lemma keeps_trans : forall h1 h2 h3, keeps h1 h2 -> keeps h2 h3 -> keeps h1 h3.
Proof. intros h1 h2 h3 A B. eapply same_trans; [exact A|]. eapply same_le; [exact B|]. exact (proj1 A). Qed.
Lemma keeps_all : forall h h' l l', keeps h h' -> Forall2 (at_addr h) l l' -> Forall2 (at_addr h') l l'.
Proof. intros h h' l l' S F. induction F; constructor; auto. eapply keeps_at; eauto. Qed.
Lemma at_old : forall h mem vm, at_mem h mem vm -> old_mem (length h) h mem vm.
Proof. intros h [a|] [m|] M; cbn in *; auto. split; auto. eapply nth_lt; eauto. Qed.
(** Reading the swarm. *)
Lemma swarm_at_inv : forall h s w, swarm_at h s = Ok w -> exists p v pp bp,
  nth_error h (hs_position s) = Some p /\ nth_error h (hs_velocity s) = Some v /\ nth_error h (hs_pbest_pos s) = Some pp /\ best_at h (hs_best_pos s) = Ok bp /\
  w = let r := hs_rest s in mkSwarm (N := F64num) p v (s_n r) (s_d r) (s_options r) pp bp (s_pbest_cost r) (s_best_cost r) (s_best_np r) (s_current_cost r).
Proof.
  intros h s w W. unfold swarm_at in W.
  destruct (nth_error h (hs_position s)) as [p|] eqn:P; [|discriminate]. destruct (nth_error h (hs_velocity s)) as [v|] eqn:V; [|discriminate].
  destruct (nth_error h (hs_pbest_pos s)) as [pp|] eqn:PP; [|discriminate]. cbn [of_option bind] in W.
  destruct (best_at h (hs_best_pos s)) as [bp|] eqn:B; [|discriminate]. injection W as <-. exists p, v, pp, bp. auto 6.
Qed.
Lemma swarm_at_intro : forall h s p v pp bp, nth_error h (hs_position s) = Some p -> nth_error h (hs_velocity s) = Some v -> nth_error h (hs_pbest_pos s) = Some pp ->
  best_at h (hs_best_pos s) = Ok bp ->
  swarm_at h s = Ok (let r := hs_rest s in mkSwarm (N := F64num) p v (s_n r) (s_d r) (s_options r) pp bp (s_pbest_cost r) (s_best_cost r) (s_best_np r) (s_current_cost r)).
Proof. intros h s p v pp bp P V PP B. unfold swarm_at. rewrite P, V, PP. cbn [of_option bind]. rewrite B. reflexivity. Qed.
Lemma best_keeps : forall h h' x b, keeps h h' -> best_at h x = Ok b -> best_at h' x = Ok b.
Proof.
  intros h h' [|a i|a] b S B; cbn in *; auto.
  - destruct (nth_error h a) as [m|] eqn:M; [|discriminate]. rewrite (keeps_at _ _ _ _ S M). exact B.
  - destruct (nth_error h a) as [m|] eqn:M; [|discriminate]. rewrite (keeps_at _ _ _ _ S M). exact B.
Qed.
Lemma swarm_keeps : forall h h' s w, keeps h h' -> swarm_at h s = Ok w -> swarm_at h' s = Ok w.
Proof.
  intros h h' s w S W. apply swarm_at_inv in W. destruct W as (p & v & pp & bp & P & V & PP & B & ->).
  apply swarm_at_intro; eauto using keeps_at, best_keeps.
Qed.
Lemma rep_keeps : forall h h' x o, keeps h h' -> Rep h x o -> Rep h' x o.
Proof. intros h h' x o S []. constructor; eauto using swarm_keeps, keeps_mem, keeps_all. Qed.
Lemma rep_swarm_upd : forall h x o s w, Rep h x o -> swarm_at h s = Ok w -> Rep h (h_with_swarm x s) (with_swarm o w).
Proof. intros h x o s w [] W. constructor; auto. Qed.
Lemma rep_top_upd : forall h x o t, Rep h x o -> Rep h (h_with_top x t) (with_top o t).
Proof. intros h x o t []. constructor; auto. Qed.
Lemma rep_bmem_upd : forall h x o m vm, Rep h x o -> at_mem h m vm -> Rep h (h_with_bmem x m) (with_bmem o vm).
Proof. intros h x o m vm [] M. constructor; auto. Qed.
Lemma rep_vmem_upd : forall h x o m vm, Rep h x o -> at_mem h m vm -> Rep h (h_with_vmem x m) (with_vmem o vm).
Proof. intros h x o m vm [] M. constructor; auto. Qed.
Lemma Forall2_snoc : forall A B (R : A -> B -> Prop) l l' a b, Forall2 R l l' -> R a b -> Forall2 R (l ++ [a]) (l' ++ [b]).
Proof. intros. apply Forall2_app; auto. Qed.
Lemma rep_populate : forall h x o b1 b2 b3 a v p w, Rep h x o -> nth_error h a = Some p -> nth_error h v = Some w ->
  Rep h (h_populate x b1 b2 b3 a v) (populate_history o b1 b2 b3 p w).
Proof. intros h x o b1 b2 b3 a v p w [] P V. constructor; cbn; auto; try congruence; apply Forall2_snoc; auto. Qed.

(** Best positions. *)
Lemma of_option_some : forall A x (o : option A) y, of_option x o = Ok y -> o = Some y.
Proof. intros A x [a|] y E; [injection E as ->; reflexivity|discriminate]. Qed.
Lemma compute_gbest_kinds : forall te ga t s t' bp bc np, compute_gbest te ga t s = (t', Ok (bp, bc, np)) ->
  (t_kind t = Star /\ (exists m, np_min (N := F64num) (s_pbest_cost s) = Ok m /\ flt m (s_best_cost s) = false) /\ bp = s_best_pos s) \/
  ((t_kind t = Star -> exists m, np_min (N := F64num) (s_pbest_cost s) = Ok m /\ flt m (s_best_cost s) = true) /\
   ((exists m, bp = BPMat m) \/
    exists i p, np_argmin (N := F64num) (s_pbest_cost s) = Ok i /\ nth_error (s_pbest_pos s) i = Some p /\ bp = BPVec p)).
Proof.
  assert (NG : forall s rows bp bc np, neighborhood_gbest s rows = Ok (bp, bc, np) -> exists m, bp = BPMat m).
  { intros s rows bp bc np G. unfold neighborhood_gbest, pick_best in G. apply bind_Ok in G. destruct G as (bn & _ & G). apply bind_Ok in G. destruct G as (cs & _ & G).
    apply bind_Ok in G. destruct G as (c & _ & G). apply bind_Ok in G. destruct G as (p & _ & G). injection G as <- _ _. eauto. }
  assert (RG : forall te p k t s t' bp bc np, ring_gbest te p k t s = (t', Ok (bp, bc, np)) -> exists m, bp = BPMat m).
  { intros te p k t s t' bp bc np G. unfold ring_gbest in G.
    match type of G with (let '(_, _) := ?e in _) = _ => destruct e as [t1 [nb|x]] end; [|discriminate]. destruct (k =? 1)%Z.
    - destruct (Nat.leb max_dims (nb_ndim nb)); [discriminate|]. injection G as _ G. unfold pick_best in G. apply bind_Ok in G. destruct G as (cs & _ & G).
      apply bind_Ok in G. destruct G as (c & _ & G). apply bind_Ok in G. destruct G as (q & _ & G). injection G as <- _ _. eauto.
    - destruct (Nat.eqb (nb_ndim nb) 2); [|discriminate G]. injection G as _ G. eauto. }
  intros te ga t s t' bp bc np G. unfold compute_gbest in G. destruct (t_kind t) eqn:K.
  - unfold star_gbest in G. injection G as _ G. apply bind_Ok in G. destruct G as (m & M & G). destruct (flt m (s_best_cost s)) eqn:F.
    + right. apply bind_Ok in G. destruct G as (i & I & G). apply bind_Ok in G. destruct G as (p & P & G). injection G as <- _ _. split; [eauto|].
      right. exists i, p. apply of_option_some in P. auto.
    + left. injection G as <- _ _. eauto.
  - right. split; [intros KE; discriminate KE|]. left. destruct (ga_p ga), (ga_k ga); try discriminate G. eauto.
  - right. split; [intros KE; discriminate KE|]. left. destruct (ga_p ga), (ga_r ga); try discriminate G. unfold von_neumann_gbest in G. destruct (z0 <? 0)%Z; [discriminate G|]. eauto.
  - right. split; [intros KE; discriminate KE|]. unfold pyramid_gbest in G. destruct (Nat.ltb (s_n s) (s_d s + 1)).
    + injection G as _ G. right. apply bind_Ok in G. destruct G as (i & I & G). apply bind_Ok in G. destruct G as (p & P & G). apply bind_Ok in G. destruct G as (c & _ & G).
      injection G as <- _ _. exists i, p. apply of_option_some in P. auto.
    + left. match type of G with (let '(_, _) := ?e in _) = _ => destruct e as [t1 [rows|x]] end; [|discriminate G]. injection G as _ G. eauto.
  - right. split; [intros KE; discriminate KE|]. left. destruct (ga_k ga); [|discriminate G]. unfold random_gbest in G.
    match type of G with (let '(_, _) := ?e in _) = _ => destruct e as [t1 [rows|x]] end; [|discriminate G]. injection G as _ G. eauto.
Qed.
Lemma run_swarm : forall A s w h (f : fswarm -> H A), swarm_at h s = Ok w -> hbind (h_swarm s) f h = f w h.
Proof. intros A s w h f W. unfold hbind, h_swarm. rewrite W. reflexivity. Qed.
Lemma agrees_swarm : forall A B n s w h (f : fswarm -> H A) (r : res B) R, swarm_at h s = Ok w -> agrees n h (f w) r R -> agrees n h (hbind (h_swarm s) f) r R.
Proof. intros A B n s w h f r R W G. unfold agrees in *. rewrite (run_swarm _ _ _ _ _ W). exact G. Qed.
Lemma h_gbest_spec : forall te ga t s w h, swarm_at h s = Ok w ->
  exists h', keeps h h' /\ match compute_gbest te ga t w with
  | (t', Err x) => h_compute_gbest te ga t s h = (h', Ok (t', Err x))
  | (t', Ok (bp, bc, np)) => exists hb, h_compute_gbest te ga t s h = (h', Ok (t', Ok (hb, bc, np))) /\ best_at h' hb = Ok bp
  end.
Proof.
  intros te ga t s w h W. unfold h_compute_gbest. rewrite !(run_swarm _ _ _ _ _ W).
  destruct (compute_gbest te ga t w) as [t' [[[bp bc] np]|x]] eqn:G; [|exists h; split; [apply same_refl|reflexivity]].
  destruct (compute_gbest_kinds _ _ _ _ _ _ _ _ G) as [(K & (m & M & F) & ->)|(K & C)].
  - rewrite K, M, F. cbn [negb]. exists h. split; [apply same_refl|]. exists (hs_best_pos s). split; [reflexivity|].
    apply swarm_at_inv in W. destruct W as (p & v & pp & bp & _ & _ & _ & B & ->). exact B.
  - match goal with |- context [if ?c then hret _ else _] => replace c with false end.
    2:{ symmetry. destruct (t_kind t); auto. destruct (K eq_refl) as (m & -> & ->). reflexivity. }
    destruct C as [(m & ->)|(i & p & I & P & ->)].
    + exists (h ++ [m]). split; [apply same_alloc; lia|]. exists (HMat (length h)). split; [reflexivity|]. cbn. rewrite alloc_at. reflexivity.
    + exists h. split; [apply same_refl|]. exists (HRow (hs_pbest_pos s) i). split.
      * unfold hbind, hlift. rewrite I. reflexivity.
      * apply swarm_at_inv in W. destruct W as (p0 & v & pp & bp & _ & _ & PP & _ & ->). cbn [s_pbest_pos] in P. cbn. rewrite PP. cbn. unfold fmatrix, frow in *. match goal with |- bind (of_option _ ?z) _ = _ => replace z with (Some p) by (symmetry; exact P) end. reflexivity.
Qed.
Lemma h_pbest_spec : forall s w h, swarm_at h s = Ok w -> agrees (length h) h (h_compute_pbest s) (compute_pbest (N := F64num) w)
  (fun h' x y => nth_error h' (fst x) = Some (fst y) /\ snd x = snd y).
Proof.
  intros s w h W. unfold h_compute_pbest, agrees. rewrite !(run_swarm _ _ _ _ _ W). unfold hbind, hlift.
  destruct (compute_pbest (N := F64num) w) as [[pp pc]|x]; [|split; [apply same_refl|reflexivity]]. cbn [fst snd]. split; [apply same_alloc; lia|].
  split; [apply alloc_at|reflexivity].
Qed.
Lemma h_velocity_spec : forall dr vh mem vm s w cl b h, swarm_at h s = Ok w -> at_mem h mem vm ->
  agrees (length h) h (h_compute_velocity dr vh mem s cl b) (compute_velocity (N := F64num) dr vh vm w cl b) (result (length h)).
Proof.
  intros dr vh mem vm s w cl b h W O. unfold h_compute_velocity, compute_velocity.
  eapply agrees_swarm; [exact W|].
  apply agrees_lift. intros c1 _. apply agrees_lift. intros c2 _. apply agrees_lift. intros w0 _. apply agrees_lift. intros best _.
  match goal with |- agrees _ _ (if ?c then _ else _) _ _ => destruct c; [apply agrees_fail|] end.
  apply agrees_alloc; [lia|]. apply swarm_at_inv in W. destruct W as (p & v & pp & bp & P & V & PP & B & ->).
  apply h_vh_spec; auto.
  - rewrite app_length. simpl. lia.
  - eapply nth_lt; eauto.
  - cbn [s_position]. rewrite nth_error_app1 by (eapply nth_lt; eauto). exact P.
  - apply alloc_at.
  - eapply old_keep; [apply same_alloc; lia|]. apply at_old. exact O.
Qed.
Lemma h_position_spec : forall dr bh mem vm s w b h, swarm_at h s = Ok w -> at_mem h mem vm ->
  agrees (length h) h (h_compute_position dr bh mem s b) (compute_position (N := F64num) dr bh vm w b) (result (length h)).
Proof.
  intros dr bh mem vm s w b h W O. unfold h_compute_position, compute_position.
  apply swarm_at_inv in W. destruct W as (p & v & pp & bp & P & V & PP & B & ->). cbn [s_position s_velocity].
  eapply agrees_read; [exact P|]. apply agrees_alloc; [lia|]. eapply agrees_read; [apply alloc_at|].
  eapply agrees_read; [rewrite nth_error_app1 by (eapply nth_lt; eauto); exact V|].
  destruct (negb (same_shape p v)) eqn:Sh; try (match goal with |- agrees _ _ (if ?c then _ else _) _ _ => replace c with true by (symmetry; exact Sh) end); [apply agrees_fail|].
  try (match goal with |- agrees _ _ (if ?c then _ else _) _ _ => replace c with false by (symmetry; exact Sh) end).
  apply agrees_write; [lia|].
  assert (A : forall m, nth_error (upd (h ++ [p]) (length h) m) (length h) = Some m) by (intros m; apply upd_same; rewrite app_length; simpl; lia).
  assert (E : forall m, same (length h) h (upd (h ++ [p]) (length h) m)).
  { intros m. eapply same_trans; [apply same_alloc|apply same_write]; lia. }
  destruct b as [b|].
  - apply h_bh_spec; auto. { rewrite upd_length, app_length. lia. } eapply old_keep; [apply E|]. apply at_old. exact O.
  - apply agrees_ret. split; [split; [apply le_n|apply A]|]. eapply keeps_mem; [apply E|exact O].
Qed.

(** One iteration. *)
Definition step_rep (h0 h : heap) (x : hstep) (y : step) : Prop :=
  keeps h0 h /\
  match x, y with
  | HNext a q, Next o q' => Rep h a o /\ q = q'
  | HBreak a, Break o => Rep h a o
  | HRaise a e, Raise o e' => Rep h a o /\ e = e'
  | _, _ => False
  end.
Lemma h_evaluate_spec : forall c e pool i h x o q, Rep h x o ->
  step_rep h (fst (h_evaluate c e pool i h x q)) (snd (h_evaluate c e pool i h x q)) (evaluate_swarm c e pool i o q).
Proof.
  intros c e pool i h x o q R. unfold h_evaluate, evaluate_swarm.
  pose proof (swarm_at_inv _ _ _ (rep_swarm _ _ _ R)) as (p & v & pp & bp & P & V & PP & B & W).
  assert (PW : s_position (o_swarm o) = p) by (rewrite W; reflexivity). rewrite PW.
  assert (RD : (ho p <- read (hs_position (hs x)); hlift (compute_objective_function (N := F64num) pool (e_obj e i) p)) h =
     (h, compute_objective_function (N := F64num) pool (e_obj e i) p)) by (unfold hbind, read, hlift; rewrite P; reflexivity).
  cbv zeta. rewrite RD.
  destruct (compute_objective_function (N := F64num) pool (e_obj e i) p) as [cost|ex] eqn:C; [|split; [apply same_refl|split; [assumption|reflexivity]]].
  set (s1 := h_set_rest (hs x) (set_current_cost (hs_rest (hs x)) cost)). set (w1 := set_current_cost (o_swarm o) cost).
  assert (W1 : swarm_at h s1 = Ok w1).
  { unfold w1. rewrite W. apply (swarm_at_intro h s1 p v pp bp); assumption. }
  pose proof (h_pbest_spec s1 w1 h W1) as PB. unfold agrees in PB. destruct (h_compute_pbest s1 h) as [h1 [[app pc]|ex]] eqn:HP.
  2:{ destruct PB as [S1 PB]. destruct (compute_pbest (N := F64num) w1) as [[? ?]|ex']; [contradiction|]. subst ex'. split; [exact S1|]. split; [|reflexivity].
      cbn [fst]. eapply rep_keeps; [exact S1|]. apply rep_swarm_upd; assumption. }
  destruct PB as [S1 PB]. destruct (compute_pbest (N := F64num) w1) as [[npp npc]|ex']; [|contradiction]. cbn [fst snd] in PB. destruct PB as [PA ->].
  set (s2 := mkHs (hs_position s1) (hs_velocity s1) app (hs_best_pos s1) (set_pbest_cost (hs_rest s1) npc)). set (w2 := set_pbest w1 npp npc).
  assert (W2 : swarm_at h1 s2 = Ok w2).
  { unfold w2, w1. rewrite W. apply (swarm_at_intro h1 s2 p v npp bp); [eapply keeps_at; eauto|eapply keeps_at; eauto|exact PA|eapply best_keeps; eauto]. }
  assert (R2 : Rep h1 (h_with_swarm x s2) (with_swarm o w2)) by (apply rep_swarm_upd; [eapply rep_keeps; eauto|exact W2]).
  assert (Y : s_best_cost (hs_rest s2) = s_best_cost w2) by (unfold w2, w1; rewrite W; reflexivity).
  destruct (h_gbest_spec (e_top e i) (gbest_args c) (h_top x) s2 w2 h1 W2) as (h2 & S2 & G). rewrite (rep_top _ _ _ R) in *.
  destruct (compute_gbest (e_top e i) (gbest_args c) (o_top o) w2) as [t [[[nb bc] np]|ex]].
  - destruct G as (hb & G & BA). rewrite G.
    set (s3 := mkHs (hs_position s2) (hs_velocity s2) (hs_pbest_pos s2) hb (set_best (hs_rest s2) BPEmpty bc np)). set (w3 := set_best w2 nb bc np).
    assert (P3 : nth_error h2 (hs_position s3) = Some p) by (eapply keeps_at; [exact S2|]; eapply keeps_at; [exact S1|exact P]).
    assert (V3 : nth_error h2 (hs_velocity s3) = Some v) by (eapply keeps_at; [exact S2|]; eapply keeps_at; [exact S1|exact V]).
    assert (W3 : swarm_at h2 s3 = Ok w3).
    { unfold w3, w2, w1. rewrite W. apply (swarm_at_intro h2 s3 p v npp nb); [exact P3|exact V3|eapply keeps_at; [exact S2|exact PA]|exact BA]. }
    assert (R3 : Rep h2 (h_populate (h_with_top (h_with_swarm x s3) t) bc (np_mean (e_tree e) npc) bc (hs_position s3) (hs_velocity s3))
       (populate_history (with_top (with_swarm o w3) t) bc (np_mean (e_tree e) npc) bc (s_position w3) (s_velocity w3))).
    { apply rep_populate.
      - apply rep_top_upd, rep_swarm_upd; [|exact W3]. eapply rep_keeps; [exact S2|]. eapply rep_keeps; [exact S1|exact R].
      - unfold w3, w2, w1. rewrite W. exact P3.
      - unfold w3, w2, w1. rewrite W. exact V3. }
    rewrite Y. match goal with |- context [if ?cnd then _ else _] => destruct cnd end; (split; [eapply keeps_trans; eauto|]); [exact R3|split; [exact R3|reflexivity]].
  - rewrite G. split; [eapply keeps_trans; eauto|]. split; [|reflexivity]. apply rep_top_upd. eapply rep_keeps; [exact S2|exact R2].
Qed.
Lemma h_update_spec : forall c e iters i h x o q, Rep h x o ->
  step_rep h (fst (h_update c e iters i h x q)) (snd (h_update c e iters i h x q)) (update_swarm c e iters i o q).
Proof.
  intros c e iters i h x o q R. unfold h_update, update_swarm.
  pose proof (swarm_at_inv _ _ _ (rep_swarm _ _ _ R)) as (p & v & pp & bp & P & V & PP & B & W).
  assert (OW : s_options (o_swarm o) = s_options (hs_rest (hs x))) by (rewrite W; reflexivity). rewrite OW.
  match goal with |- context [match ?r with Ok _ => _ | Err _ => _ end] => destruct r as [opts|ex] end; [|split; [apply same_refl|split; [assumption|reflexivity]]].
  set (s1 := h_set_rest (hs x) (set_options (hs_rest (hs x)) opts)). set (w1 := set_options (o_swarm o) opts).
  assert (W1 : swarm_at h s1 = Ok w1) by (unfold w1; rewrite W; apply (swarm_at_intro h s1 p v pp bp); assumption).
  assert (R1 : Rep h (h_with_swarm x s1) (with_swarm o w1)) by (apply rep_swarm_upd; assumption).
  set (b := match c_kind c with Binary => None | _ => c_bounds c end).
  pose proof (h_velocity_spec (e_vel e i) (c_vh c) (h_vmem x) (o_vmem o) s1 w1 (c_clamp c) b h W1 (rep_vmem _ _ _ R)) as VS. unfold agrees in VS.
  change (h_vmem (h_with_swarm x s1)) with (h_vmem x). change (o_vmem (with_swarm o w1)) with (o_vmem o).
  destruct (h_compute_velocity (e_vel e i) (c_vh c) (h_vmem x) s1 (c_clamp c) b h) as [h1 [[av hm]|ex]].
  2:{ destruct VS as [S1 VS]. destruct (compute_velocity (N := F64num) (e_vel e i) (c_vh c) (o_vmem o) w1 (c_clamp c) b) as [[? ?]|ex']; [contradiction|]. subst ex'.
      split; [exact S1|]. split; [|reflexivity]. eapply rep_keeps; [exact S1|exact R1]. }
  destruct VS as [S1 VS]. destruct (compute_velocity (N := F64num) (e_vel e i) (c_vh c) (o_vmem o) w1 (c_clamp c) b) as [[nv nm]|ex']; [|contradiction].
  destruct VS as [[LV NV] NM]. cbn [fst snd] in NV, NM, LV.
  set (s2 := mkHs (hs_position s1) av (hs_pbest_pos s1) (hs_best_pos s1) (hs_rest s1)). set (w2 := set_velocity w1 nv).
  assert (W2 : swarm_at h1 s2 = Ok w2).
  { unfold w2, w1. rewrite W. apply (swarm_at_intro h1 s2 p nv pp bp); [eapply keeps_at; eauto|exact NV|eapply keeps_at; eauto|eapply best_keeps; eauto]. }
  assert (R2 : Rep h1 (h_with_vmem (h_with_swarm (h_with_swarm x s1) s2) hm) (with_vmem (with_swarm (with_swarm o w1) w2) nm)).
  { apply rep_vmem_upd; [|exact NM]. apply rep_swarm_upd; [|exact W2]. eapply rep_keeps; [exact S1|exact R1]. }
  assert (NEXT : forall h2 ap np, keeps h1 h2 -> nth_error h2 ap = Some np ->
     Rep h2 (h_with_swarm (h_with_vmem (h_with_swarm (h_with_swarm x s1) s2) hm) (mkHs ap (hs_velocity s2) (hs_pbest_pos s2) (hs_best_pos s2) (hs_rest s2)))
            (with_swarm (with_vmem (with_swarm (with_swarm o w1) w2) nm) (set_position w2 np))).
  { intros h2 ap np S2 NP. apply rep_swarm_upd; [eapply rep_keeps; [exact S2|exact R2]|]. unfold w2, w1. rewrite W.
    apply (swarm_at_intro h2 (mkHs ap (hs_velocity s2) (hs_pbest_pos s2) (hs_best_pos s2) (hs_rest s2)) np nv pp bp); cbn.
    - exact NP.
    - eapply keeps_at; [exact S2|exact NV].
    - eapply keeps_at; [exact S2|]. eapply keeps_at; [exact S1|exact PP].
    - eapply best_keeps; [exact S2|]. eapply best_keeps; [exact S1|exact B]. }
  assert (VW : s_velocity w2 = nv) by reflexivity.
  pose proof (h_position_spec (e_bh e i) (c_bh c) (h_bmem x) (o_bmem o) s2 w2 (c_bounds c) h1 W2 (keeps_mem _ _ _ _ S1 (rep_bmem _ _ _ R))) as PS. unfold agrees in PS.
  destruct (c_kind c).
  4:{ rewrite (run_read _ _ _ nv) by exact NV. rewrite VW. unfold hbind, hlift.
      destruct (binary_position (e_exp e) (e_bits e i) nv) as [np|ex]; [|split; [exact S1|split; [exact R2|reflexivity]]].
      assert (S2 : keeps h1 (h1 ++ [np])) by (apply same_alloc; lia). unfold alloc.
      split; [eapply keeps_trans; [exact S1|exact S2]|]. split; [|reflexivity]. apply NEXT; [exact S2|apply alloc_at]. }
  all: change (h_bmem (h_with_vmem (h_with_swarm (h_with_swarm x s1) s2) hm)) with (h_bmem x);
       change (o_bmem (with_vmem (with_swarm (with_swarm o w1) w2) nm)) with (o_bmem o);
       destruct (h_compute_position (e_bh e i) (c_bh c) (h_bmem x) s2 (c_bounds c) h1) as [h2 [[ap bm]|ex]];
       destruct PS as [S2 PS]; destruct (compute_position (N := F64num) (e_bh e i) (c_bh c) (o_bmem o) w2 (c_bounds c)) as [[np nbm]|ex']; try contradiction;
       [destruct PS as [[LP NP] NBM]; cbn [fst snd] in *; (split; [eapply keeps_trans; [exact S1|exact S2]|]); split; [|reflexivity]; apply rep_bmem_upd; [apply NEXT; assumption|exact NBM]
       |subst ex'; (split; [eapply keeps_trans; [exact S1|exact S2]|]); split; [|reflexivity]; eapply rep_keeps; [exact S2|exact R2]].
Qed.
Lemma h_iteration_spec : forall c e pool iters i h x o q, Rep h x o ->
  step_rep h (fst (h_iteration c e pool iters i h x q)) (snd (h_iteration c e pool iters i h x q)) (iteration c e pool iters i o q).
Proof.
  intros c e pool iters i h x o q R. unfold h_iteration, iteration. pose proof (h_evaluate_spec c e pool i h x o q R) as E.
  destruct (h_evaluate c e pool i h x q) as [h1 st]. cbn [fst snd] in E. destruct E as [S1 E].
  destruct st as [x1 q1|x1|x1 ex], (evaluate_swarm c e pool i o q) as [o1 q1'|o1|o1 ex']; try contradiction.
  - destruct E as [R1 ->]. pose proof (h_update_spec c e iters i h1 x1 o1 q1' R1) as U. destruct (h_update c e iters i h1 x1 q1') as [h2 st2]. cbn [fst snd] in *.
    destruct U as [S2 U]. split; [eapply keeps_trans; eauto|exact U].
  - split; assumption.
  - split; assumption.
Qed.
Lemma h_loop_spec : forall c e pool iters m i h x o q, Rep h x o ->
  let (h', r) := h_loop c e pool iters m i h x q in
  keeps h h' /\ match r, opt_loop c e pool iters m i o q with
  | HDone x', LDone o' => Rep h' x' o'
  | HLRaise x' ex, LRaise o' ex' => Rep h' x' o' /\ ex = ex'
  | _, _ => False
  end.
Proof.
  induction m as [|m IH]; intros i h x o q R; cbn [h_loop opt_loop]; [split; [apply same_refl|exact R]|].
  pose proof (h_iteration_spec c e pool iters i h x o q R) as I. destruct (h_iteration c e pool iters i h x q) as [h1 st]. cbn [fst snd] in I. destruct I as [S1 I].
  destruct st as [x1 q1|x1|x1 ex], (iteration c e pool iters i o q) as [o1 q1'|o1|o1 ex']; try contradiction; [|split; assumption|split; assumption].
  destruct I as [R1 ->]. specialize (IH (S i) h1 x1 o1 q1' R1). destruct (h_loop c e pool iters m (S i) h1 x1 q1') as [h2 r]. destruct IH as [S2 IH].
  split; [eapply keeps_trans; eauto|exact IH].
Qed.
Lemma h_optimize_spec : forall c e pool iters h x o, Rep h x o ->
  let '(h', (x', r)) := h_optimize c e pool iters h x in
  keeps h h' /\ Rep h' x' (fst (optimize c e pool iters o)) /\ r = snd (optimize c e pool iters o).
Proof.
  intros c e pool iters h x o R. unfold h_optimize, optimize.
  pose proof (swarm_at_inv _ _ _ (rep_swarm _ _ _ R)) as (p & v & pp & bp & P & V & PP & B & W).
  assert (PW : s_position (o_swarm o) = p) by (rewrite W; reflexivity).
  assert (R1 : Rep h (h_start c x) (start_memory c o)).
  { unfold h_start, start_memory. rewrite PW. destruct (c_kind c).
    4:{ apply rep_vmem_upd; [exact R|exact P]. }
    all: apply rep_vmem_upd; [apply rep_bmem_upd; [exact R|exact P]|exact P]. }
  assert (HS : hs (h_start c x) = hs x) by (unfold h_start; destruct (c_kind c); reflexivity).
  assert (OS : o_swarm (start_memory c o) = o_swarm o) by (unfold start_memory; destruct (c_kind c); reflexivity).
  assert (R2 : Rep h (h_with_swarm (h_start c x) (h_set_rest (hs (h_start c x)) (set_pbest_cost (hs_rest (hs (h_start c x))) (repeat finf (c_n c))))) (start_pbest c (start_memory c o))).
  { unfold start_pbest. apply rep_swarm_upd; [exact R1|]. rewrite HS, OS, W.
    apply (swarm_at_intro h (h_set_rest (hs x) (set_pbest_cost (hs_rest (hs x)) (repeat finf (c_n c)))) p v pp bp); assumption. }
  assert (MAIN : let '(h', (x', r)) := match h_loop c e pool iters iters 0 h (h_with_swarm (h_start c x) (h_set_rest (hs (h_start c x)) (set_pbest_cost (hs_rest (hs (h_start c x))) (repeat finf (c_n c))))) [] with
      | (h, HLRaise o' ex) => (h, (o', Err ex))
      | (h, HDone o') => let (h, r) := h_final o' h in (h, (o', r)) end in
    let z := match opt_loop c e pool iters iters 0 (start_pbest c (start_memory c o)) [] with LRaise o' ex => (o', Err ex) | LDone o' => (o', final_result o') end in
    keeps h h' /\ Rep h' x' (fst z) /\ r = snd z).
  { pose proof (h_loop_spec c e pool iters iters 0 h _ _ [] R2) as L.
    match type of L with (let (_, _) := ?e in _) => destruct e as [h1 [x1|x1 ex]] end; destruct L as [S1 L];
      destruct (opt_loop c e pool iters iters 0 (start_pbest c (start_memory c o)) []) as [o1|o1 ex']; try contradiction.
    - unfold h_final. rewrite (run_swarm _ _ _ _ _ (rep_swarm _ _ _ L)). unfold final_result.
      destruct (negb (s_best_np (o_swarm o1))); [cbn; auto|]. unfold hbind, hlift.
      destruct (np_argmin (N := F64num) (s_pbest_cost (o_swarm o1))) as [j|]; [|cbn; auto]. cbn [bind].
      destruct (of_option IndexError (nth_error (s_pbest_pos (o_swarm o1)) j)); cbn; auto.
    - destruct L as [R' ->]. cbn. auto. }
  destruct pool as [[|k]|]; [|exact MAIN|exact MAIN]. split; [apply same_refl|]. split; [exact R1|reflexivity].
Qed.

(** Construction, reset, sessions. *)
Lemma keeps_untouched : forall h h', keeps h h' -> untouched h h'.
Proof. intros h h' S a m M. eapply keeps_at; eauto. Qed.
Lemma with_init_id : forall c, with_init c (c_init c) = c. Proof. destruct c. reflexivity. Qed.
Lemma init_read : forall h init ip A (f : option fmatrix -> H A), init_at h init ip -> hbind (h_init init) f h = f ip h.
Proof. intros h [a|] [m|] A f I; cbn in I; try contradiction; [|reflexivity]. unfold hbind, h_init, hbind, read. rewrite I. reflexivity. Qed.
Lemma make_init : forall c dr s m, c_init c = Some m -> make_swarm c dr = Ok s -> s_position s = m.
Proof.
  intros c dr s m I M. unfold make_swarm in M. rewrite I in M. destruct (c_kind c).
  4:{ destruct (create_swarm_inv _ _ _ _ _ _ _ _ _ _ _ M) as (_ & _ & _ & G). cbn in G. destruct (Nat.leb _ 2); [|discriminate]. injection G as <-. reflexivity. }
  all: destruct (create_swarm_inv _ _ _ _ _ _ _ _ _ _ _ M) as (_ & _ & _ & G); cbn in G; destruct (c_bounds c) as [b|];
    [destruct (negb _); [discriminate|]; destruct (all_within b m); [|discriminate]; injection G as <-; reflexivity|injection G as <-; reflexivity].
Qed.
Lemma new_spec : forall c dr init s h, init_at h init (c_init c) -> make_swarm c dr = Ok s -> exists h' x, h_new_swarm init s h = (h', Ok x) /\ keeps h h' /\
  swarm_at h' x = Ok s /\ hs_pbest_pos x = hs_position x /\ match init with Some a => hs_position x = a | None => True end.
Proof.
  intros c dr init s h I M. destruct (make_swarm_new _ _ _ M) as (dim & pos & vel & E). destruct init as [a|]; cbn in I.
  - destruct (c_init c) as [m|] eqn:CI; [|contradiction]. pose proof (make_init _ _ _ _ CI M) as P.
    exists (h ++ [s_velocity s]), (mkHs a (length h) a HEmpty s). split; [reflexivity|]. split; [apply same_alloc; lia|]. split; [|auto].
    rewrite E in *. cbn [s_position new_swarm] in P. subst pos.
    assert (A : nth_error (h ++ [vel]) a = Some m) by (rewrite nth_error_app1 by (eapply nth_lt; eauto); exact I).
    exact (swarm_at_intro (h ++ [vel]) (mkHs a (length h) a HEmpty _) m vel m BPEmpty A (alloc_at _ _) A eq_refl).
  - exists ((h ++ [s_position s]) ++ [s_velocity s]), (mkHs (length h) (length (h ++ [s_position s])) (length h) HEmpty s). split; [reflexivity|].
    split; [eapply same_trans; [apply same_alloc; lia|apply same_alloc; rewrite app_length; lia]|]. split; [|auto].
    rewrite E. cbn [s_position s_velocity new_swarm].
    assert (A : nth_error ((h ++ [pos]) ++ [vel]) (length h) = Some pos) by (rewrite nth_error_app1 by (rewrite app_length; simpl; lia); apply alloc_at).
    exact (swarm_at_intro ((h ++ [pos]) ++ [vel]) (mkHs (length h) (length (h ++ [pos])) (length h) HEmpty _) pos vel pos BPEmpty A (alloc_at _ _) A eq_refl).
Qed.
Lemma h_construct_spec : forall c top dr init h, init_at h init (c_init c) ->
  match construct c top dr with
  | Err ex => h_construct c top dr init h = (h, Err ex)
  | Ok o => exists h' x, h_construct c top dr init h = (h', Ok x) /\ keeps h h' /\ Rep h' x o /\
      hs_pbest_pos (hs x) = hs_position (hs x) /\ match init with Some a => hs_position (hs x) = a | None => True end
  end.
Proof.
  intros c top dr init h I. unfold h_construct. rewrite (init_read _ _ _ _ _ I), with_init_id. unfold hbind at 1, hlift.
  destruct (construct c top dr) as [o|ex] eqn:C; [|reflexivity]. destruct (construct_inv _ _ _ _ C) as (s & M & -> & _).
  destruct (new_spec _ _ _ _ _ I M) as (h' & x & E & S & W & A & B). cbn [o_swarm]. unfold hbind. rewrite E.
  exists h', (mkHst x top None None [] [] [] [] []). split; [reflexivity|]. split; [exact S|]. split; [|auto].
  constructor; cbn; auto.
Qed.
Lemma h_reset_spec : forall c dr init h x o, init_at h init (c_init c) -> Rep h x o ->
  match reset c dr o with
  | Err ex => h_reset c dr init x h = (h, Err ex)
  | Ok o' => exists h' x', h_reset c dr init x h = (h', Ok x') /\ keeps h h' /\ Rep h' x' o'
  end.
Proof.
  intros c dr init h x o I R. unfold h_reset, reset. rewrite (init_read _ _ _ _ _ I), with_init_id. unfold hbind at 1, hlift.
  destruct (make_swarm c dr) as [s|ex] eqn:M; [|reflexivity]. cbn [bind].
  destruct (new_spec _ _ _ _ _ I M) as (h' & x' & E & S & W & A & B). unfold hbind. rewrite E.
  exists h', (mkHst x' (h_top x) (h_bmem x) (h_vmem x) [] [] [] [] []). split; [reflexivity|]. split; [exact S|].
  destruct R. constructor; cbn; auto; eapply keeps_mem; eauto.
Qed.
Lemma session_spec : forall c init h x o h' x', init_at h init (c_init c) -> Rep h x o -> Reachable c o -> HSession c init h x h' x' ->
  keeps h h' /\ exists o', Rep h' x' o' /\ Reachable c o'.
Proof.
  intros c init h x o h' x' I R RC S. induction S as [|h1 x1 e pool iters h2 x2 r S IH E|h1 x1 dr h2 x2 S IH E].
  - split; [apply same_refl|]. eauto.
  - destruct IH as (K & o1 & R1 & RC1). pose proof (h_optimize_spec c e pool iters h1 x1 o1 R1) as O. rewrite E in O. destruct O as (K2 & R2 & _).
    split; [eapply keeps_trans; eauto|]. eexists. split; [exact R2|]. destruct (optimize c e pool iters o1) as [o2 r2] eqn:EO. eapply Reach_optimize; eauto.
  - destruct IH as (K & o1 & R1 & RC1). assert (I1 : init_at h1 init (c_init c)) by (eapply keeps_mem; eauto).
    pose proof (h_reset_spec c dr init h1 x1 o1 I1 R1) as O. destruct (reset c dr o1) as [o2|ex] eqn:RS; [|rewrite E in O; discriminate].
    destruct O as (h3 & x3 & E3 & K3 & R3). rewrite E in E3. injection E3 as <- <-. split; [eapply keeps_trans; eauto|]. exists o2. split; [exact R3|]. eapply Reach_reset; eauto.
Qed.

(** The statements of C50. *)
Lemma heap_construct : forall c top dr init h h1 x, init_at h init (c_init c) -> h_construct c top dr init h = (h1, Ok x) ->
  untouched h h1 /\ (exists o, construct c top dr = Ok o /\ Rep h1 x o) /\ hs_pbest_pos (hs x) = hs_position (hs x) /\
  (forall a, init = Some a -> hs_position (hs x) = a).
Proof.
  intros c top dr init h h1 x I E. pose proof (h_construct_spec c top dr init h I) as C. destruct (construct c top dr) as [o|ex]; [|rewrite E in C; discriminate].
  destruct C as (h' & x' & E' & K & R & A & B). rewrite E in E'. injection E' as <- <-. split; [apply keeps_untouched; exact K|]. split; [eauto|]. split; [exact A|].
  intros a ->. exact B.
Qed.
Lemma heap_construct_error : forall c top dr init h ex, init_at h init (c_init c) -> construct c top dr = Err ex -> h_construct c top dr init h = (h, Err ex).
Proof. intros c top dr init h ex I E. pose proof (h_construct_spec c top dr init h I) as C. rewrite E in C. exact C. Qed.
Lemma heap_optimize : forall c e pool iters h x o h' x' r, Rep h x o -> h_optimize c e pool iters h x = (h', (x', r)) ->
  untouched h h' /\ exists o', optimize c e pool iters o = (o', r) /\ Rep h' x' o'.
Proof.
  intros c e pool iters h x o h' x' r R E. pose proof (h_optimize_spec c e pool iters h x o R) as S. rewrite E in S. destruct S as (K & R' & ->).
  split; [apply keeps_untouched; exact K|]. destruct (optimize c e pool iters o) as [o' r']. eauto.
Qed.
Lemma heap_iteration : forall c e pool iters i h x o q h' st, Rep h x o -> h_iteration c e pool iters i h x q = (h', st) -> untouched h h'.
Proof.
  intros c e pool iters i h x o q h' st R E. pose proof (h_iteration_spec c e pool iters i h x o q R) as S. rewrite E in S. destruct S as (K & _).
  apply keeps_untouched. exact K.
Qed.
Lemma heap_session : forall c top dr init h h1 x1 h2 x2, init_at h init (c_init c) -> h_construct c top dr init h = (h1, Ok x1) -> HSession c init h1 x1 h2 x2 ->
  untouched h h2 /\ untouched h1 h2 /\ exists o, Rep h2 x2 o /\ Reachable c o.
Proof.
  intros c top dr init h h1 x1 h2 x2 I E S. pose proof (h_construct_spec c top dr init h I) as C. destruct (construct c top dr) as [o|ex] eqn:CO; [|rewrite E in C; discriminate].
  destruct C as (h' & x' & E' & K & R & A & B). rewrite E in E'. injection E' as <- <-.
  destruct (session_spec c init h1 x1 o h2 x2 (keeps_mem _ _ _ _ K I) R (Reach_construct _ _ _ _ CO) S) as (K2 & o2 & R2 & RC).
  split; [apply keeps_untouched; eapply keeps_trans; eauto|]. split; [apply keeps_untouched; exact K2|]. eauto.
Qed.

(** Direct calls of the strategies: only the given array is written, and it is handed back. *)
Definition only {A} (a : addr) (m : H A) : Prop := forall h, let (h', _) := m h in length h <= length h' /\ untouched_but a h h'.
Lemma only_bind : forall A B a (m : H A) (f : A -> H B), only a m -> (forall x, only a (f x)) -> only a (hbind m f).
Proof.
  intros A B a m f M F h. unfold hbind. specialize (M h). destruct (m h) as [h1 [x|ex]]; [|exact M]. specialize (F x h1). destruct (f x h1) as [h2 r].
  destruct M as [L1 U1], F as [L2 U2]. split; [lia|]. intros j v N V. apply U2; auto.
Qed.
Lemma only_ret : forall A a (x : A), only a (hret x). Proof. intros A a x h. split; [reflexivity|]. intros j m _ M. exact M. Qed.
Lemma only_fail : forall A a ex, only a (hfail (A := A) ex). Proof. intros A a ex h. split; [reflexivity|]. intros j m _ M. exact M. Qed.
Lemma only_lift : forall A a (r : res A), only a (hlift r). Proof. intros A a r h. split; [reflexivity|]. intros j m _ M. exact M. Qed.
Lemma only_read : forall a b, only a (read b). Proof. intros a b h. split; [reflexivity|]. intros j m _ M. exact M. Qed.
Lemma only_alloc : forall a m, only a (alloc m).
Proof. intros a m h. split; [rewrite app_length; lia|]. intros j v _ V. rewrite nth_error_app1 by (eapply nth_lt; eauto). exact V. Qed.
Lemma only_write : forall a m, only a (write a m).
Proof. intros a m h. split; [rewrite upd_length; lia|]. intros j v N V. rewrite upd_other by auto. exact V. Qed.
Create HintDb only.
#[local] Hint Resolve only_ret only_fail only_lift only_read only_alloc only_write : only.
Ltac only_tac := repeat first [ progress (auto with only) | apply only_bind; [|intros ?] | progress intros | match goal with |- only _ (if ?c then _ else _) => destruct c | |- only _ (match ?c with _ => _ end) => destruct c end ].
Lemma only_reflective : forall f b a, only a (h_reflective f b a).
Proof. induction f as [|f IH]; intros b a; cbn [h_reflective]; only_tac; apply IH. Qed.
Lemma direct_bh_frame : forall strategy dr mem b a h h' r, h_bh strategy dr mem b a h = (h', r) -> untouched_but a h h'.
Proof.
  intros strategy dr mem b a h h' r E. assert (O : only a (h_bh strategy dr mem b a)).
  { unfold h_bh, h_nearest, h_shrink, h_random, h_intermediate, h_periodic. only_tac. apply only_reflective. }
  specialize (O h). rewrite E in O. apply O.
Qed.
Lemma direct_vh_frame : forall strategy c mem bo ap a h h' r, h_vh strategy c mem bo ap a h = (h', r) -> untouched_but a h h'.
Proof.
  intros strategy c mem bo ap a h h' r E. assert (O : only a (h_vh strategy c mem bo ap a)).
  { unfold h_vh, h_adjust, h_invert, h_zero, h_clamp. only_tac. }
  specialize (O h). rewrite E in O. apply O.
Qed.
Lemma only_at : forall A a (m : H A) h h' r mem vm, only a m -> m h = (h', r) -> at_mem h mem vm -> mem <> Some a -> at_mem h' mem vm.
Proof.
  intros A a m h h' r [b|] [vm|] O E M N; cbn in *; auto. specialize (O h). rewrite E in O. destruct O as [_ U]. apply U; [|exact M]. intros ->. apply N. reflexivity.
Qed.
Definition same_array {A} (a : addr) (m : H (addr * A)) : Prop := forall h h' x, m h = (h', Ok x) -> fst x = a.
Lemma reflective_array : forall f b a h h' x, h_reflective f b a h = (h', Ok x) -> x = a.
Proof.
  induction f as [|f IH]; intros b a h h' x E; cbn [h_reflective] in E; unfold hbind, read in E; destruct (nth_error h a) as [p|]; try discriminate; cbn [of_option] in E.
  - destruct (_ || _); [discriminate|]. injection E as _ <-. reflexivity.
  - destruct (_ || _); [|injection E as _ <-; reflexivity]. unfold write in E.
    match type of E with context [match of_option _ ?z with _ => _ end] => destruct z; [|discriminate] end. cbn [of_option] in E. eapply IH. exact E.
Qed.
Lemma direct_bh : forall strategy dr mem vm b a p h h' r, nth_error h a = Some p -> at_mem h mem vm -> mem <> Some a ->
  h_bh strategy dr mem b a h = (h', r) ->
  untouched_but a h h' /\
  match bh_call (N := F64num) strategy dr vm b p with
  | Err ex => r = Err ex
  | Ok (q, vm') => exists x mem', r = Ok (x, mem') /\ nth_error h' x = Some q /\ at_mem h' mem' vm' /\
      (strategy <> "nearest" -> x = a) /\ (strategy = "nearest" -> nth_error h x = None /\ nth_error h' a = Some p)
  end.
Proof.
  intros strategy dr mem vm b a p h h' r P M NA E. split; [eapply direct_bh_frame; eauto|].
  assert (F : only a (h_bh strategy dr mem b a)).
  { unfold h_bh, h_nearest, h_shrink, h_random, h_intermediate, h_periodic. only_tac. apply only_reflective. }
  pose proof (only_at _ _ _ _ _ _ mem vm F E M NA) as M'. clear F. pose proof (nth_lt _ _ _ _ P) as LA.
  unfold h_bh, bh_call in *. destruct (negb (bh_known strategy)); [injection E as _ <-; reflexivity|].
  rewrite (run_read _ _ _ p) in E by exact P.
  match goal with |- context [negb (bounds_fit p b)] => destruct (negb (bounds_fit p b)); [injection E as _ <-; reflexivity|] end.
  assert (D : forall (m : H addr) (q : res fmatrix), agrees 0 h m q (owned 0) -> (forall h1 x, m h = (h1, Ok x) -> x = a) ->
     (ho x <- m; hret (x, mem)) h = (h', r) -> strategy <> "nearest" ->
     match (do z <- q; Ok (z, vm)) with Err ex => r = Err ex
     | Ok (q, vm') => exists x mem', r = Ok (x, mem') /\ nth_error h' x = Some q /\ at_mem h' mem' vm' /\ (strategy <> "nearest" -> x = a) /\ (strategy = "nearest" -> nth_error h x = None /\ nth_error h' a = Some p) end).
  { intros m q G RA EE NN. unfold agrees, hbind in *. destruct (m h) as [h1 [x|ex]]; destruct G as [_ G]; destruct q as [q|ex']; try contradiction.
    - injection EE as <- <-. exists x, mem. split; [reflexivity|]. split; [apply G|]. split; [exact M'|]. split; [intros _; eapply RA; reflexivity|congruence].
    - subst ex'. injection EE as _ <-. reflexivity. }
  destruct (String.eqb_spec strategy "nearest") as [->|N1].
  { pose proof (h_nearest_spec (length h) h b a p (le_n _) P) as G. unfold agrees, hbind in *. destruct (h_nearest b a h) as [h1 [x|ex]]; destruct G as [S G]; [|contradiction].
    injection E as <- <-. exists x, mem. split; [reflexivity|]. destruct G as [L G]. split; [exact G|]. split; [exact M'|]. split; [congruence|]. intros _.
    split; [apply nth_error_None; exact L|]. eapply keeps_at; eauto. }
  destruct (String.eqb strategy "reflective") eqn:N2.
  { unfold reflective. match type of E with (if ?c then _ else _) _ = _ => match goal with |- context [if ?d then _ else _] => change d with c; destruct c; [injection E as _ <-; reflexivity|] end end.
    eapply D; [apply h_reflective_spec; [lia|exact P]|intros h1 x; apply reflective_array|exact E|exact N1]. }
  assert (D2 : forall (m : H (addr * option addr)) (q : res fmatrix), agrees 0 h m (do z <- q; Ok (z, Some z)) (result 0) -> same_array a m ->
     m h = (h', r) ->
     match (do z <- q; Ok (z, Some z)) with Err ex => r = Err ex
     | Ok (q, vm') => exists x mem', r = Ok (x, mem') /\ nth_error h' x = Some q /\ at_mem h' mem' vm' /\ (strategy <> "nearest" -> x = a) /\ (strategy = "nearest" -> nth_error h x = None /\ nth_error h' a = Some p) end).
  { intros m q G RA EE. unfold agrees in G. specialize (RA h h'). rewrite EE in G, RA. destruct G as [_ G].
    destruct r as [[x mem']|ex], (do z <- q; Ok (z, Some z)) as [[q' vm']|ex'] eqn:Q; try contradiction.
    - exists x, mem'. split; [reflexivity|]. split; [apply G|]. split; [apply G|]. split; [intros _; exact (RA _ eq_refl)|congruence].
    - congruence. }
  destruct (String.eqb strategy "shrink").
  { apply (D2 (h_shrink mem b a) (shrink (N := F64num) vm b p)); [apply h_shrink_spec; auto; apply Nat.le_0_l| |exact E]. intros g g' [x y] EE. unfold h_shrink in EE. destruct mem as [am|]; [|injection EE as _ <- _; reflexivity].
    unfold hbind, read, hfail, hlift, write, hret in EE. repeat match type of EE with context [match ?z with _ => _ end] => destruct z; try discriminate EE end.
    all: symmetry; exact (f_equal (fun z : heap * res (addr * option addr) => match snd z with Ok w => fst w | Err _ => a end) EE). }
  destruct (String.eqb strategy "random") eqn:N3.
  { eapply D; [apply h_random_spec; [lia|exact P]| |exact E|exact N1]. intros g x EE. unfold h_random, hbind, read, hfail, write, hret in EE.
    repeat match type of EE with context [match ?z with _ => _ end] => destruct z; try discriminate EE end. all: symmetry; exact (f_equal (fun z : heap * res addr => match snd z with Ok w => w | Err _ => a end) EE). }
  destruct (String.eqb strategy "intermediate").
  { apply (D2 (h_intermediate mem b a) (intermediate (N := F64num) vm b p)); [apply h_intermediate_spec; auto; apply Nat.le_0_l| |exact E]. intros g g' [x y] EE. unfold h_intermediate in EE. destruct mem as [am|]; [|injection EE as _ <- _; reflexivity].
    unfold hbind, read, hfail, write, hret in EE. repeat match type of EE with context [match ?z with _ => _ end] => destruct z; try discriminate EE end.
    all: symmetry; exact (f_equal (fun z : heap * res (addr * option addr) => match snd z with Ok w => fst w | Err _ => a end) EE). }
  apply (D (h_periodic b a) (Ok (periodic b p))); [apply h_periodic_spec; [lia|exact P]| |exact E|exact N1]. intros g x EE. unfold h_periodic, hbind, read, write, hret in EE.
  repeat match type of EE with context [match ?z with _ => _ end] => destruct z; try discriminate EE end. all: symmetry; exact (f_equal (fun z : heap * res addr => match snd z with Ok w => w | Err _ => a end) EE).
Qed.
Lemma only_all : forall A (m : H A) h h' r, (forall z, only z m) -> m h = (h', r) -> untouched h h'.
Proof. intros A m h h' r O E j v V. specialize (O (S j) h). rewrite E in O. apply O; auto. Qed.
Lemma direct_vh : forall strategy c mem vm bo ap a x v h h' r, nth_error h ap = Some x -> nth_error h a = Some v -> ap <> a ->
  at_mem h mem vm -> mem <> Some a -> h_vh strategy c mem bo ap a h = (h', r) ->
  untouched_but a h h' /\
  match vh_call (N := F64num) strategy c vm (mkVk (Some x) (Some bo) None) v with
  | Err ex => r = Err ex
  | Ok (q, vm') => exists y mem', r = Ok (y, mem') /\ nth_error h' y = Some q /\ at_mem h' mem' vm' /\
      (strategy = "unmodified" \/ strategy = "adjust" -> nth_error h' a = Some v) /\
      (strategy = "invert" -> exists b, bo = Some b /\ nth_error h' a = Some (map2 (invert_row (N := F64num) b (fdec 1 2)) x v)) /\
      (strategy = "zero" -> y = a)
  end.
Proof.
  intros strategy c mem vm bo ap a x v h h' r X V NE M NA E. split; [eapply direct_vh_frame; eauto|].
  assert (F : only a (h_vh strategy c mem bo ap a)) by (unfold h_vh, h_adjust, h_invert, h_zero, h_clamp; only_tac).
  pose proof (only_at _ _ _ _ _ _ mem vm F E M NA) as M'. pose proof (nth_lt _ _ _ _ V) as LA. pose proof (nth_lt _ _ _ _ X) as LX.
  assert (CL : forall z, only z (h_clamp c a)) by (intros z; unfold h_clamp; only_tac).
  unfold h_vh, vh_call in *. destruct (negb (vh_known strategy)); [injection E as _ <-; reflexivity|].
  destruct (String.eqb_spec strategy "unmodified") as [->|N1].
  { pose proof (h_clamp_spec 0 h c a v (Nat.le_0_l _) (Nat.le_0_l _) V) as G. pose proof (only_all _ _ _ (fst (h_clamp c a h)) (snd (h_clamp c a h)) CL (surjective_pairing _)) as U.
    unfold agrees, hbind, vh_unmodified in *. destruct (h_clamp c a h) as [h1 [y|ex]]; cbn [fst snd] in U; destruct G as [_ G]; destruct (maybe_clamp (N := F64num) c v) as [q|ex']; try contradiction.
    - injection E as <- <-. exists y, mem. split; [reflexivity|]. split; [apply G|]. split; [exact M'|]. split; [intros _; apply U; exact V|]. split; intros; discriminate.
    - subst ex'. injection E as _ <-. reflexivity. }
  destruct (String.eqb_spec strategy "adjust") as [->|N2].
  { assert (AD : forall z, only z (h_adjust c mem ap a)) by (intros z; unfold h_adjust, h_clamp; only_tac). pose proof (only_all _ _ _ _ _ AD E) as U.
    unfold h_adjust, vh_adjust in *. cbn [vk_position]. destruct mem as [am|], vm as [m|]; try contradiction.
    2:{ injection E as <- <-. exists a, (Some ap). split; [reflexivity|]. split; [exact V|]. split; [exact X|]. split; [intros _; exact V|]. split; intros; discriminate. }
    cbn in M. rewrite (run_read _ _ _ x) in E by exact X. rewrite (run_read _ _ _ m) in E by exact M.
    destruct (negb (same_shape x m)) eqn:Sh.
    { try (match type of E with (if ?c then _ else _) _ = _ => replace c with true in E by (symmetry; exact Sh) end). injection E as _ <-. reflexivity. }
    try (match type of E with (if ?c then _ else _) _ = _ => replace c with false in E by (symmetry; exact Sh) end).
    set (w := map2 (map2 (fun x y : f64 => fsub x y)) x m) in *.
    change (hbind (h_clamp c (length h)) (fun x => hret (x, Some ap)) (h ++ [w]) = (h', r)) in E.
    assert (LW : length h <= length (h ++ [w])) by (rewrite app_length; lia).
    pose proof (h_clamp_spec (length h) (h ++ [w]) c (length h) w (le_n _) LW (alloc_at h w)) as G. unfold agrees, hbind in *.
    change (map2 (map2 (nsub (n := F64num))) x m) with w.
    destruct (h_clamp c (length h) (h ++ [w])) as [h1 [y|ex]]; destruct G as [_ G]; destruct (maybe_clamp (N := F64num) c w) as [q|ex']; try contradiction.
    - injection E as <- <-. exists y, (Some ap). split; [reflexivity|]. split; [apply G|]. split; [apply U; exact X|]. split; [intros _; apply U; exact V|]. split; intros; discriminate.
    - subst ex'. injection E as _ <-. reflexivity. }
  destruct (String.eqb_spec strategy "invert") as [->|N3].
  { pose proof (h_invert_spec 0 h c bo ap a x v (Nat.le_0_l _) (Nat.le_0_l _) X V) as G.
    assert (B : forall h1 y, h_invert c bo ap a h = (h1, Ok y) -> exists b, bo = Some b /\ nth_error h1 a = Some (map2 (invert_row (N := F64num) b (fdec 1 2)) x v)).
    { intros h1 y EI. unfold h_invert in EI. rewrite (run_read _ _ _ x) in EI by exact X. destruct bo as [b|]; [|discriminate]. exists b. split; [reflexivity|].
      match type of EI with context [bounds_fit x b] => destruct (bounds_fit x b); [|discriminate] end. unfold hlift, hbind at 1 in EI.
      rewrite (run_read _ _ _ v) in EI by exact V. match type of EI with (if ?c then _ else _) _ = _ => destruct c; [discriminate|] end.
      unfold hbind at 1, write at 1 in EI. rewrite (run_read _ _ _ (put_rows (mask_lower b x) (map (map (fun y : f64 => fmul (fopp (fdec 1 2)) y)) v) v)) in EI by (apply upd_same; exact LA).
      unfold hbind at 1, write at 1 in EI. pose proof (invert_seq b (fdec 1 2) x v) as Q. cbv zeta in Q. 
      match type of EI with h_clamp c a ?g = _ => assert (U : untouched g h1) by (eapply only_all; [exact CL|exact EI]); apply U end.
      rewrite upd_same by (rewrite upd_length; exact LA). f_equal. exact Q. }
    unfold agrees, hbind in *. destruct (h_invert c bo ap a h) as [h1 [y|ex]]; destruct G as [_ G]; destruct (vh_invert (N := F64num) c (mkVk (Some x) (Some bo) None) v) as [q|ex']; try contradiction.
    - injection E as <- <-. exists y, mem. split; [reflexivity|]. split; [apply G|]. split; [exact M'|]. split; [intros [D|D]; discriminate|]. split; [intros _; eapply B; reflexivity|intros; discriminate].
    - subst ex'. injection E as _ <-. reflexivity. }
  pose proof (h_zero_spec 0 h bo ap a x v (Nat.le_0_l _) X V) as G.
  assert (B : forall h1 y, h_zero bo ap a h = (h1, Ok y) -> y = a).
  { intros h1 y EI. unfold h_zero, hbind, read, hfail, hlift, write, hret in EI.
    repeat match type of EI with context [match ?z with _ => _ end] => destruct z; try discriminate EI end.
    all: symmetry; exact (f_equal (fun z : heap * res addr => match snd z with Ok w => w | Err _ => a end) EI). }
  unfold agrees, hbind in *. destruct (h_zero bo ap a h) as [h1 [y|ex]]; destruct G as [_ G]; destruct (vh_zero (N := F64num) (mkVk (Some x) (Some bo) None) v) as [q|ex']; try contradiction.
  - injection E as <- <-. exists y, mem. split; [reflexivity|]. split; [apply G|]. split; [exact M'|]. split; [intros [D|D]; congruence|]. split; [intros; congruence|]. intros _. eapply B. reflexivity.
  - subst ex'. injection E as _ <-. reflexivity.
Qed.
