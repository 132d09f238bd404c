(** Whole calls follow the equations of motion. *)
From Coq Require Import String ZArith List Arith Bool Reals Lia.
From Verif Require Import Prelude ListFacts F64 F64Facts Num Np NpFacts Handlers Swarms Operators Generators Topology Optimizers
  Spec SpecHandlers SpecOpts SpecDyn RunFacts PbestFacts ShapeFacts HandlerFacts GbestFacts BhFloat BhClaims VhFacts VhClaims VelFacts OptFacts
  RunBest TopoFacts RunMain RunInv TopoGraphs RunClaims VelRun Trajectory TopoRun.
Import ListNotations.
Local Open Scope string_scope.
Local Open Scope list_scope.
Local Open Scope nat_scope.
#[local] Arguments fdec : simpl never.
#[local] Arguments fofZ : simpl never.

Lemma prefix_firstn : forall A (l m : list A), prefix l m -> l = firstn (length l) m.
Proof. intros A l m (k & ->). rewrite firstn_app, firstn_all, Nat.sub_diag. cbn. rewrite app_nil_r. reflexivity. Qed.
Lemma shape_entry : forall A B (m : list (list A)) (m' : list (list B)) i j x, shape_eq m m' -> entry m i j = Some x ->
  exists y, entry m' i j = Some y.
Proof.
  intros A B m m' i j x S X. destruct (entry_row _ _ _ _ X) as (r & R & Rj). clear X. unfold shape_eq in S.
  revert i R. induction S as [|a b m m' H S IH]; intros [|i] R; cbn in R; try discriminate.
  - injection R as ->. apply nth_error_lt in Rj. destruct (nth_error_ex b j) as [y Y]; [lia|]. exists y. exact Y.
  - exact (IH i R).
Qed.

Lemma num_of_inv : forall (N : Num) (o : options N) k v, num_of o k = Ok v -> exists q, dget o k = Some q /\ v = pnum q.
Proof. unfold num_of. intros N o k v H. destruct (dget o k) as [q|]; cbn in H; [|discriminate]. injection H as <-. eauto. Qed.

(** Inversion of [compute_velocity] for an arbitrary handler. *)
Lemma compute_velocity_inv : forall (N : Num) dr vh vmem (s : swarm N) clamp b v vm, compute_velocity dr vh vmem s clamp b = Ok (v, vm) ->
  exists c1 c2 w best, dget (s_options s) "c1" = Some c1 /\ dget (s_options s) "c2" = Some c2 /\ dget (s_options s) "w" = Some w /\
    best_rows (length (s_position s)) (s_d s) (s_best_pos s) = Ok best /\
    shape_eq (s_position s) (s_pbest_pos s) /\ shape_eq (s_position s) best /\ shape_eq (s_position s) (s_velocity s) /\
    shape_eq (s_position s) (vd_u1 dr) /\ shape_eq (s_position s) (vd_u2 dr) /\
    vh_call vh clamp vmem (mkVk (Some (s_position s)) (Some b) None)
      (velocity_mat (pnum c1) (pnum c2) (pnum w) (vd_u1 dr) (vd_u2 dr) (s_position s) (s_velocity s) (s_pbest_pos s) best) = Ok (v, vm).
Proof.
  unfold compute_velocity. intros N dr vh vmem s clamp b v vm H.
  apply bind_Ok in H. destruct H as (c1 & H1 & H). apply bind_Ok in H. destruct H as (c2 & H2 & H).
  apply bind_Ok in H. destruct H as (w & H3 & H). apply bind_Ok in H. destruct H as (best & H4 & H).
  destruct (num_of_inv _ _ _ _ H1) as (q1 & Q1 & ->). destruct (num_of_inv _ _ _ _ H2) as (q2 & Q2 & ->). destruct (num_of_inv _ _ _ _ H3) as (q3 & Q3 & ->).
  exists q1, q2, q3, best. repeat (split; [assumption|]).
  destruct (same_shape (s_position s) (s_pbest_pos s)) eqn:S1; try discriminate.
  destruct (same_shape (s_position s) best) eqn:S2; try discriminate.
  destruct (same_shape (s_position s) (s_velocity s)) eqn:S3; try discriminate.
  destruct (same_shape (s_position s) (vd_u1 dr)) eqn:S4; try discriminate.
  destruct (same_shape (s_position s) (vd_u2 dr)) eqn:S5; try discriminate.
  simpl in H. apply shape_eq_iff in S1, S2, S3, S4, S5. auto 10.
Qed.
Lemma best_rows_entry : forall (N : Num) n d (p : bestpos N) m i j g, best_rows n d p = Ok m -> i < n -> entry m i j = Some g -> best_entry p i j = Some g.
Proof.
  intros N n d [|v|m'] m i j g H I G; cbn in H.
  - destruct d as [|[|d]]; try discriminate. injection H as <-. unfold entry in G. rewrite nth_error_repeat in G by auto. destruct j; discriminate.
  - injection H as <-. unfold entry in G. rewrite nth_error_repeat in G by auto. exact G.
  - injection H as <-. exact G.
Qed.

Lemma map3_nth : forall A B C D (f : A -> B -> C -> D) j a b c x y z, nth_error a j = Some x -> nth_error b j = Some y -> nth_error c j = Some z ->
  nth_error (map3 f a b c) j = Some (f x y z).
Proof.
  intros A B C D f. induction j; intros [|? a] [|? b] [|? c] x y z H1 H2 H3; cbn in *; try discriminate.
  - congruence.
  - apply IHj; auto.
Qed.

(** The coefficients in use. *)
Lemma coefficient_ok : forall c e iters t opts key q, NoDup (dkeys (c_options c)) ->
  oh_call (e_oh e t) (c_oh c) (c_options c) (mkOk (Some (Z.of_nat t)) (Some (Z.of_nat iters)) None None None None) = Ok opts ->
  dget opts key = Some q -> coefficient c e iters t key (pnum q).
Proof.
  intros c e iters t opts key q ND H D. destruct (options_varied _ _ _ _ _ ND H) as (K & A & B).
  destruct (dget (c_oh c) key) as [s|] eqn:S.
  - right. exists s. split; [exact S|]. assert (I : In key (dkeys (c_options c))).
    { rewrite <- K. clear -D. induction opts as [|[k v] opts IH]; cbn in *; [discriminate|]. destruct (String.eqb_spec k key); [left; auto|right; auto].
      all: try (apply IH; destruct (String.eqb_spec key k); congruence). }
    destruct (B key s I S) as (x & X & Nv). assert (q = PFloat x) by congruence. subst q. exact Nv.
  - left. split; [exact S|]. exists q. split; [|reflexivity]. rewrite <- (A key S). exact D.
Qed.

(** One step. *)
Lemma step_equation : forall c e iters t o1 o2 opts v' vm p' bm i j x v, c_kind c <> Binary -> c_vh c = "unmodified" -> NoDup (dkeys (c_options c)) ->
  Updated c e iters t o1 o2 opts v' vm p' bm -> entry (s_position (o_swarm o1)) i j = Some x -> entry (s_velocity (o_swarm o1)) i j = Some v ->
  exists w c1 c2 r1 r2 p g v1 x1, coefficient c e iters t "w" w /\ coefficient c e iters t "c1" c1 /\ coefficient c e iters t "c2" c2 /\
    entry (vd_u1 (e_vel e t)) i j = Some r1 /\ entry (vd_u2 (e_vel e t)) i j = Some r2 /\
    entry (s_pbest_pos (o_swarm o1)) i j = Some p /\ best_entry (s_best_pos (o_swarm o1)) i j = Some g /\
    entry v' i j = Some v1 /\ entry p' i j = Some x1 /\
    clamped (c_clamp c) j (fadd (fadd (fmul w v) (fmul (fmul c1 r1) (fsub p x))) (fmul (fmul c2 r2) (fsub g x))) v1 /\
    placed c j (fadd x v1) x1.
Proof.
  intros c e iters t o1 o2 opts v' vm p' bm i j x v K VH ND U X V. destruct U as (U & _).
  assert (U' : oh_call (e_oh e t) (c_oh c) (c_options c) (mkOk (Some (Z.of_nat t)) (Some (Z.of_nat iters)) None None None None) = Ok opts /\
      compute_velocity (e_vel e t) (c_vh c) (o_vmem o1) (set_options (o_swarm o1) opts) (c_clamp c) (c_bounds c) = Ok (v', vm) /\
      compute_position (e_bh e t) (c_bh c) (o_bmem o1) (set_velocity (set_options (o_swarm o1) opts) v') (c_bounds c) = Ok (p', bm)).
  { destruct (c_kind c); try congruence; exact U. }
  clear U. destruct U' as (U1 & U2 & U3).
  destruct (compute_velocity_inv _ _ _ _ _ _ _ _ _ U2) as (q1 & q2 & q3 & best & Q1 & Q2 & Q3 & BR & S1 & S2 & S3 & S4 & S5 & H).
  cbn [s_position s_velocity s_options set_options s_pbest_pos s_best_pos s_d] in *.
  destruct (shape_entry _ _ _ _ _ _ _ S1 X) as [p P]. destruct (shape_entry _ _ _ _ _ _ _ S2 X) as [g G].
  destruct (shape_entry _ _ _ _ _ _ _ S4 X) as [r1 R1]. destruct (shape_entry _ _ _ _ _ _ _ S5 X) as [r2 R2].
  pose proof (compute_velocity_shape _ _ _ _ _ _ _ _ U2) as SV. cbn [s_position set_options] in SV.
  destruct (shape_entry _ _ _ _ _ _ _ SV X) as [v1 V1].
  pose proof (compute_position_shape _ _ _ _ _ _ _ U3) as SP. cbn [s_position set_options set_velocity] in SP.
  destruct (shape_entry _ _ _ _ _ _ _ SP X) as [x1 X1].
  exists (pnum q3), (pnum q1), (pnum q2), r1, r2, p, g, v1, x1.
  split; [eapply coefficient_ok; eauto|]. split; [eapply coefficient_ok; eauto|]. split; [eapply coefficient_ok; eauto|].
  split; [exact R1|]. split; [exact R2|]. split; [exact P|].
  split. { eapply best_rows_entry; [exact BR| |exact G]. destruct (entry_row _ _ _ _ X) as (r & R & _). apply nth_error_lt in R. exact R. }
  split; [exact V1|]. split; [exact X1|].
  pose proof (velocity_entry (N := F64num) (pnum q1) (pnum q2) (pnum q3) i j _ _ _ _ _ _ _ _ _ _ _ _ R1 R2 X V P G) as VE. split.
  - rewrite VH, unmodified_eq in H. unfold clamped. destruct (c_clamp c) as [cl|]; cbn [maybe_clamp] in H.
    + intros a b CC LE. destruct (apply_clamp cl _) as [v2|] eqn:AC in H; [|discriminate]. injection H as -> _.
      destruct (clamped_entry _ _ _ _ _ _ _ _ AC VE CC LE) as (y & Y & CU). pose proof (eq_trans (eq_sym Y) V1) as EY. injection EY as ->. exact CU.
    + injection H as HV HM. rewrite HV in VE. pose proof (eq_trans (eq_sym VE) V1) as EY. injection EY as <-. reflexivity.
  - unfold placed. unfold compute_position in U3. cbn [s_position s_velocity set_velocity set_options] in U3.
    destruct (same_shape (s_position (o_swarm o1)) v') eqn:SS; cbn [negb] in U3; [|discriminate].
    assert (ME : entry (map2 (map2 fadd) (s_position (o_swarm o1)) v') i j = Some (fadd x v1)).
    { destruct (entry_row _ _ _ _ X) as (? & A1 & B1). destruct (entry_row _ _ _ _ V1) as (? & A2 & B2).
      eapply entry_of. exact (nth_map2_some _ _ _ _ _ _ A1 A2). apply nth_map2_some; auto. }
    destruct (c_bounds c) as [b|].
    + intros N l u CC LE. rewrite N in U3. 
      assert (NE : p' = nearest (N := F64num) b (map2 (map2 fadd) (s_position (o_swarm o1)) v')).
      { unfold bh_call in U3. destruct (bounds_fit _ b) in U3; [|discriminate U3]. exact (f_equal (fun z => match z with Ok (m, _) => m | Err _ => p' end) (eq_sym U3)). }
      assert (NX : entry p' i j = Some (nearest_el (N := F64num) (fadd x v1) l u)).
      { rewrite NE. destruct (entry_row _ _ _ _ ME) as (r & R & Rj). destruct CC as [C1 C2]. eapply entry_of.
        - exact (nth_map_some _ _ _ _ R).
        - apply map3_nth; auto. }
      pose proof (eq_trans (eq_sym NX) X1) as EY. injection EY as <-. apply nearest_projection. exact LE.
    + injection U3 as U3 _. rewrite <- U3 in X1. pose proof (eq_trans (eq_sym ME) X1) as EY. injection EY as <-. reflexivity.
Qed.

(** *** The records behind a step *)
Lemma Forall2_nth_r : forall A B (P : A -> B -> Prop) l l', Forall2 P l l' -> forall i y, nth_error l' i = Some y -> exists x, nth_error l i = Some x /\ P x y.
Proof. intros A B P l l' H. induction H; intros [|i] z Z; cbn in *; try discriminate; [injection Z as <-; eauto|auto]. Qed.
Lemma Forall2_nth_both : forall A B (P : A -> B -> Prop) l l', Forall2 P l l' -> forall i x y, nth_error l i = Some x -> nth_error l' i = Some y -> P x y.
Proof. intros A B P l l' H. induction H; intros [|i] a b X Y; cbn in *; try discriminate; [congruence|eauto]. Qed.
Lemma nth_split : forall (A B : Type) (tr : list (A * B)) t x v, nth_error (map fst tr) t = Some x -> nth_error (map snd tr) t = Some v -> nth_error tr t = Some (x, v).
Proof.
  intros A B tr t x v X V. rewrite nth_error_map in X, V. destruct (nth_error tr t) as [[a b]|]; cbn in *; congruence.
Qed.
Lemma best_of_run_unique : forall h C a x0 x v x' v', best_of_run h C a x0 x v -> best_of_run h C a x0 x' v' -> x' = x /\ v' = v.
Proof.
  intros h C a x0 x v x' v' [(-> & -> & H)|(F & t & E & M & L)] [(-> & -> & H')|(F' & t' & E' & M' & L')]; auto.
  - specialize (H _ _ _ E'). congruence.
  - specialize (H' _ _ _ E). congruence.
  - destruct (Nat.lt_trichotomy t t') as [T|[->|T]].
    + specialize (M _ _ _ E'). destruct (L' _ _ _ T E) as [Q|Q]; forder.
    + destruct E as (X & cs & A1 & A2 & A3 & A4), E' as (X' & cs' & B1 & B2 & B3 & B4). rewrite A1 in B1. rewrite A2 in B2.
      injection B1 as <-. injection B2 as <-. split; congruence.
    + specialize (M' _ _ _ E). destruct (L _ _ _ T E') as [Q|Q]; forder.
Qed.
(** Personal bests of a new object are read off the log. *)
Lemma run_pbest : forall c e pool o t o1 h C B i px, Fresh c o -> Run c e pool o (S t) o1 h C B -> nth_error (s_pbest_pos (o_swarm o1)) i = Some px ->
  exists x0 py, nth_error (s_position (o_swarm o)) i = Some x0 /\ nth_error (s_pbest_cost (o_swarm o1)) i = Some py /\ best_of_run h C i x0 px py.
Proof.
  intros c e pool o t o1 h C B i px F R P. destruct (ru_p _ _ _ _ _ _ _ _ _ R). destruct (pi_n ltac:(lia)) as (N1 & _).
  pose proof (nth_error_lt _ _ _ P) as L. destruct (nth_error_ex (s_pbest_pos (o_swarm o)) i) as [x0 X0]; [ftypes; lia|].
  destruct (nth_error_ex (s_pbest_cost (o_swarm o1)) i) as [py PY]; [ftypes; lia|].
  exists x0, py. split; [|split; [exact PY|eapply pi_best; eauto]].
  destruct (Fresh_inv _ _ F) as (dim & pos & vel & S & _). rewrite S in X0 |- *. exact X0.
Qed.
Lemma run_gbest : forall c e pool o t o1 h C B gx i j g, Fresh c o -> t_kind (o_top o) = Star -> Run c e pool o (S t) o1 h C B ->
  best_entry (s_best_pos (o_swarm o1)) i j = Some g -> s_best_pos (o_swarm o1) = gx ->
  exists x y, gx = BPVec x /\ nth_error x j = Some g /\ swarm_best h C x y.
Proof.
  intros c e pool o t o1 h C B gx i j g F K R G <-. destruct (Fresh_inv _ _ F) as (dim & pos & vel & S & _).
  assert (B0 : s_best_pos (o_swarm o) = BPEmpty) by (rewrite S; reflexivity).
  assert (C0 : s_best_cost (o_swarm o) = finf) by (rewrite S; reflexivity).
  destruct (ru_g _ _ _ _ _ _ _ _ _ R K B0 C0) as [[Q _]|(y & a & s & w & Q & E & W & FST)]; rewrite Q in G |- *; [discriminate|].
  exists y, w. split; [reflexivity|]. split; [exact G|]. exists a, s. split; [exact E|]. split; [|exact FST].
  intros a' s' z w' E'. pose proof (ru_p _ _ _ _ _ _ _ _ _ R) as P.
  destruct (PInv_particle _ _ _ _ _ _ _ _ _ _ _ _ P ltac:(lia) E') as [v V].
  pose proof (PInv_lower _ _ _ _ _ _ _ _ _ _ _ _ _ P ltac:(lia) E' V) as L1.
  assert (NB : fisnan (s_best_cost (o_swarm o)) = false) by (rewrite C0; reflexivity).
  pose proof (si_pc _ _ _ _ _ _ (ru_s _ _ _ _ _ _ _ _ _ R K NB) ltac:(lia) v (nth_error_In _ _ V)) as L2.
  pose proof (hi_nonan _ _ _ _ _ _ (ru_h _ _ _ _ _ _ _ _ _ R)) as NN.
  assert (fisnan v = false) by (unfold nonan in NN; rewrite Forall_forall in NN; apply NN; eapply nth_error_In; eauto). forder.
Qed.

Lemma star_equations : forall c e pool iters o o' r, Fresh c o -> t_kind (o_top o) = Star -> c_kind c <> Binary -> c_vh c = "unmodified" ->
  NoDup (dkeys (c_options c)) -> pool <> Some 0 -> optimize c e pool iters o = (o', r) ->
  exists C, logged e pool (o_pos_history o') C /\ length (o_velocity_history o') = length (o_pos_history o') /\
    (forall X V, nth_error (o_pos_history o') 0 = Some X -> nth_error (o_velocity_history o') 0 = Some V ->
       X = s_position (o_swarm o) /\ V = s_velocity (o_swarm o)) /\
    forall t X V X' V' i j x v, nth_error (o_pos_history o') t = Some X -> nth_error (o_velocity_history o') t = Some V ->
      nth_error (o_pos_history o') (S t) = Some X' -> nth_error (o_velocity_history o') (S t) = Some V' ->
      entry X i j = Some x -> entry V i j = Some v ->
      exists w c1 c2 r1 r2 x0 px py p gx gy g v1 x1,
        coefficient c e iters t "w" w /\ coefficient c e iters t "c1" c1 /\ coefficient c e iters t "c2" c2 /\
        entry (vd_u1 (e_vel e t)) i j = Some r1 /\ entry (vd_u2 (e_vel e t)) i j = Some r2 /\
        nth_error (s_position (o_swarm o)) i = Some x0 /\
        best_of_run (so_far t (o_pos_history o')) (so_far t C) i x0 px py /\ nth_error px j = Some p /\
        swarm_best (so_far t (o_pos_history o')) (so_far t C) gx gy /\ nth_error gx j = Some g /\
        entry V' i j = Some v1 /\ entry X' i j = Some x1 /\
        clamped (c_clamp c) j (fadd (fadd (fmul w v) (fmul (fmul c1 r1) (fsub p x))) (fmul (fmul c2 r2) (fsub g x))) v1 /\
        placed c j (fadd x v1) x1.
Proof.
  intros c e pool iters o o' r F K KB VH ND NP E. destruct (optimize_trace _ _ _ _ _ _ _ NP E) as (k & tr & C & H & _).
  destruct H as (H1 & H2 & H3 & H4 & H5 & H6 & H7). destruct (Fresh_inv _ _ F) as (dim & pos & vel & S & _ & _ & _ & P0 & V0).
  rewrite P0 in H3. rewrite V0 in H4. cbn in H3, H4. rewrite H3, H4. exists C. split; [exact H5|]. split; [rewrite !map_length; reflexivity|]. split.
  { intros X V X0 V0'. pose proof (H6 _ (nth_split _ _ _ _ _ _ X0 V0')) as Q. unfold here in Q. injection Q as -> ->. auto. }
  intros t X V X' V' i j x v E1 E2 E3 E4 Ex Ev.
  destruct (H7 t _ _ (nth_split _ _ _ _ _ _ E1 E2) (nth_split _ _ _ _ _ _ E3 E4)) as (o1 & o2 & opts & vm & bm & h & Ch & B & R & PH & PC & Q1 & Q2 & _ & U).
  cbn [fst snd] in Q1, Q2, U. rewrite <- Q1 in Ex. rewrite <- Q2 in Ev.
  destruct (step_equation _ _ _ _ _ _ _ _ _ _ _ _ _ _ _ KB VH ND U Ex Ev) as (w & c1 & c2 & r1 & r2 & p & g & v1 & x1 & W & W1 & W2 & R1 & R2 & Pp & G & V1 & X1 & CL & PL).
  destruct (entry_row _ _ _ _ Pp) as (px & Px & Pj).
  destruct (run_pbest _ _ _ _ _ _ _ _ _ _ _ F R Px) as (x0 & py & X0 & PY & BR).
  destruct (run_gbest _ _ _ _ _ _ _ _ _ _ _ _ _ F K R G eq_refl) as (gx & gy & GQ & Gj & SB).
  assert (EH : h = so_far t (map fst tr)).
  { rewrite (prefix_firstn _ _ _ PH) at 1. unfold so_far. rewrite (pi_len _ _ _ _ _ _ _ _ (ru_p _ _ _ _ _ _ _ _ _ R)). reflexivity. }
  assert (EC : Ch = so_far t C).
  { rewrite (prefix_firstn _ _ _ PC) at 1. unfold so_far. destruct (pi_log _ _ _ _ _ _ _ _ (ru_p _ _ _ _ _ _ _ _ _ R)) as [L _].
    rewrite L, (pi_len _ _ _ _ _ _ _ _ (ru_p _ _ _ _ _ _ _ _ _ R)). reflexivity. }
  rewrite EH, EC in BR, SB.
  exists w, c1, c2, r1, r2, x0, px, py, p, gx, gy, g, v1, x1. auto 20.
Qed.

(** Neighbour topologies. *)
Lemma query_of : forall c te o (tp : topology) (s : fswarm) t' g nb, t_kind (o_top o) <> Star -> t_kind tp = t_kind (o_top o) -> needs_neighbors tp = true ->
  (t_kind (o_top o) = Pyramid -> s_d (o_swarm o) < s_n (o_swarm o)) -> s_n s = s_n (o_swarm o) -> s_d s = s_d (o_swarm o) ->
  compute_gbest te (gbest_args c) tp s = (t', Ok g) -> t_nb t' = Some nb -> queried c te o (s_position s) (nb_rows nb).
Proof.
  intros c te o tp s t' g nb K TK NN P SN SD CG NB.
  assert (M0 : t_kind tp <> Star) by (rewrite TK; exact K).
  assert (M4 : t_kind tp = Pyramid -> s_d s < s_n s) by (rewrite TK, SN, SD; exact P).
  pose proof (neighbor_query _ _ _ _ _ _ _ M0 NN M4 CG NB) as NQ.
  unfold queried. rewrite TK in NQ. destruct (t_kind (o_top o)); auto.
  - destruct NQ as (p & k & A1 & A2 & A3). exists p, k. split; [exact (args_p _ _ A1)|]. split; [exact (args_k _ _ A2)|exact A3].
  - destruct NQ as (p & rr & A1 & A2 & A3). exists p, rr, (delannoy (s_d s) rr). split; [exact (args_p _ _ A1)|]. split; [exact (args_r _ _ A2)|].
    split; [rewrite SD; apply delannoy_counts|exact A3].
  - rewrite SN in NQ. destruct NQ as (k & adj & A1 & A2). exists k, adj. split; [exact (args_k _ _ A1)|exact A2].
Qed.
Lemma run_nbest : forall c e pool o t o1 h C B i j g, Fresh c o -> t_kind (o_top o) <> Star ->
  ~ (t_kind (o_top o) = Ring /\ int_option c "k" 1) -> ~ (t_kind (o_top o) = VonNeumann /\ int_option c "r" 0) ->
  (t_kind (o_top o) = Pyramid -> s_d (o_swarm o) < s_n (o_swarm o)) -> (t_kind (o_top o) = VonNeumann -> 0 < s_d (o_swarm o)) ->
  Run c e pool o (S t) o1 h C B ->
  best_entry (s_best_pos (o_swarm o1)) i j = Some g ->
  exists rows row gx gy, neighbour_lists c e o h t rows /\ nth_error rows i = Some row /\
    neighbour_best h C (s_position (o_swarm o)) row gx gy /\ nth_error gx j = Some g.
Proof.
  intros c e pool o t o1 h C B i j g F K N1 N2 N3 N4 R G.
  destruct (ru_q _ _ _ _ _ _ _ _ _ R t eq_refl) as (tp & s & HS & CG & TK & TS & PC & PP & SN & SD).
  pose proof (ru_h _ _ _ _ _ _ _ _ _ R) as HI. pose proof (hi_d _ _ _ _ _ _ HI) as HD. rewrite HD in SD.
  assert (NN : no_nan (s_pbest_cost s)).
  { rewrite PC. pose proof (hi_nonan _ _ _ _ _ _ HI) as Q. unfold nonan in Q. rewrite Forall_forall in Q. unfold no_nan. rewrite ?Forall_forall. exact Q. }
  assert (M0 : t_kind tp <> Star) by (rewrite TK; exact K).
  assert (M2 : ~ (t_kind tp = Ring /\ ga_k (gbest_args c) = Some 1%Z)) by (rewrite TK; intros [Q1 Q2]; apply N1; split; [exact Q1|exact (args_k _ _ Q2)]).
  assert (M3 : ~ (t_kind tp = VonNeumann /\ ga_r (gbest_args c) = Some 0%Z)) by (rewrite TK; intros [Q1 Q2]; apply N2; split; [exact Q1|exact (args_r _ _ Q2)]).
  assert (M4 : t_kind tp = Pyramid -> s_d s < s_n s) by (rewrite TK, SN, SD; exact N3).
  assert (M5 : t_kind tp = VonNeumann -> 0 < s_d s) by (rewrite TK, SD; exact N4).
  destruct (neighborhood_best' _ _ _ _ _ _ _ _ M0 NN M2 M3 M4 M5 CG) as (nb & m & NB & BM & F2 & _).
  rewrite BM in G. cbn in G. destruct (entry_row _ _ _ _ G) as (gx & GX & Gj).
  destruct (Forall2_nth_r _ _ _ _ _ F2 _ _ GX) as (row & RW & b & gy & (q & IB & CB & MIN) & PB).
  exists (nb_rows nb), row, gx, gy. split.
  { unfold neighbour_lists. destruct (t_static (o_top o)) eqn:ST.
    - destruct (proj2 (ru_t _ _ _ _ _ _ _ _ _ R) ltac:(lia) ST N3) as (nb' & NB' & T).
      pose proof (eq_trans (eq_sym NB') NB) as EN. injection EN as ->.
      destruct (t_nb (o_top o)) as [nb0|] eqn:E0; [exact T|]. destruct T as (s0 & t0 & g0 & nb1 & A1 & A2 & A3 & A4 & A5 & A6).
      exists (s_position s0). split; [exact A1|]. rewrite A4. refine (query_of _ _ _ _ _ _ _ _ K eq_refl _ N3 A5 A6 A2 A3).
      unfold needs_neighbors. rewrite ST, E0. reflexivity.
    - exists (s_position s). split; [exact HS|]. refine (query_of _ _ _ _ _ _ _ _ K TK _ N3 SN SD CG NB).
      unfold needs_neighbors. rewrite TS. apply orb_true_r. }
  split; [exact RW|]. split; [|exact Gj].
  rewrite PP in PB. destruct (run_pbest _ _ _ _ _ _ _ _ _ _ _ F R PB) as (x0 & py & X0 & PY & BR). rewrite PC in CB.
  pose proof (eq_trans (eq_sym PY) CB) as EPY. injection EPY as ->. exists q, b, x0. split; [exact IB|]. split; [exact X0|]. split; [exact BR|].
  intros q' b' z x' y' IB' Z BR'. destruct (ru_p _ _ _ _ _ _ _ _ _ R). destruct (pi_n ltac:(lia)) as (L1 & _).
  destruct (Fresh_inv _ _ F) as (dim & pos & vel & S & _).
  assert (LL : b' < length (s_pbest_pos (o_swarm o))) by (rewrite S; apply nth_error_lt in Z; rewrite S in Z; exact Z).
  destruct (nth_error_ex (s_pbest_pos (o_swarm o1)) b') as [px PX]; [ftypes; lia|].
  destruct (run_pbest _ _ _ _ _ _ _ _ _ _ _ F R PX) as (x1 & py & X1 & PY' & BR1).
  assert (x1 = z) by congruence. subst x1. destruct (best_of_run_unique _ _ _ _ _ _ _ _ BR1 BR') as [-> ->].
  apply (MIN q' b'); auto. rewrite PC. exact PY'.
Qed.
Lemma lists_longer : forall c e o h h' t rows, prefix h h' -> t < length h -> neighbour_lists c e o h t rows -> neighbour_lists c e o h' t rows.
Proof.
  intros c e o h h' t rows (q & ->) L H. unfold neighbour_lists in *. destruct (t_static (o_top o)).
  - destruct (t_nb (o_top o)); [exact H|]. destruct H as (X & X0 & Q). exists X. split; [|exact Q]. rewrite nth_error_app1; [exact X0|lia].
  - destruct H as (X & X0 & Q). exists X. split; [|exact Q]. rewrite nth_error_app1; [exact X0|lia].
Qed.
Lemma neighbour_equations : forall c e pool iters o o' r, Fresh c o -> t_kind (o_top o) <> Star ->
  ~ (t_kind (o_top o) = Ring /\ int_option c "k" 1) -> ~ (t_kind (o_top o) = VonNeumann /\ int_option c "r" 0) ->
  (t_kind (o_top o) = Pyramid -> s_d (o_swarm o) < s_n (o_swarm o)) -> (t_kind (o_top o) = VonNeumann -> 0 < s_d (o_swarm o)) ->
  c_kind c <> Binary -> c_vh c = "unmodified" -> NoDup (dkeys (c_options c)) -> pool <> Some 0 -> optimize c e pool iters o = (o', r) ->
  exists C, logged e pool (o_pos_history o') C /\ length (o_velocity_history o') = length (o_pos_history o') /\
    (forall X V, nth_error (o_pos_history o') 0 = Some X -> nth_error (o_velocity_history o') 0 = Some V ->
       X = s_position (o_swarm o) /\ V = s_velocity (o_swarm o)) /\
    forall t X V X' V' i j x v, nth_error (o_pos_history o') t = Some X -> nth_error (o_velocity_history o') t = Some V ->
      nth_error (o_pos_history o') (S t) = Some X' -> nth_error (o_velocity_history o') (S t) = Some V' ->
      entry X i j = Some x -> entry V i j = Some v ->
      exists w c1 c2 r1 r2 x0 px py p rows row gx gy g v1 x1,
        coefficient c e iters t "w" w /\ coefficient c e iters t "c1" c1 /\ coefficient c e iters t "c2" c2 /\
        entry (vd_u1 (e_vel e t)) i j = Some r1 /\ entry (vd_u2 (e_vel e t)) i j = Some r2 /\
        nth_error (s_position (o_swarm o)) i = Some x0 /\
        best_of_run (so_far t (o_pos_history o')) (so_far t C) i x0 px py /\ nth_error px j = Some p /\
        neighbour_lists c e o (o_pos_history o') t rows /\ nth_error rows i = Some row /\
        neighbour_best (so_far t (o_pos_history o')) (so_far t C) (s_position (o_swarm o)) row gx gy /\ nth_error gx j = Some g /\
        entry V' i j = Some v1 /\ entry X' i j = Some x1 /\
        clamped (c_clamp c) j (fadd (fadd (fmul w v) (fmul (fmul c1 r1) (fsub p x))) (fmul (fmul c2 r2) (fsub g x))) v1 /\
        placed c j (fadd x v1) x1.
Proof.
  intros c e pool iters o o' r F K N1 N2 N3 N4 KB VH ND NP E. destruct (optimize_trace _ _ _ _ _ _ _ NP E) as (k & tr & C & H & _).
  destruct H as (H1 & H2 & H3 & H4 & H5 & H6 & H7). destruct (Fresh_inv _ _ F) as (dim & pos & vel & S & _ & _ & _ & P0 & V0).
  rewrite P0 in H3. rewrite V0 in H4. cbn in H3, H4. rewrite H3, H4. exists C. split; [exact H5|]. split; [rewrite !map_length; reflexivity|]. split.
  { intros X V X0 V0'. pose proof (H6 _ (nth_split _ _ _ _ _ _ X0 V0')) as Q. unfold here in Q. injection Q as -> ->. auto. }
  intros t X V X' V' i j x v E1 E2 E3 E4 Ex Ev.
  destruct (H7 t _ _ (nth_split _ _ _ _ _ _ E1 E2) (nth_split _ _ _ _ _ _ E3 E4)) as (o1 & o2 & opts & vm & bm & h & Ch & B & R & PH & PC & Q1 & Q2 & _ & U).
  cbn [fst snd] in Q1, Q2, U.
  assert (EH : h = so_far t (map fst tr)).
  { rewrite (prefix_firstn _ _ _ PH) at 1. unfold so_far. rewrite (pi_len _ _ _ _ _ _ _ _ (ru_p _ _ _ _ _ _ _ _ _ R)). reflexivity. }
  assert (EC : Ch = so_far t C).
  { rewrite (prefix_firstn _ _ _ PC) at 1. unfold so_far. destruct (pi_log _ _ _ _ _ _ _ _ (ru_p _ _ _ _ _ _ _ _ _ R)) as [L _].
    rewrite L, (pi_len _ _ _ _ _ _ _ _ (ru_p _ _ _ _ _ _ _ _ _ R)). reflexivity. }
  rewrite <- Q1 in Ex. rewrite <- Q2 in Ev.
  destruct (step_equation _ _ _ _ _ _ _ _ _ _ _ _ _ _ _ KB VH ND U Ex Ev) as (w & c1 & c2 & r1 & r2 & p & g & v1 & x1 & W & W1 & W2 & R1 & R2 & Pp & G & V1 & X1 & CL & PL).
  destruct (entry_row _ _ _ _ Pp) as (px & Px & Pj).
  destruct (run_pbest _ _ _ _ _ _ _ _ _ _ _ F R Px) as (x0 & py & X0 & PY & BR).
  destruct (run_nbest _ _ _ _ _ _ _ _ _ _ _ _ F K N1 N2 N3 N4 R G) as (rows & row & gx & gy & NL & RW & NBB & Gj).
  apply (lists_longer _ _ _ _ _ _ _ PH) in NL; [|rewrite (pi_len _ _ _ _ _ _ _ _ (ru_p _ _ _ _ _ _ _ _ _ R)); lia].
  rewrite EH, EC in BR, NBB.
  exists w, c1, c2, r1, r2, x0, px, py, p, rows, row, gx, gy, g, v1, x1. auto 20.
Qed.

(** Particles that end their move inside the box are where the move took them. *)
Lemma inside_equation : forall c e pool iters o o' r, c_kind c <> Binary -> pool <> Some 0 -> o_pos_history o = [] -> o_velocity_history o = [] ->
  optimize c e pool iters o = (o', r) ->
  forall t X X' V' i xr vr, nth_error (o_pos_history o') t = Some X -> nth_error (o_pos_history o') (S t) = Some X' ->
    nth_error (o_velocity_history o') (S t) = Some V' -> nth_error X i = Some xr -> nth_error V' i = Some vr ->
    match c_bounds c with None => True | Some b => box_dim (length xr) b /\ good b (map2 fadd xr vr) end ->
    nth_error X' i = Some (map2 fadd xr vr).
Proof.
  intros c e pool iters o o' r KB NP P0 V0 E t X X' V' i xr vr E1 E3 E4 Ex Ev G. destruct (optimize_trace _ _ _ _ _ _ _ NP E) as (k & tr & C & H & _).
  destruct H as (H1 & H2 & H3 & H4 & H5 & H6 & H7). rewrite P0 in H3. rewrite V0 in H4. cbn in H3, H4. rewrite H3 in E1, E3. rewrite H4 in E4.
  assert (exists V, nth_error (map snd tr) t = Some V) as [V E2].
  { apply nth_error_ex. rewrite map_length. apply nth_error_lt in E1. rewrite map_length in E1. exact E1. }
  destruct (H7 t _ _ (nth_split _ _ _ _ _ _ E1 E2) (nth_split _ _ _ _ _ _ E3 E4)) as (o1 & o2 & opts & vm & bm & h & Ch & B & R & PH & PC & Q1 & Q2 & _ & U).
  cbn [fst snd] in Q1, Q2, U. destruct U as (U & _). rewrite <- Q1 in Ex.
  assert (U3 : compute_position (e_bh e t) (c_bh c) (o_bmem o1) (set_velocity (set_options (o_swarm o1) opts) V') (c_bounds c) = Ok (X', bm)).
  { destruct (c_kind c); try congruence; apply U. }
  clear U. unfold compute_position in U3. cbn [s_position s_velocity set_velocity set_options] in U3.
  destruct (same_shape (s_position (o_swarm o1)) V') eqn:SS; cbn [negb] in U3; [|discriminate].
  pose proof (nth_map2_some (map2 fadd) _ _ _ _ _ Ex Ev) as ME.
  destruct (c_bounds c) as [b|].
  - destruct G as [G1 G2]. refine (row_inside (N := F64num) (length xr) _ _ _ _ _ _ _ i _ G1 _ U3 ME G2).
    apply shape_eq_iff in SS. pose proof (Forall2_nth_both _ _ _ _ _ SS _ _ _ Ex Ev) as L. cbv beta in L. rewrite map2_length. ftypes. lia.
  - injection U3 as U3 _. rewrite <- U3. exact ME.
Qed.
