(** The invariants put together for whole calls of [optimize]. *)
From Coq Require Import String ZArith List Arith Bool Lia.
From Verif Require Import Prelude ListFacts F64 F64Facts Num Np NpFacts Handlers Swarms Operators
  Generators Topology Optimizers Spec RunFacts PbestFacts ShapeFacts GbestFacts RunBest.
Import ListNotations.

(** *** Neighbour-based topologies, last iteration only *)
Record LInv (k : nat) (o : ostate) : Prop := {
  li_np : 0 < k -> s_best_np (o_swarm o) = true;
  li_in : 0 < k -> In (s_best_cost (o_swarm o)) (s_pbest_cost (o_swarm o));
  li_le : 0 < k -> topo_covers (length (s_pbest_cost (o_swarm o))) (o_top o) ->
          forall v, In v (s_pbest_cost (o_swarm o)) -> fle (s_best_cost (o_swarm o)) v = true
}.

(** Consistent particle count. *)
Definition wf_n (o : ostate) : Prop := s_n (o_swarm o) = length (s_position (o_swarm o)).

Lemma LInv_eval : forall c e pool o0 k o h B o3 cost pp pc t bp bc np,
  HInv c o0 k o h B -> wf_n o0 -> t_kind (o_top o0) <> Star ->
  Evald c e pool k o o3 cost pp pc t bp bc np -> LInv (S k) o3.
Proof.
  intros c e pool o0 k o h B o3 cost pp pc t bp bc np H W K (E1 & E2 & E3 & ->).
  pose proof (compute_pbest_lengths _ _ _ E2) as (L1 & L2 & L3 & L4 & L5). cbn in L1, L2, L3, L4, L5.
  assert (NP : nonan pc) by (eapply compute_pbest_nonan; eauto; apply H).
  assert (K' : t_kind (o_top o) <> Star) by (destruct (hi_topo _ _ _ _ _ _ H); congruence).
  destruct (gbest_neighbor_ok (e_top e k) (gbest_args c) (o_top o)
    (set_pbest (set_current_cost (o_swarm o) cost) pp pc) _ _ _ _ NP K' E3) as (-> & I & G).
  cbn in G, I. constructor; cbn; auto.
  pose proof (hi_n _ _ _ _ _ _ H). pose proof (hi_pos _ _ _ _ _ _ H). unfold wf_n in W.
  assert (Q : s_n (o_swarm o) = length pc) by flia.
  ftypes. rewrite Q in G. auto.
Qed.
Lemma LInv_core : forall k o o', LInv k o -> core_eq o o' -> LInv k o'.
Proof.
  intros k o o' [I1 I2 I3] E. destruct E. constructor; rewrite ?ce_bc, ?ce_np, ?ce_pc, ?ce_top; auto.
Qed.
Lemma LInv_start : forall o, LInv 0 o. Proof. constructor; lia. Qed.

(** *** Star: where the attractor comes from (new objects only) *)
(** Evaluation [a'] of iteration [t'] comes before evaluation [a] of iteration [t]. *)
Definition earlier (t' a' t a : nat) : Prop := t' < t \/ (t' = t /\ a' < a).
Definition GInv (o : ostate) (h : list fmatrix) (C : list (list f64)) : Prop :=
  (s_best_pos (o_swarm o) = BPEmpty /\ s_best_cost (o_swarm o) = finf) \/
  exists y a t w, s_best_pos (o_swarm o) = BPVec y /\ evaluated h C a t y w /\ feq w (s_best_cost (o_swarm o)) = true /\
    forall a' t' z w', evaluated h C a' t' z w' -> earlier t' a' t a -> flt w w' = true \/ fisnan w' = true.
Lemma GInv_eval : forall c e pool o0 k o h C B o3 cost pp pc t bp bc np, pool <> Some 0 ->
  PInv c e pool o0 k o h C -> HInv c o0 k o h B -> SInv o0 k o h C B -> t_kind (o_top o0) = Star -> s_best_cost (o_swarm o0) = finf -> GInv o h C ->
  Evald c e pool k o o3 cost pp pc t bp bc np -> GInv o3 (h ++ [s_position (o_swarm o)]) (C ++ [cost]).
Proof.
  intros c e pool o0 k o h C B o3 cost pp pc t bp bc np NPool P H SI K B0 G E.
  pose proof (PInv_eval _ _ _ _ _ _ _ _ _ _ _ _ _ _ _ _ NPool P E) as P3.
  destruct (Evald_pbest _ _ _ _ _ _ _ _ _ _ _ _ _ E) as (Q1 & Q2 & Q3 & Q4 & Q5).
  destruct E as (E1 & E2 & E3 & _).
  assert (NP : nonan pc) by (eapply compute_pbest_nonan; eauto; apply H).
  assert (K' : t_kind (o_top o) = Star) by (destruct (hi_topo _ _ _ _ _ _ H); congruence).
  assert (LC : length C = length h) by apply P.
  unfold compute_gbest in E3. rewrite K' in E3. unfold GInv. rewrite Q3, Q5.
  destruct (star_gbest_ok _ _ _ _ _ _ E3 NP) as (m & M & [(F & -> & _ & i & p & A & Pp & ->)|(F & -> & _ & ->)]); cbn in *.
  - right. destruct (np_min_spec _ _ NP M) as (M1 & M2 & M3). destruct (np_argmin_spec _ _ NP A) as (x & X & X1 & X2).
    assert (FX : fle x m = true) by (apply In_nth_error in M1; destruct M1 as [j J]; eapply X1; eauto).
    assert (FM : fle m x = true) by (apply M2; eapply nth_error_In; eauto).
    assert (NB : fisnan (s_best_cost (o_swarm o0)) = false) by (rewrite B0; reflexivity).
    destruct (hi_best _ _ _ _ _ _ H NB) as [NB' _].
    assert (FI : flt x finf = true) by (pose proof (fle_finf _ NB'); forder).
    pose proof X as X'. rewrite <- Q1 in X'. destruct (PInv_evaluated _ _ _ _ _ _ _ _ i x P3 ltac:(lia) X' FI) as (t' & y & T & Y).
    rewrite Q2 in Y. pose proof (eq_trans (eq_sym Y) Pp) as YP. injection YP as ->.
    (* everything evaluated before this iteration is above [x] *)
    assert (OLD : forall a' s' z w', evaluated h C a' s' z w' -> flt x w' = true \/ fisnan w' = true).
    { intros a' s' z w' EV. pose proof (evaluated_lt _ _ _ _ _ _ EV) as LT. pose proof (pi_len _ _ _ _ _ _ _ _ P) as LH.
      destruct (PInv_particle _ _ _ _ _ _ _ _ _ _ _ _ P ltac:(lia) EV) as [v V].
      pose proof (PInv_lower _ _ _ _ _ _ _ _ _ _ _ _ _ P ltac:(lia) EV V) as L1.
      pose proof (si_pc _ _ _ _ _ _ SI ltac:(lia) v (nth_error_In _ _ V)) as L2.
      pose proof (hi_nonan _ _ _ _ _ _ H) as NN. pose proof (nonan_nth _ _ _ NN V) as NV.
      destruct (fisnan w') eqn:W; [right; reflexivity|left]. forder. }
    exists p, i, t', x. split; [reflexivity|]. split; [exact T|]. split; [forder|].
    intros a' s' z w' EV EA. apply evaluated_snoc in EV; [|exact LC]. destruct EV as [EV|(-> & EV1 & EV2)]; [eapply OLD; eauto|].
    assert (TL : t' = length h).
    { pose proof T as T'. apply evaluated_snoc in T'; [|exact LC]. destruct T' as [T'|(T' & _)]; [|exact T'].
      pose proof (evaluated_lt _ _ _ _ _ _ T'). destruct EA as [EA|[EA _]]; lia. }
    destruct EA as [EA|[_ EA]]; [lia|].
    destruct (nth_error_ex pc a') as [v V]; [apply nth_error_lt in X; lia|].
    assert (EV3 : evaluated (h ++ [s_position (o_swarm o)]) (C ++ [cost]) a' (length h) z w') by (apply evaluated_snoc; auto).
    pose proof V as V'. rewrite <- Q1 in V'. pose proof (PInv_lower _ _ _ _ _ _ _ _ _ _ _ _ _ P3 ltac:(lia) EV3 V') as L1.
    pose proof (X2 _ _ EA V) as L2. destruct (fisnan w') eqn:W; [right; reflexivity|left]. pose proof (nonan_nth _ _ _ NP V). forder.
  - destruct G as [G|(y & a & t' & w & G1 & G2 & G3 & G4)]; [left; exact G|]. right. exists y, a, t', w. split; [exact G1|].
    split; [apply evaluated_old; auto|]. split; [exact G3|].
    intros a' s' z w' EV EA. apply evaluated_snoc in EV; [|exact LC]. destruct EV as [EV|(-> & EV1 & EV2)]; [eapply G4; eauto|].
    pose proof (evaluated_lt _ _ _ _ _ _ G2). destruct EA as [EA|[EA _]]; lia.
Qed.
Lemma GInv_core : forall o o' h C, GInv o h C -> core_eq o o' -> GInv o' h C.
Proof. intros o o' h C G E. destruct E. unfold GInv. rewrite ce_bp, ce_bc. exact G. Qed.
(** A static topology keeps the lists it had, or those of the first iteration. *)
Definition TInv (c : config) (e : env) (k : nat) (o0 o : ostate) (h : list fmatrix) : Prop :=
  (k = 0 -> o_top o = o_top o0) /\
  (0 < k -> t_static (o_top o0) = true -> (t_kind (o_top o0) = Pyramid -> s_d (o_swarm o0) < s_n (o_swarm o0)) ->
   exists nb, t_nb (o_top o) = Some nb /\
     match t_nb (o_top o0) with
     | Some nb0 => nb_rows nb = nb_rows nb0
     | None => exists s t' g nb1, nth_error h 0 = Some (s_position s) /\ compute_gbest (e_top e 0) (gbest_args c) (o_top o0) s = (t', Ok g) /\
         t_nb t' = Some nb1 /\ nb_rows nb = nb_rows nb1 /\ s_n s = s_n (o_swarm o0) /\ s_d s = s_d (o_swarm o0)
     end).
Lemma TInv_eval : forall c e pool o0 k o h B o3 cost pp pc t bp bc np,
  HInv c o0 k o h B -> length h = k -> TInv c e k o0 o h -> Evald c e pool k o o3 cost pp pc t bp bc np -> TInv c e (S k) o0 o3 (h ++ [s_position (o_swarm o)]).
Proof.
  intros c e pool o0 k o h B o3 cost pp pc t bp bc np H L [T0 T1] (E1 & E2 & E3 & ->). split; [discriminate|].
  intros _ ST PY. cbn. destruct (hi_topo _ _ _ _ _ _ H) as [TK TS]. pose proof (hi_n _ _ _ _ _ _ H) as HN. pose proof (hi_d _ _ _ _ _ _ H) as HD.
  set (sw := set_pbest (set_current_cost (o_swarm o) cost) pp pc) in *.
  assert (PY' : t_kind (o_top o) = Pyramid -> s_d sw < s_n sw) by (cbn; rewrite TK, HN, HD; exact PY).
  assert (ST' : t_static (o_top o) = true) by (rewrite TS; exact ST).
  destruct k as [|k].
  - rewrite (T0 eq_refl) in *. destruct (t_nb (o_top o0)) as [nb0|] eqn:E0.
    + destruct (static_rows_kept _ _ _ _ _ _ _ ST E0 PY' E3) as (nb' & N1 & N2). eauto.
    + destruct (compute_gbest_nb _ _ _ _ _ _ E3) as [nb N]. exists nb. split; [exact N|].
      destruct h; [|discriminate]. exists sw, t, (bp, bc, np), nb. split; [reflexivity|]. split; [exact E3|]. cbn. auto.
  - destruct (T1 ltac:(lia) ST PY) as (nb & N1 & N2).
    destruct (static_rows_kept _ _ _ _ _ _ _ ST' N1 PY' E3) as (nb' & N3 & N4). exists nb'. split; [exact N3|].
    destruct (t_nb (o_top o0)) as [nb0|]; [congruence|]. destruct N2 as (s & t' & g & nb1 & A1 & A2 & A3 & A4 & A5).
    exists s, t', g, nb1. split; [destruct h; [discriminate A1|exact A1]|]. split; [exact A2|]. split; [exact A3|]. split; [congruence|exact A5].
Qed.
Lemma TInv_core : forall c e k o0 o o' h, TInv c e k o0 o h -> core_eq o o' -> TInv c e k o0 o' h.
Proof. intros c e k o0 o o' h [T0 T1] E. destruct E. split; rewrite ce_top; auto. Qed.
(** The last evaluation's neighbourhood query. *)
Definition QInv (c : config) (e : env) (k : nat) (o0 o : ostate) (h : list fmatrix) : Prop :=
  forall i, k = S i -> exists t s, nth_error h i = Some (s_position s) /\ compute_gbest (e_top e i) (gbest_args c) t s =
      (o_top o, Ok (s_best_pos (o_swarm o), s_best_cost (o_swarm o), s_best_np (o_swarm o))) /\
    t_kind t = t_kind (o_top o0) /\ t_static t = t_static (o_top o0) /\ s_pbest_cost s = s_pbest_cost (o_swarm o) /\ s_pbest_pos s = s_pbest_pos (o_swarm o) /\
    s_n s = s_n (o_swarm o0) /\ s_d s = s_d (o_swarm o).
Lemma QInv_eval : forall c e pool o0 k o h B o3 cost pp pc t bp bc np,
  HInv c o0 k o h B -> length h = k -> Evald c e pool k o o3 cost pp pc t bp bc np -> QInv c e (S k) o0 o3 (h ++ [s_position (o_swarm o)]).
Proof.
  intros c e pool o0 k o h B o3 cost pp pc t bp bc np H L (E1 & E2 & E3 & ->) i I. injection I as <-.
  exists (o_top o), (set_pbest (set_current_cost (o_swarm o) cost) pp pc). cbn.
  split; [rewrite nth_error_app2, L, Nat.sub_diag by lia; reflexivity|]. split; [exact E3|].
  destruct (hi_topo _ _ _ _ _ _ H) as [T1 T2]. pose proof (hi_n _ _ _ _ _ _ H). auto 8.
Qed.
Lemma QInv_core : forall c e k o0 o o' h, QInv c e k o0 o h -> core_eq o o' -> QInv c e k o0 o' h.
Proof.
  intros c e k o0 o o' h Q E i I. destruct (Q i I) as (t & s & G). exists t, s. destruct E. rewrite ce_top, ce_bp, ce_bc, ce_np, ce_pc, ce_pp, ce_d. exact G.
Qed.

(** *** Everything that holds between iterations *)
Record Run (c : config) (e : env) (pool : option nat) (o0 : ostate) (k : nat) (o : ostate)
    (h : list fmatrix) (C : list (list f64)) (B : list f64) : Prop := {
  ru_p : PInv c e pool o0 k o h C;
  ru_h : HInv c o0 k o h B;
  ru_s : t_kind (o_top o0) = Star -> fisnan (s_best_cost (o_swarm o0)) = false -> SInv o0 k o h C B;
  ru_l : t_kind (o_top o0) <> Star -> wf_n o0 -> LInv k o;
  ru_g : t_kind (o_top o0) = Star -> s_best_pos (o_swarm o0) = BPEmpty -> s_best_cost (o_swarm o0) = finf -> GInv o h C;
  ru_q : QInv c e k o0 o h;
  ru_t : TInv c e k o0 o h
}.

Lemma Run_start : forall c e pool o, Run c e pool o 0 (started c o) [] [] [].
Proof.
  constructor; intros. apply PInv_start. apply HInv_start. apply SInv_start; auto. apply LInv_start. left; destruct (started_facts c o) as (_ & _ & _ & _ & _ & _ & E7 & _); rewrite E7; split; assumption. intros j J; discriminate.
  split; [intros _; apply (started_facts c o)|lia].
Qed.
Lemma Run_eval : forall c e pool o0 k o h C B o3 cost pp pc t bp bc np,
  pool <> Some 0 -> Run c e pool o0 k o h C B ->
  Evald c e pool k o o3 cost pp pc t bp bc np ->
  Run c e pool o0 (S k) o3 (h ++ [s_position (o_swarm o)]) (C ++ [cost]) (B ++ [bc]).
Proof.
  intros c e pool o0 k o h C B o3 cost pp pc t bp bc np NP [P H S L G Q TI] E. constructor; intros.
  - eapply PInv_eval; eauto.
  - eapply HInv_eval; eauto.
  - eapply SInv_eval; eauto.
  - eapply LInv_eval; eauto.
  - eapply GInv_eval; eauto. apply S; auto. rewrite H2. reflexivity.
  - eapply QInv_eval; eauto. apply P.
  - eapply TInv_eval; eauto. apply P.
Qed.
Lemma Run_core : forall c e pool o0 k o o' h C B, Run c e pool o0 k o h C B -> core_eq o o' ->
  length (s_position (o_swarm o')) = length (s_position (o_swarm o)) -> Run c e pool o0 k o' h C B.
Proof.
  intros c e pool o0 k o o' h C B [P H S L G QI TI] E Q. constructor; intros.
  - eapply PInv_core; eauto.
  - eapply HInv_core; eauto.
  - eapply SInv_core; eauto.
  - eapply LInv_core; eauto.
  - eapply GInv_core; eauto.
  - eapply QInv_core; eauto.
  - eapply TInv_core; eauto.
Qed.

(** State left by a raising iteration. *)
Inductive RunRaise (c : config) (e : env) (pool : option nat) (o0 : ostate) (iters : nat) : ostate -> exn -> Prop :=
| RR_eval : forall k o h C B o' x, k < iters -> Run c e pool o0 k o h C B -> EvalRaise c e pool k o o' x ->
    RunRaise c e pool o0 iters o' x
| RR_update : forall k o h C B q o' x, k < iters -> Run c e pool o0 (S k) o h C B ->
    update_swarm c e iters k o q = Raise o' x -> RunRaise c e pool o0 iters o' x.

Theorem optimize_run : forall c e pool iters o o' r, optimize c e pool iters o = (o', r) ->
  (pool = Some 0 /\ o' = start_memory c o /\ r = Err ValueError) \/
  (pool <> Some 0 /\ r = final_result o' /\
     exists k h C B, k <= iters /\ Run c e pool o k o' h C B) \/
  (pool <> Some 0 /\ exists x, r = Err x /\ RunRaise c e pool o iters o' x).
Proof.
  intros c e pool iters o o' r H.
  destruct (match pool with Some O => true | _ => false end) eqn:EP.
  - destruct pool as [[|n]|]; try discriminate. left. unfold optimize in H. injection H as <- <-. auto.
  - assert (NP : pool <> Some 0) by (destruct pool as [[|n]|]; congruence).
    right.
    destruct (optimize_rule c e pool iters o
       (fun i s _ => exists h C B, Run c e pool o i s h C B)
       (fun i s _ => exists h C B, Run c e pool o (S i) s h C B)
       (fun s => exists k h C B, k <= iters /\ Run c e pool o k s h C B)
       (fun s x => RunRaise c e pool o iters s x)) with (o' := o') (r := r)
      as [(Z & _)|[(_ & Q & ->)|(_ & x & R & ->)]]; auto.
    + exists [], [], []. apply Run_start.
    + intros i s q Hi (h & C & B & R). pose proof (evaluate_cases c e pool i s q) as EC.
      destruct (evaluate_swarm c e pool i s q) as [o1 q1|o1|o1 x].
      * destruct EC as (cost & pp & pc & t & bp & bc & np & E & _). do 3 eexists. eapply Run_eval; eauto.
      * destruct EC as (cost & pp & pc & t & bp & bc & np & E & _).
        exists (S i). do 3 eexists. split; [lia|]. eapply Run_eval; eauto.
      * econstructor 1; eauto.
    + intros i s q Hi (h & C & B & R). pose proof (update_cases c e iters i s q) as UC.
      destruct (update_swarm c e iters i s q) as [o1 q1|o1|o1 x] eqn:EU.
      * destruct UC as (_ & CE & opts & v & vm & p & bm & U). exists h, C, B. eapply Run_core; eauto.
        pose proof (Updated_length _ _ _ _ _ _ _ _ _ _ _ U) as [L _]. apply shape_eq_length in L.
        destruct U as (_ & U & _). rewrite U. cbn. symmetry. exact L.
      * contradiction.
      * eapply RR_update; eauto.
    + intros s q (h & C & B & R). exists iters, h, C, B. split; auto.
    + congruence.
    + right. eauto.
Qed.

Lemma optimize_pool_ok : forall c e pool iters o o' v, optimize c e pool iters o = (o', Ok v) -> pool <> Some 0.
Proof. intros c e pool iters o o' v H ->. unfold optimize in H. discriminate. Qed.

Corollary optimize_ok : forall c e pool iters o o' v, optimize c e pool iters o = (o', Ok v) ->
  final_result o' = Ok v /\ exists k h C B, k <= iters /\ Run c e pool o k o' h C B.
Proof.
  intros c e pool iters o o' v H. destruct (optimize_run _ _ _ _ _ _ _ H) as [(_ & _ & Z)|[(_ & Z & R)|(_ & x & Z & _)]]; try discriminate.
  auto.
Qed.

(** Bookkeeping in every outcome (a pool of size 0 raises before anything happens). *)
Corollary optimize_hinv : forall c e pool iters o o' r, optimize c e pool iters o = (o', r) -> pool <> Some 0 ->
  exists k h B, k <= iters /\ HInv c o k o' h B.
Proof.
  intros c e pool iters o o' r H NP. destruct (optimize_run _ _ _ _ _ _ _ H) as [(Z & _)|[(_ & Z & k & h & C & B & K & R)|(_ & x & Z & R)]].
  - congruence.
  - exists k, h, B. split; auto. apply R.
  - destruct R as [k o1 h C B o2 x K R E|k o1 h C B q o2 x K R E].
    + exists k, h, B. split; [lia|]. eapply HInv_raise; eauto. apply R.
    + exists (S k), h, B. split; [lia|]. pose proof (update_cases c e iters k o1 q) as U. rewrite E in U.
      destruct U as [U1 U2]. eapply HInv_core; eauto. apply R. ftypes. rewrite U2. auto.
Qed.

(** *** Reachable objects *)
Definition aligned (o : ostate) : Prop :=
  length (o_mean_pbest_history o) = length (o_cost_history o) /\
  length (o_mean_neighbor_history o) = length (o_cost_history o) /\
  length (o_pos_history o) = length (o_cost_history o) /\
  length (o_velocity_history o) = length (o_cost_history o).

Record RI (o : ostate) : Prop := {
  ri_nan : fisnan (s_best_cost (o_swarm o)) = false;
  ri_wf : wf_n o;
  ri_aligned : aligned o
}.

Lemma create_swarm_new : forall n d disc bin opts b ce init cl dr s,
  create_swarm n d disc bin opts b ce init cl dr = Ok s ->
  exists dim pos vel, s = new_swarm (N := F64num) finf dim pos vel opts.
Proof. unfold create_swarm. intros. bind_inv. eauto. Qed.
Lemma make_swarm_new : forall c dr s, make_swarm c dr = Ok s ->
  exists dim pos vel, s = new_swarm (N := F64num) finf dim pos vel (c_options c).
Proof. unfold make_swarm. intros c dr s H. destruct (c_kind c); eapply create_swarm_new; eauto. Qed.

Lemma construct_inv : forall c top dr o, construct c top dr = Ok o ->
  exists s, make_swarm c dr = Ok s /\ o = mkOstate s top None None [] [] [] [] [] /\ c_ftol_iter c <> 0.
Proof.
  unfold construct. intros c top dr o H. apply bind_Ok in H. destruct H as (a & _ & H).
  destruct (Nat.eqb_spec (c_ftol_iter c) 0); try discriminate. bind_inv. eauto.
Qed.
Lemma reset_inv : forall c dr o0 o, reset c dr o0 = Ok o ->
  exists s, make_swarm c dr = Ok s /\ o = mkOstate s (o_top o0) (o_bmem o0) (o_vmem o0) [] [] [] [] [].
Proof. unfold reset. intros c dr o0 o H. bind_inv. eauto. Qed.

Lemma Fresh_inv : forall c o, Fresh c o -> exists dim pos vel,
  o_swarm o = new_swarm (N := F64num) finf dim pos vel (c_options c) /\
  o_cost_history o = [] /\ o_mean_pbest_history o = [] /\ o_mean_neighbor_history o = [] /\
  o_pos_history o = [] /\ o_velocity_history o = [].
Proof.
  intros c o H. destruct H as [top dr o H|dr o0 o H].
  - apply construct_inv in H. destruct H as (s & M & -> & _). destruct (make_swarm_new _ _ _ M) as (d & p & v & ->).
    exists d, p, v. repeat split.
  - apply reset_inv in H. destruct H as (s & M & ->). destruct (make_swarm_new _ _ _ M) as (d & p & v & ->).
    exists d, p, v. repeat split.
Qed.
Lemma Fresh_RI : forall c o, Fresh c o -> RI o.
Proof.
  intros c o H. destruct (Fresh_inv _ _ H) as (d & p & v & E & E1 & E2 & E3 & E4 & E5).
  constructor; unfold wf_n, aligned; rewrite ?E, ?E1, ?E2, ?E3, ?E4, ?E5; repeat split.
Qed.

Lemma HInv_RI : forall c o0 k o h B, HInv c o0 k o h B -> RI o0 -> RI o.
Proof.
  intros c o0 k o h B H [R1 R2 R3]. constructor.
  - apply (hi_best _ _ _ _ _ _ H R1).
  - unfold wf_n in *. rewrite (hi_n _ _ _ _ _ _ H). pose proof (hi_pos _ _ _ _ _ _ H). flia.
  - destruct H as [[I1 I1'] [I2 I2'] (lm & I3 & I3') I4 (lv & I5 & I5') _ _ _ _ _ _ _ _].
    destruct R3 as (A1 & A2 & A3 & A4).
    unfold aligned. rewrite I1, I2, I3, I4, I5, !app_length. repeat split; flia.
Qed.

Lemma start_memory_RI : forall c o, RI o -> RI (start_memory c o).
Proof.
  intros c o [R1 R2 R3]. unfold start_memory. destruct (c_kind c); constructor; auto.
Qed.

Lemma optimize_RI : forall c e pool iters o o' r, optimize c e pool iters o = (o', r) -> RI o -> RI o'.
Proof.
  intros c e pool iters o o' r H R.
  destruct (match pool with Some O => true | _ => false end) eqn:EP.
  - destruct pool as [[|n]|]; try discriminate. unfold optimize in H. injection H as <- <-. apply start_memory_RI; auto.
  - destruct (optimize_hinv _ _ _ _ _ _ _ H) as (k & h & B & _ & I). { destruct pool as [[|n]|]; congruence. }
    eapply HInv_RI; eauto.
Qed.
Theorem Reachable_RI : forall c o, Reachable c o -> RI o.
Proof.
  induction 1.
  - apply (Fresh_RI c). eapply Fresh_construct; eauto.
  - apply (Fresh_RI c). eapply Fresh_reset; eauto.
  - eapply optimize_RI; eauto.
Qed.

(** *** The returned pair *)
Lemma final_result_inv : forall o c p, final_result o = Ok (c, p) ->
  s_best_np (o_swarm o) = true /\ c = s_best_cost (o_swarm o) /\
  exists j, np_argmin (N := F64num) (s_pbest_cost (o_swarm o)) = Ok j /\
            nth_error (s_pbest_pos (o_swarm o)) j = Some p.
Proof.
  unfold final_result. intros o c p H. destruct (s_best_np (o_swarm o)); try discriminate.
  cbn [negb] in H. bind_inv. repeat split; auto. exists a; auto.
Qed.
