(** The recorded best costs are running minima (C68). *)
From Coq Require Import String ZArith List Arith Bool Lia.
From Flocq Require Import BinarySingleNaN.
From Verif Require Import Prelude ListFacts F64 F64Facts Num Np NpFacts Handlers Swarms Operators
  Generators Topology Optimizers Spec SpecDyn SpecRun RunFacts PbestFacts ShapeFacts GbestFacts RunBest RunInv RunMain RunResults RunMono RunClaims Trajectory Textbook Mean.
Import ListNotations.

Lemma evaluated_app : forall h C h' C' a t x w, length C = length h ->
  (evaluated (h ++ h') (C ++ C') a t x w <->
   (t < length h /\ evaluated h C a t x w) \/ (length h <= t /\ evaluated h' C' a (t - length h) x w)).
Proof.
  intros h C h' C' a t x w L. unfold evaluated. split.
  - intros (X & cs & E1 & E2 & E3). destruct (Nat.lt_ge_cases t (length h)) as [Q|Q].
    + left. split; [exact Q|]. rewrite nth_error_app1 in E1, E2 by lia. eauto.
    + right. split; [exact Q|]. rewrite nth_error_app2 in E1, E2 by lia. rewrite L in E2. eauto.
  - intros [(Q & X & cs & E1 & E2 & E3)|(Q & X & cs & E1 & E2 & E3)]; exists X, cs.
    + rewrite !nth_error_app1 by lia. auto.
    + rewrite !nth_error_app2 by lia. rewrite L. auto.
Qed.

(** One more call. *)
Lemma running_min_app : forall h C B h' C' B' best best', length C = length h ->
  running_min h C B -> (forall a t x w, evaluated h C a t x w -> flt w best = false) ->
  (best = finf \/ exists a t x, evaluated h C a t x best) ->
  length B' = length h' ->
  (forall j b, nth_error B' j = Some b ->
     fle b best = true /\ fle best' b = true /\
     (forall a t x w, t <= j -> evaluated h' C' a t x w -> flt w b = false) /\
     (b = best \/ exists a t x, t <= j /\ evaluated h' C' a t x b)) ->
  running_min (h ++ h') (C ++ C') (B ++ B').
Proof.
  intros h C B h' C' B' best best' L [LB R] M1 M2 LB' S. split; [rewrite !app_length; lia|].
  intros t b E. destruct (Nat.lt_ge_cases t (length h)) as [Q|Q].
  - rewrite nth_error_app1 in E by lia. destruct (R t b E) as [R1 R2]. split.
    + intros a t' x w T V. apply evaluated_app in V; [|exact L]. destruct V as [(_ & V)|(V & _)]; [eapply R1; eauto|lia].
    + destruct R2 as [->|(a & t' & x & T & V)]; [left; reflexivity|]. right. exists a, t', x. split; [exact T|].
      apply evaluated_app; [exact L|]. left. split; [lia|exact V].
  - rewrite nth_error_app2 in E by lia. destruct (S _ _ E) as (S1 & _ & S3 & S4). split.
    + intros a t' x w T V. apply evaluated_app in V; [|exact L]. destruct V as [(_ & V)|(V0 & V)].
      * specialize (M1 _ _ _ _ V). forder.
      * apply (S3 a (t' - length h) x w); [lia|exact V].
    + destruct S4 as [->|(a & t' & x & T & V)].
      * destruct M2 as [->|(a & t' & x & V)]; [left; reflexivity|]. right. exists a, t', x. pose proof (evaluated_lt _ _ _ _ _ _ V).
        split; [lia|]. apply evaluated_app; [exact L|]. left. split; [lia|exact V].
      * right. exists a, (length h + t'), x. split; [lia|]. apply evaluated_app; [exact L|]. right. split; [lia|].
        replace (length h + t' - length h) with t' by lia. exact V.
Qed.

Lemma logs_length : forall calls logs n,
  Forall2 (fun k (hc : list fmatrix * list (list f64)) => logged (k_env k) (k_pool k) (fst hc) (snd hc) /\ all_evaluated n (fst hc) (snd hc)) calls logs ->
  length (concat (map snd logs)) = length (concat (map fst logs)).
Proof.
  intros calls logs n H. induction H as [|k [h C] l m [[L _] _] H IH]; [reflexivity|]. cbn in *. rewrite !app_length. lia.
Qed.

(** *** Star *)
Lemma star_running : forall c o calls o', Fresh c o -> t_kind (o_top o) = Star -> Session c o calls o' ->
  exists logs, Forall2 (fun k hc => logged (k_env k) (k_pool k) (fst hc) (snd hc) /\
                                    all_evaluated (c_n c) (fst hc) (snd hc)) calls logs /\
    concat (map fst logs) = o_pos_history o' /\
    running_min (o_pos_history o') (concat (map snd logs)) (o_cost_history o') /\
    (forall a t x w, evaluated (o_pos_history o') (concat (map snd logs)) a t x w -> flt w (s_best_cost (o_swarm o')) = false) /\
    (s_best_cost (o_swarm o') = finf \/ exists a t x, evaluated (o_pos_history o') (concat (map snd logs)) a t x (s_best_cost (o_swarm o'))).
Proof.
  intros c o calls o' F K S. induction S as [o|o l o1 k o2 r S IH H].
  - exists []. destruct (Fresh_inv _ _ F) as (d & p & v & E & E1 & _ & _ & E4 & _). rewrite E4. rewrite E1.
    split; [constructor|]. split; [reflexivity|]. split; [split; [reflexivity|intros [|t]; discriminate]|].
    split; [intros a [|t] x w (X & cs & Z & _); discriminate|]. left. rewrite E. reflexivity.
  - destruct (IH F K) as (logs & L1 & L2 & L3 & L4 & L5). pose proof (logs_length _ _ _ L1) as LL. rewrite L2 in LL.
    pose proof (ri_nan _ (Session_RI _ _ _ _ S (Fresh_RI _ _ F))) as NB.
    assert (K1 : t_kind (o_top o1) = Star) by (destruct (Session_topo _ _ _ _ S); congruence).
    destruct (match k_pool k with Some O => true | _ => false end) eqn:EP.
    + destruct k as [e pool iters]. cbn in *. destruct pool as [[|n]|]; try discriminate.
      unfold optimize in H. injection H as <- <-. exists (logs ++ [([], [])]).
      assert (Q : o_swarm (start_memory c o1) = o_swarm o1 /\ o_pos_history (start_memory c o1) = o_pos_history o1 /\
                  o_cost_history (start_memory c o1) = o_cost_history o1)
        by (unfold start_memory; destruct (c_kind c); auto).
      destruct Q as (Q1 & Q2 & Q3). rewrite Q1, Q2, Q3, !map_app, !concat_app. simpl. rewrite !app_nil_r.
      split; [|auto]. apply Forall2_app; auto. constructor; auto. split. split; auto. intros [|t]; discriminate.
      intros t a Ht. simpl in Ht. lia.
    + destruct (star_any _ _ _ _ _ _ _ H) as (n & h & C & B & _ & I & SI & LG & AE); auto.
      { destruct (k_pool k) as [[|m]|]; congruence. }
      exists (logs ++ [(h, C)]). rewrite !map_app, !concat_app, L2. simpl. rewrite !app_nil_r.
      destruct (hi_ph _ _ _ _ _ _ I) as [PH PL]. destruct (hi_ch _ _ _ _ _ _ I) as [CH CL]. rewrite PH, CH.
      split; [apply Forall2_app; auto; constructor; auto|]. split; [reflexivity|].
      pose proof (si_le _ _ _ _ _ _ SI) as LE. split; [|split].
      * eapply running_min_app; eauto; [lia|]. exact (si_hist _ _ _ _ _ _ SI).
      * intros a t x w V. apply evaluated_app in V; [|exact LL]. destruct V as [(_ & V)|(_ & V)].
        -- specialize (L4 _ _ _ _ V). forder.
        -- destruct n.
           ++ apply evaluated_lt in V. lia.
           ++ pose proof (hi_last _ _ _ _ _ _ I) as Lb. cbn in Lb.
              destruct (si_hist _ _ _ _ _ _ SI _ _ Lb) as (_ & _ & G & _). apply (G a (t - length (o_pos_history o1)) x w); auto.
              apply evaluated_lt in V. lia.
      * destruct (si_src _ _ _ _ _ _ SI) as [(-> & _)|(_ & (a & t & x & G) & _)].
        -- destruct L5 as [L5|(a & t & x & V)]; [left; exact L5|]. right. exists a, t, x. apply evaluated_app; [exact LL|]. left.
           split; [eapply evaluated_lt; eauto|exact V].
        -- right. exists a, (length (o_pos_history o1) + t), x. apply evaluated_app; [exact LL|]. right. split; [lia|].
           replace (length (o_pos_history o1) + t - length (o_pos_history o1)) with t by lia. exact G.
Qed.
Lemma star_curve : forall c o calls o', Fresh c o -> t_kind (o_top o) = Star -> Session c o calls o' ->
  exists logs, Forall2 (fun k hc => logged (k_env k) (k_pool k) (fst hc) (snd hc) /\
                                    all_evaluated (c_n c) (fst hc) (snd hc)) calls logs /\
    concat (map fst logs) = o_pos_history o' /\
    running_min (o_pos_history o') (concat (map snd logs)) (o_cost_history o').
Proof. intros c o calls o' F K S. destruct (star_running _ _ _ _ F K S) as (logs & A & B & D & _). eauto. Qed.

(** *** Neighbour-based topologies *)
Definition BestAt (n : nat) (e : env) (o : ostate) (h : list fmatrix) (C : list (list f64)) (t : nat) (b : f64) : Prop :=
  (exists a x0 px, nth_error (s_position (o_swarm o)) a = Some x0 /\ best_of_run (so_far t h) (so_far t C) a x0 px b) /\
  (queries_cover n e (so_far t h) -> forall a t' x w, t' <= t -> evaluated h C a t' x w -> flt w b = false).
Definition NInv c e pool (o : ostate) (k : nat) (o1 : ostate) : Prop :=
  exists h C B, Run c e pool o k o1 h C B /\ RunMono.MInv c e o k o1 h B /\ forall t b, nth_error B t = Some b -> BestAt (c_n c) e o h C t b.
Definition NHist (c : config) e pool (o : ostate) (o1 : ostate) : Prop :=
  exists h C B, o_pos_history o1 = o_pos_history o ++ h /\ logged e pool h C /\ o_cost_history o1 = o_cost_history o ++ B /\ length B = length h /\
    forall t b, nth_error B t = Some b -> BestAt (c_n c) e o h C t b.
Lemma NInv_hist : forall c e pool o k o1, NInv c e pool o k o1 -> NHist c e pool o o1.
Proof.
  intros c e pool o k o1 (h & C & B & R & M & H). exists h, C, B. destruct (ru_p _ _ _ _ _ _ _ _ _ R).
  destruct (hi_ch _ _ _ _ _ _ (mi_h _ _ _ _ _ _ _ M)) as [CH CL]. split; [exact pi_hist|]. split; [exact pi_log|]. split; [exact CH|].
  split; [lia|exact H].
Qed.
Lemma NInv_eval : forall c e pool o k o1 o3 cost pp pc tp bp bc np, pool <> Some 0 -> Fresh c o -> t_kind (o_top o) <> Star -> NInv c e pool o k o1 ->
  Evald c e pool k o1 o3 cost pp pc tp bp bc np -> NInv c e pool o (S k) o3.
Proof.
  intros c e pool o k o1 o3 cost pp pc tp bp bc np NP F K (h & C & B & R & M & H) EV.
  pose proof (Run_eval _ _ _ _ _ _ _ _ _ _ _ _ _ _ _ _ _ NP R EV) as R'.
  pose proof (RunMono.MInv_eval _ _ _ _ _ _ _ _ _ _ _ _ _ _ _ _ (Fresh_RI _ _ F) K M EV) as M'.
  pose proof (LInv_eval _ _ _ _ _ _ _ _ _ _ _ _ _ _ _ _ (mi_h _ _ _ _ _ _ _ M) (ri_wf _ (Fresh_RI _ _ F)) K EV) as LI.
  exists (h ++ [s_position (o_swarm o1)]), (C ++ [cost]), (B ++ [bc]). split; [exact R'|]. split; [exact M'|]. intros t b T.
  pose proof (pi_log _ _ _ _ _ _ _ _ (ru_p _ _ _ _ _ _ _ _ _ R)) as [LG _]. pose proof (pi_len _ _ _ _ _ _ _ _ (ru_p _ _ _ _ _ _ _ _ _ R)) as LH.
  destruct (hi_ch _ _ _ _ _ _ (mi_h _ _ _ _ _ _ _ M)) as [_ CL].
  destruct (Nat.lt_ge_cases t k) as [Q|Q].
  - rewrite nth_error_app1 in T by lia. destruct (H t b T) as (A1 & A2). split.
    + rewrite !so_far_app by lia. exact A1.
    + rewrite so_far_app by lia. intros QC a t' x w T' V. apply evaluated_snoc in V; [|exact LG]. destruct V as [V|(V & _)]; [eapply A2; eauto|lia].
  - rewrite nth_error_app2 in T by lia. assert (t = k). { apply nth_error_lt in T. cbn in T. lia. } subst t. rewrite CL, Nat.sub_diag in T. injection T as <-.
    pose proof EV as (_ & _ & G3 & E3). assert (PC : s_pbest_cost (o_swarm o3) = pc) by (rewrite E3; reflexivity).
    assert (BC : s_best_cost (o_swarm o3) = bc) by (rewrite E3; reflexivity).
    pose proof (ru_p _ _ _ _ _ _ _ _ _ R') as P'. 
    pose proof (li_in _ _ LI ltac:(lia)) as IN. rewrite BC, PC in IN. apply In_nth_error in IN. destruct IN as [a IN].
    split.
    + rewrite !so_far_all by (rewrite app_length; cbn; lia).
      destruct (Fresh_inv _ _ F) as (dim & pos & vel & SW & _).
      assert (LP : length (s_pbest_pos (o_swarm o)) = length (s_position (o_swarm o))) by (rewrite SW; reflexivity).
      destruct (pi_n _ _ _ _ _ _ _ _ P' ltac:(lia)) as (N1 & N2 & N3).
      destruct (nth_error_ex (s_pbest_pos (o_swarm o3)) a) as [px PX]; [pose proof (pi_pc _ _ _ _ _ _ _ _ P') as Z1; pose proof (pi_pp _ _ _ _ _ _ _ _ P') as Z2; rewrite PC in Z1; apply nth_error_lt in IN; ftypes; lia|].
      destruct (run_pbest _ _ _ _ _ _ _ _ _ _ _ F R' PX) as (x0 & py & X0 & PY & BR). rewrite PC in PY.
      pose proof (eq_trans (eq_sym PY) IN) as EY. injection EY as ->. eauto.
    + intros QC. rewrite so_far_all in QC by (rewrite app_length; cbn; lia).
      pose proof (mi_nb _ _ _ _ _ _ _ M' QC) as NC. destruct (compute_gbest_nb _ _ _ _ _ _ G3) as [nb Enb].
      assert (ET : o_top o3 = tp) by (rewrite E3; reflexivity).
      pose proof (hi_pc _ _ _ _ _ _ (mi_h _ _ _ _ _ _ _ M')) as PCn.
      assert (TC : topo_covers (length (s_pbest_cost (o_swarm o3))) (o_top o3)).
      { exists nb. rewrite ET in *. split; [exact Enb|]. ftypes. rewrite PCn. apply NC. exact Enb. }
      pose proof (li_le _ _ LI ltac:(lia) TC) as LE. rewrite BC in LE.
      intros a' t' x w _ V. assert (KP : 0 < S k) by lia.
      destruct (PInv_particle _ _ _ _ _ _ _ _ _ _ _ _ P' KP V) as [u U].
      pose proof (PInv_lower _ _ _ _ _ _ _ _ _ _ _ _ _ P' KP V U). pose proof (LE u (nth_error_In _ _ U)). forder.
Qed.

Lemma NInv_core : forall c e pool o k o1 o2, NInv c e pool o k o1 -> core_eq o1 o2 -> length (s_position (o_swarm o2)) = length (s_position (o_swarm o1)) -> NInv c e pool o k o2.
Proof.
  intros c e pool o k o1 o2 (h & C & B & R & M & H) CE LN. exists h, C, B. split; [eapply Run_core; eauto|]. split; [|exact H].
  destruct M as [I1 I2 I3 I4 I5]. constructor; auto.
  - eapply HInv_core; eauto.
  - destruct CE. rewrite ce_top. auto.
  - destruct CE. rewrite ce_bc, ce_pc. auto.
  - destruct CE. rewrite ce_bc. auto.
Qed.
Lemma NHist_same : forall c e pool o o1 o2, NHist c e pool o o1 -> o_pos_history o2 = o_pos_history o1 -> o_cost_history o2 = o_cost_history o1 -> NHist c e pool o o2.
Proof. intros c e pool o o1 o2 (h & C & M & H) A B. exists h, C, M. rewrite A, B. exact H. Qed.
Lemma neighbor_run : forall c e pool iters o o' r, Fresh c o -> t_kind (o_top o) <> Star -> nb_covers (c_n c) (o_top o) -> pool <> Some 0 ->
  optimize c e pool iters o = (o', r) -> NHist c e pool o o'.
Proof.
  intros c e pool iters o o' r F K NC NP E.
  destruct (optimize_rule c e pool iters o (fun k o1 _ => NInv c e pool o k o1) (fun k o1 _ => NInv c e pool o (S k) o1) (NHist c e pool o) (fun o1 _ => NHist c e pool o o1)) with (o' := o') (r := r)
    as [(Q & _)|[(_ & Q & _)|(_ & x & Q & _)]]; auto; [| | | |congruence].
  - exists [], [], []. split; [apply Run_start|]. split; [|intros [|t]; discriminate]. destruct (started_facts c o) as (E1 & _). constructor.
    + apply HInv_start.
    + rewrite E1; auto.
    + lia.
    + intros _ b [].
    + intros _ [|i]; discriminate.
  - intros i o1 q Hi I. pose proof (evaluate_cases c e pool i o1 q) as EC. destruct (evaluate_swarm c e pool i o1 q) as [o2 q2|o2|o2 x].
    + destruct EC as (cost & pp & pc & t & bp & bc & np & EV & _). eapply NInv_eval; eauto.
    + destruct EC as (cost & pp & pc & t & bp & bc & np & EV & _). eapply NInv_hist. eapply NInv_eval; eauto.
    + apply NInv_hist in I. inversion EC; subst; eapply NHist_same; eauto.
  - intros i o1 q Hi I. pose proof (update_cases c e iters i o1 q) as UC. destruct (update_swarm c e iters i o1 q) as [o2 q2|o2|o2 x].
    + destruct UC as (_ & CE & opts & v & vm & p & bm & U). pose proof (Updated_length _ _ _ _ _ _ _ _ _ _ _ U) as [L _]. apply shape_eq_length in L.
      eapply NInv_core; eauto. destruct U as (_ & U & _). rewrite U. symmetry. exact L.
    + contradiction.
    + destruct UC as (CE & Pp). eapply NHist_same; [eapply NInv_hist; exact I|exact (ce_ph _ _ CE)|exact (ce_ch _ _ CE)].
  - intros o1 q I. eapply NInv_hist; eauto.
Qed.
Lemma neighbor_curve : forall c e pool iters o o' r, Fresh c o -> t_kind (o_top o) <> Star ->
  (forall nb, t_nb (o_top o) = Some nb -> covers (c_n c) (nb_rows nb)) -> pool <> Some 0 ->
  optimize c e pool iters o = (o', r) ->
  exists C, logged e pool (o_pos_history o') C /\ length (o_cost_history o') = length (o_pos_history o') /\
    (forall t b, nth_error (o_cost_history o') t = Some b ->
       exists a x0 px, nth_error (s_position (o_swarm o)) a = Some x0 /\ best_of_run (so_far t (o_pos_history o')) (so_far t C) a x0 px b) /\
    (queries_cover (c_n c) e (o_pos_history o') -> running_min (o_pos_history o') C (o_cost_history o')).
Proof.
  intros c e pool iters o o' r F K NC NP E. destruct (neighbor_run _ _ _ _ _ _ _ F K NC NP E) as (h & C & B & H1 & H2 & H3 & H4 & H5).
  destruct (Fresh_inv _ _ F) as (dim & pos & vel & SW & C0 & _ & _ & P0 & _).
  rewrite P0 in H1. rewrite C0 in H3. cbn in H1, H3. rewrite H1, H3. exists C. split; [exact H2|]. split; [exact H4|].
  split; [intros t b T; apply (H5 t b T)|]. intros QC. split; [exact H4|]. intros t b T. destruct (H5 t b T) as ((a & x0 & px & X0 & BR) & M). split.
  - apply M. intros t' X p k rows EX. apply QC. unfold so_far in EX.
    destruct (Nat.lt_ge_cases t' (S t)) as [L|L]; [|exfalso; apply nth_error_lt in EX; rewrite firstn_length in EX; lia].
    rewrite <- (firstn_skipn (S t) h), nth_error_app1; [exact EX|eapply nth_error_lt; eauto].
  - destruct BR as [(-> & _)|(_ & t' & V & _)]; [left; reflexivity|]. right. exists a, t', px.
    destruct H2 as [LG _]. pose proof (evaluated_lt _ _ _ _ _ _ V) as L. unfold so_far in L. rewrite firstn_length in L.
    split; [lia|]. rewrite <- (firstn_skipn (S t) h), <- (firstn_skipn (S t) C). apply evaluated_app; [unfold so_far; rewrite !firstn_length; lia|].
    left. split; [rewrite firstn_length; lia|exact V].
Qed.
