(** No particle is special (C76). *)
From Coq Require Import String ZArith List Arith Bool Lia Permutation.
From Verif Require Import Prelude ListFacts F64 F64Facts Num Np NpFacts Handlers Swarms Operators Generators Topology Optimizers Spec SpecDyn SpecLike SpecMirror SpecShuffle MirrorFacts Like HandlerFacts TopoGraphs RunFacts RunMain Prefixes RunStop Trajectory Reorder ShuffleFacts ShuffleTopo.
Import ListNotations.
Local Open Scope string_scope.
Local Open Scope list_scope.
Local Open Scope nat_scope.

Section S.
Variable order : list nat.
Hypothesis PO : Permutation (seq 0 (length order)) order.
Notation n := (length order).
Notation sh := (shuffled order).
Notation sws := (swarm_shuffled order).
Notation sts := (state_shuffled order).
Notation tops := (topology_shuffled order).
Ltac sw H := destruct H as (HX & HV & HN & HN' & HD & HO & HP & HB & HC & HBC & HNP & HCC).
Ltac conjs := repeat (split; [first [assumption|reflexivity]|]); first [assumption|reflexivity].
Ltac fields := cbn [s_position s_velocity s_n s_d s_options s_pbest_pos s_best_pos s_pbest_cost s_best_cost s_best_np s_current_cost].
Ltac st H := destruct H as (HS & HT & HBM & HVM & HH1 & HH2 & HH3 & HH4).
Ltac ofields := cbn [o_swarm o_top o_bmem o_vmem o_cost_history o_mean_pbest_history o_mean_neighbor_history o_pos_history o_velocity_history].

Lemma costs_len : forall l l', costs_shuffled order l l' -> length l' = length l.
Proof. intros l l' [[-> ->]|H]; [reflexivity|]. eapply sh_lens; eauto. Qed.
Lemma costs_sh : forall l l', costs_shuffled order l l' -> length l = n -> sh l l'.
Proof. intros l l' [[-> ->]|H] E; [|exact H]. destruct order; [split; [reflexivity|constructor]|discriminate]. Qed.

(** *** Personal bests *)
Lemma pbest_sh : forall s s', sws s s' -> sh (s_current_cost s) (s_current_cost s') ->
  RR (fun x y => sh (fst x) (fst y) /\ sh (snd x) (snd y)) (compute_pbest (N := F64num) s) (compute_pbest (N := F64num) s').
Proof.
  intros s s' H CC. sw H. unfold compute_pbest. pose proof (sh_lens order _ _ _ CC) as L1. pose proof (costs_len _ _ HC) as L2. cbn [T F64num nlt] in *. rewrite L1, L2.
  destruct (Nat.eqb _ _) eqn:E; cbn [negb]; [|reflexivity]. apply Nat.eqb_eq in E.
  assert (C : sh (s_pbest_cost s) (s_pbest_cost s')) by (apply costs_sh; [exact HC|rewrite <- E; apply CC]).
  pose proof (sh_map2 order PO _ _ _ flt _ _ _ _ CC C) as M. rewrite (sh_lens order _ _ _ M), (sh_lens order _ _ _ HX), (sh_shape order PO _ _ _ _ _ _ HX HP).
  destruct (negb _); [reflexivity|]. cbn [RR fst snd]. split; apply (sh_map3 order PO); assumption.
Qed.

(** *** The best position *)
Definition gbs (g g' : gbest) : Prop := best_shuffled order (fst (fst g)) (fst (fst g')) /\ same (snd (fst g)) (snd (fst g')) /\ snd g' = snd g.
Definition pbests (s s' : fswarm) : Prop := sws s s' /\ sh (s_pbest_cost s) (s_pbest_cost s').
Definition clear_of (s : fswarm) : Prop := clear_best (s_pbest_pos s) (s_pbest_cost s).
Definition picks (s : fswarm) (x y : topology * res gbest) : Prop := tops (fst x) (fst y) /\ RR (fun g g' => clear_of s -> gbs g g') (snd x) (snd y).

Lemma argmin_sh : forall (P P' : fmatrix) L L', sh P P' -> sh L L' ->
  RR (fun i i' => i < n /\ i' < n /\ (clear_best P L -> twin order P P' L L' i i')) (np_argmin (N := F64num) L) (np_argmin (N := F64num) L').
Proof.
  intros P P' L L' HP HL. destruct L as [|a L0] eqn:EL.
  { pose proof (sh_lens order _ _ _ HL) as E. destruct L'; [reflexivity|discriminate]. }
  rewrite <- EL in *. assert (NE : L <> []) by (rewrite EL; discriminate). assert (NE' : L' <> []) by (intros ->; pose proof (sh_lens order _ _ _ HL); rewrite EL in *; discriminate).
  clear EL. destruct (np_argmin_ok L NE) as (i & I). destruct (np_argmin_ok L' NE') as (i' & I'). rewrite I, I'. cbn.
  pose proof (np_argmin_lt _ _ I) as LI. pose proof (np_argmin_lt _ _ I') as LI'. rewrite (sh_len order _ _ _ HL) in LI'. destruct HL as [LL F]. rewrite LL in LI. pose proof (conj LL F : sh L L') as HL.
  split; [exact LI|]. split; [exact LI'|]. intros CB. pose proof CB as [NN _]. pose proof (nonan' order PO L L' HL NN) as NN'.
  destruct (np_argmin_spec _ _ NN I) as (c & C & M & _). destruct (np_argmin_spec _ _ NN' I') as (c' & C' & M' & _).
  apply (twin_of order PO P P' L L' HP HL CB i i' c c'); auto.
  - apply (M (new order i')). rewrite <- (cost_at order L L' HL i' LI'). exact C'.
  - destruct (new_onto order PO i LI) as (k & K & E). apply (M' k). rewrite (cost_at order L L' HL k K), E. exact C.
Qed.
Lemma row_sh : forall (P P' : fmatrix) L L' i i', sh P P' -> i < n -> i' < n -> (clear_best P L -> twin order P P' L L' i i') ->
  exists p p', nth_error P i = Some p /\ nth_error P' i' = Some p' /\ (clear_best P L -> p' = p).
Proof.
  intros P P' L L' i i' HP I I' TW. pose proof (sh_len order _ _ _ HP) as LP'. destruct HP as [LP _]. destruct (nth_error_ex P i) as (p & E); [lia|]. destruct (nth_error_ex P' i') as (p' & E'); [lia|].
  exists p, p'. repeat split; auto. intros CB. destruct (TW CB) as (_ & _ & Q & _). congruence.
Qed.
Lemma whole_min : forall L L' m m', sh L L' -> nonan L -> np_min (N := F64num) L = Ok m -> np_min (N := F64num) L' = Ok m' -> same m m'.
Proof.
  intros L L' m m' HL NN E E'. pose proof (sh_perm order PO _ _ _ HL) as PM. apply (min_same L L' m m'); auto.
  - eapply nonan'; eauto.
  - intros x X. exists x. split; [eapply Permutation_in; eauto|apply same_refl].
  - intros x X. exists x. split; [eapply Permutation_in; [apply Permutation_sym; exact PM|exact X]|apply same_refl].
Qed.
Lemma min_both : forall L L', length L' = length L -> (exists m m', np_min (N := F64num) L = Ok m /\ np_min (N := F64num) L' = Ok m') \/ (np_min (N := F64num) L = Err ValueError /\ np_min (N := F64num) L' = Err ValueError).
Proof.
  intros L L' E. destruct L as [|a L], L' as [|b L']; try discriminate; [right; split; reflexivity|left]. destruct (np_min_ok (a :: L)) as (m & M); [discriminate|]. destruct (np_min_ok (b :: L')) as (m' & M'); [discriminate|]. eauto.
Qed.
Lemma star_sh : forall t t' s s', pbests s s' -> tops t t' -> picks s (star_gbest t s) (star_gbest t' s').
Proof.
  intros t t' s s' [H C] (T1 & T2 & T3). sw H. unfold star_gbest, picks. cbn [fst snd]. split.
  { unfold topology_shuffled. destruct (t_nb t) as [a|] eqn:E, (t_nb t') as [a'|] eqn:E'; try contradiction; [rewrite E, E'; split; [exact T1|split; [exact T2|exact T3]]|].
    cbn. split; [exact T1|]. split; [exact T2|]. rewrite HN, HN'. split; [|reflexivity]. apply complete_sh. exact PO. }
  destruct (min_both _ _ (sh_lens order _ _ _ C)) as [(m & m' & M & M')|[M M']]; cbn [T F64num] in *; rewrite M, M'; cbn [bind]; [|reflexivity].
  pose proof (argmin_sh _ _ _ _ HP C) as A. destruct (np_argmin (s_pbest_cost s)) as [i|x] eqn:EI, (np_argmin (s_pbest_cost s')) as [i'|x'] eqn:EI'; cbn [RR] in A; try contradiction.
  2: { exfalso. assert (N : s_pbest_cost s <> []) by (intros Z; rewrite Z in M; discriminate). destruct (np_argmin_ok _ N) as (k & K). cbn [T F64num] in *. congruence. }
  destruct A as (A1 & A2 & A3). destruct (row_sh _ _ _ _ i i' HP A1 A2 A3) as (p & p' & E & E' & Q). cbn [T F64num bind] in *. unfold row in *. rewrite E, E'. cbn [bind of_option].
  assert (SM : clear_of s -> same m m') by (intros [NN _]; eapply whole_min; eauto).
  assert (LT : clear_of s -> flt m' (s_best_cost s') = flt m (s_best_cost s)) by (intros CB; apply lt_same; [apply SM; exact CB|exact HBC]).
  destruct (flt m (s_best_cost s)), (flt m' (s_best_cost s')); cbn [RR]; intros CB; try (specialize (LT CB); discriminate); unfold gbs; cbn [fst snd best_shuffled]; repeat split; auto.
Qed.
Lemma twins_pos : forall (P P' : fmatrix) L L' b bn' pm ps', Forall2 (twin order P P' L L') b bn' -> Forall2 (fun i x => nth_error P i = Some x) b pm -> Forall2 (fun i x => nth_error P' i = Some x) bn' ps' -> pm = ps'.
Proof.
  intros P P' L L' b bn' pm ps' B2. revert pm ps'. induction B2 as [|i i' b bn' TW B2 IH]; intros pm ps' P2 T2; inversion P2; inversion T2; subst; [reflexivity|]. f_equal; [|apply IH; assumption]. destruct TW as (_ & _ & E & _). congruence.
Qed.
Lemma twins_cost : forall (P P' : fmatrix) L L' b bn' cm cs', Forall2 (twin order P P' L L') b bn' -> Forall2 (fun i x => nth_error L i = Some x) b cm -> Forall2 (fun i x => nth_error L' i = Some x) bn' cs' -> Forall2 same cm cs'.
Proof.
  intros P P' L L' b bn' cm cs' B2. revert cm cs'. induction B2 as [|i i' b bn' TW B2 IH]; intros cm cs' C2 T2; inversion C2; inversion T2; subst; constructor; [|apply IH; assumption]. destruct TW as (_ & _ & _ & x & x' & X & X' & S). congruence.
Qed.
Lemma pick_sh : forall s s' bn bn', pbests s s' -> length bn = n -> length bn' = n -> Forall (fun j => j < n) bn -> Forall (fun j => j < n) bn' ->
  (clear_of s -> exists m, sh bn m /\ Forall2 (twin order (s_pbest_pos s) (s_pbest_pos s') (s_pbest_cost s) (s_pbest_cost s')) m bn') ->
  RR (fun g g' => clear_of s -> gbs g g') (pick_best s bn) (pick_best s' bn').
Proof.
  intros s s' bn bn' [H C] L1 L2 F1 F2 TW. sw H. unfold pick_best. cbn [T F64num] in *. pose proof (sh_len order _ _ _ HP) as LP'. pose proof (sh_len order _ _ _ C) as LC'.
  assert (LP : length (s_pbest_pos s) = n) by apply HP. assert (LC : length (s_pbest_cost s) = n) by apply C.
  assert (G : forall A (l : list A) idx, length l = n -> Forall (fun j => j < n) idx -> exists r, np_take l idx = Ok r) by (intros A l idx EL F; apply np_take_ok; rewrite EL; exact F).
  destruct (G _ _ _ LC F1) as (cs & T1). destruct (G _ _ _ LC' F2) as (cs' & T1'). destruct (G _ _ _ LP F1) as (ps & T2). destruct (G _ _ _ LP' F2) as (ps' & T2'). clear G.
  unfold row in *. cbn [T F64num] in *. rewrite T1, T1', T2, T2'. cbn [bind]. assert (LL : length cs' = length cs) by (rewrite (mapM_length _ _ _ T1), (mapM_length _ _ _ T1'); congruence).
  destruct (min_both cs cs' LL) as [(m & m' & M & M')|[M M']]; rewrite M, M'; cbn [bind RR]; [|reflexivity]. intros CB. destruct (TW CB) as (b & B1 & B2).
  pose proof T1 as U1. pose proof T1' as U1'. apply np_take_Ok in T1. apply np_take_Ok in T1'. apply np_take_Ok in T2. apply np_take_Ok in T2'.
  destruct (sh_F2 order _ _ _ _ _ _ B1 T1) as (cm & C1 & C2). destruct (sh_F2 order _ _ _ _ _ _ B1 T2) as (pm & P1 & P2). unfold gbs. cbn [fst snd best_shuffled].
  pose proof (twins_pos _ _ _ _ _ _ _ _ B2 P2 T2') as Q1. pose proof (twins_cost _ _ _ _ _ _ _ _ B2 C2 T1') as Q2.
  split; [rewrite <- Q1; exact P1|]. split; [|reflexivity]. destruct CB as [NN _]. pose proof (sh_perm order PO _ _ _ C1) as PM.
  assert (G1 : forall x, In x cm -> exists y, In y cs' /\ same x y).
  { clear -Q2. induction Q2 as [|a b l r AB Q IH]; intros x X; [contradiction|]. destruct X as [<-|X]; [exists b; split; [left; reflexivity|exact AB]|]. destruct (IH x X) as (y & Y & S). exists y. split; [right; exact Y|exact S]. }
  assert (G2 : forall y, In y cs' -> exists x, In x cm /\ same x y).
  { clear -Q2. induction Q2 as [|a b l r AB Q IH]; intros x X; [contradiction|]. destruct X as [<-|X]; [exists a; split; [left; reflexivity|exact AB]|]. destruct (IH x X) as (y & Y & S). exists y. split; [right; exact Y|exact S]. }
  apply (min_same cs cs' m m'); auto.
  - eapply np_take_nonan; eauto.
  - exact (np_take_nonan _ _ _ (nonan' order PO _ _ C NN) U1').
  - intros x X. apply G1. eapply Permutation_in; eauto.
  - intros y Y. destruct (G2 y Y) as (x & X & S). exists x. split; [eapply Permutation_in; [apply Permutation_sym; exact PM|exact X]|exact S].
Qed.
Lemma hood_sh : forall s s' rows rows', pbests s s' -> hoods_shuffled order rows rows' -> RR (fun g g' => clear_of s -> gbs g g') (neighborhood_gbest s rows) (neighborhood_gbest s' rows').
Proof.
  intros s s' rows rows' H R. pose proof H as [HS CC]. unfold neighborhood_gbest. assert (HP : sh (s_pbest_pos s) (s_pbest_pos s')) by (sw HS; exact HP).
  eapply RR_bind; [exact (bests_sh order PO _ _ _ _ HP CC rows rows' R)|]. intros bn bn' (B1 & B2 & B3 & B4 & B5). apply pick_sh; assumption.
Qed.
Lemma all_sh : forall s s', pbests s s' -> RR (fun g g' => clear_of s -> gbs g g') (pick_best s (seq 0 (s_n s))) (pick_best s' (seq 0 (s_n s'))).
Proof.
  intros s s' H. pose proof H as [HS CC]. assert (E : s_n s = n /\ s_n s' = n) by (sw HS; auto). destruct E as [-> ->].
  assert (R : Forall (fun j => j < n) (seq 0 n)) by (apply Forall_forall; intros x I; apply in_seq in I; lia).
  apply pick_sh; auto using seq_length. intros CB. exists order. split.
  - split; [apply seq_length|]. assert (G : forall l, (forall x, In x l -> x < n) -> Forall2 (fun i x => nth_error (seq 0 n) i = Some x) l l).
    { induction l as [|x l IH]; intros I; constructor; [|apply IH; intros; apply I; right; assumption]. assert (LX : x < n) by (apply I; left; reflexivity). rewrite nth_error_nth' with (d := 0) by (rewrite seq_length; exact LX). rewrite seq_nth by exact LX. reflexivity. }
    apply G. apply order_lt. exact PO.
  - assert (G : forall l, (forall x, In x l -> x < n) -> Forall2 (twin order (s_pbest_pos s) (s_pbest_pos s') (s_pbest_cost s) (s_pbest_cost s')) (map (new order) l) l).
    { induction l as [|x l IH]; intros I; cbn [map]; constructor; [|apply IH; intros; apply I; right; assumption]. assert (LX : x < n) by (apply I; left; reflexivity). sw HS.
      split; [apply new_lt; assumption|]. split; [exact LX|]. split; [apply pos_at; assumption|]. destruct (nth_error_ex (s_pbest_cost s) (new order x)) as (c & C); [assert (length (s_pbest_cost s) = n) as -> by apply CC; apply new_lt; assumption|].
      exists c, c. split; [exact C|]. split; [rewrite (cost_at order _ _ CC x LX); exact C|apply same_refl]. }
    assert (Q : forall x, In x (seq 0 n) -> x < n) by (intros x I; apply in_seq in I; lia). apply G in Q. rewrite (new_map order) in Q. exact Q.
Qed.

Notation tes := (fun te te' => (forall p k (X X' : fmatrix), sh X X' -> hood_shuffled order (te_knn te p k X) (te_knn te' p k X')) /\
  (forall X X' : fmatrix, sh X X' -> hood_shuffled order (te_delaunay te X) (te_delaunay te' X')) /\ hoods_shuffled order (te_choice te) (te_choice te')).
Lemma tops_set : forall t t' nb nb', tops t t' -> hoods_shuffled order (nb_rows nb) (nb_rows nb') -> nb_ndim nb' = nb_ndim nb -> tops (set_nb t nb) (set_nb t' nb').
Proof. intros t t' nb nb' (T1 & T2 & _) H D. unfold topology_shuffled, set_nb. cbn. repeat split; assumption. Qed.
Lemma needs_sh : forall t t', tops t t' -> needs_neighbors t' = needs_neighbors t.
Proof. intros t t' (T1 & T2 & T3). unfold needs_neighbors. rewrite T2. destruct (t_nb t), (t_nb t'); try contradiction; reflexivity. Qed.
Lemma ring_sh : forall te te' p k t t' s s', tes te te' -> pbests s s' -> tops t t' -> picks s (ring_gbest te p k t s) (ring_gbest te' p k t' s').
Proof.
  intros te te' p k t t' s s' (TE & _) H TT. unfold ring_gbest. rewrite (needs_sh _ _ TT).
  assert (END : forall u u' nb nb', tops u u' -> hoods_shuffled order (nb_rows nb) (nb_rows nb') -> nb_ndim nb' = nb_ndim nb ->
    picks s (if (k =? 1)%Z then if Nat.leb max_dims (nb_ndim nb) then (u, Err IndexError) else (set_nb u (mkNb (nb_rows nb) (S (nb_ndim nb))), pick_best s (seq 0 (s_n s)))
             else if Nat.eqb (nb_ndim nb) 2 then (u, neighborhood_gbest s (nb_rows nb)) else (u, Err Unmodelled))
            (if (k =? 1)%Z then if Nat.leb max_dims (nb_ndim nb') then (u', Err IndexError) else (set_nb u' (mkNb (nb_rows nb') (S (nb_ndim nb'))), pick_best s' (seq 0 (s_n s')))
             else if Nat.eqb (nb_ndim nb') 2 then (u', neighborhood_gbest s' (nb_rows nb')) else (u', Err Unmodelled))).
  { intros u u' nb nb' U HN HD. rewrite HD. destruct (k =? 1)%Z.
    - destruct (Nat.leb _ _); [split; [exact U|reflexivity]|]. split; [apply tops_set; [exact U|exact HN|reflexivity]|apply all_sh; exact H].
    - destruct (Nat.eqb _ _); [split; [exact U|apply hood_sh; assumption]|split; [exact U|reflexivity]]. }
  destruct (needs_neighbors t).
  - destruct (k <? 1)%Z; [split; [exact TT|reflexivity]|]. assert (X : sh (s_position s) (s_position s')) by (destruct H as [H _]; sw H; exact HX). specialize (TE p (Z.to_nat k) _ _ X).
    destruct (te_knn te p (Z.to_nat k) (s_position s)), (te_knn te' p (Z.to_nat k) (s_position s')); cbn [hood_shuffled] in TE; try contradiction; [|subst; split; [exact TT|reflexivity]].
    apply END; [apply tops_set; [exact TT|exact TE|reflexivity]|exact TE|reflexivity].
  - pose proof TT as (_ & _ & T3). destruct (t_nb t) as [nb|], (t_nb t') as [nb'|]; try contradiction; [|split; [exact TT|reflexivity]]. destruct T3 as [T3 T4]. apply END; assumption.
Qed.
Lemma pyramid_sh : forall te te' t t' s s', tes te te' -> pbests s s' -> tops t t' -> picks s (pyramid_gbest te t s) (pyramid_gbest te' t' s').
Proof.
  intros te te' t t' s s' (_ & TE & _) H TT. unfold pyramid_gbest. rewrite (needs_sh _ _ TT). pose proof H as [HS CC]. sw HS. rewrite HN, HN', HD. destruct (Nat.ltb _ _).
  - split; [apply tops_set; [exact TT|apply complete_sh; exact PO|reflexivity]|]. cbn [snd]. eapply RR_bind; [exact (argmin_sh _ _ _ _ HP CC)|]. intros i i' (A1 & A2 & A3).
    destruct (row_sh _ _ _ _ i i' HP A1 A2 A3) as (p & p' & E & E' & Q). unfold row in *. cbn [T F64num] in *. rewrite E, E'. cbn [bind of_option].
    destruct (min_both _ _ (sh_lens order _ _ _ CC)) as [(m & m' & M & M')|[M M']]; cbn [T F64num] in *; rewrite M, M'; cbn [bind RR]; [|reflexivity].
    intros CB. unfold gbs. cbn [fst snd best_shuffled]. split; [apply Q; exact CB|]. split; [|reflexivity]. destruct CB as [NN _]. eapply whole_min; eauto.
  - destruct (needs_neighbors t).
    + specialize (TE _ _ HX). destruct (te_delaunay te (s_position s)), (te_delaunay te' (s_position s')); cbn [hood_shuffled] in TE; try contradiction; [|subst; split; [exact TT|reflexivity]].
      split; [apply tops_set; [exact TT|exact TE|reflexivity]|apply hood_sh; assumption].
    + pose proof TT as (_ & _ & T3). destruct (t_nb t) as [nb|], (t_nb t') as [nb'|]; try contradiction; [|split; [exact TT|reflexivity]]. destruct T3 as [T3 T4]. split; [exact TT|apply hood_sh; assumption].
Qed.
Lemma random_gbest_sh : forall te te' k t t' s s', tes te te' -> pbests s s' -> tops t t' -> picks s (random_gbest te k t s) (random_gbest te' k t' s').
Proof.
  intros te te' k t t' s s' (_ & _ & TE) H TT. unfold random_gbest. rewrite (needs_sh _ _ TT). assert (NN : s_n s = n /\ s_n s' = n) by (destruct H as [H _]; sw H; auto). destruct NN as [-> ->].
  destruct (needs_neighbors t).
  - pose proof (random_sh order PO k _ _ TE) as R. destruct (random_adj 1 n k (te_choice te)), (random_adj 1 n k (te_choice te')); cbn [RR] in R; try contradiction; [|subst; split; [exact TT|reflexivity]].
    split; [apply tops_set; [exact TT|exact R|reflexivity]|apply hood_sh; assumption].
  - pose proof TT as (_ & _ & T3). destruct (t_nb t) as [nb|], (t_nb t') as [nb'|]; try contradiction; [|split; [exact TT|reflexivity]]. destruct T3 as [T3 T4]. split; [exact TT|apply hood_sh; assumption].
Qed.
Lemma gbest_sh : forall te te' a t t' s s', tes te te' -> pbests s s' -> tops t t' -> picks s (compute_gbest te a t s) (compute_gbest te' a t' s').
Proof.
  intros te te' a t t' s s' TE H TT. unfold compute_gbest. pose proof TT as (-> & _). destruct (t_kind t).
  - apply star_sh; assumption.
  - destruct (ga_p a); [|split; [exact TT|reflexivity]]. destruct (ga_k a); [|split; [exact TT|reflexivity]]. apply ring_sh; assumption.
  - destruct (ga_p a); [|split; [exact TT|reflexivity]]. destruct (ga_r a) as [r|]; [|split; [exact TT|reflexivity]]. unfold von_neumann_gbest. destruct (r <? 0)%Z; [split; [exact TT|reflexivity]|].
    replace (s_d s') with (s_d s) by (destruct H as [H _]; sw H; symmetry; exact HD). apply ring_sh; assumption.
  - apply pyramid_sh; assumption.
  - destruct (ga_k a); [|split; [exact TT|reflexivity]]. apply random_gbest_sh; assumption.
Qed.

(** *** States *)
Lemma sws_cost : forall s s' c c', sws s s' -> sh c c' -> sws (set_current_cost s c) (set_current_cost s' c').
Proof. intros s s' c c' H N. sw H. unfold swarm_shuffled, set_current_cost. fields. repeat (split; [assumption|]). right. exact N. Qed.
Lemma sws_pbest : forall s s' p p' c c', sws s s' -> sh p p' -> sh c c' -> sws (set_pbest s p c) (set_pbest s' p' c').
Proof. intros s s' p p' c c' H N M. sw H. unfold swarm_shuffled, set_pbest. fields. repeat (split; [first [assumption|right; exact M]|]). assumption. Qed.
Lemma sws_best : forall s s' p p' c c' b, sws s s' -> best_shuffled order p p' -> same c c' -> sws (set_best s p c b) (set_best s' p' c' b).
Proof. intros s s' p p' c c' b H N M. sw H. unfold swarm_shuffled, set_best. fields. conjs. Qed.
Lemma sws_options : forall s s' x, sws s s' -> sws (set_options s x) (set_options s' x).
Proof. intros s s' x H. sw H. unfold swarm_shuffled, set_options. fields. conjs. Qed.
Lemma sws_velocity : forall s s' x x', sws s s' -> sh x x' -> sws (set_velocity s x) (set_velocity s' x').
Proof. intros s s' x x' H N. sw H. unfold swarm_shuffled, set_velocity. fields. conjs. Qed.
Lemma sws_position : forall s s' x x', sws s s' -> sh x x' -> sws (set_position s x) (set_position s' x').
Proof. intros s s' x x' H N. sw H. unfold swarm_shuffled, set_position. fields. conjs. Qed.
Lemma sts_swarm : forall o o' s s', sts o o' -> sws s s' -> sts (with_swarm o s) (with_swarm o' s').
Proof. intros o o' s s' H S. st H. unfold state_shuffled, with_swarm. ofields. conjs. Qed.
Lemma sts_top : forall o o' t t', sts o o' -> tops t t' -> sts (with_top o t) (with_top o' t').
Proof. intros o o' t t' H S. st H. unfold state_shuffled, with_top. ofields. conjs. Qed.
Lemma sts_bmem : forall o o' m m', sts o o' -> maybe sh m m' -> sts (with_bmem o m) (with_bmem o' m').
Proof. intros o o' m m' H S. st H. unfold state_shuffled, with_bmem. ofields. conjs. Qed.
Lemma sts_vmem : forall o o' m m', sts o o' -> maybe sh m m' -> sts (with_vmem o m) (with_vmem o' m').
Proof. intros o o' m m' H S. st H. unfold state_shuffled, with_vmem. ofields. conjs. Qed.
Lemma sts_history : forall o o' a a' b b' p p' v v', sts o o' -> same a a' -> sh p p' -> sh v v' -> sts (populate_history o a b a p v) (populate_history o' a' b' a' p' v').
Proof.
  intros o o' a a' b b' p p' v v' H A P V. st H. unfold state_shuffled, populate_history. ofields. repeat (split; [assumption|]).
  repeat split; apply Forall2_app; auto.
Qed.
Lemma change_same : forall ftol y y' b b', same y y' -> same b b' -> small_change ftol y' b' = small_change ftol y b.
Proof.
  intros ftol y y' b b' Y B. unfold small_change. cbv zeta. apply lt_same; [apply abs_same, sub_same; assumption|]. apply mul_same, add_same; [apply same_refl|apply abs_same; exact Y].
Qed.

(** *** Moving *)
Lemma rows_best_sh : forall d (b b' : fbestpos) (X X' : fmatrix), sh X X' -> best_shuffled order b b' -> RR sh (best_rows (N := F64num) (length X) d b) (best_rows (N := F64num) (length X') d b').
Proof.
  intros d b b' X X' H B. rewrite (sh_lens order _ _ _ H). assert (E : length X = n) by apply H. destruct b as [|v|m], b' as [|v'|m']; cbn [best_shuffled] in B; try contradiction; cbn [best_rows].
  - destruct d as [|[|d]]; [|reflexivity..]. cbn [RR]. unfold row in *. cbn [T F64num] in *. rewrite E. apply sh_repeat. exact PO.
  - subst v'. cbn [RR]. unfold row in *. cbn [T F64num] in *. rewrite E. apply sh_repeat. exact PO.
  - exact B.
Qed.
Lemma velocity_sh : forall dr dr' vh m m' s s' cl b, sh (vd_u1 dr) (vd_u1 dr') -> sh (vd_u2 dr) (vd_u2 dr') -> maybe sh m m' -> sws s s' ->
  RR (mem2 order) (compute_velocity (N := F64num) dr vh m s cl b) (compute_velocity (N := F64num) dr' vh m' s' cl b).
Proof.
  intros dr dr' vh m m' s s' cl b U1 U2 M H. sw H. unfold compute_velocity. rewrite HO, HD.
  destruct (num_of (s_options s) "c1") as [c1|x]; cbn [bind]; [|reflexivity]. destruct (num_of (s_options s) "c2") as [c2|x]; cbn [bind]; [|reflexivity]. destruct (num_of (s_options s) "w") as [w|x]; cbn [bind]; [|reflexivity].
  eapply RR_bind; [exact (rows_best_sh (s_d s) _ _ _ _ HX HB)|]. intros B B' SB.
  rewrite (sh_shape order PO _ _ _ _ _ _ HX HP), (sh_shape order PO _ _ _ _ _ _ HX SB), (sh_shape order PO _ _ _ _ _ _ HX HV), (sh_shape order PO _ _ _ _ _ _ HX U1), (sh_shape order PO _ _ _ _ _ _ HX U2).
  destruct (negb _); [reflexivity|]. apply (vh_sh order PO); [exact HX| |exact M]. rewrite !velocity_zip. apply (sh_map order PO). repeat apply (sh_combine order PO); assumption.
Qed.
Lemma position_sh : forall dr bh m m' s s' b, maybe sh m m' -> sws s s' -> RR (mem2 order) (compute_position (N := F64num) dr bh m s b) (compute_position (N := F64num) dr bh m' s' b).
Proof.
  intros dr bh m m' s s' b M H. sw H. unfold compute_position. rewrite (sh_shape order PO _ _ _ _ _ _ HX HV). destruct (negb _); [reflexivity|].
  pose proof (sh_map2 order PO _ _ _ (map2 fadd) _ _ _ _ HX HV) as Q. destruct b as [b|]; [|split; assumption]. apply (bh_sh order PO); assumption.
Qed.
Lemma binary_sh : forall ex ex' u (V V' : fmatrix), (forall x, ex' x = ex x) -> sh V V' -> RR sh (binary_position ex u V) (binary_position ex' u V').
Proof.
  intros ex ex' u V V' H S. unfold binary_position. rewrite (sh_forallb order PO _ _ _ _ S). destruct (forallb _ V); [|reflexivity]. cbn [RR].
  assert (E : forall r, map2 (fun ui v => bit (flt ui (sigmoid (N := F64num) ex' v))) u r = map2 (fun ui v => bit (flt ui (sigmoid (N := F64num) ex v))) u r).
  { intros r. revert r. induction u as [|a u IH]; intros [|b r]; [reflexivity..|]. cbn [map2]. f_equal; [|apply IH]. unfold sigmoid. rewrite H. reflexivity. }
  rewrite (map_ext _ _ E). apply (sh_map order PO). exact S.
Qed.

(** *** The loop *)
Variables (c : config) (e e' : env).
Hypothesis CN : c_n c = n.
Hypothesis EE : env_shuffled order e e'.
Definition steps (x y : step) : Prop :=
  match x, y with
  | Next o q, Next o' q' => sts o o' /\ q' = q
  | Break o, Break o' => sts o o'
  | Raise o x, Raise o' x' => sts o o' /\ x' = x
  | _, _ => False
  end.
Definition stated (x : step) : option ostate := match x with Next o _ | Break o => Some o | Raise _ _ => None end.
(** Exceptions agree whatever the costs; the rest needs a clear best. *)
Lemma evaluate_sh : forall i o o' q, sts o o' ->
  (forall a, stated (evaluate_swarm c e None i o q) = Some a -> clear_of (o_swarm a)) -> steps (evaluate_swarm c e None i o q) (evaluate_swarm c e' None i o' q).
Proof.
  destruct EE as (EO & EV & EB & EOH & EBI & EX & EK & ED & EC).
  intros i o o' q H. pose proof H as ST. st H. assert (HX0 : sh (s_position (o_swarm o)) (s_position (o_swarm o'))) by (sw HS; exact HX). unfold evaluate_swarm, compute_objective_function.
  specialize (EO i _ _ HX0). destruct (e_obj e i (s_position (o_swarm o))) as [cost|x], (e_obj e' i (s_position (o_swarm o'))) as [cost'|x']; cbn [outcome_shuffled] in EO; try contradiction.
  2: { subst x'. intros _. split; [exact ST|reflexivity]. }
  pose proof (sws_cost _ _ cost cost' HS EO) as S1. pose proof (pbest_sh _ _ S1 EO) as PB.
  destruct (compute_pbest (set_current_cost (o_swarm o) cost)) as [[pp pc]|x], (compute_pbest (set_current_cost (o_swarm o') cost')) as [[pp' pc']|x']; try contradiction; cbn [RR fst snd] in PB.
  2: { subst x'. intros _. split; [apply sts_swarm; assumption|reflexivity]. }
  destruct PB as [PP PC]. pose proof (sws_pbest _ _ _ _ _ _ S1 PP PC) as S2.
  assert (TE : tes (e_top e i) (e_top e' i)) by (split; [apply EK|split; [apply ED|apply EC]]).
  pose proof (gbest_sh _ _ (gbest_args c) _ _ _ _ TE (conj S2 PC : pbests (set_pbest (set_current_cost (o_swarm o) cost) pp pc) (set_pbest (set_current_cost (o_swarm o') cost') pp' pc')) HT) as GB.
  destruct (compute_gbest (e_top e i) (gbest_args c) (o_top o) (set_pbest (set_current_cost (o_swarm o) cost) pp pc)) as [t [[[bp bc] np]|x]],
    (compute_gbest (e_top e' i) (gbest_args c) (o_top o') (set_pbest (set_current_cost (o_swarm o') cost') pp' pc')) as [t' [[[bp' bc'] np']|x']];
    destruct GB as [GT GB]; cbn [RR fst snd] in GT, GB; try contradiction.
  2: { subst x'. intros _. split; [apply sts_top; [apply sts_swarm; assumption|exact GT]|reflexivity]. }
  cbv zeta. intros CL.
  assert (CB : clear_of (set_pbest (set_current_cost (o_swarm o) cost) pp pc)).
  { revert CL. destruct (Nat.leb (c_ftol_iter c) i && _); cbn [stated]; intros CL; exact (CL _ eq_refl). }
  destruct (GB CB) as (G1 & G2 & G3). cbn [fst snd] in G1, G2, G3. subst np'. pose proof (sws_best _ _ _ _ _ _ np S2 G1 G2) as S3.
  assert (SC : small_change (c_ftol c) (s_best_cost (set_pbest (set_current_cost (o_swarm o') cost') pp' pc')) bc' = small_change (c_ftol c) (s_best_cost (set_pbest (set_current_cost (o_swarm o) cost) pp pc)) bc) by (apply change_same; [sw S2; exact HBC|exact G2]).
  rewrite SC. clear CL.
  match goal with |- steps (if ?t then Break ?a else _) (if _ then Break ?b else _) => assert (F : sts a b) end.
  { apply sts_history; [apply sts_top; [apply sts_swarm; assumption|exact GT]|exact G2|sw S3; exact HX|sw S3; exact HV]. }
  destruct (Nat.leb (c_ftol_iter c) i && _); [exact F|split; [exact F|reflexivity]].
Qed.
Lemma update_sh : forall iters i o o' q, sts o o' -> steps (update_swarm c e iters i o q) (update_swarm c e' iters i o' q).
Proof.
  destruct EE as (EO & EV & EB & EOH & EBI & EX & EK & ED & EC).
  intros iters i o o' q H. pose proof H as ST. destruct H as (HS & _). unfold update_swarm. rewrite EOH, EB, EBI. replace (s_options (o_swarm o')) with (s_options (o_swarm o)) by (sw HS; symmetry; exact HO).
  destruct (match c_kind c with Binary => Ok (s_options (o_swarm o)) | _ => _ end) as [opts|x]; [|split; [exact ST|reflexivity]]. cbv zeta.
  pose proof (sws_options _ _ opts HS) as S1. pose proof (sts_swarm _ _ _ _ ST S1) as ST1.
  revert S1 ST1. generalize (set_options (o_swarm o) opts) (set_options (o_swarm o') opts) (with_swarm o (set_options (o_swarm o) opts)) (with_swarm o' (set_options (o_swarm o') opts)). clear ST HS o o'.
  intros s s' o o' S1 ST1. assert (VM : maybe sh (o_vmem o) (o_vmem o')) by (st ST1; exact HVM). destruct (EV i) as [U1 U2].
  pose proof (velocity_sh (e_vel e i) (e_vel e' i) (c_vh c) _ _ s s' (c_clamp c) (match c_kind c with Binary => None | _ => c_bounds c end) U1 U2 VM S1) as VS.
  destruct (compute_velocity (e_vel e i) (c_vh c) (o_vmem o) s (c_clamp c) _) as [[v vm]|x], (compute_velocity (e_vel e' i) (c_vh c) (o_vmem o') s' (c_clamp c) _) as [[v' vm']|x']; cbn [RR] in VS; try contradiction; [|subst; split; [exact ST1|reflexivity]].
  destruct VS as [VS1 VS2]. cbn [fst snd] in VS1, VS2.
  pose proof (sws_velocity _ _ _ _ S1 VS1) as S2. pose proof (sts_vmem _ _ _ _ (sts_swarm _ _ _ _ ST1 S2) VS2) as ST2.
  revert S2 ST2. generalize (set_velocity s v) (set_velocity s' v') (with_vmem (with_swarm o (set_velocity s v)) vm) (with_vmem (with_swarm o' (set_velocity s' v')) vm'). clear S1 ST1 VM VS1 VS2 s s' o o'.
  intros s s' o o' S1 ST1. assert (BM : maybe sh (o_bmem o) (o_bmem o')) by (st ST1; exact HBM).
  assert (FIN : steps (match compute_position (e_bh e i) (c_bh c) (o_bmem o) s (c_bounds c) with Ok (p, bmem) => Next (with_bmem (with_swarm o (set_position s p)) bmem) q | Err x => Raise o x end)
    (match compute_position (e_bh e i) (c_bh c) (o_bmem o') s' (c_bounds c) with Ok (p, bmem) => Next (with_bmem (with_swarm o' (set_position s' p)) bmem) q | Err x => Raise o' x end)).
  { pose proof (position_sh (e_bh e i) (c_bh c) _ _ s s' (c_bounds c) BM S1) as PS.
    destruct (compute_position (e_bh e i) (c_bh c) (o_bmem o) s (c_bounds c)) as [[p bm]|x], (compute_position (e_bh e i) (c_bh c) (o_bmem o') s' (c_bounds c)) as [[p' bm']|x']; cbn [RR] in PS; try contradiction; [|subst; split; [exact ST1|reflexivity]].
    destruct PS as [PS1 PS2]. split; [|reflexivity]. apply sts_bmem; [|exact PS2]. apply sts_swarm; [exact ST1|]. apply sws_position; assumption. }
  destruct (c_kind c); try exact FIN. assert (VV : sh (s_velocity s) (s_velocity s')) by (sw S1; exact HV). pose proof (binary_sh (e_exp e) (e_exp e') (e_bits e i) _ _ EX VV) as BS.
  destruct (binary_position (e_exp e) (e_bits e i) (s_velocity s)) as [p|x], (binary_position (e_exp e') (e_bits e i) (s_velocity s')) as [p'|x']; cbn [RR] in BS; try contradiction; [|subst; split; [exact ST1|reflexivity]].
  split; [|reflexivity]. apply sts_swarm; [exact ST1|]. apply sws_position; assumption.
Qed.

(** Every personal best of the first run is an evaluated position with its cost. *)
Variables (base : nat) (h : list fmatrix).
Hypothesis UT : untied e h.
Definition known (s : fswarm) : Prop := forall j p x, nth_error (s_pbest_pos s) j = Some p -> nth_error (s_pbest_cost s) j = Some x -> evaluated e h p x.
Definition inv (i : nat) (o : ostate) : Prop := (i = 0 /\ Forall (fun x => x = finf) (s_pbest_cost (o_swarm o))) \/ known (o_swarm o).
Lemma known_clear : forall s, length (s_pbest_pos s) = length (s_pbest_cost s) -> known s -> clear_of s.
Proof.
  intros s L K. destruct UT as [U1 U2]. split.
  - unfold nonan. apply Forall_forall. intros x I. apply In_nth_error in I. destruct I as (j & J). pose proof (nth_error_lt _ _ _ J) as LJ. cbn [T F64num] in *. unfold row in *. rewrite <- L in LJ. destruct (nth_error_ex _ _ LJ) as (p & E).
    pose proof (U1 _ _ (K j p x E J)) as LT. apply flt_spec in LT. apply LT.
  - intros i j p q x d P Q X D EQ. eapply U2; eauto.
Qed.
Lemma map3_nth : forall A (m : list bool) (a : list A) (b : list A) j r, nth_error (map3 (fun (m : bool) o n => if negb m then o else n) m a b) j = Some r ->
  exists k x y, nth_error m j = Some k /\ nth_error a j = Some x /\ nth_error b j = Some y /\ r = if negb k then x else y.
Proof.
  intros A m. induction m as [|k m IH]; intros [|x a] [|y b] [|j] r E; cbn in E; try discriminate; [injection E as <-; exists k, x, y; repeat split|]. cbn. eapply IH; eauto.
Qed.
Lemma map2_flt_nth : forall (a b : list f64) j k, nth_error (map2 flt a b) j = Some k -> exists x y, nth_error a j = Some x /\ nth_error b j = Some y /\ k = flt x y.
Proof. induction a as [|x a IH]; intros [|y b] [|j] k E; cbn in E; try discriminate; [injection E as <-; exists x, y; repeat split|]. cbn. apply IH. exact E. Qed.
Lemma eval_known : forall i (s : fswarm) cost pp pc, e_obj e i (s_position s) = Ok cost -> nth_error h i = Some (s_position s) -> compute_pbest (N := F64num) (set_current_cost s cost) = Ok (pp, pc) ->
  ((i = 0 /\ Forall (fun x => x = finf) (s_pbest_cost s)) \/ known s) -> forall j p x, nth_error pp j = Some p -> nth_error pc j = Some x -> evaluated e h p x.
Proof.
  intros i s cost pp pc EO HI E IV j p x P X. unfold compute_pbest in E. cbn [s_current_cost s_pbest_cost s_position s_pbest_pos set_current_cost] in E. cbn [T F64num nlt] in E.
  destruct (negb _) in E; [discriminate|]. destruct (negb _) in E; [discriminate|]. injection E as <- <-.
  apply map3_nth in P. apply map3_nth in X. destruct P as (k & a & b & K & A & B & ->). destruct X as (k' & a' & b' & K' & A' & B' & ->).
  assert (k' = k) by congruence. subst k'. destruct (map2_flt_nth _ _ _ _ K) as (y & z & Y & Z & ->). assert (EV : evaluated e h b b') by (exists i, (s_position s), cost, j; repeat split; assumption).
  destruct (flt y z) eqn:LT; cbn [negb]; [exact EV|]. destruct IV as [[-> IV]|IV]; [|eapply IV; eauto]. exfalso. rewrite Forall_forall in IV. pose proof (IV z (nth_error_In _ _ Z)) as ->. pose proof (eq_trans (eq_sym Y) B') as Q. injection Q as Q. subst y.
  destruct UT as [U1 _]. rewrite (U1 _ _ EV) in LT. discriminate.
Qed.
Definition ends (k : nat) (x y : loop_end) : Prop :=
  match x, y with LDone o, LDone o' => sts o o' /\ inv k o | LRaise o x, LRaise o' x' => sts o o' /\ x' = x | _, _ => False end.
Lemma evald_known : forall i o o' o3 cost pp pc t bp bc np full, sts o o' -> length (o_pos_history o) = base + i -> inv i o -> Evald c e None i o o3 cost pp pc t bp bc np ->
  prefix (o_pos_history o3) full -> h = skipn base full -> known (o_swarm o3) /\ clear_of (o_swarm o3) /\ length (o_pos_history o3) = base + S i.
Proof.
  intros i o o' o3 cost pp pc t bp bc np full H LH IV (E1 & E2 & E3 & E4) (rest & PR) EH. cbn [compute_objective_function] in E1.
  assert (NH : nth_error h i = Some (s_position (o_swarm o))).
  { rewrite EH, nth_error_skipn, <- LH, PR, E4. cbn [populate_history with_top with_swarm o_pos_history]. rewrite <- app_assoc, nth_error_app2 by lia. rewrite Nat.sub_diag. reflexivity. }
  assert (LL : length pp = n /\ length pc = n).
  { st H. destruct EE as (EO & _). assert (HX0 : sh (s_position (o_swarm o)) (s_position (o_swarm o'))) by (sw HS; exact HX). specialize (EO i _ _ HX0). rewrite E1 in EO. destruct (e_obj e' i (s_position (o_swarm o'))) as [cost'|x']; cbn [outcome_shuffled] in EO; [|contradiction].
    pose proof (pbest_sh _ _ (sws_cost _ _ cost cost' HS EO) EO) as PB. rewrite E2 in PB. destruct (compute_pbest (set_current_cost (o_swarm o') cost')) as [[pp' pc']|x]; [|contradiction]. destruct PB as [[PB1 _] [PB2 _]]. split; assumption. }
  assert (K : known (o_swarm o3)).
  { rewrite E4. intros j p x P X. eapply (eval_known i (o_swarm o)); [exact E1|exact NH|exact E2|exact IV|exact P|exact X]. }
  split; [exact K|]. split; [|rewrite E4; cbn [populate_history with_top with_swarm o_pos_history]; rewrite app_length; cbn [length]; ftypes; lia].
  apply known_clear; [|exact K]. rewrite E4. cbn. destruct LL as [L1 L2]. ftypes. congruence.
Qed.
Lemma loop_sh : forall iters m i o o' q, sts o o' -> length (o_pos_history o) = base + i -> inv i o -> h = skipn base (o_pos_history (end_state (opt_loop c e None iters m i o q))) ->
  ends (i + m) (opt_loop c e None iters m i o q) (opt_loop c e' None iters m i o' q).
Proof.
  intros iters m. induction m as [|m IH]; intros i o o' q H LH IV EH; [rewrite Nat.add_0_r; split; assumption|].
  pose proof (loop_grows c e None iters m) as LG. cbn [opt_loop] in *. unfold iteration in *. pose proof (evaluate_sh i o o' q H) as E. pose proof (evaluate_cases c e None i o q) as EC.
  destruct (evaluate_swarm c e None i o q) as [a p|a|a x] eqn:EA.
  - destruct EC as (cost & pp & pc & t & bp & bc & np & EV & _ & _). pose proof (update_cases c e iters i a p) as UC. pose proof (update_sh iters i a) as US.
    assert (PF : prefix (o_pos_history a) (o_pos_history (end_state match update_swarm c e iters i a p with Next o2 q2 => opt_loop c e None iters m (S i) o2 q2 | Break o2 => LDone o2 | Raise o2 x => LRaise o2 x end))).
    { destruct (update_swarm c e iters i a p) as [b p2|b|b x]; [|contradiction|].
      - destruct UC as (_ & CE & _). rewrite <- (ce_ph _ _ CE). apply LG.
      - destruct UC as (CE & _). cbn [end_state]. rewrite (ce_ph _ _ CE). apply prefix_refl. }
    destruct (evald_known _ _ _ _ _ _ _ _ _ _ _ _ H LH IV EV PF EH) as (K & CL & LA).
    assert (E0 : steps (Next a p) (evaluate_swarm c e' None i o' q)) by (apply E; intros z Z; injection Z as <-; exact CL).
    destruct (evaluate_swarm c e' None i o' q) as [a' p'|a'|a' x']; cbn [steps] in E0; try contradiction. destruct E0 as [SA ->]. specialize (US a' p SA).
    destruct (update_swarm c e iters i a p) as [b p2|b|b x], (update_swarm c e' iters i a' p) as [b' p2'|b'|b' x']; cbn [steps] in US; try contradiction; [|exact US].
    destruct US as [SB ->]. destruct UC as (_ & CE & _). replace (i + S m) with (S i + m) by lia. apply IH; [exact SB|rewrite (ce_ph _ _ CE); exact LA| |exact EH].
    right. unfold known. rewrite (ce_pp _ _ CE), (ce_pc _ _ CE). exact K.
  - destruct EC as (cost & pp & pc & t & bp & bc & np & EV & _). destruct (evald_known _ _ _ _ _ _ _ _ _ _ _ _ H LH IV EV (prefix_refl _ _) EH) as (K & CL & LA).
    assert (E0 : steps (Break a) (evaluate_swarm c e' None i o' q)) by (apply E; intros z Z; injection Z as <-; exact CL).
    destruct (evaluate_swarm c e' None i o' q) as [a' p'|a'|a' x']; cbn [steps] in E0; try contradiction. split; [exact E0|right; exact K].
  - assert (E0 : steps (Raise a x) (evaluate_swarm c e' None i o' q)) by (apply E; intros z Z; discriminate).
    destruct (evaluate_swarm c e' None i o' q) as [a' p'|a'|a' x']; cbn [steps] in E0; try contradiction. exact E0.
Qed.
Lemma final_sh : forall o o', sts o o' -> sh (s_pbest_cost (o_swarm o)) (s_pbest_cost (o_swarm o')) -> known (o_swarm o) -> result_shuffled (final_result o) (final_result o').
Proof.
  intros o o' H C K. st H. sw HS. unfold final_result. rewrite HNP. destruct (negb _); [reflexivity|]. pose proof (argmin_sh _ _ _ _ HP C) as A.
  destruct (np_argmin (s_pbest_cost (o_swarm o))) as [i|x], (np_argmin (s_pbest_cost (o_swarm o'))) as [i'|x']; cbn [RR] in A; try contradiction; [|exact A]. cbn [bind]. destruct A as (A1 & A2 & A3).
  destruct (row_sh _ _ _ _ i i' HP A1 A2 A3) as (p & p' & E & E' & Q). ftypes. rewrite E, E'. cbn [bind of_option]. split; [exact HBC|]. apply Q. apply (known_clear (o_swarm o)); [|exact K].
  exact (eq_trans (proj1 HP) (eq_sym (proj1 C))).
Qed.
End S.

(** *** The results *)
Lemma with_init_run : forall c p e pool iters o, optimize (with_init c p) e pool iters o = optimize c e pool iters o.
Proof.
  intros c p e pool iters o. assert (I : forall i a q, iteration (with_init c p) e pool iters i a q = iteration c e pool iters i a q) by reflexivity.
  assert (L : forall m i a q, opt_loop (with_init c p) e pool iters m i a q = opt_loop c e pool iters m i a q).
  { induction m as [|m IH]; intros i a q; [reflexivity|]. cbn [opt_loop]. rewrite I. destruct (iteration c e pool iters i a q); try reflexivity. apply IH. }
  unfold optimize. replace (start_memory (with_init c p) o) with (start_memory c o) by reflexivity. rewrite L. reflexivity.
Qed.
Lemma pbest_len : forall (s : fswarm) pp pc, compute_pbest (N := F64num) s = Ok (pp, pc) -> length pc = length (s_pbest_cost s).
Proof.
  intros s pp pc H. unfold compute_pbest in H. destruct (Nat.eqb _ _) eqn:E in H; cbn [negb] in H; [|discriminate]. destruct (negb _) in H; [discriminate|]. injection H as _ <-. apply Nat.eqb_eq in E. revert E. ftypes.
  generalize (s_current_cost s) (s_pbest_cost s). cbn [T F64num nlt]. ftypes. intros a. induction a as [|x a IH]; intros [|y b] L; try discriminate; [reflexivity|]. cbn. f_equal. apply IH. cbn in L. lia.
Qed.
Lemma loop_costs : forall c e pool iters m i o q, length (s_pbest_cost (o_swarm (end_state (opt_loop c e pool iters m i o q)))) = length (s_pbest_cost (o_swarm o)).
Proof.
  intros c e pool iters m. induction m as [|m IH]; intros i o q; [reflexivity|]. cbn [opt_loop]. unfold iteration. pose proof (evaluate_cases c e pool i o q) as EC.
  assert (EV : forall a cost pp pc t bp bc np, Evald c e pool i o a cost pp pc t bp bc np -> length (s_pbest_cost (o_swarm a)) = length (s_pbest_cost (o_swarm o))).
  { intros a cost pp pc t bp bc np (E1 & E2 & E3 & ->). exact (pbest_len _ _ _ E2). }
  destruct (evaluate_swarm c e pool i o q) as [a p|a|a x].
  - destruct EC as (cost & pp & pc & t & bp & bc & np & E & _). pose proof (update_cases c e iters i a p) as UC. destruct (update_swarm c e iters i a p) as [b p2|b|b x]; [|contradiction|].
    + destruct UC as (_ & CE & _). rewrite IH, (ce_pc _ _ CE). eapply EV; eauto.
    + destruct UC as (CE & _). cbn [end_state]. rewrite (ce_pc _ _ CE). eapply EV; eauto.
  - destruct EC as (cost & pp & pc & t & bp & bc & np & E & _). eapply EV; eauto.
  - cbn [end_state]. inversion EC; subst; cbn; try reflexivity. eapply pbest_len in H0; exact H0.
Qed.
Lemma shuffle_optimize : forall order c p e e' iters o o', Permutation (seq 0 (length order)) order -> c_n c = length order -> env_shuffled order e e' -> 0 < iters ->
  state_shuffled order o o' -> untied e (skipn (length (o_pos_history o)) (o_pos_history (fst (optimize c e None iters o)))) ->
  state_shuffled order (fst (optimize c e None iters o)) (fst (optimize (with_init c p) e' None iters o')) /\
  result_shuffled (snd (optimize c e None iters o)) (snd (optimize (with_init c p) e' None iters o')).
Proof.
  intros order c p e e' iters o o' PO CN EE IT H UT. rewrite with_init_run.
  assert (HX : shuffled order (s_position (o_swarm o)) (s_position (o_swarm o'))) by apply H.
  assert (S0 : state_shuffled order (start_memory c o) (start_memory c o')).
  { unfold start_memory. destruct (c_kind c); try (apply sts_vmem; [apply sts_bmem; [exact H|exact HX]|exact HX]). apply sts_vmem; [exact H|exact HX]. }
  assert (S1 : state_shuffled order (start_pbest c (start_memory c o)) (start_pbest c (start_memory c o'))).
  { unfold start_pbest. apply sts_swarm; [exact S0|]. unfold set_pbest_cost. rewrite CN. apply sws_pbest; [apply S0|apply S0|apply sh_repeat; exact PO]. }
  assert (HH : o_pos_history (start_pbest c (start_memory c o)) = o_pos_history o) by (unfold start_memory; destruct (c_kind c); reflexivity).
  assert (HC : s_pbest_cost (o_swarm (start_pbest c (start_memory c o))) = repeat finf (c_n c)) by reflexivity.
  revert UT. unfold optimize. intros UT.
  assert (EH : fst match opt_loop c e None iters iters 0 (start_pbest c (start_memory c o)) [] with LDone a => (a, final_result a) | LRaise a x => (a, Err x) end = end_state (opt_loop c e None iters iters 0 (start_pbest c (start_memory c o)) [])).
  { destruct (opt_loop c e None iters iters 0 (start_pbest c (start_memory c o)) []); reflexivity. }
  rewrite EH in UT. clear EH.
  assert (IV : inv e (skipn (length (o_pos_history o)) (o_pos_history (end_state (opt_loop c e None iters iters 0 (start_pbest c (start_memory c o)) [])))) 0 (start_pbest c (start_memory c o))).
  { left. split; [reflexivity|]. rewrite HC. apply Forall_forall. intros x I. apply repeat_spec in I. exact I. }
  pose proof (loop_sh order PO c e e' CN EE (length (o_pos_history o)) _ UT iters iters 0 _ _ [] S1 (eq_trans (f_equal (@length _) HH) (eq_sym (Nat.add_0_r _))) IV eq_refl) as L.
  pose proof (loop_costs c e None iters iters 0 (start_pbest c (start_memory c o)) []) as LC. rewrite HC, repeat_length, CN in LC.
  destruct (opt_loop c e None iters iters 0 (start_pbest c (start_memory c o)) []) as [a|a x], (opt_loop c e' None iters iters 0 (start_pbest c (start_memory c o')) []) as [a'|a' x']; cbn [ends] in L; try contradiction; cbn [fst snd].
  - destruct L as [L1 L2]. split; [exact L1|]. destruct L2 as [[Z _]|K]; [cbn in Z; lia|]. assert (CS : shuffled order (s_pbest_cost (o_swarm a)) (s_pbest_cost (o_swarm a'))) by (apply costs_sh; [exact PO|apply L1|exact LC]). eapply final_sh; eassumption.
  - destruct L as [L1 ->]. split; [exact L1|reflexivity].
Qed.
Section B.
Variable order : list nat.
Hypothesis PO : Permutation (seq 0 (length order)) order.
Notation sh := (shuffled order).
Definition shr (m m' : fmatrix) : Prop := sh m m' /\ rect m.
Lemma rect_map : forall A B (f : list A -> list B) (m : list (list A)), (forall r r', length r = length r' -> length (f r) = length (f r')) -> rect m -> rect (map f m).
Proof.
  intros A B f m F (d & M). destruct m as [|r m]; [exists 0; constructor|]. exists (length (f r)). inversion M as [|x y R M']; subst. cbn [map]. constructor; [reflexivity|]. apply Forall_forall. intros z Z. apply in_map_iff in Z. destruct Z as (q & <- & Q). apply F. rewrite Forall_forall in M'. apply M'. exact Q.
Qed.
Lemma fit_sh : forall (b : bounds F64num) (X X' : fmatrix), sh X X' -> bounds_fit (N := F64num) X' b = bounds_fit (N := F64num) X b.
Proof. intros b X X' H. unfold bounds_fit. f_equal. apply (sh_forallb order PO). exact H. Qed.
Lemma within_sh : forall (b : bounds F64num) (X X' : fmatrix), sh X X' -> all_within b X' = all_within b X.
Proof. intros b X X' H. unfold all_within. apply f_equal2; apply (sh_forallb order PO); exact H. Qed.
Lemma map2_len_eq : forall A B D (f : A -> B -> D) l r r', length r = length r' -> length (map2 f l r) = length (map2 f l r').
Proof. induction l as [|x l IH]; intros [|a r] [|b r'] E; try discriminate; [reflexivity..|]. cbn in *. f_equal. apply IH. lia. Qed.
Lemma map4_len_eq : forall A B D E G (f : A -> B -> D -> E -> G) l1 l2 l3 r r', length r = length r' -> length (map4 f l1 l2 l3 r) = length (map4 f l1 l2 l3 r').
Proof. induction l1 as [|x l1 IH]; intros [|y l2] [|z l3] [|a r] [|b r'] E0; try discriminate; try reflexivity. cbn in *. f_equal. apply IH. lia. Qed.
Lemma generate_sh : forall n d b center init init' u u', init_shuffled order init init' -> sh u u' -> rect u -> RR shr (generate_swarm n d b center init u) (generate_swarm n d b center init' u').
Proof.
  intros n d b center init init' u u' I U R. unfold generate_swarm. destruct init as [p|], init' as [p'|]; cbn [init_shuffled maybe] in I; try contradiction.
  - destruct I as [P RP]. destruct b as [b|]; [|split; assumption]. rewrite (fit_sh b _ _ P), (within_sh b _ _ P). destruct (negb _); [reflexivity|]. destruct (all_within b p); [split; assumption|reflexivity].
  - destruct b as [b|].
    + destruct (negb _); [reflexivity|]. destruct (negb _); [reflexivity|]. split; [apply (sh_map order PO); exact U|]. apply rect_map; [intros; apply map4_len_eq; assumption|exact R].
    + destruct (negb _); [reflexivity|]. split; [apply (sh_map order PO); exact U|]. apply rect_map; [intros; apply map2_len_eq; assumption|exact R].
Qed.
Lemma concat_sh : forall A (l l' : list (list A)), Permutation l l' -> Permutation (concat l) (concat l').
Proof. intros A l l' H. induction H as [|x l l' H IH|x y l|l l2 l3 H1 IH1 H2 IH2]; cbn; [constructor|apply Permutation_app_head; exact IH| |eapply Permutation_trans; eassumption]. rewrite !app_assoc. apply Permutation_app_tail, Permutation_app_comm. Qed.
Lemma discrete_sh : forall init init' bits bits' u u', init_shuffled order init init' -> sh bits bits' -> rect bits -> RR shr (generate_discrete_swarm true init bits u) (generate_discrete_swarm true init' bits' u').
Proof.
  intros init init' bits bits' u u' I B R. unfold generate_discrete_swarm. destruct init as [p|], init' as [p'|]; cbn [init_shuffled maybe] in I; try contradiction.
  - destruct I as [P RP]. rewrite <- (uniq_perm _ _ (concat_sh _ _ _ (sh_perm order PO _ _ _ P))). destruct (Nat.leb _ _); [split; assumption|reflexivity].
  - split; [apply (sh_map order PO); exact B|]. apply rect_map; [intros; rewrite !map_length; assumption|exact R].
Qed.
Lemma speed_sh : forall d cl u u', sh u u' -> RR sh (generate_velocity d cl u) (generate_velocity d cl u').
Proof. intros d cl u u' H. unfold generate_velocity. destruct cl as [[mn mx]|]; (destruct (negb _); [reflexivity|]; apply (sh_map order PO); exact H). Qed.
Lemma new_sh : forall d o (p p' v v' : fmatrix), shr p p' -> sh v v' ->
  swarm_shuffled order (new_swarm (N := F64num) finf (match p with [] => d | r :: _ => length r end) p v o) (new_swarm (N := F64num) finf (match p' with [] => d | r :: _ => length r end) p' v' o).
Proof.
  intros d o p p' v v' [X (k & M)] V.
  assert (M' : Forall (fun r => length r = k) p') by (apply Forall_forall; intros r I; rewrite Forall_forall in M; apply M; eapply Permutation_in; [apply Permutation_sym; eapply sh_perm; eauto|exact I]).
  assert (DD : match p' with [] => d | r :: _ => length r end = match p with [] => d | r :: _ => length r end).
  { pose proof (sh_lens order _ _ _ X) as L. destruct p as [|r l], p' as [|r' l']; try discriminate; [reflexivity|]. inversion M. inversion M'. congruence. }
  assert (LX : length p = length order) by apply X. pose proof (sh_len order _ _ _ X) as LX'.
  unfold swarm_shuffled, new_swarm. cbn [s_position s_velocity s_n s_d s_options s_pbest_pos s_best_pos s_pbest_cost s_best_cost s_best_np s_current_cost best_shuffled].
  split; [exact X|]. split; [exact V|]. split; [exact LX|]. split; [exact LX'|]. split; [exact DD|]. split; [reflexivity|]. split; [exact X|]. split; [exact I|]. split; [left; split; reflexivity|]. split; [apply same_refl|]. split; [reflexivity|]. left; split; reflexivity.
Qed.
Lemma make_sh : forall c p dr dr', init_shuffled order (c_init c) p -> draws_shuffled order dr dr' -> RR (swarm_shuffled order) (make_swarm c dr) (make_swarm (with_init c p) dr').
Proof.
  intros c p dr dr' I (D1 & D2 & D3 & D4 & D5). unfold make_swarm, with_init. cbn [c_kind c_n c_d c_options c_bounds c_clamp c_center c_init].
  destruct (c_kind c); unfold create_swarm; (eapply RR_bind; [first [apply generate_sh; assumption|apply discrete_sh; assumption]|]; intros x x' X; eapply RR_bind; [apply speed_sh; exact D5|]; intros v v' V; cbn [RR]; apply new_sh; assumption).
Qed.
Lemma fresh_sh : forall s s' t t' b b' v v', swarm_shuffled order s s' -> topology_shuffled order t t' -> maybe sh b b' -> maybe sh v v' -> state_shuffled order (mkOstate s t b v [] [] [] [] []) (mkOstate s' t' b' v' [] [] [] [] []).
Proof. intros s s' t t' b b' v v' S TT B V. unfold state_shuffled. cbn [o_swarm o_top o_bmem o_vmem o_cost_history o_mean_neighbor_history o_pos_history o_velocity_history]. repeat (split; [assumption|]). repeat split; constructor. Qed.
End B.
Lemma shuffle_construct : forall order c p top top' dr dr', Permutation (seq 0 (length order)) order -> init_shuffled order (c_init c) p -> topology_shuffled order top top' -> draws_shuffled order dr dr' ->
  built_shuffled order (construct c top dr) (construct (with_init c p) top' dr').
Proof.
  intros order c p top top' dr dr' PO I TT D.
  assert (G : RR (state_shuffled order) (construct c top dr) (construct (with_init c p) top' dr')).
  { unfold construct. change (c_kind (with_init c p)) with (c_kind c). change (c_options (with_init c p)) with (c_options c). change (c_ftol_iter (with_init c p)) with (c_ftol_iter c).
    destruct (match c_kind c with GlobalBest | General => _ | _ => _ end) as [z|x]; cbn [bind]; [|reflexivity]. destruct (Nat.eqb _ 0); [reflexivity|].
    eapply RR_bind; [apply make_sh; eassumption|]. intros s s' S. cbn [RR]. apply fresh_sh; try assumption; exact Logic.I. }
  unfold built_shuffled. destruct (construct c top dr), (construct (with_init c p) top' dr'); exact G.
Qed.
Lemma shuffle_reset : forall order c p dr dr' o o', Permutation (seq 0 (length order)) order -> init_shuffled order (c_init c) p -> draws_shuffled order dr dr' -> state_shuffled order o o' ->
  built_shuffled order (reset c dr o) (reset (with_init c p) dr' o').
Proof.
  intros order c p dr dr' o o' PO I D (HS & HT & HBM & HVM & _).
  assert (G : RR (state_shuffled order) (reset c dr o) (reset (with_init c p) dr' o')).
  { unfold reset. eapply RR_bind; [apply make_sh; eassumption|]. intros s s' S. cbn [RR]. apply fresh_sh; assumption. }
  unfold built_shuffled. destruct (reset c dr o), (reset (with_init c p) dr' o'); exact G.
Qed.
