(** What a topology that sees everybody picks (C77). *)
From Coq Require Import String ZArith List Arith Bool Lia Permutation.
From Verif Require Import Prelude ListFacts F64 F64Facts Num Np NpFacts Handlers Swarms Operators Generators Topology Optimizers Spec SpecDyn SpecLike SpecMirror SpecShuffle SpecEverybody MirrorFacts HandlerFacts TopoGraphs RunFacts ShuffleTopo Shuffle.
Import ListNotations.
Local Open Scope string_scope.
Local Open Scope list_scope.
Local Open Scope nat_scope.

(** Every neighbour list names exactly the particles. *)
Definition whole (n : nat) (rows : list (list nat)) : Prop := length rows = n /\ Forall (fun row => forall j, In j row <-> j < n) rows.

Lemma full_row : forall n row, NoDup row -> length row = n -> (forall j, In j row -> j < n) -> forall j, In j row <-> j < n.
Proof.
  intros n row ND L H j. split; [apply H|]. intros J.
  assert (I : incl (seq 0 n) row) by (apply NoDup_length_incl; [exact ND|rewrite seq_length; lia|intros x X; apply in_seq; specialize (H x X); lia]).
  apply I, in_seq. lia.
Qed.
Lemma knn_whole : forall dist n (X : fmatrix) rows, length X = n -> knn_contract dist n X rows -> whole n rows.
Proof.
  intros dist n X rows L [LR H]. split; [ftypes; lia|]. apply Forall_forall. intros row R. apply In_nth_error in R. destruct R as (i & R).
  pose proof (nth_error_lt _ _ _ R) as LI. rewrite LR in LI. destruct (nth_error_ex _ _ LI) as (xi & XI). destruct (H i row xi R XI) as (ND & LN & LT & _). apply full_row; [exact ND|exact LN|]. intros j J. rewrite <- L. apply LT. exact J.
Qed.
Lemma whole_choice : forall n ch i j, choice_ok n (n - 1) ch -> i < n -> j < n -> adj_drawn ch i j = true.
Proof.
  intros n ch i j [LC H] I J. unfold adj_drawn. apply orb_true_iff. left. destruct (Nat.eqb_spec i j) as [|NE]; [reflexivity|]. cbn [orb].
  destruct (nth_error_ex ch i) as (row & R); [lia|]. unfold rowof. rewrite (nth_error_nth _ _ _ R). destruct (H i row R) as (ND & LN & LT). unfold mem. apply existsb_exists. exists j. split; [|apply Nat.eqb_refl].
  assert (IN : forall x, In x (i :: row) <-> x < n).
  { apply full_row; [constructor; [intros Z; apply LT in Z; lia|exact ND]|cbn [length]; lia|]. intros x [<-|X]; [exact I|apply LT; exact X]. }
  apply IN in J. destruct J as [J|J]; [congruence|exact J].
Qed.
Lemma components_all : forall n adj, 1 <= n -> (forall i j, i < n -> j < n -> adj i j = true) -> components n adj = 1.
Proof.
  intros n adj L A. apply components_connected; [lia|]. intros i j I J. apply (path_step n adj i i j); [constructor|exact J|left; apply A; assumption].
Qed.
Lemma random_whole : forall n ch, 1 <= n -> choice_ok n (n - 1) ch -> exists adj, random_adj 1 n (Z.of_nat (n - 1)) ch = Ok adj /\ whole n (random_rows n adj).
Proof.
  intros n ch L C. exists (adj_drawn ch). unfold random_adj. destruct (Nat.eqb_spec n 0) as [|_]; [lia|].
  replace ((Z.of_nat (n - 1) <? 0)%Z || (Z.of_nat n - 1 <? Z.of_nat (n - 1))%Z) with false by (symmetry; apply orb_false_iff; split; apply Z.ltb_ge; lia).
  assert (A : forall i j, i < n -> j < n -> adj_drawn ch i j = true) by (intros; apply whole_choice with (n := n); assumption).
  cbn [repair]. rewrite (components_all _ _ L A). cbn [Nat.eqb]. split; [reflexivity|]. unfold random_rows. split; [rewrite map_length, seq_length; reflexivity|].
  apply Forall_forall. intros row R. apply in_map_iff in R. destruct R as (i & <- & I). apply in_seq in I. intros j. rewrite filter_In, in_seq. split; [lia|]. intros J. split; [lia|]. apply A; lia.
Qed.
Lemma ball_unique : forall d r m m', counts_ball d r m -> counts_ball d r m' -> m = m'.
Proof.
  intros d r m m' (l & ND & <- & H) (l' & ND' & <- & H'). apply Nat.le_antisymm; apply NoDup_incl_length; try assumption; intros v V; [apply H', H, V|apply H, H', V].
Qed.

(** [p] is the position of a personal best of least cost [m]. *)
Definition leader (s : fswarm) (p : frow) (m : f64) : Prop :=
  (exists i, nth_error (s_pbest_pos s) i = Some p /\ nth_error (s_pbest_cost s) i = Some m) /\ forall j x, nth_error (s_pbest_cost s) j = Some x -> fle m x = true.
Lemma leader_unique : forall s p m p' m', clear_of s -> leader s p m -> leader s p' m' -> p' = p /\ feq m m' = true.
Proof.
  intros s p m p' m' [NN CB] [(i & P & M) L] [(i' & P' & M') L']. assert (EQ : feq m m' = true) by (apply feq_le; [eapply L; eauto|eapply L'; eauto]).
  split; [|exact EQ]. symmetry. eapply (CB i i'); eauto.
Qed.
(** Everybody is told the same: one vector for all, or one copy for each. *)
Definition told (n : nat) (p : frow) (b : fbestpos) : Prop := b = BPVec p \/ b = BPMat (repeat p n).

Section S.
Variables (s : fswarm) (n : nat).
Hypothesis LC : length (s_pbest_cost s) = n.
Hypothesis LP : length (s_pbest_pos s) = n.
Hypothesis N1 : 1 <= n.
Hypothesis CL : clear_of s.

Lemma argmin_leads : exists i p m, np_argmin (N := F64num) (s_pbest_cost s) = Ok i /\ nth_error (s_pbest_pos s) i = Some p /\ leader s p m.
Proof.
  assert (NE : s_pbest_cost s <> []) by (intros Z; rewrite Z in LC; cbn in LC; lia).
  destruct (np_argmin_ok _ NE) as (i & I). pose proof (np_argmin_lt _ _ I) as LI. destruct CL as [NN CB]. destruct (np_argmin_spec _ _ NN I) as (m & M & LE & _).
  destruct (nth_error_ex (s_pbest_pos s) i) as (p & P); [ftypes; lia|]. exists i, p, m. split; [exact I|]. split; [exact P|]. split; [exists i; split; assumption|exact LE].
Qed.
Lemma leader_ex : exists p m, leader s p m.
Proof. destruct argmin_leads as (i & p & m & _ & _ & L). eauto. Qed.
Lemma min_leads : forall p m, leader s p m -> exists m', np_min (N := F64num) (s_pbest_cost s) = Ok m' /\ feq m m' = true.
Proof.
  intros p m [(i & P & M) L]. assert (NE : s_pbest_cost s <> []) by (intros Z; rewrite Z in LC; cbn in LC; lia).
  destruct (np_min_ok _ NE) as (m' & M'). exists m'. split; [exact M'|]. destruct CL as [NN _]. destruct (np_min_spec _ _ NN M') as (I & LE & _). apply feq_le; [|apply LE; eapply nth_error_In; eauto].
  apply In_nth_error in I. destruct I as (j & J). eapply L; eauto.
Qed.
Lemma hood_leads : forall rows p m, whole n rows -> leader s p m -> exists m', neighborhood_gbest s rows = Ok (BPMat (repeat p n), m', true) /\ feq m m' = true.
Proof.
  intros rows p m [LR W] LD. pose proof CL as [NN CB].
  assert (G : exists bn, mapM (best_of (s_pbest_cost s)) rows = Ok bn /\ length bn = length rows /\ Forall (fun j => exists x, nth_error (s_pbest_pos s) j = Some p /\ nth_error (s_pbest_cost s) j = Some x /\ feq m x = true) bn).
  { clear LR. induction W as [|row rows R W IH]; [exists []; repeat split; constructor|]. destruct IH as (bn & B & L & F).
    assert (E : exists j, best_of (s_pbest_cost s) row = Ok j).
    { apply best_of_total; [|apply Forall_forall; intros j J; apply R in J; ftypes; lia]. intros ->. destruct (proj2 (R 0)). lia. }
    destruct E as (j & E). exists (j :: bn). cbn [mapM]. rewrite E. cbn [bind]. rewrite B. cbn [bind]. split; [reflexivity|]. split; [cbn [length]; lia|]. constructor; [|exact F].
    destruct (best_of_in _ _ _ E) as (J & LE). destruct (LE NN) as (x & X & LE'). assert (JL : j < n) by (apply R; exact J). destruct (nth_error_ex (s_pbest_pos s) j) as (q & Q); [ftypes; lia|].
    assert (LJ : leader s q x).
    { split; [exists j; split; assumption|]. intros k y Y. apply (LE' k y); [|exact Y]. apply R. pose proof (nth_error_lt _ _ _ Y). ftypes. lia. }
    destruct (leader_unique _ _ _ _ _ CL LD LJ) as [-> EQ]. exists x. auto. }
  destruct G as (bn & B & LB & F). unfold neighborhood_gbest. rewrite B. cbn [bind]. unfold pick_best.
  assert (TK : exists cs, np_take (s_pbest_cost s) bn = Ok cs /\ length cs = length bn /\ Forall (fun x => feq m x = true) cs /\ np_take (s_pbest_pos s) bn = Ok (repeat p (length bn))).
  { clear B LB. induction F as [|j bn (x & P & X & E) F IH]; [exists []; repeat split; constructor|]. destruct IH as (cs & T1 & L & FC & T2). exists (x :: cs). unfold np_take in *. cbn [mapM]. ftypes. rewrite X, P. cbn [of_option bind]. rewrite T1, T2. cbn [bind length repeat]. repeat split; [lia|constructor; assumption]. }
  destruct TK as (cs & T1 & L & FC & T2). rewrite T1. cbn [bind]. destruct (np_min_ok cs) as (m' & M'); [destruct cs; cbn in L; [lia|discriminate]|]. rewrite M'. cbn [bind]. rewrite T2. cbn [bind]. exists m'. split; [repeat f_equal; lia|].
  rewrite Forall_forall in FC. apply FC. assert (NC : nonan cs) by (eapply np_take_nonan; eauto). apply (np_min_spec _ _ NC M').
Qed.

(** *** The topologies *)
Variables (c : config) (e : env) (t : nat).
Hypothesis LX : length (s_position s) = n.
Hypothesis SN : s_n s = n.
Definition ready (k : topo_kind) (u : topology) : Prop :=
  t_kind u = k /\ match t_nb u with None => True | Some nb => k = Pyramid \/ (nb_ndim nb = 2 /\ whole n (nb_rows nb)) end.
Definition told_by (k : topo_kind) (p : frow) (m : f64) (r : topology * res gbest) : Prop :=
  exists u b m', r = (u, Ok (b, m', true)) /\ ready k u /\ told n p b /\ feq m m' = true.
Lemma ring_told : forall k u z m p, k <> Pyramid -> 2 <= n -> queries_all e z n -> ready k u -> leader s p m -> told_by k p m (ring_gbest (e_top e t) z (Z.of_nat n) u s).
Proof.
  intros k u z m p KP N2 Q [K R] LD. unfold ring_gbest.
  assert (K1 : (Z.of_nat n <? 1)%Z = false) by (apply Z.ltb_ge; lia). assert (K2 : (Z.of_nat n =? 1)%Z = false) by (apply Z.eqb_neq; lia). rewrite K1, K2, Nat2Z.id.
  assert (END : forall rows v, whole n rows -> ready k v -> told_by k p m (v, neighborhood_gbest s rows)).
  { intros rows v W RV. destruct (hood_leads rows p m W LD) as (m' & E & EQ). rewrite E. exists v, (BPMat (repeat p n)), m'. split; [reflexivity|]. split; [exact RV|]. split; [right; reflexivity|exact EQ]. }
  destruct (needs_neighbors u) eqn:NN.
  - destruct (Q t (s_position s) LX) as (rows & dist & -> & KC). cbn [nb_ndim nb_rows Nat.eqb]. pose proof (knn_whole _ _ _ _ LX KC) as W. apply END; [exact W|]. split; [exact K|]. cbn. right. split; [reflexivity|exact W].
  - destruct (t_nb u) as [nb|] eqn:NB; [|unfold needs_neighbors in NN; rewrite NB in NN; destruct (t_static u); discriminate]. destruct R as [R|[R W]]; [congruence|]. rewrite R. cbn [Nat.eqb]. apply END; [exact W|]. split; [exact K|]. rewrite NB. right. split; assumption.
Qed.
Lemma pyramid_told : forall u m p, n <= s_d s -> ready Pyramid u -> leader s p m -> told_by Pyramid p m (pyramid_gbest (e_top e t) u s).
Proof.
  intros u m p L [K R] LD. unfold pyramid_gbest. replace (Nat.ltb (s_n s) (s_d s + 1)) with true by (symmetry; apply Nat.ltb_lt; lia).
  destruct argmin_leads as (i & q & m1 & I & Q & L1). rewrite I. cbn [bind]. ftypes. rewrite Q. cbn [of_option bind]. destruct (leader_unique _ _ _ _ _ CL LD L1) as [-> _].
  destruct (min_leads _ _ LD) as (m' & M' & EQ). ftypes. rewrite M'. cbn [bind]. exists (set_nb u (complete_nb (s_n s))), (BPVec (N := F64num) p), m'. split; [reflexivity|]. split; [|split; [left; reflexivity|exact EQ]]. split; [exact K|]. cbn. left. reflexivity.
Qed.
Lemma random_told : forall u m p, choice_ok n (n - 1) (te_choice (e_top e t)) -> ready Random u -> leader s p m -> told_by Random p m (random_gbest (e_top e t) (Z.of_nat (n - 1)) u s).
Proof.
  intros u m p C [K R] LD. unfold random_gbest. rewrite SN.
  assert (END : forall rows v, whole n rows -> ready Random v -> told_by Random p m (v, neighborhood_gbest s rows)).
  { intros rows v W RV. destruct (hood_leads rows p m W LD) as (m' & E & EQ). rewrite E. exists v, (BPMat (repeat p n)), m'. split; [reflexivity|]. split; [exact RV|]. split; [right; reflexivity|exact EQ]. }
  destruct (needs_neighbors u) eqn:NN.
  - destruct (random_whole n _ N1 C) as (adj & -> & W). apply END; [exact W|]. split; [exact K|]. cbn. right. split; [reflexivity|exact W].
  - destruct (t_nb u) as [nb|] eqn:NB; [|unfold needs_neighbors in NN; rewrite NB in NN; destruct (t_static u); discriminate]. destruct R as [R|[R W]]; [discriminate|]. apply END; [exact W|]. split; [exact K|]. rewrite NB. right. split; assumption.
Qed.
Lemma gbest_told : forall k u m p, sees_everybody c e n (s_d s) k -> ready k u -> leader s p m -> told_by k p m (compute_gbest (e_top e t) (gbest_args c) u s).
Proof.
  intros k u m p SE RD LD. unfold compute_gbest. pose proof RD as [-> _]. destruct k; cbn [sees_everybody] in SE.
  - contradiction.
  - destruct SE as (N2 & CK & z & P & K & Q). unfold int_option in P, K. unfold gbest_args. destruct CK as [-> | ->]; rewrite P, K; cbn [as_int ga_p ga_k]; apply ring_told; auto; discriminate.
  - destruct SE as (N2 & CK & z & r & P & K & B & Q). unfold int_option in P, K. unfold gbest_args. rewrite CK, P, K. cbn [as_int ga_p ga_r]. unfold von_neumann_gbest.
    replace (Z.of_nat r <? 0)%Z with false by (symmetry; apply Z.ltb_ge; lia). rewrite Nat2Z.id, (ball_unique _ _ _ _ (delannoy_counts (s_d s) r) B). apply ring_told; auto; discriminate.
  - apply pyramid_told; [lia|exact RD|exact LD].
  - destruct SE as (_ & CK & K & C). unfold int_option in K. unfold gbest_args. rewrite CK, K. cbn [as_int ga_k]. apply random_told; auto.
Qed.
(** The star tells everybody the leader's position. *)
Lemma star_told : forall u m p, leader s p m ->
  (flt m (s_best_cost s) = false -> exists q, s_best_pos s = BPVec q /\ s_best_np s = true /\ feq m (s_best_cost s) = true /\ q = p) ->
  exists m', snd (star_gbest u s) = Ok (BPVec p, m', true) /\ feq m m' = true.
Proof.
  intros u m p LD OLD. unfold star_gbest. cbn [snd]. destruct (min_leads _ _ LD) as (m1 & M1 & EQ). ftypes. rewrite M1. cbn [bind].
  assert (LT : flt m1 (s_best_cost s) = flt m (s_best_cost s)) by (apply lt_same; [left; exact EQ|apply same_refl]). rewrite LT. destruct (flt m (s_best_cost s)).
  - destruct argmin_leads as (i & q & m2 & I & Q & L2). ftypes. rewrite I. cbn [bind]. rewrite Q. cbn [of_option bind]. destruct (leader_unique _ _ _ _ _ CL LD L2) as [-> _]. eauto.
  - destruct (OLD eq_refl) as (q & B & NP & E & ->). rewrite B, NP. eauto.
Qed.
End S.
