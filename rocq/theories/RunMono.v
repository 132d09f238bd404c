(** In-call monotonicity for neighbour-based topologies and of the mean history;
    NaN-freedom; histories; exceptions of the objective. *)
From Coq Require Import String ZArith List Arith Bool Lia Reals Lra.
From Flocq Require Import Core BinarySingleNaN.
From Verif Require Import Prelude ListFacts F64 F64Facts Num Np NpFacts Handlers Swarms Operators
  Generators Topology Optimizers Spec RunFacts PbestFacts ShapeFacts GbestFacts RunBest RunMain RunResults RunStop.
Import ListNotations.
Local Close Scope R_scope.
Local Open Scope nat_scope.

(** *** Stored neighbour lists keep covering the swarm *)
Definition nb_covers (n : nat) (t : topology) : Prop :=
  forall nb, t_nb t = Some nb -> covers n (nb_rows nb).

Lemma complete_covers : forall n, covers n (nb_rows (complete_nb n)).
Proof.
  intros n a Ha. exists (seq 0 n). cbn. split.
  - destruct n; [lia|]. left. reflexivity.
  - apply in_seq. lia.
Qed.
Lemma repair_mono : forall fuel n d adj adj', repair fuel n d adj = Ok adj' ->
  forall i j, adj i j = true -> adj' i j = true.
Proof.
  induction fuel; intros n d adj adj' H i j E; simpl in H; destruct (components n adj =? 1); try discriminate.
  - injection H as <-. auto.
  - injection H as <-. auto.
  - eapply IHfuel; eauto. cbn. rewrite E. destruct (d i j); auto.
Qed.
Lemma random_covers : forall fuel n k ch adj, random_adj fuel n k ch = Ok adj -> covers n (random_rows n adj).
Proof.
  unfold random_adj. intros fuel n k ch adj H a Ha. destruct (Nat.eqb n 0); try discriminate. destruct (_ || _); try discriminate.
  exists (filter (adj a) (seq 0 n)). split.
  - unfold random_rows. apply (in_map (fun i => filter (adj i) (seq 0 n))). apply in_seq. lia.
  - apply filter_In. split; [apply in_seq; lia|]. eapply repair_mono; eauto. unfold adj_drawn. rewrite Nat.eqb_refl. reflexivity.
Qed.
Lemma set_nb_covers : forall n t nb, covers n (nb_rows nb) -> nb_covers n (set_nb t nb).
Proof. intros n t nb H nb' E. injection E as <-. auto. Qed.

Definition here_cover (n : nat) (te : topo_env) (X : fmatrix) : Prop :=
  forall p k rows, te_knn te p k X = Ok rows \/ te_delaunay te X = Ok rows -> covers n rows.
Lemma ring_covers : forall n te p k t (s : fswarm) t' r, here_cover n te (s_position s) ->
  nb_covers n t -> ring_gbest te p k t s = (t', r) -> nb_covers n t'.
Proof.
  intros n te p k t s t' r CE NC H. unfold ring_gbest in H.
  destruct (if needs_neighbors t then _ else _) as [t1 r1] eqn:E.
  assert (T1 : nb_covers n t1 /\ forall nb, r1 = Ok nb -> covers n (nb_rows nb)).
  { destruct (needs_neighbors t).
    - destruct (k <? 1)%Z; [injection E as <- <-; split; auto; discriminate|].
      destruct (te_knn te p (Z.to_nat k) (s_position s)) as [rows|x] eqn:Q; injection E as <- <-.
      + assert (covers n rows) by (eapply CE; eauto). split. apply set_nb_covers; auto. intros nb Z. injection Z as <-. auto.
      + split; auto. discriminate.
    - destruct (t_nb t) as [nb|] eqn:Q; injection E as <- <-; split; auto; try discriminate.
      intros nb' Z. injection Z as <-. apply NC; auto. }
  destruct T1 as [T1 T2]. destruct r1 as [nb|x]; [|injection H as <- _; auto].
  destruct (k =? 1)%Z.
  - destruct (max_dims <=? nb_ndim nb); injection H as <- _; auto.
    apply set_nb_covers. cbn. auto.
  - destruct (nb_ndim nb =? 2); injection H as <- _; auto.
Qed.
Lemma compute_gbest_covers : forall n te a t (s : fswarm) t' r, here_cover n te (s_position s) -> s_n s = n ->
  nb_covers n t -> compute_gbest te a t s = (t', r) -> nb_covers n t'.
Proof.
  intros n te a t s t' r CE Ln NC H. unfold compute_gbest in H. destruct (t_kind t).
  - unfold star_gbest in H. injection H as <- _. destruct (t_nb t) eqn:E; auto.
    apply set_nb_covers. rewrite Ln. apply complete_covers.
  - destruct (ga_p a), (ga_k a); try (injection H as <- _; auto). eapply ring_covers; eauto.
  - destruct (ga_p a), (ga_r a); try (injection H as <- _; auto). unfold von_neumann_gbest in H.
    destruct (z0 <? 0)%Z; [injection H as <- _; auto|]. eapply ring_covers; eauto.
  - unfold pyramid_gbest in H. destruct (_ <? _).
    + injection H as <- _. apply set_nb_covers. rewrite Ln. apply complete_covers.
    + destruct (needs_neighbors t).
      * destruct (te_delaunay te (s_position s)) eqn:Q; injection H as <- _; auto.
        apply set_nb_covers. apply (CE 0%Z 0); auto.
      * destruct (t_nb t); injection H as <- _; auto.
  - destruct (ga_k a); [|injection H as <- _; auto]. unfold random_gbest in H.
    destruct (needs_neighbors t).
    + destruct (random_adj 1 (s_n s) z (te_choice te)) eqn:Q; injection H as <- _; auto.
      apply set_nb_covers. cbn. rewrite Ln in *. eapply random_covers; eauto.
    + destruct (t_nb t); injection H as <- _; auto.
Qed.

(** *** Best-cost history inside a call *)
Record MInv (c : config) (e : env) (o0 : ostate) (k : nat) (o : ostate) (h : list fmatrix) (B : list f64) : Prop := {
  mi_h : HInv c o0 k o h B;
  mi_nb : queries_cover (c_n c) e h -> nb_covers (c_n c) (o_top o);
  mi_in : 0 < k -> In (s_best_cost (o_swarm o)) (s_pbest_cost (o_swarm o));
  mi_ge : queries_cover (c_n c) e h -> forall b, In b B -> fle (s_best_cost (o_swarm o)) b = true;
  mi_mono : queries_cover (c_n c) e h -> nonincreasing B
}.

Lemma MInv_eval : forall c e pool o0 k o h B o3 cost pp pc t bp bc np,
  RI o0 -> t_kind (o_top o0) <> Star -> 
  MInv c e o0 k o h B -> Evald c e pool k o o3 cost pp pc t bp bc np ->
  MInv c e o0 (S k) o3 (h ++ [s_position (o_swarm o)]) (B ++ [bc]).
Proof.
  intros c e pool o0 k o h B o3 cost pp pc t bp bc np R K [H NC IN GE MO] E.
  set (h' := h ++ [s_position (o_swarm o)]).
  assert (QH : queries_cover (c_n c) e h' -> queries_cover (c_n c) e h).
  { intros Q t' X p k' rows EX. apply Q. unfold h'. rewrite nth_error_app1; auto. eapply nth_error_lt; eauto. }
  assert (QX : queries_cover (c_n c) e h' -> here_cover (c_n c) (e_top e k) (s_position (o_swarm o))).
  { intros Q p k' rows. apply Q. unfold h'. destruct (hi_ph _ _ _ _ _ _ H) as [_ <-]. rewrite nth_error_app2, Nat.sub_diag by lia. reflexivity. }
  pose proof (HInv_eval _ _ _ _ _ _ _ _ _ _ _ _ _ _ _ _ H E) as H'.
  pose proof (LInv_eval _ _ _ _ _ _ _ _ _ _ _ _ _ _ _ _ H (ri_wf _ R) K E) as L.
  destruct E as (E1 & E2 & E3 & ->).
  pose proof (compute_pbest_lengths _ _ _ E2) as (L1 & L2 & L3 & L4 & L5). cbn in L1, L2, L3, L4, L5.
  apply same_shape_length in L3.
  pose proof (hi_n _ _ _ _ _ _ H). pose proof (hi_pos _ _ _ _ _ _ H). pose proof (ri_wf _ R) as W. unfold wf_n in W.
  pose proof (hi_pc _ _ _ _ _ _ H) as PC. pose proof (hi_nonan _ _ _ _ _ _ H) as NN.
  assert (NC' : queries_cover (c_n c) e h' -> nb_covers (c_n c) t).
  { intros Q. refine (compute_gbest_covers _ _ _ _ _ _ _ _ _ (NC (QH Q)) E3); [exact (QX Q)|]. cbn. flia. }
  assert (TC : queries_cover (c_n c) e h' -> topo_covers (length pc) t).
  { intros Q. specialize (NC' Q). assert (exists nb, t_nb t = Some nb) as [nb Enb].
    { eapply compute_gbest_nb; eauto. }
    exists nb. split; auto. replace (length pc) with (c_n c) by flia. auto. }
  assert (LE : queries_cover (c_n c) e h' -> forall v, In v pc -> fle bc v = true) by (intros Q; apply (li_le _ _ L); [lia|exact (TC Q)]).
  assert (BB : queries_cover (c_n c) e h' -> forall b, In b B -> fle bc b = true).
  { intros Q b Ib. specialize (GE (QH Q) _ Ib). specialize (LE Q). destruct k.
    - destruct (hi_ch _ _ _ _ _ _ H) as [_ Z]. destruct B; [destruct Ib|discriminate].
    - specialize (IN ltac:(lia)). apply In_nth_error in IN. destruct IN as [a Ia].
      destruct (nth_error_ex pc a) as [v Ev]. { apply nth_error_lt in Ia. flia. }
      pose proof (compute_pbest_decreases _ _ _ a _ v E2 NN Ia Ev). pose proof (LE v (nth_error_In _ _ Ev)).
      cbn in *. forder. }
  constructor; auto.
  - intros _. apply (li_in _ _ L). lia.
  - cbn. intros Q b Ib. apply in_app_or in Ib. destruct Ib as [Ib|[<-|[]]]; auto. apply fle_refl. 
    pose proof (hi_best _ _ _ _ _ _ H' (ri_nan _ R)) as [Z _]. exact Z.
  - intros Q. apply nonincreasing_snoc; auto. intros x Ix. specialize (BB Q _ Ix). forder.
Qed.

Lemma optimize_minv : forall c e pool iters o o' r, RI o -> t_kind (o_top o) <> Star ->
  nb_covers (c_n c) (o_top o) ->
  optimize c e pool iters o = (o', r) -> pool <> Some 0 ->
  exists h B, o_pos_history o' = o_pos_history o ++ h /\ o_cost_history o' = o_cost_history o ++ B /\
    (queries_cover (c_n c) e h -> nonincreasing B).
Proof.
  intros c e pool iters o o' r R K NC H NP.
  destruct (optimize_rule c e pool iters o
    (fun i s q => exists h B, MInv c e o i s h B) (fun i s q => exists h B, MInv c e o (S i) s h B)
    (fun s => exists h B, o_pos_history s = o_pos_history o ++ h /\ o_cost_history s = o_cost_history o ++ B /\ (queries_cover (c_n c) e h -> nonincreasing B))
    (fun s _ => exists h B, o_pos_history s = o_pos_history o ++ h /\ o_cost_history s = o_cost_history o ++ B /\ (queries_cover (c_n c) e h -> nonincreasing B)))
    with (o' := o') (r := r) as [(Z & _)|[(_ & Q & ->)|(_ & x & Q & ->)]]; auto.
  - exists [], []. destruct (started_facts c o) as (E1 & _). constructor.
    + apply HInv_start.
    + rewrite E1; auto.
    + lia.
    + intros _ b [].
    + intros _ [|i]; discriminate.
  - intros i s q Hi (h & B & I). pose proof (evaluate_cases c e pool i s q) as EC.
    destruct (evaluate_swarm c e pool i s q) as [o1 q1|o1|o1 x].
    + destruct EC as (cost & pp & pc & t & bp & bc & np & E & _). do 2 eexists. eapply MInv_eval; eauto.
    + destruct EC as (cost & pp & pc & t & bp & bc & np & E & _).
      pose proof (MInv_eval _ _ _ _ _ _ _ _ _ _ _ _ _ _ _ _ R K I E) as [I1 _ _ _ I2].
      do 2 eexists. split; [apply I1|]. split; [apply I1|exact I2].
    + exists h, B. destruct I as [I1 _ _ _ I2]. split; [|split; auto]; destruct EC; apply I1.
  - intros i s q Hi (h & B & I). pose proof (update_cases c e iters i s q) as UC.
    destruct (update_swarm c e iters i s q) as [o1 q1|o1|o1 x].
    + destruct UC as (_ & CE' & opts & v & vm & p & bm & U). exists h, B. destruct I as [I1 I2 I3 I4 I5].
      pose proof (Updated_length _ _ _ _ _ _ _ _ _ _ _ U) as [L _]. apply shape_eq_length in L.
      destruct U as (_ & U & _). constructor; auto.
      * eapply HInv_core; eauto. rewrite U. cbn. symmetry. exact L.
      * destruct CE'. rewrite ce_top. auto.
      * destruct CE'. rewrite ce_bc, ce_pc. auto.
      * destruct CE'. rewrite ce_bc. auto.
    + contradiction.
    + destruct UC as [CE' _]. exists h, B. destruct I as [I1 _ _ _ I2]. destruct CE'. rewrite ce_ch, ce_ph. split; [apply I1|split; [apply I1|auto]].
  - intros s q (h & B & [I1 _ _ _ I2]). exists h, B. split; [apply I1|split; [apply I1|auto]].
  - congruence.
Qed.

(** *** Mean personal-best cost *)
Lemma fadd_weak_mono : forall a1 a2 b1 b2, fle a1 b1 = true -> fle a2 b2 = true ->
  flt (fadd b1 b2) (fadd a1 a2) = false.
Proof.
  intros a1 a2 b1 b2 H1 H2.
  destruct (ffinite a1) eqn:Fa1; destruct (ffinite a2) eqn:Fa2; destruct (ffinite b1) eqn:Fb1; destruct (ffinite b2) eqn:Fb2.
  1: { pose proof (fadd_round _ _ Fa1 Fa2) as Ra. pose proof (fadd_round _ _ Fb1 Fb2) as Rb.
       apply fle_nlt. eapply is_round_mono; eauto. fkeys. rewrite !fkey_finite in * by auto. lra. }
  all: destruct a1 as [sa1|[]| |sa1 ma1 ea1 ?]; try discriminate;
       destruct a2 as [sa2|[]| |sa2 ma2 ea2 ?]; try discriminate;
       destruct b1 as [sb1|[]| |sb1 mb1 eb1 ?]; try discriminate;
       destruct b2 as [sb2|[]| |sb2 mb2 eb2 ?]; try discriminate;
       try (cbn; apply nlt_finf); try (cbn; apply nlt_fninf); try reflexivity.
  all: try (apply flt_false_spec; cbn; auto; fail).
  all: change (fadd _ _) with finf; apply nlt_finf.
Qed.

(** Pointwise lower. *)
Definition below (a b : list f64) : Prop := Forall2 (fun x y => fle x y = true) a b.
Lemma below_refl : forall l, nonan l -> below l l.
Proof. induction 1; constructor; auto. apply fle_refl; auto. Qed.
Lemma below_trans : forall a b c, below a b -> below b c -> below a c.
Proof.
  intros a b c H. revert c. induction H; intros c H'; inversion H'; subst; constructor; auto.
  - forder.
  - apply IHForall2; auto.
Qed.
Lemma below_nth : forall a b, length a = length b ->
  (forall i x y, nth_error a i = Some x -> nth_error b i = Some y -> fle x y = true) -> below a b.
Proof.
  induction a; intros [|y b] L H; try discriminate; constructor.
  - apply (H 0); reflexivity.
  - apply IHa. simpl in L; lia. intros i x z Ex Ez. apply (H (S i)); auto.
Qed.

Lemma tree_sum_mono : forall t a b, below a b -> flt (tree_sum t b) (tree_sum t a) = false.
Proof.
  induction t as [i|t1 IH1 t2 IH2]; intros a b H; cbn.
  - revert i. induction H; intros [|i]; cbn; try reflexivity.
    + apply fle_nlt; auto.
    + apply IHForall2.
  - specialize (IH1 _ _ H). specialize (IH2 _ _ H). apply flt_false_spec in IH1, IH2.
    assert (NL : forall x y, fisnan x = true -> fisnan (fadd x y) = true) by (intros [| | |] y; cbn; congruence || reflexivity).
    assert (NR : forall x y, fisnan y = true -> fisnan (fadd x y) = true) by (intros [s|s| |s m e Hx] [| | |]; cbn; congruence || reflexivity).
    destruct IH1 as [N|[N|L1]]. apply flt_false_spec; auto. apply flt_false_spec; auto.
    destruct IH2 as [N|[N|L2]]. apply flt_false_spec; auto. apply flt_false_spec; auto.
    destruct (fisnan (tree_sum t1 a)) eqn:N1. apply flt_false_spec; auto.
    destruct (fisnan (tree_sum t2 a)) eqn:N2. apply flt_false_spec; auto.
    destruct (fisnan (tree_sum t1 b)) eqn:N3. apply flt_false_spec; auto.
    destruct (fisnan (tree_sum t2 b)) eqn:N4. apply flt_false_spec; auto.
    apply fadd_weak_mono; apply fle_spec; auto.
Qed.

Lemma fofZ_pos : forall n, (0 < n)%Z -> fofZ n = finf \/ (ffinite (fofZ n) = true /\ (0 < FR (fofZ n))%R).
Proof.
  intros n Hn. pose proof (fofZe_round n 0) as R. change (fofZe n 0) with (fofZ n) in R.
  assert (V : F2R (Float radix2 n 0) = IZR n) by (unfold F2R; cbn; lra). rewrite V in R.
  pose proof (IZR_le 1 n ltac:(lia)) as N1.
  assert (R1 : (1 <= rnd (IZR n))%R).
  { rewrite <- fone_R. rewrite <- (rnd_id fone). apply rnd_le. rewrite fone_R. lra. }
  destruct (is_round_key _ _ R) as [(_ & F & K)|[(L & _)|(_ & _ & E)]].
  - right. split; auto. rewrite fkey_finite in K by auto. lra.
  - lra.
  - left; auto.
Qed.
Lemma fdiv_weak_mono : forall a b y, flt b a = false -> y = finf \/ (ffinite y = true /\ (0 < FR y)%R) ->
  flt (fdiv b y) (fdiv a y) = false.
Proof.
  intros a b y H Y. apply flt_false_spec in H.
  destruct (fisnan a) eqn:Na. { destruct a; try discriminate. apply flt_false_spec. cbn. auto. }
  destruct (fisnan b) eqn:Nb. { destruct b; try discriminate. apply flt_false_spec. cbn. auto. }
  destruct H as [H|[H|H]]; try discriminate.
  destruct Y as [->|[Fy Py]].
  - destruct a as [sa|sa| |sa ma ea Ha]; destruct b as [sb|sb| |sb mb eb Hb]; try discriminate; try reflexivity;
    apply flt_false_spec; cbn; auto.
  - assert (PS : exists m e H, y = B754_finite false m e H).
    { destruct y as [s|s| |s m e Hy]; try discriminate; [cbn in Py; lra|]. destruct s; eauto.
      cbn in Py. assert (F2R (Float radix2 (Z.neg m) e) < 0)%R by (apply F2R_lt_0; reflexivity). lra. }
    destruct (ffinite a) eqn:Fa; destruct (ffinite b) eqn:Fb.
    + pose proof (fdiv_round a y Fa Fy ltac:(lra)) as Ra. pose proof (fdiv_round b y Fb Fy ltac:(lra)) as Rb.
      apply fle_nlt. eapply is_round_mono; eauto. rewrite !fkey_finite in H by auto.
      apply Rmult_le_compat_r; auto. left. apply Rinv_0_lt_compat; auto.
    + destruct PS as (m & e & He & ->). destruct b as [sb|[]| |sb mb eb Hb]; try discriminate.
      * exfalso. change (B754_infinity true) with fninf in H. rewrite fkey_fninf in H. pose proof (fkey_bound a Fa). pose proof bmax_pos. lra.
      * cbn. apply nlt_finf.
    + destruct PS as (m & e & He & ->). destruct a as [sb|[]| |sb mb eb Hb]; try discriminate.
      * cbn. apply nlt_fninf.
      * exfalso. change (B754_infinity false) with finf in H. rewrite fkey_finf in H. pose proof (fkey_bound b Fb). pose proof bmax_pos. lra.
    + destruct PS as (m & e & He & ->). destruct a as [sb|[]| |sb mb eb Hb]; destruct b as [sa|[]| |sa ma ea Ha]; try discriminate; try reflexivity.
      exfalso. change (B754_infinity false) with finf in H. change (B754_infinity true) with fninf in H. rewrite fkey_finf, fkey_fninf in H. pose proof bmax_pos. lra.
Qed.
Lemma np_mean_mono : forall tree a b, below a b -> flt (np_mean tree b) (np_mean tree a) = false.
Proof.
  intros tree a b H. unfold np_mean. assert (L : length a = length b) by (eapply Forall2_len; eauto). rewrite L.
  destruct b as [|y b].
  - destruct a; [|discriminate]. apply flt_irrefl.
  - apply fdiv_weak_mono. apply tree_sum_mono; auto. apply fofZ_pos. simpl. lia.
Qed.

Record AInv (c : config) (e : env) (o0 : ostate) (o : ostate) (M : list f64) : Prop := {
  ai_nan : nonan (s_pbest_cost (o_swarm o));
  ai_hist : o_mean_pbest_history o = o_mean_pbest_history o0 ++ M;
  ai_src : forall m, In m M -> exists pc, m = np_mean (e_tree e) pc /\ below (s_pbest_cost (o_swarm o)) pc;
  ai_mono : nonincreasing M
}.
Lemma AInv_eval : forall c e pool o0 k o M o3 cost pp pc t bp bc np,
  AInv c e o0 o M -> Evald c e pool k o o3 cost pp pc t bp bc np ->
  AInv c e o0 o3 (M ++ [np_mean (e_tree e) pc]).
Proof.
  intros c e pool o0 k o M o3 cost pp pc t bp bc np [N HH S MO] (E1 & E2 & E3 & ->).
  assert (NN : nonan pc) by (eapply compute_pbest_nonan; eauto; apply N).
  pose proof (compute_pbest_lengths _ _ _ E2) as (L1 & L2 & L3 & L4 & L5). cbn in L1, L2, L3, L4, L5.
  assert (BL : below pc (s_pbest_cost (o_swarm o))).
  { apply below_nth. flia. intros i x y Ex Ey. eapply compute_pbest_decreases; [exact E2|exact N|exact Ey|exact Ex]. }
  assert (S' : forall m, In m M -> exists pc0, m = np_mean (e_tree e) pc0 /\ below pc pc0).
  { intros m Im. destruct (S m Im) as (pc0 & -> & B0). exists pc0. split; auto. eapply below_trans; eauto. }
  constructor; cbn; auto.
  - rewrite HH, app_assoc. reflexivity.
  - intros m Im. apply in_app_or in Im. destruct Im as [Im|[<-|[]]]; auto. exists pc. split; auto. apply below_refl; auto.
  - apply nonincreasing_snoc; auto. intros x Ix. destruct (S' x Ix) as (pc0 & -> & B0). apply np_mean_mono; auto.
Qed.
Lemma mean_history : forall c e pool iters o o' r, optimize c e pool iters o = (o', r) ->
  exists M, o_mean_pbest_history o' = o_mean_pbest_history o ++ M /\ nonincreasing M.
Proof.
  intros c e pool iters o o' r H.
  destruct (optimize_rule c e pool iters o
    (fun i s q => exists M, AInv c e o s M) (fun i s q => exists M, AInv c e o s M)
    (fun s => exists M, o_mean_pbest_history s = o_mean_pbest_history o ++ M /\ nonincreasing M)
    (fun s _ => exists M, o_mean_pbest_history s = o_mean_pbest_history o ++ M /\ nonincreasing M))
    with (o' := o') (r := r) as [(_ & -> & _)|[(_ & Q & ->)|(_ & x & Q & ->)]]; auto.
  - exists []. destruct (started_facts c o) as (E1 & E2 & E3 & E4 & E5 & E6 & E7 & _). constructor.
    + rewrite E7. cbn. apply Forall_forall. intros x Ix. apply repeat_spec in Ix. subst. reflexivity.
    + rewrite E3, app_nil_r. auto.
    + intros m [].
    + intros [|i]; discriminate.
  - intros i s q Hi (M & I). pose proof (evaluate_cases c e pool i s q) as EC.
    destruct (evaluate_swarm c e pool i s q) as [o1 q1|o1|o1 x].
    + destruct EC as (cost & pp & pc & t & bp & bc & np & E & _). eexists. eapply AInv_eval; eauto.
    + destruct EC as (cost & pp & pc & t & bp & bc & np & E & _).
      destruct (AInv_eval _ _ _ _ _ _ _ _ _ _ _ _ _ _ _ I E). eauto.
    + exists M. destruct I as [_ I1 _ I2]. split; auto. destruct EC; apply I1.
  - intros i s q Hi (M & I). pose proof (update_cases c e iters i s q) as UC.
    destruct (update_swarm c e iters i s q) as [o1 q1|o1|o1 x].
    + destruct UC as (_ & CE & _). exists M. destruct I, CE. constructor; rewrite ?ce_pc, ?ce_mp; auto.
    + contradiction.
    + destruct UC as [CE _]. exists M. destruct I, CE. rewrite ce_mp. auto.
  - intros s q (M & I). exists M. destruct I; auto.
  - exists []. rewrite app_nil_r. split. unfold start_memory. destruct (c_kind c); reflexivity. intros [|i]; discriminate.
Qed.

(** *** NaN-freedom *)
Lemma Reachable_nonan : forall c o, Reachable c o ->
  nonan (s_pbest_cost (o_swarm o)) /\ fisnan (s_best_cost (o_swarm o)) = false /\ nonan (o_cost_history o).
Proof.
  intros c o R. pose proof (ri_nan _ (Reachable_RI _ _ R)) as NB.
  assert (G : nonan (s_pbest_cost (o_swarm o)) /\ nonan (o_cost_history o)).
  { induction R as [top dr o H|dr o0 o R IH H|e pool iters o0 o r R IH H].
    - apply construct_inv in H. destruct H as (s & M & -> & _). destruct (make_swarm_new _ _ _ M) as (d & p & v & ->). split; constructor.
    - apply reset_inv in H. destruct H as (s & M & ->). destruct (make_swarm_new _ _ _ M) as (d & p & v & ->). split; constructor.
    - pose proof (ri_nan _ (Reachable_RI _ _ R)) as NB0. specialize (IH NB0). destruct IH as [IH1 IH2].
      destruct (match pool with Some O => true | _ => false end) eqn:EP.
      + destruct pool as [[|n]|]; try discriminate. unfold optimize in H. injection H as <- <-.
        unfold start_memory. destruct (c_kind c); auto.
      + destruct (optimize_hinv _ _ _ _ _ _ _ H) as (k & h & B & _ & I). { destruct pool as [[|n]|]; congruence. }
        split. apply I. destruct (hi_ch _ _ _ _ _ _ I) as [-> _]. apply Forall_app. split; auto. apply I; auto. }
  destruct G; auto.
Qed.
Lemma returned_nonan : forall c e pool iters o o' cost pos, Reachable c o ->
  optimize c e pool iters o = (o', Ok (cost, pos)) -> fisnan cost = false.
Proof.
  intros c e pool iters o o' cost pos R H. destruct (optimize_ok _ _ _ _ _ _ _ H) as (F & _).
  apply final_result_inv in F. destruct F as (_ & -> & _).
  apply (ri_nan o'). eapply optimize_RI; eauto. eapply Reachable_RI; eauto.
Qed.

(** *** Histories in every outcome *)
Lemma optimize_histories : forall c e pool iters o o' r, optimize c e pool iters o = (o', r) -> pool <> Some 0 ->
  exists h C B M V, length h <= iters /\
    length B = length h /\ length M = length h /\ length V = length h /\
    o_pos_history o' = o_pos_history o ++ h /\ o_cost_history o' = o_cost_history o ++ B /\
    o_mean_neighbor_history o' = o_mean_neighbor_history o ++ B /\
    o_mean_pbest_history o' = o_mean_pbest_history o ++ M /\
    o_velocity_history o' = o_velocity_history o ++ V /\
    logged e pool h C /\ all_evaluated (c_n c) h C /\
    (forall t, length h = S t -> nth_error B t = Some (s_best_cost (o_swarm o'))).
Proof.
  intros c e pool iters o o' r H NP.
  assert (G : exists k h C B, k <= iters /\ HInv c o k o' h B /\ logged e pool h C /\ all_evaluated (c_n c) h C).
  { destruct (optimize_run _ _ _ _ _ _ _ H) as [(Z & _)|[(_ & Z & k & h & C & B & Hk & R)|(_ & x & Z & R)]].
    - congruence.
    - exists k, h, C, B. destruct R as [P I _ _]. split; [auto|]. split; [auto|]. split; apply P.
    - destruct R as [k o1 h C B o2 x Hk R E|k o1 h C B q o2 x Hk R E].
      + exists k, h, C, B. split; [lia|]. destruct R as [P I _ _]. split; [eapply HInv_raise; eauto|]. split; apply P.
      + exists (S k), h, C, B. split; [lia|]. pose proof (update_cases c e iters k o1 q) as U. rewrite E in U.
        destruct U as [U1 U2]. destruct R as [P I _ _]. split; [|split; apply P].
        eapply HInv_core; eauto. ftypes. rewrite U2. auto. }
  destruct G as (k & h & C & B & Hk & I & LG & AE).
  destruct I as [[I1 I1'] [I2 I2'] (lm & I3 & I3') I4 (lv & I5 & I5') _ _ _ _ _ _ _ IL].
  exists h, C, B, lm, lv. repeat (split; [auto; try lia|]); auto. 
  intros t Ht. assert (k = S t) as -> by lia. auto.
Qed.

