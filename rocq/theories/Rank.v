(** Only the order of the costs matters (C56). *)
From Coq Require Import String ZArith List Arith Bool Lia.
From Verif Require Import Prelude ListFacts F64 F64Facts Num Np NpFacts Handlers Swarms Operators Generators Topology Optimizers Spec SpecHandlers SpecLike SpecRank Like Prefixes RunMain RunFacts.
Import ListNotations.
Local Open Scope string_scope.
Local Open Scope list_scope.
Local Open Scope nat_scope.

Section R.
Variable C : f64 -> f64 -> Prop.
Hypothesis CO : order_alike C.
Notation cs := (Forall2 C).
Lemma C_le : forall x x' y y', C x x' -> C y y' -> fle x' y' = fle x y.
Proof. apply CO. Qed.
Lemma lt_le : forall x y, flt x y = fle x y && negb (fle y x).
Proof.
  intros x y. destruct (flt x y) eqn:E.
  - apply flt_spec in E. destruct E as (A & B & L). symmetry. apply andb_true_iff. split; [apply fle_spec; repeat split; auto; Lra.lra|].
    apply negb_true_iff. apply fle_false_spec. right. right. exact L.
  - symmetry. apply andb_false_iff. destruct (fle x y) eqn:F; [right|left; reflexivity]. apply negb_false_iff. apply fle_spec in F. destruct F as (A & B & L). apply nlt_fle; assumption.
Qed.
Lemma C_lt : forall x x' y y', C x x' -> C y y' -> flt x' y' = flt x y.
Proof. intros x x' y y' X Y. rewrite !lt_le, (C_le _ _ _ _ X Y), (C_le _ _ _ _ Y X). reflexivity. Qed.
Lemma nan_le : forall x, fisnan x = negb (fle x x).
Proof. intros x. destruct (fisnan x) eqn:E; symmetry; [apply negb_true_iff, fle_false_spec; auto|apply negb_false_iff, fle_refl; exact E]. Qed.
Lemma C_nan : forall x x', C x x' -> fisnan x' = fisnan x.
Proof. intros x x' X. rewrite !nan_le, (C_le _ _ _ _ X X). reflexivity. Qed.

(** *** Lists of costs *)
Lemma cs_len : forall (l l' : list f64), cs l l' -> length l' = length l.
Proof. intros l l' H. symmetry. eapply Forall2_len; eauto. Qed.
Lemma cs_nth : forall e (l l' : list f64) i, cs l l' -> RR C (of_option e (nth_error l i)) (of_option e (nth_error l' i)).
Proof. intros e l l' i H. revert i. induction H as [|x x' l l' X H IH]; intros [|i]; cbn; auto. Qed.
Lemma cs_take : forall (l l' : list f64) idx, cs l l' -> RR cs (np_take l idx) (np_take l' idx).
Proof.
  intros l l' idx H. unfold np_take. induction idx as [|i idx IH]; cbn [mapM]; [constructor|]. eapply RR_bind; [apply cs_nth; exact H|]. intros a b E.
  eapply RR_bind; [exact IH|]. intros x y G. cbn. constructor; assumption.
Qed.
Lemma cs_min2 : forall x x' y y', C x x' -> C y y' -> C (np_min2 (N := F64num) x y) (np_min2 (N := F64num) x' y').
Proof. intros x x' y y' X Y. unfold np_min2. cbn [nle nisnan F64num]. rewrite (C_le _ _ _ _ X Y), (C_nan _ _ X). destruct (fle x y || fisnan x); assumption. Qed.
Lemma cs_fold : forall (l l' : list f64) x x', C x x' -> cs l l' -> C (fold_left (np_min2 (N := F64num)) l x) (fold_left (np_min2 (N := F64num)) l' x').
Proof. intros l l' x x' X H. revert x x' X. induction H as [|y y' l l' Y H IH]; intros x x' X; cbn [fold_left]; [exact X|]. apply IH, cs_min2; assumption. Qed.
Lemma cs_min : forall (l l' : list f64), cs l l' -> RR C (np_min (N := F64num) l) (np_min (N := F64num) l').
Proof. intros l l' H. destruct H as [|x x' l l' X H]; [reflexivity|]. cbn [np_min RR]. apply cs_fold; assumption. Qed.
Lemma cs_argmin_from : forall (l l' : list f64) x x' b i, C x x' -> cs l l' -> argmin_from (N := F64num) x' b i l' = argmin_from (N := F64num) x b i l.
Proof.
  intros l l' x x' b i X H. revert x x' b i X. induction H as [|y y' l l' Y H IH]; intros x x' b i X; cbn [argmin_from nle nisnan F64num]; rewrite (C_nan _ _ X); destruct (fisnan x); try reflexivity.
  rewrite (C_le _ _ _ _ X Y). destruct (fle x y); apply IH; assumption.
Qed.
Lemma cs_argmin : forall (l l' : list f64), cs l l' -> np_argmin (N := F64num) l' = np_argmin (N := F64num) l.
Proof. intros l l' H. destruct H as [|x x' l l' X H]; [reflexivity|]. cbn [np_argmin]. rewrite (cs_argmin_from _ _ _ _ 0 1 X H). reflexivity. Qed.
Lemma cs_mask : forall (a a' b b' : list f64), cs a a' -> cs b b' -> map2 flt a' b' = map2 flt a b.
Proof.
  intros a a' b b' A. revert b b'. induction A as [|x x' a a' X A IH]; intros b b' B; [reflexivity|]. destruct B as [|y y' b b' Y B]; [reflexivity|].
  cbn [map2]. rewrite (C_lt _ _ _ _ X Y), (IH _ _ B). reflexivity.
Qed.
Lemma cs_choose : forall (mask : list bool) (o o' n n' : list f64), cs o o' -> cs n n' ->
  cs (map3 (fun (m : bool) (a b : f64) => if negb m then a else b) mask o n) (map3 (fun (m : bool) (a b : f64) => if negb m then a else b) mask o' n').
Proof.
  induction mask as [|b mask IH]; intros o o' n n' O N; [constructor|]. destruct O as [|r r' o o' R O]; [constructor|]. destruct N as [|q q' n n' Q N]; [constructor|].
  cbn [map3]. constructor; [destruct b; assumption|apply IH; assumption].
Qed.
Lemma cs_repeat : forall n, cs (repeat finf n) (repeat finf n).
Proof. induction n; cbn; constructor; [apply CO|assumption]. Qed.

(** *** Personal and neighbourhood bests *)
Notation swr := (swarm_ranked C).
Notation str := (state_ranked C).
Ltac sw H := destruct H as (HX & HV & HN & HD & HO & HP & HB & HNP & HC & HBC & HCC).
Ltac conjs := repeat (split; [first [assumption|reflexivity]|]); first [assumption|reflexivity].
Ltac fields := cbn [s_position s_velocity s_n s_d s_options s_pbest_pos s_best_pos s_pbest_cost s_best_cost s_best_np s_current_cost].
Lemma pbest_ra : forall s s', swr s s' -> RR (fun x y => fst y = fst x /\ cs (snd x) (snd y)) (compute_pbest (N := F64num) s) (compute_pbest (N := F64num) s').
Proof.
  intros s s' H. sw H. unfold compute_pbest. rewrite HX, HP. pose proof (cs_len _ _ HCC) as L1. pose proof (cs_len _ _ HC) as L2. pose proof (cs_mask _ _ _ _ HCC HC) as M. cbn [T F64num nlt] in *. rewrite L1, L2, M.
  destruct (negb (Nat.eqb _ _)); [reflexivity|]. destruct (negb _); [reflexivity|]. cbn [RR fst snd]. split; [reflexivity|apply cs_choose; assumption].
Qed.
Definition gbr (g g' : gbest) : Prop := fst (fst g') = fst (fst g) /\ C (snd (fst g)) (snd (fst g')) /\ snd g' = snd g.
Definition pickr (x y : topology * res gbest) : Prop := fst y = fst x /\ RR gbr (snd x) (snd y).
Lemma pick_best_ra : forall s s' bn, swr s s' -> RR gbr (pick_best s bn) (pick_best s' bn).
Proof.
  intros s s' bn H. sw H. unfold pick_best. rewrite HP. eapply RR_bind; [apply cs_take; exact HC|]. intros a b E. eapply RR_bind; [apply cs_min; exact E|]. intros x y G.
  destruct (np_take (s_pbest_pos s) bn); cbn; [|reflexivity]. repeat split; auto.
Qed.
Lemma best_of_ra : forall (l l' : list f64) nbs, cs l l' -> best_of l' nbs = best_of l nbs.
Proof.
  intros l l' nbs H. unfold best_of. pose proof (cs_take _ _ nbs H) as T. destruct (np_take l nbs) as [a|x], (np_take l' nbs) as [b|y]; cbn [RR bind] in *; try contradiction; [|congruence].
  rewrite (cs_argmin _ _ T). reflexivity.
Qed.
Lemma hood_ra : forall s s' rows, swr s s' -> RR gbr (neighborhood_gbest s rows) (neighborhood_gbest s' rows).
Proof.
  intros s s' rows H. unfold neighborhood_gbest.
  assert (E : mapM (best_of (s_pbest_cost s')) rows = mapM (best_of (s_pbest_cost s)) rows).
  { induction rows as [|r rows IH]; [reflexivity|]. cbn [mapM]. rewrite (best_of_ra (s_pbest_cost s) (s_pbest_cost s')) by (sw H; exact HC). rewrite IH. reflexivity. }
  rewrite E. clear E. destruct (mapM _ rows) as [bn|e]; cbn [bind]; [apply pick_best_ra; exact H|reflexivity].
Qed.
Lemma star_ra : forall t s s', swr s s' -> pickr (star_gbest t s) (star_gbest t s').
Proof.
  intros t s s' H. sw H. unfold star_gbest, pickr. cbn [fst snd]. rewrite HN, HP, HB, HNP, (cs_argmin _ _ HC). split; [reflexivity|].
  eapply RR_bind; [apply cs_min; exact HC|]. intros m m' M. rewrite (C_lt _ _ _ _ M HBC). destruct (flt m (s_best_cost s)); [|cbn; repeat split; assumption].
  destruct (np_argmin (s_pbest_cost s)) as [i|e]; cbn [bind]; [|reflexivity]. destruct (of_option IndexError (nth_error (s_pbest_pos s) i)); cbn; [|reflexivity]. repeat split; auto.
Qed.
Lemma ring_ra : forall te p k t s s', swr s s' -> pickr (ring_gbest te p k t s) (ring_gbest te p k t s').
Proof.
  intros te p k t s s' H. pose proof H as SW. sw H. unfold ring_gbest. rewrite HX, HN.
  destruct (needs_neighbors t); [destruct (k <? 1)%Z; [split; reflexivity|]; destruct (te_knn te p (Z.to_nat k) (s_position s)); [|split; reflexivity]|destruct (t_nb t); [|split; reflexivity]].
  - destruct (k =? 1)%Z; [destruct (Nat.leb _ _); [split; reflexivity|split; [reflexivity|apply pick_best_ra; exact SW]]|].
    destruct (Nat.eqb _ _); [split; [reflexivity|apply hood_ra; exact SW]|split; reflexivity].
  - destruct (k =? 1)%Z; [destruct (Nat.leb _ _); [split; reflexivity|split; [reflexivity|apply pick_best_ra; exact SW]]|].
    destruct (Nat.eqb _ _); [split; [reflexivity|apply hood_ra; exact SW]|split; reflexivity].
Qed.
Lemma pyramid_ra : forall te t s s', swr s s' -> pickr (pyramid_gbest te t s) (pyramid_gbest te t s').
Proof.
  intros te t s s' H. pose proof H as SW. sw H. unfold pyramid_gbest. rewrite HX, HN, HD.
  destruct (Nat.ltb _ _).
  - split; [reflexivity|]. cbn [snd]. rewrite HP, (cs_argmin _ _ HC). destruct (np_argmin (s_pbest_cost s)) as [i|e]; cbn [bind]; [|reflexivity].
    destruct (of_option IndexError (nth_error (s_pbest_pos s) i)); cbn [bind]; [|reflexivity]. eapply RR_bind; [apply cs_min; exact HC|]. intros m m' M. cbn. repeat split; auto.
  - destruct (needs_neighbors t); [destruct (te_delaunay te (s_position s)); [|split; reflexivity]|destruct (t_nb t); [|split; reflexivity]];
      (split; [reflexivity|apply hood_ra; exact SW]).
Qed.
Lemma random_ra : forall te k t s s', swr s s' -> pickr (random_gbest te k t s) (random_gbest te k t s').
Proof.
  intros te k t s s' H. pose proof H as SW. sw H. unfold random_gbest. rewrite HN.
  destruct (needs_neighbors t); [destruct (random_adj 1 (s_n s) k (te_choice te)); [|split; reflexivity]|destruct (t_nb t); [|split; reflexivity]];
      (split; [reflexivity|apply hood_ra; exact SW]).
Qed.
Lemma gbest_ra : forall te a t s s', swr s s' -> pickr (compute_gbest te a t s) (compute_gbest te a t s').
Proof.
  intros te a t s s' H. unfold compute_gbest. destruct (t_kind t).
  - apply star_ra. exact H.
  - destruct (ga_p a); [|split; reflexivity]. destruct (ga_k a); [|split; reflexivity]. apply ring_ra; assumption.
  - destruct (ga_p a); [|split; reflexivity]. destruct (ga_r a) as [r|]; [|split; reflexivity]. unfold von_neumann_gbest. destruct (r <? 0)%Z; [split; reflexivity|].
    replace (s_d s') with (s_d s) by (sw H; congruence). apply ring_ra; assumption.
  - apply pyramid_ra; assumption.
  - destruct (ga_k a); [|split; reflexivity]. apply random_ra; assumption.
Qed.
Lemma concat_cs : forall (l l' : list (list f64)), Forall2 cs l l' -> cs (concat l) (concat l').
Proof. intros l l' H. induction H; cbn; [constructor|apply Forall2_app; assumption]. Qed.
Lemma objective_ra : forall pool f f' (X : fmatrix), ranks_alike C f f' ->
  RR cs (compute_objective_function (N := F64num) pool f X) (compute_objective_function (N := F64num) pool f' X).
Proof.
  intros pool f f' X F. assert (G : forall X, RR cs (f X) (f' X)) by (intros Y; specialize (F Y); destruct (f Y), (f' Y); exact F).
  unfold compute_objective_function. destruct pool as [n|]; [|apply G].
  apply RR_bind with (P := Forall2 cs); [|intros a b E; cbn [RR]; apply concat_cs; exact E].
  induction (array_split X n) as [|Y l IH]; cbn [mapM]; [constructor|]. eapply RR_bind; [apply G|]. intros a b E. eapply RR_bind; [exact IH|]. intros a2 b2 E2. cbn. constructor; assumption.
Qed.

(** *** The loop *)
Definition stepr (x y : step) : Prop :=
  match x, y with
  | Next o q, Next o' q' => str o o' /\ q' = q
  | Break o, Break o' => str o o'
  | Raise o x, Raise o' x' => str o o' /\ x' = x
  | _, _ => False
  end.
Ltac st H := destruct H as (HS & HT & HBM & HVM & HH1 & HH2 & HH3 & HH4).
Ltac ofields := cbn [o_swarm o_top o_bmem o_vmem o_cost_history o_mean_pbest_history o_mean_neighbor_history o_pos_history o_velocity_history].
Lemma str_swarm : forall o o' s s', str o o' -> swr s s' -> str (with_swarm o s) (with_swarm o' s').
Proof. intros o o' s s' H S. st H. unfold state_ranked, with_swarm. ofields. conjs. Qed.
Lemma str_top : forall o o' t, str o o' -> str (with_top o t) (with_top o' t).
Proof. intros o o' t H. st H. unfold state_ranked, with_top. ofields. conjs. Qed.
Lemma str_bmem : forall o o' m, str o o' -> str (with_bmem o m) (with_bmem o' m).
Proof. intros o o' m H. st H. unfold state_ranked, with_bmem. ofields. conjs. Qed.
Lemma str_vmem : forall o o' m, str o o' -> str (with_vmem o m) (with_vmem o' m).
Proof. intros o o' m H. st H. unfold state_ranked, with_vmem. ofields. conjs. Qed.
Lemma str_history : forall o o' a a' b b' c c' p v, str o o' -> C a a' -> C c c' -> str (populate_history o a b c p v) (populate_history o' a' b' c' p v).
Proof.
  intros o o' a a' b b' c c' p v H A N. st H. unfold state_ranked, populate_history. ofields. rewrite HH3, HH4. repeat (split; [first [assumption|reflexivity]|]).
  split; [apply Forall2_app; auto|]. split; [apply Forall2_app; auto|]. split; reflexivity.
Qed.
Lemma swr_cost : forall s s' c c', swr s s' -> cs c c' -> swr (set_current_cost s c) (set_current_cost s' c').
Proof. intros s s' c c' H N. sw H. unfold swarm_ranked, set_current_cost. fields. conjs. Qed.
Lemma swr_pbest : forall s s' p c c', swr s s' -> cs c c' -> swr (set_pbest s p c) (set_pbest s' p c').
Proof. intros s s' p c c' H N. sw H. unfold swarm_ranked, set_pbest. fields. conjs. Qed.
Lemma swr_best : forall s s' p c c' n, swr s s' -> C c c' -> swr (set_best s p c n) (set_best s' p c' n).
Proof. intros s s' p c c' n H N. sw H. unfold swarm_ranked, set_best. fields. conjs. Qed.
Lemma swr_options : forall s s' x, swr s s' -> swr (set_options s x) (set_options s' x).
Proof. intros s s' x H. sw H. unfold swarm_ranked, set_options. fields. conjs. Qed.
Lemma swr_velocity : forall s s' x, swr s s' -> swr (set_velocity s x) (set_velocity s' x).
Proof. intros s s' x H. sw H. unfold swarm_ranked, set_velocity. fields. conjs. Qed.
Lemma swr_position : forall s s' x, swr s s' -> swr (set_position s x) (set_position s' x).
Proof. intros s s' x H. sw H. unfold swarm_ranked, set_position. fields. conjs. Qed.

Variables (c : config) (e e' : env).
Hypothesis FT : c_ftol c = fninf.
Hypothesis RE : ranked_env C e e'.
Lemma evaluate_ra : forall pool i o o' q, str o o' -> stepr (evaluate_swarm c e pool i o q) (evaluate_swarm c e' pool i o' q).
Proof.
  destruct RE as (EO & EV & EB & EOH & ET & EBI & EX).
  intros pool i o o' q H. pose proof H as ST. st H. unfold evaluate_swarm.
  replace (s_position (o_swarm o')) with (s_position (o_swarm o)) by (sw HS; symmetry; exact HX).
  pose proof (objective_ra pool (e_obj e i) (e_obj e' i) (s_position (o_swarm o)) (EO i)) as OB.
  destruct (compute_objective_function pool (e_obj e i) (s_position (o_swarm o))) as [cost|x], (compute_objective_function pool (e_obj e' i) (s_position (o_swarm o))) as [cost'|x']; try contradiction; cbn [RR] in OB.
  2: { subst x'. split; [exact ST|reflexivity]. }
  pose proof (swr_cost _ _ cost cost' HS OB) as S1. pose proof (pbest_ra _ _ S1) as PB.
  destruct (compute_pbest (set_current_cost (o_swarm o) cost)) as [[pp pc]|x], (compute_pbest (set_current_cost (o_swarm o') cost')) as [[pp' pc']|x']; try contradiction; cbn [RR fst snd] in PB.
  2: { subst x'. split; [apply str_swarm; assumption|reflexivity]. }
  destruct PB as [PP PC]. subst pp'. pose proof (swr_pbest _ _ pp pc pc' S1 PC) as S2.
  pose proof (gbest_ra (e_top e i) (gbest_args c) (o_top o) _ _ S2) as GB. rewrite HT, ET.
  destruct (compute_gbest (e_top e i) (gbest_args c) (o_top o) (set_pbest (set_current_cost (o_swarm o) cost) pp pc)) as [t [[[bp bc] np]|x]],
    (compute_gbest (e_top e i) (gbest_args c) (o_top o) (set_pbest (set_current_cost (o_swarm o') cost') pp pc')) as [t' [[[bp' bc'] np']|x']];
    destruct GB as [GT GB]; cbn [RR fst snd gbr] in GT, GB; try contradiction; subst t'.
  2: { subst x'. split; [apply str_top, str_swarm; assumption|reflexivity]. }
  destruct GB as (G1 & G2 & G3). cbn [fst snd] in G1, G2, G3. subst bp' np'. pose proof (swr_best _ _ bp bc bc' np S2 G2) as S3.
  rewrite FT, !small_never.
  assert (F : str (populate_history (with_top (with_swarm o (set_best (set_pbest (set_current_cost (o_swarm o) cost) pp pc) bp bc np)) t) bc (np_mean (e_tree e) pc) bc (s_position (set_best (set_pbest (set_current_cost (o_swarm o) cost) pp pc) bp bc np)) (s_velocity (set_best (set_pbest (set_current_cost (o_swarm o) cost) pp pc) bp bc np)))
    (populate_history (with_top (with_swarm o' (set_best (set_pbest (set_current_cost (o_swarm o') cost') pp pc') bp bc' np)) t) bc' (np_mean (e_tree e') pc') bc' (s_position (set_best (set_pbest (set_current_cost (o_swarm o') cost') pp pc') bp bc' np)) (s_velocity (set_best (set_pbest (set_current_cost (o_swarm o') cost') pp pc') bp bc' np)))).
  { replace (s_position (set_best (set_pbest (set_current_cost (o_swarm o') cost') pp pc') bp bc' np)) with (s_position (set_best (set_pbest (set_current_cost (o_swarm o) cost) pp pc) bp bc np)) by (sw S3; symmetry; exact HX).
    replace (s_velocity (set_best (set_pbest (set_current_cost (o_swarm o') cost') pp pc') bp bc' np)) with (s_velocity (set_best (set_pbest (set_current_cost (o_swarm o) cost) pp pc) bp bc np)) by (sw S3; symmetry; exact HV).
    apply str_history; [apply str_top, str_swarm; assumption|exact G2|exact G2]. }
  destruct (Nat.leb (c_ftol_iter c) i && _); [exact F|split; [exact F|reflexivity]].
Qed.
Lemma velocity_ra : forall dr vh vm s s' cl b, swr s s' -> compute_velocity (N := F64num) dr vh vm s' cl b = compute_velocity (N := F64num) dr vh vm s cl b.
Proof. intros dr vh vm s s' cl b H. sw H. unfold compute_velocity. rewrite HX, HV, HD, HO, HP, HB. reflexivity. Qed.
Lemma position_ra : forall dr bh bm s s' b, swr s s' -> compute_position (N := F64num) dr bh bm s' b = compute_position (N := F64num) dr bh bm s b.
Proof. intros dr bh bm s s' b H. sw H. unfold compute_position. rewrite HX, HV. reflexivity. Qed.
Lemma binary_ra : forall ex ex' u v, (forall x, ex' x = ex x) -> binary_position ex' u v = binary_position ex u v.
Proof.
  intros ex ex' u v H. unfold binary_position. destruct (forallb _ v); [|reflexivity]. f_equal. apply map_ext. intros r. revert r. induction u as [|a u IH]; intros [|b r]; [reflexivity..|].
  cbn [map2]. f_equal; [|apply IH]. unfold sigmoid. rewrite H. reflexivity.
Qed.
Lemma update_ra : forall iters i o o' q, str o o' -> stepr (update_swarm c e iters i o q) (update_swarm c e' iters i o' q).
Proof.
  destruct RE as (EO & EV & EB & EOH & ET & EBI & EX).
  intros iters i o o' q H. pose proof H as ST. destruct H as (HS & _). unfold update_swarm. rewrite EOH, EV, EB, EBI. replace (s_options (o_swarm o')) with (s_options (o_swarm o)) by (sw HS; symmetry; exact HO).
  destruct (match c_kind c with Binary => Ok (s_options (o_swarm o)) | _ => _ end) as [opts|x]; [|split; [exact ST|reflexivity]]. cbv zeta.
  pose proof (swr_options _ _ opts HS) as S1. pose proof (str_swarm _ _ _ _ ST S1) as ST1.
  revert S1 ST1. generalize (set_options (o_swarm o) opts) (set_options (o_swarm o') opts) (with_swarm o (set_options (o_swarm o) opts)) (with_swarm o' (set_options (o_swarm o') opts)). clear ST HS o o'.
  intros s s' o o' S1 ST1. replace (o_vmem o') with (o_vmem o) by (st ST1; symmetry; exact HVM). rewrite (velocity_ra _ _ _ _ _ _ _ S1).
  destruct (compute_velocity (e_vel e i) (c_vh c) (o_vmem o) s (c_clamp c) _) as [[v vm]|x]; [|split; [exact ST1|reflexivity]].
  pose proof (swr_velocity _ _ v S1) as S2. pose proof (str_vmem _ _ vm (str_swarm _ _ _ _ ST1 S2)) as ST2. replace (s_velocity (set_velocity s' v)) with (s_velocity (set_velocity s v)) by reflexivity.
  revert S2 ST2. generalize (set_velocity s v) (set_velocity s' v) (with_vmem (with_swarm o (set_velocity s v)) vm) (with_vmem (with_swarm o' (set_velocity s' v)) vm). clear S1 ST1 s s' o o'.
  intros s s' o o' S1 ST1. rewrite (binary_ra _ _ _ _ EX). replace (o_bmem o') with (o_bmem o) by (st ST1; symmetry; exact HBM). rewrite (position_ra _ _ _ _ _ _ S1).
  assert (FIN : stepr (match compute_position (e_bh e i) (c_bh c) (o_bmem o) s (c_bounds c) with Ok (p, bmem) => Next (with_bmem (with_swarm o (set_position s p)) bmem) q | Err x => Raise o x end)
    (match compute_position (e_bh e i) (c_bh c) (o_bmem o) s (c_bounds c) with Ok (p, bmem) => Next (with_bmem (with_swarm o' (set_position s' p)) bmem) q | Err x => Raise o' x end)).
  { destruct (compute_position (e_bh e i) _ _ _ _) as [[p bm]|x]; [|split; [exact ST1|reflexivity]]. split; [|reflexivity]. apply str_bmem, str_swarm; [exact ST1|]. apply swr_position. exact S1. }
  destruct (c_kind c); try exact FIN. destruct (binary_position (e_exp e) (e_bits e i) (s_velocity s)) as [p|x].
  - split; [|reflexivity]. apply str_swarm; [exact ST1|]. apply swr_position. exact S1.
  - split; [exact ST1|reflexivity].
Qed.
Definition endr (x y : loop_end) : Prop :=
  match x, y with LDone o, LDone o' => str o o' | LRaise o x, LRaise o' x' => str o o' /\ x' = x | _, _ => False end.
Lemma loop_ra : forall pool iters m i o o' q, str o o' -> endr (opt_loop c e pool iters m i o q) (opt_loop c e' pool iters m i o' q).
Proof.
  intros pool iters m. induction m as [|m IH]; intros i o o' q H; [exact H|]. cbn [opt_loop]. unfold iteration. pose proof (evaluate_ra pool i o o' q H) as E.
  destruct (evaluate_swarm c e pool i o q) as [a p|a|a x], (evaluate_swarm c e' pool i o' q) as [b p'|b|b x']; cbn [stepr] in E; try contradiction; try exact E.
  destruct E as [E ->]. pose proof (update_ra iters i a b p E) as U. destruct (update_swarm c e iters i a p), (update_swarm c e' iters i b p); cbn [stepr] in U; try contradiction; try exact U.
  destruct U as [U ->]. apply IH. exact U.
Qed.
Lemma final_ra : forall o o', str o o' -> result_ranked C (final_result o) (final_result o').
Proof.
  intros o o' H. st H. sw HS. unfold final_result. rewrite HNP, HP, (cs_argmin _ _ HC). destruct (negb _); [reflexivity|].
  destruct (np_argmin (s_pbest_cost (o_swarm o))) as [j|x]; cbn [bind]; [|reflexivity]. destruct (of_option IndexError (nth_error (s_pbest_pos (o_swarm o)) j)); cbn; [|reflexivity]. split; [exact HBC|reflexivity].
Qed.
Lemma optimize_ra : forall pool iters o o', str o o' ->
  str (fst (optimize c e pool iters o)) (fst (optimize c e' pool iters o')) /\ result_ranked C (snd (optimize c e pool iters o)) (snd (optimize c e' pool iters o')).
Proof.
  intros pool iters o o' H.
  assert (S0 : str (start_memory c o) (start_memory c o')).
  { unfold start_memory. replace (s_position (o_swarm o')) with (s_position (o_swarm o)) by (st H; sw HS; symmetry; exact HX).
    destruct (c_kind c); try (apply str_vmem, str_bmem; exact H). apply str_vmem; exact H. }
  assert (S1 : str (start_pbest c (start_memory c o)) (start_pbest c (start_memory c o'))).
  { unfold start_pbest. apply str_swarm; [exact S0|]. unfold set_pbest_cost. replace (s_pbest_pos (o_swarm (start_memory c o'))) with (s_pbest_pos (o_swarm (start_memory c o))) by (destruct S0 as (HS & _); sw HS; symmetry; exact HP).
    apply swr_pbest; [apply S0|apply cs_repeat]. }
  pose proof (loop_ra pool iters iters 0 _ _ [] S1) as L.
  assert (G : forall x y, endr x y -> str (fst match x with LDone a => (a, final_result a) | LRaise a k => (a, Err k) end) (fst match y with LDone a => (a, final_result a) | LRaise a k => (a, Err k) end) /\
     result_ranked C (snd match x with LDone a => (a, final_result a) | LRaise a k => (a, Err k) end) (snd match y with LDone a => (a, final_result a) | LRaise a k => (a, Err k) end)).
  { intros [a|a k] [b|b k'] E; cbn [endr] in E; try contradiction; cbn [fst snd]; [split; [exact E|apply final_ra; exact E]|]. destruct E as [E ->]. split; [exact E|reflexivity]. }
  unfold optimize. destruct pool as [[|n]|]; [split; [exact S0|reflexivity]| |]; apply G; exact L.
Qed.
End R.

(** *** The results *)
Lemma rank_start : forall C c o, order_alike C -> Fresh c o -> state_ranked C o o.
Proof.
  intros C c o CO F. destruct (Fresh_inv _ _ F) as (d & p & v & E & E1 & _ & E3 & _ & _). unfold state_ranked, swarm_ranked. rewrite E, E1, E3. unfold new_swarm. cbn.
  repeat split; try constructor; apply CO.
Qed.
Lemma rank_optimize : forall C c e e' pool iters o o', order_alike C -> c_ftol c = fninf -> ranked_env C e e' -> state_ranked C o o' ->
  state_ranked C (fst (optimize c e pool iters o)) (fst (optimize c e' pool iters o')) /\ result_ranked C (snd (optimize c e pool iters o)) (snd (optimize c e' pool iters o')).
Proof. intros C c e e' pool iters o o' CO FT RE S. exact (optimize_ra C CO c e e' FT RE pool iters o o' S). Qed.
Lemma rank_session : forall C c calls calls' o o' o1, order_alike C -> c_ftol c = fninf -> Forall2 (ranked_call C) calls calls' -> state_ranked C o o' -> Session c o calls o1 ->
  exists o1', Session c o' calls' o1' /\ state_ranked C o1 o1'.
Proof.
  intros C c calls calls' o o' o1 CO FT F S H. revert calls' F. induction H as [o|o l o1 k o2 r H IH E]; intros calls' F.
  - inversion F; subst. exists o'. split; [constructor|exact S].
  - apply Forall2_app_inv_l in F. destruct F as (l' & k1 & F1 & F2 & ->). inversion F2 as [|a k' b b' K FN]; subst. inversion FN; subst.
    destruct (IH S l' F1) as (o1' & S1 & L1). destruct K as (KE & KP & KI).
    destruct (rank_optimize C c (k_env k) (k_env k') (k_pool k) (k_iters k) o1 o1' CO FT KE L1) as [R _]. rewrite E in R. cbn [fst] in R.
    destruct (optimize c (k_env k') (k_pool k) (k_iters k) o1') as [o2' r'] eqn:E'. cbn [fst] in R. exists o2'. split; [|exact R].
    eapply Session_snoc; [exact S1|]. rewrite KP, KI. exact E'.
Qed.
