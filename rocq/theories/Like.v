(** Simulation between two runs whose rows are related (used for C74 and C75). *)
From Coq Require Import String ZArith List Arith Bool Lia.
From Verif Require Import Prelude ListFacts F64 F64Facts Num Np NpFacts Handlers Swarms Operators Generators Topology Optimizers Spec SpecLike HandlerFacts.
Import ListNotations.
Local Open Scope string_scope.
Local Open Scope list_scope.
Local Open Scope nat_scope.

(** *** Related results *)
Definition RR {A B} (P : A -> B -> Prop) (x : res A) (y : res B) : Prop :=
  match x, y with Ok a, Ok b => P a b | Err e, Err e' => e' = e | _, _ => False end.
Lemma RR_bind : forall A B C D (P : A -> B -> Prop) (Q : C -> D -> Prop) x y f g,
  RR P x y -> (forall a b, P a b -> RR Q (f a) (g b)) -> RR Q (bind x f) (bind y g).
Proof. intros A B C D P Q [a|e] [b|e'] f g H1 H2; cbn in *; try contradiction; [apply H2; exact H1|exact H1]. Qed.
Lemma RR_refl : forall A (P : A -> A -> Prop) x y, x = y -> (forall a, P a a) -> RR P x y.
Proof. intros A P [a|e] y <- H; cbn; auto. Qed.
Lemma RR_eq : forall A (x y : res A), RR eq x y <-> y = x.
Proof. intros A [a|e] [b|e']; cbn; split; intros H; try contradiction; try discriminate; congruence. Qed.

Lemma shape_eq : forall A B d (m m' : list (list A)) (n n' : list (list B)), Forall2 (fun r r' => length r = d /\ length r' = d) m m' ->
  Forall2 (fun r r' => length r = d /\ length r' = d) n n' -> same_shape m' n' = same_shape m n.
Proof.
  intros A B d m m' n n' H G. unfold same_shape. rewrite <- (Forall2_len _ _ _ H), <- (Forall2_len _ _ _ G). f_equal. revert n n' G.
  induction H as [|r r' m m' R F IH]; intros n n' G; [reflexivity|]. destruct G as [|s s' n n' S G]; [reflexivity|]. cbn.
  rewrite (IH n n' G). destruct R as (R1 & R2), S as (S1 & S2). rewrite R1, R2, S1, S2. reflexivity.
Qed.
Section Sim.
Variable d : nat.
Variable re : frow -> frow -> Prop.
Hypothesis re_len : forall r r', re r r' -> length r = d /\ length r' = d.
Notation co := (Forall2 re).
Lemma col_len : forall (m m' : fmatrix), co m m' -> length m' = length m.
Proof. intros m m' H. symmetry. eapply Forall2_len; eauto. Qed.
Lemma col_nth : forall (m m' : fmatrix) i, co m m' -> match nth_error m i, nth_error m' i with Some r, Some r' => re r r' | None, None => True | _, _ => False end.
Proof. intros m m' i H. revert i. induction H as [|r r' m m' R F IH]; intros [|i]; cbn; auto. apply IH. Qed.
Lemma col_shape : forall (m m' n n' : fmatrix), co m m' -> co n n' -> same_shape m' n' = same_shape m n.
Proof.
  intros m m' n n' H G. apply (shape_eq f64 f64 d m m' n n').
  - clear G. induction H as [|r r' m m' R F IH]; constructor; [exact (re_len _ _ R)|exact IH].
  - clear H. induction G as [|r r' n n' R F IH]; constructor; [exact (re_len _ _ R)|exact IH].
Qed.
Definition mems (x y : fmatrix * option fmatrix) : Prop := co (fst x) (fst y) /\ maybe co (snd x) (snd y).

(** *** Personal and neighbourhood bests *)
Notation swl := (swarm_like d re).
Notation bel := (best_like re).
Ltac conjs := repeat (split; [first [assumption|reflexivity]|]); first [assumption|reflexivity].
Ltac sw H := destruct H as (HX & HV & HN & HD & HD' & HO & HP & HB & HC & HBC & HNP & HCC).
Lemma swl_cost : forall s s' c, swl s s' -> swl (set_current_cost s c) (set_current_cost s' c).
Proof. intros s s' c H. sw H. unfold swarm_like, set_current_cost. cbn [s_position s_velocity s_n s_d s_options s_pbest_pos s_best_pos s_pbest_cost s_best_cost s_best_np s_current_cost]. conjs. Qed.
Lemma swl_pbest : forall s s' p p' c, swl s s' -> co p p' -> swl (set_pbest s p c) (set_pbest s' p' c).
Proof. intros s s' p p' c H P. sw H. unfold swarm_like, set_pbest. cbn [s_position s_velocity s_n s_d s_options s_pbest_pos s_best_pos s_pbest_cost s_best_cost s_best_np s_current_cost]. conjs. Qed.
Lemma swl_best : forall s s' p p' c n, swl s s' -> bel p p' -> swl (set_best s p c n) (set_best s' p' c n).
Proof. intros s s' p p' c n H P. sw H. unfold swarm_like, set_best. cbn [s_position s_velocity s_n s_d s_options s_pbest_pos s_best_pos s_pbest_cost s_best_cost s_best_np s_current_cost]. conjs. Qed.
Lemma swl_options : forall s s' c, swl s s' -> swl (set_options s c) (set_options s' c).
Proof. intros s s' c H. sw H. unfold swarm_like, set_options. cbn [s_position s_velocity s_n s_d s_options s_pbest_pos s_best_pos s_pbest_cost s_best_cost s_best_np s_current_cost]. conjs. Qed.
Lemma swl_velocity : forall s s' p p', swl s s' -> co p p' -> swl (set_velocity s p) (set_velocity s' p').
Proof. intros s s' p p' H P. sw H. unfold swarm_like, set_velocity. cbn [s_position s_velocity s_n s_d s_options s_pbest_pos s_best_pos s_pbest_cost s_best_cost s_best_np s_current_cost]. conjs. Qed.
Lemma swl_position : forall s s' p p', swl s s' -> co p p' -> swl (set_position s p) (set_position s' p').
Proof. intros s s' p p' H P. sw H. unfold swarm_like, set_position. cbn [s_position s_velocity s_n s_d s_options s_pbest_pos s_best_pos s_pbest_cost s_best_cost s_best_np s_current_cost]. conjs. Qed.

Lemma co_choose : forall (mask : list bool) (o o' n n' : fmatrix), co o o' -> co n n' ->
  co (map3 (fun (m : bool) (a b : frow) => if negb m then a else b) mask o n) (map3 (fun (m : bool) (a b : frow) => if negb m then a else b) mask o' n').
Proof.
  induction mask as [|b mask IH]; intros o o' n n' O N; [constructor|]. destruct O as [|r r' o o' R O]; [constructor|]. destruct N as [|q q' n n' Q N]; [constructor|].
  cbn [map3]. constructor; [destruct b; assumption|apply IH; assumption].
Qed.
Lemma pbest_co : forall s s', swl s s' -> RR (fun x y => co (fst x) (fst y) /\ snd y = snd x) (compute_pbest (N := F64num) s) (compute_pbest (N := F64num) s').
Proof.
  intros s s' H. sw H. unfold compute_pbest. rewrite HCC, HC. destruct (negb (Nat.eqb (length (s_current_cost s)) (length (s_pbest_cost s)))); [reflexivity|].
  rewrite (col_len _ _ HX), (col_shape _ _ _ _ HX HP). destruct (negb _); [reflexivity|]. cbn [RR fst snd]. split; [apply co_choose; assumption|reflexivity].
Qed.
Lemma nth_co : forall e (m m' : fmatrix) i, co m m' -> RR re (of_option e (nth_error m i)) (of_option e (nth_error m' i)).
Proof. intros e m m' i H. pose proof (col_nth _ _ i H) as E. destruct (nth_error m i), (nth_error m' i); cbn; auto; contradiction. Qed.
Lemma take_co : forall (m m' : fmatrix) idx, co m m' -> RR co (np_take m idx) (np_take m' idx).
Proof.
  intros m m' idx H. unfold np_take. induction idx as [|i idx IH]; cbn [mapM]; [constructor|]. eapply RR_bind; [apply nth_co; exact H|]. intros a b E.
  eapply RR_bind; [exact IH|]. intros x y G. cbn. constructor; assumption.
Qed.
Definition gbl (g g' : gbest) : Prop := bel (fst (fst g)) (fst (fst g')) /\ snd (fst g') = snd (fst g) /\ snd g' = snd g.
Definition pick (x y : topology * res gbest) : Prop := fst y = fst x /\ RR gbl (snd x) (snd y).
Lemma pick_best_co : forall s s' bn, swl s s' -> RR gbl (pick_best s bn) (pick_best s' bn).
Proof.
  intros s s' bn H. sw H. unfold pick_best. rewrite HC. destruct (np_take (s_pbest_cost s) bn) as [cs|e]; cbn [bind]; [|reflexivity].
  destruct (np_min cs) as [c|e]; cbn [bind]; [|reflexivity]. eapply RR_bind; [apply take_co; exact HP|]. intros p q E. cbn. repeat split; auto.
Qed.
Lemma hood_co : forall s s' rows, swl s s' -> RR gbl (neighborhood_gbest s rows) (neighborhood_gbest s' rows).
Proof.
  intros s s' rows H. unfold neighborhood_gbest. replace (s_pbest_cost s') with (s_pbest_cost s) by (sw H; symmetry; exact HC).
  destruct (mapM _ rows) as [bn|e]; cbn [bind]; [apply pick_best_co; exact H|reflexivity].
Qed.
Notation tel := (fun te te' => (forall p k X X', co X X' -> te_knn te' p k X' = te_knn te p k X) /\
   (forall X X', co X X' -> te_delaunay te' X' = te_delaunay te X) /\ te_choice te' = te_choice te).
Lemma star_co : forall t s s', swl s s' -> pick (star_gbest t s) (star_gbest t s').
Proof.
  intros t s s' H. sw H. unfold star_gbest, pick. cbn [fst snd]. rewrite HN, HC, HBC, HNP. split; [reflexivity|].
  destruct (np_min (s_pbest_cost s)) as [m|e]; cbn [bind]; [|reflexivity]. destruct (flt m (s_best_cost s)); [|cbn; repeat split; assumption].
  destruct (np_argmin (s_pbest_cost s)) as [i|e]; cbn [bind]; [|reflexivity]. eapply RR_bind; [apply nth_co; exact HP|]. intros p q E. cbn. repeat split; auto; apply E.
Qed.
Lemma ring_co : forall te te' p k t s s', tel te te' -> swl s s' -> pick (ring_gbest te p k t s) (ring_gbest te' p k t s').
Proof.
  intros te te' p k t s s' (K & _ & _) H. pose proof H as SW. sw H. unfold ring_gbest. rewrite (K p (Z.to_nat k) _ _ HX), HN.
  destruct (needs_neighbors t); [destruct (k <? 1)%Z; [split; reflexivity|]; destruct (te_knn te p (Z.to_nat k) (s_position s)); [|split; reflexivity]|destruct (t_nb t); [|split; reflexivity]].
  - destruct (k =? 1)%Z; [destruct (Nat.leb _ _); [split; reflexivity|split; [reflexivity|apply pick_best_co; exact SW]]|].
    destruct (Nat.eqb _ _); [split; [reflexivity|apply hood_co; exact SW]|split; reflexivity].
  - destruct (k =? 1)%Z; [destruct (Nat.leb _ _); [split; reflexivity|split; [reflexivity|apply pick_best_co; exact SW]]|].
    destruct (Nat.eqb _ _); [split; [reflexivity|apply hood_co; exact SW]|split; reflexivity].
Qed.
Lemma pyramid_co : forall te te' t s s', tel te te' -> swl s s' -> pick (pyramid_gbest te t s) (pyramid_gbest te' t s').
Proof.
  intros te te' t s s' (_ & K & _) H. pose proof H as SW. sw H. unfold pyramid_gbest. rewrite (K _ _ HX), HN, HD, HD'.
  destruct (Nat.ltb _ _).
  - split; [reflexivity|]. cbn [snd]. rewrite HC. destruct (np_argmin (s_pbest_cost s)) as [i|e]; cbn [bind]; [|reflexivity]. eapply RR_bind; [apply nth_co; exact HP|]. intros p q E.
    destruct (np_min (s_pbest_cost s)) as [m|e]; cbn; [|reflexivity]. repeat split; auto; apply E.
  - destruct (needs_neighbors t); [destruct (te_delaunay te (s_position s)); [|split; reflexivity]|destruct (t_nb t); [|split; reflexivity]];
      (split; [reflexivity|apply hood_co; exact SW]).
Qed.
Lemma random_co : forall te te' k t s s', tel te te' -> swl s s' -> pick (random_gbest te k t s) (random_gbest te' k t s').
Proof.
  intros te te' k t s s' (_ & _ & K) H. pose proof H as SW. sw H. unfold random_gbest. rewrite K, HN.
  destruct (needs_neighbors t); [destruct (random_adj 1 (s_n s) k (te_choice te)); [|split; reflexivity]|destruct (t_nb t); [|split; reflexivity]];
      (split; [reflexivity|apply hood_co; exact SW]).
Qed.
Lemma gbest_co : forall te te' a t s s', tel te te' -> swl s s' -> pick (compute_gbest te a t s) (compute_gbest te' a t s').
Proof.
  intros te te' a t s s' K H. unfold compute_gbest. destruct (t_kind t).
  - apply star_co. exact H.
  - destruct (ga_p a); [|split; reflexivity]. destruct (ga_k a); [|split; reflexivity]. apply ring_co; assumption.
  - destruct (ga_p a); [|split; reflexivity]. destruct (ga_r a) as [r|]; [|split; reflexivity]. unfold von_neumann_gbest. destruct (r <? 0)%Z; [split; reflexivity|].
    replace (s_d s') with (s_d s) by (sw H; congruence). apply ring_co; assumption.
  - apply pyramid_co; assumption.
  - destruct (ga_k a); [|split; reflexivity]. apply random_co; assumption.
Qed.

(** *** Evaluation of the cost *)
Lemma firstn_co : forall n (m m' : fmatrix), co m m' -> co (firstn n m) (firstn n m').
Proof. intros n m m' H. revert n. induction H as [|r r' m m' R F IH]; intros [|n]; cbn; try constructor; [exact R|apply IH]. Qed.
Lemma skipn_co : forall n (m m' : fmatrix), co m m' -> co (skipn n m) (skipn n m').
Proof. intros n m m' H. revert n. induction H as [|r r' m m' R F IH]; intros [|n]; cbn; try constructor; [exact R|exact F|apply IH]. Qed.
Lemma split_co : forall sizes (m m' : fmatrix), co m m' -> Forall2 co (split_sizes sizes m) (split_sizes sizes m').
Proof. intros sizes. induction sizes as [|n sizes IH]; intros m m' H; cbn; constructor; [apply firstn_co; exact H|apply IH, skipn_co; exact H]. Qed.
Lemma objective_co : forall pool f f' (X X' : fmatrix), (forall Y Y', co Y Y' -> f' Y' = f Y) -> co X X' ->
  compute_objective_function (N := F64num) pool f' X' = compute_objective_function (N := F64num) pool f X.
Proof.
  intros pool f f' X X' F H. unfold compute_objective_function. destruct pool as [n|]; [|apply F; exact H]. f_equal. unfold array_split. rewrite (col_len _ _ H).
  generalize (split_co (chunk_sizes (length X) n) _ _ H). generalize (split_sizes (chunk_sizes (length X) n) X) (split_sizes (chunk_sizes (length X) n) X').
  intros a b G. induction G as [|x y a b E G IH]; [reflexivity|]. cbn [mapM]. rewrite (F _ _ E), IH. reflexivity.
Qed.

(** *** The loop *)
Notation stl := (state_like d re).
Definition steps (x y : step) : Prop :=
  match x, y with
  | Next o q, Next o' q' => stl o o' /\ q' = q
  | Break o, Break o' => stl o o'
  | Raise o x, Raise o' x' => stl o o' /\ x' = x
  | _, _ => False
  end.
Ltac st H := destruct H as (HS & HT & HBM & HVM & HH1 & HH2 & HH3 & HH4 & HH5).
Lemma stl_swarm : forall o o' s s', stl o o' -> swl s s' -> stl (with_swarm o s) (with_swarm o' s').
Proof. intros o o' s s' H S. st H. unfold state_like, with_swarm. cbn [o_swarm o_top o_bmem o_vmem o_cost_history o_mean_pbest_history o_mean_neighbor_history o_pos_history o_velocity_history]. conjs. Qed.
Lemma stl_top : forall o o' t, stl o o' -> stl (with_top o t) (with_top o' t).
Proof. intros o o' t H. st H. unfold state_like, with_top. cbn [o_swarm o_top o_bmem o_vmem o_cost_history o_mean_pbest_history o_mean_neighbor_history o_pos_history o_velocity_history]. conjs. Qed.
Lemma stl_bmem : forall o o' m m', stl o o' -> maybe co m m' -> stl (with_bmem o m) (with_bmem o' m').
Proof. intros o o' m m' H M. st H. unfold state_like, with_bmem. cbn [o_swarm o_top o_bmem o_vmem o_cost_history o_mean_pbest_history o_mean_neighbor_history o_pos_history o_velocity_history]. conjs. Qed.
Lemma stl_vmem : forall o o' m m', stl o o' -> maybe co m m' -> stl (with_vmem o m) (with_vmem o' m').
Proof. intros o o' m m' H M. st H. unfold state_like, with_vmem. cbn [o_swarm o_top o_bmem o_vmem o_cost_history o_mean_pbest_history o_mean_neighbor_history o_pos_history o_velocity_history]. conjs. Qed.
Lemma stl_history : forall o o' a b c p p' v v', stl o o' -> co p p' -> co v v' -> stl (populate_history o a b c p v) (populate_history o' a b c p' v').
Proof.
  intros o o' a b c p p' v v' H P V. st H. unfold state_like, populate_history. cbn [o_swarm o_top o_bmem o_vmem o_cost_history o_mean_pbest_history o_mean_neighbor_history o_pos_history o_velocity_history].
  rewrite HH1, HH2, HH3. repeat (split; [first [assumption|reflexivity]|]). split; apply Forall2_app; auto.
Qed.
Variables (c c' : config) (e e' : env).
Hypothesis K : c_kind c' = c_kind c.
Hypothesis Kn : c_n c' = c_n c.
Hypothesis Ko : c_options c' = c_options c.
Hypothesis Kf : c_ftol c' = c_ftol c.
Hypothesis Ki : c_ftol_iter c' = c_ftol_iter c.
Hypothesis Koh : c_oh c' = c_oh c.
Hypothesis EO : forall i X X', co X X' -> e_obj e' i X' = e_obj e i X.
Hypothesis EOH : forall i, e_oh e' i = e_oh e i.
Hypothesis ET : forall i, tel (e_top e i) (e_top e' i).
Hypothesis ETR : forall m, e_tree e' m = e_tree e m.
Lemma evaluate_co : forall pool i o o' q, stl o o' -> steps (evaluate_swarm c e pool i o q) (evaluate_swarm c' e' pool i o' q).
Proof.
  intros pool i o o' q H. pose proof H as ST. st H. 
  unfold evaluate_swarm. rewrite (objective_co pool (e_obj e i) (e_obj e' i) (s_position (o_swarm o)) (s_position (o_swarm o')) (EO i)) by (sw HS; exact HX).
  destruct (compute_objective_function pool (e_obj e i) (s_position (o_swarm o))) as [cost|x]; [|split; [exact ST|reflexivity]].
  pose proof (swl_cost _ _ cost HS) as S1. pose proof (pbest_co _ _ S1) as PB.
  destruct (compute_pbest (set_current_cost (o_swarm o) cost)) as [[pp pc]|x], (compute_pbest (set_current_cost (o_swarm o') cost)) as [[pp' pc']|x']; try contradiction; cbn [RR fst snd] in PB.
  2: { subst x'. split; [apply stl_swarm; assumption|reflexivity]. }
  destruct PB as [PP PC]. subst pc'. pose proof (swl_pbest _ _ _ _ pc S1 PP) as S2.
  pose proof (gbest_co (e_top e i) (e_top e' i) (gbest_args c) (o_top o) _ _ (ET i) S2) as GB.
  replace (gbest_args c') with (gbest_args c) by (unfold gbest_args; rewrite K, Ko; reflexivity). rewrite HT.
  destruct (compute_gbest (e_top e i) (gbest_args c) (o_top o) (set_pbest (set_current_cost (o_swarm o) cost) pp pc)) as [t [[[bp bc] np]|x]],
    (compute_gbest (e_top e' i) (gbest_args c) (o_top o) (set_pbest (set_current_cost (o_swarm o') cost) pp' pc)) as [t' [[[bp' bc'] np']|x']];
    destruct GB as [GT GB]; cbn [RR fst snd gbl] in GT, GB; try contradiction; subst t'.
  2: { subst x'. split; [apply stl_top, stl_swarm; assumption|reflexivity]. }
  destruct GB as (G1 & G2 & G3). cbn [fst snd] in G1, G2, G3. subst bc' np'. pose proof (swl_best _ _ _ _ bc np S2 G1) as S3.
  replace (s_best_cost (set_pbest (set_current_cost (o_swarm o') cost) pp' pc)) with (s_best_cost (set_pbest (set_current_cost (o_swarm o) cost) pp pc)) by (sw S2; symmetry; exact HBC).
  replace (np_mean (e_tree e') pc) with (np_mean (e_tree e) pc) by (unfold np_mean; rewrite ETR; reflexivity). rewrite Ki, Kf.
  assert (F : stl (populate_history (with_top (with_swarm o (set_best (set_pbest (set_current_cost (o_swarm o) cost) pp pc) bp bc np)) t) bc (np_mean (e_tree e) pc) bc (s_position (set_best (set_pbest (set_current_cost (o_swarm o) cost) pp pc) bp bc np)) (s_velocity (set_best (set_pbest (set_current_cost (o_swarm o) cost) pp pc) bp bc np)))
    (populate_history (with_top (with_swarm o' (set_best (set_pbest (set_current_cost (o_swarm o') cost) pp' pc) bp' bc np)) t) bc (np_mean (e_tree e) pc) bc (s_position (set_best (set_pbest (set_current_cost (o_swarm o') cost) pp' pc) bp' bc np)) (s_velocity (set_best (set_pbest (set_current_cost (o_swarm o') cost) pp' pc) bp' bc np)))).
  { apply stl_history; [apply stl_top, stl_swarm; assumption|sw S3; assumption|sw S3; assumption]. }
  destruct (Nat.leb (c_ftol_iter c) i && _); [exact F|split; [exact F|reflexivity]].
Qed.
(** One update, with what is needed about the velocities and positions of these two states. *)
Lemma update_at : forall iters i o o' q, stl o o' ->
  (forall opts, (c_kind c <> Binary -> oh_call (e_oh e i) (c_oh c) (c_options c) (mkOk (Some (Z.of_nat i)) (Some (Z.of_nat iters)) None None None None) = Ok opts) ->
    RR mems (compute_velocity (N := F64num) (e_vel e i) (c_vh c) (o_vmem o) (set_options (o_swarm o) opts) (c_clamp c) (match c_kind c with Binary => None | _ => c_bounds c end))
      (compute_velocity (N := F64num) (e_vel e' i) (c_vh c') (o_vmem o') (set_options (o_swarm o') opts) (c_clamp c') (match c_kind c with Binary => None | _ => c_bounds c' end))) ->
  (forall opts v vm v' vm', c_kind c <> Binary -> (c_kind c <> Binary -> oh_call (e_oh e i) (c_oh c) (c_options c) (mkOk (Some (Z.of_nat i)) (Some (Z.of_nat iters)) None None None None) = Ok opts) ->
    compute_velocity (N := F64num) (e_vel e i) (c_vh c) (o_vmem o) (set_options (o_swarm o) opts) (c_clamp c) (match c_kind c with Binary => None | _ => c_bounds c end) = Ok (v, vm) ->
    compute_velocity (N := F64num) (e_vel e' i) (c_vh c') (o_vmem o') (set_options (o_swarm o') opts) (c_clamp c') (match c_kind c with Binary => None | _ => c_bounds c' end) = Ok (v', vm') -> co v v' ->
    RR mems (compute_position (N := F64num) (e_bh e i) (c_bh c) (o_bmem o) (set_velocity (set_options (o_swarm o) opts) v) (c_bounds c))
      (compute_position (N := F64num) (e_bh e' i) (c_bh c') (o_bmem o') (set_velocity (set_options (o_swarm o') opts) v') (c_bounds c'))) ->
  (forall v v', c_kind c = Binary -> co v v' -> RR co (binary_position (e_exp e) (e_bits e i) v) (binary_position (e_exp e') (e_bits e' i) v')) ->
  steps (update_swarm c e iters i o q) (update_swarm c' e' iters i o' q).
Proof.
  intros iters i o o' q H VEL POS BIN. pose proof H as ST. st H. 
  unfold update_swarm. rewrite K, Ko, Koh, EOH. replace (s_options (o_swarm o')) with (s_options (o_swarm o)) by (sw HS; symmetry; exact HO).
  destruct (match c_kind c with Binary => Ok (s_options (o_swarm o)) | _ => _ end) as [opts|x] eqn:OH; [|split; [exact ST|reflexivity]].
  pose proof (swl_options _ _ opts HS) as S1. pose proof (stl_swarm _ _ _ _ ST S1) as ST1.
  cbn [with_swarm o_vmem]. assert (OP : (c_kind c <> Binary -> oh_call (e_oh e i) (c_oh c) (c_options c) (mkOk (Some (Z.of_nat i)) (Some (Z.of_nat iters)) None None None None) = Ok opts)) by (intros NB; destruct (c_kind c); first [exact OH|congruence]).
  pose proof (VEL opts OP) as V.
  destruct (compute_velocity (e_vel e i) _ _ _ _ _) as [[v vm]|x] eqn:EV, (compute_velocity (e_vel e' i) _ _ _ _ _) as [[v' vm']|x'] eqn:EV'; try contradiction.
  2: { cbn [RR] in V. subst x'. split; [exact ST1|reflexivity]. }
  destruct V as [V VM]. cbn [fst snd] in V, VM. pose proof (swl_velocity _ _ _ _ S1 V) as S2.
  pose proof (stl_vmem _ _ _ _ (stl_swarm _ _ _ _ ST1 S2) VM) as ST2. unfold with_swarm, with_vmem in ST2 |- *. cbn [o_swarm o_top o_bmem o_vmem o_cost_history o_mean_pbest_history o_mean_neighbor_history o_pos_history o_velocity_history] in ST2 |- *.
  assert (P : c_kind c <> Binary -> RR mems (compute_position (N := F64num) (e_bh e i) (c_bh c) (o_bmem o) (set_velocity (set_options (o_swarm o) opts) v) (c_bounds c))
     (compute_position (N := F64num) (e_bh e' i) (c_bh c') (o_bmem o') (set_velocity (set_options (o_swarm o') opts) v') (c_bounds c'))).
  { intros NB. exact (POS opts v vm v' vm' NB OP EV EV' V). }
  assert (FIN : c_kind c <> Binary -> steps
    (match compute_position (e_bh e i) (c_bh c) (o_bmem o) (set_velocity (set_options (o_swarm o) opts) v) (c_bounds c) with
     | Ok (p, bmem) => Next (with_bmem (with_swarm (with_vmem (with_swarm (with_swarm o (set_options (o_swarm o) opts)) (set_velocity (set_options (o_swarm o) opts) v)) vm) (set_position (set_velocity (set_options (o_swarm o) opts) v) p)) bmem) q
     | Err x => Raise (with_vmem (with_swarm (with_swarm o (set_options (o_swarm o) opts)) (set_velocity (set_options (o_swarm o) opts) v)) vm) x end)
    (match compute_position (e_bh e' i) (c_bh c') (o_bmem o') (set_velocity (set_options (o_swarm o') opts) v') (c_bounds c') with
     | Ok (p, bmem) => Next (with_bmem (with_swarm (with_vmem (with_swarm (with_swarm o' (set_options (o_swarm o') opts)) (set_velocity (set_options (o_swarm o') opts) v')) vm') (set_position (set_velocity (set_options (o_swarm o') opts) v') p)) bmem) q
     | Err x => Raise (with_vmem (with_swarm (with_swarm o' (set_options (o_swarm o') opts)) (set_velocity (set_options (o_swarm o') opts) v')) vm') x end)).
  { intros NB. specialize (P NB). destruct (compute_position (e_bh e i) _ _ _ _) as [[p bm]|x], (compute_position (e_bh e' i) _ _ _ _) as [[p' bm']|x']; try contradiction.
    - destruct P as [P BM]. cbn [fst snd] in P, BM. split; [|reflexivity]. apply stl_bmem; [apply stl_swarm; [exact ST2|apply swl_position; assumption]|exact BM].
    - cbn [RR] in P. subst x'. split; [exact ST2|reflexivity]. }
  destruct (c_kind c) eqn:KK; try (apply FIN; discriminate).
  cbn [s_velocity set_velocity]. pose proof (BIN v v' eq_refl V) as BP.
  destruct (binary_position (e_exp e) _ _) as [p|x], (binary_position (e_exp e') _ _) as [p'|x']; try contradiction.
  - cbn [RR] in BP. split; [|reflexivity]. refine (stl_swarm _ _ _ _ ST2 _). apply swl_position; assumption.
  - cbn [RR] in BP. subst x'. split; [exact ST2|reflexivity].
Qed.
Lemma start_co : forall o o', stl o o' -> stl (start_memory c o) (start_memory c' o').
Proof.
  intros o o' H. assert (P : maybe co (Some (s_position (o_swarm o))) (Some (s_position (o_swarm o')))) by (st H; sw HS; exact HX).
  unfold start_memory. rewrite K. destruct (c_kind c); try (apply stl_vmem; [apply stl_bmem; assumption|assumption]). apply stl_vmem; assumption.
Qed.
Hypothesis VEL : forall i s s' vm vm', swl s s' -> maybe co vm vm' ->
  RR mems (compute_velocity (N := F64num) (e_vel e i) (c_vh c) vm s (c_clamp c) (match c_kind c with Binary => None | _ => c_bounds c end))
    (compute_velocity (N := F64num) (e_vel e' i) (c_vh c') vm' s' (c_clamp c') (match c_kind c with Binary => None | _ => c_bounds c' end)).
Hypothesis POS : forall i s s' bm bm', c_kind c <> Binary -> swl s s' -> maybe co bm bm' ->
  RR mems (compute_position (N := F64num) (e_bh e i) (c_bh c) bm s (c_bounds c)) (compute_position (N := F64num) (e_bh e' i) (c_bh c') bm' s' (c_bounds c')).
Hypothesis BIN : forall i v v', c_kind c = Binary -> co v v' -> RR co (binary_position (e_exp e) (e_bits e i) v) (binary_position (e_exp e') (e_bits e' i) v').

Lemma update_co : forall iters i o o' q, stl o o' -> steps (update_swarm c e iters i o q) (update_swarm c' e' iters i o' q).
Proof.
  intros iters i o o' q H. pose proof H as ST. st H. apply update_at; [exact ST| | |].
  - intros opts _. apply VEL; [apply swl_options; exact HS|exact HVM].
  - intros opts v vm v' vm' NB _ _ _ V. apply POS; [exact NB|apply swl_velocity; [apply swl_options; exact HS|exact V]|exact HBM].
  - intros v v'. apply BIN.
Qed.
Lemma iteration_co : forall pool iters i o o' q, stl o o' -> steps (iteration c e pool iters i o q) (iteration c' e' pool iters i o' q).
Proof.
  intros pool iters i o o' q H. unfold iteration. pose proof (evaluate_co pool i o o' q H) as E.
  destruct (evaluate_swarm c e pool i o q), (evaluate_swarm c' e' pool i o' q); cbn [steps] in E; try contradiction; try exact E.
  destruct E as [E ->]. apply update_co. exact E.
Qed.
Definition ends (x y : loop_end) : Prop :=
  match x, y with LDone o, LDone o' => stl o o' | LRaise o x, LRaise o' x' => stl o o' /\ x' = x | _, _ => False end.
Lemma loop_co : forall pool iters m i o o' q, stl o o' -> ends (opt_loop c e pool iters m i o q) (opt_loop c' e' pool iters m i o' q).
Proof.
  intros pool iters m. induction m as [|m IH]; intros i o o' q H; [exact H|]. cbn [opt_loop]. pose proof (iteration_co pool iters i o o' q H) as E.
  destruct (iteration c e pool iters i o q), (iteration c' e' pool iters i o' q); cbn [steps] in E; try contradiction; try exact E.
  destruct E as [E ->]. apply IH. exact E.
Qed.
Lemma final_co : forall o o', stl o o' -> result_like re (final_result o) (final_result o').
Proof.
  intros o o' H. st H. sw HS. unfold final_result. rewrite HNP, HC, HBC. destruct (negb _); [reflexivity|].
  destruct (np_argmin (s_pbest_cost (o_swarm o))) as [j|x]; cbn [bind]; [|reflexivity]. pose proof (nth_co IndexError _ _ j HP) as E.
  destruct (of_option IndexError (nth_error (s_pbest_pos (o_swarm o)) j)), (of_option IndexError (nth_error (s_pbest_pos (o_swarm o')) j)); cbn [RR] in E; try contradiction; cbn [bind result_like].
  - split; [reflexivity|exact E].
  - exact E.
Qed.
Lemma optimize_co : forall pool iters o o', stl o o' ->
  stl (fst (optimize c e pool iters o)) (fst (optimize c' e' pool iters o')) /\ result_like re (snd (optimize c e pool iters o)) (snd (optimize c' e' pool iters o')).
Proof.
  intros pool iters o o' H. pose proof (start_co _ _ H) as S0.
  assert (S1 : stl (start_pbest c (start_memory c o)) (start_pbest c' (start_memory c' o'))).
  { unfold start_pbest. rewrite Kn. apply stl_swarm; [exact S0|]. unfold set_pbest_cost. apply swl_pbest; [apply S0|]. destruct S0 as (HS & _). sw HS. exact HP. }
  pose proof (loop_co pool iters iters 0 _ _ [] S1) as L.
  assert (G : forall x y, ends x y -> stl (fst match x with LDone a => (a, final_result a) | LRaise a k => (a, Err k) end) (fst match y with LDone a => (a, final_result a) | LRaise a k => (a, Err k) end) /\
     result_like re (snd match x with LDone a => (a, final_result a) | LRaise a k => (a, Err k) end) (snd match y with LDone a => (a, final_result a) | LRaise a k => (a, Err k) end)).
  { intros [a|a k] [b|b k'] E; cbn [ends] in E; try contradiction; cbn [fst snd]; [split; [exact E|apply final_co; exact E]|]. destruct E as [E ->]. split; [exact E|reflexivity]. }
  unfold optimize. destruct pool as [[|n]|]; [split; [exact S0|reflexivity]| |]; apply G; exact L.
Qed.

End Sim.
