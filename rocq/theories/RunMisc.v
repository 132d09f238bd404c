(** Parallel evaluation, reset, degenerate calls. *)
From Coq Require Import String ZArith List Arith Bool Lia.
From Verif Require Import Prelude ListFacts F64 F64Facts Num Np NpFacts Handlers Swarms Operators
  Generators Topology Optimizers Spec RunFacts PbestFacts ShapeFacts GbestFacts RunBest RunMain RunResults.
Import ListNotations.
Local Open Scope string_scope.
Local Open Scope list_scope.

(** *** C28 *)
Lemma mapM_app : forall A B (g : A -> res B) l m,
  mapM g (l ++ m) = (do u <- mapM g l; do v <- mapM g m; Ok (u ++ v)).
Proof.
  induction l; intros m; cbn. destruct (mapM g m); reflexivity.
  destruct (g a); cbn; auto. rewrite IHl. destruct (mapM g l); cbn; auto. destruct (mapM g m); reflexivity.
Qed.
Lemma mapM_concat : forall A B (g : A -> res B) bs,
  (do rs <- mapM (mapM g) bs; Ok (concat rs)) = mapM g (concat bs).
Proof.
  induction bs; cbn; auto. rewrite mapM_app, <- IHbs. destruct (mapM g a); cbn; auto.
  destruct (mapM (mapM g) bs); reflexivity.
Qed.
Lemma pool_rowwise : forall f k (X : fmatrix), rowwise f ->
  compute_objective_function (N := F64num) (Some (S k)) f X = compute_objective_function (N := F64num) None f X.
Proof.
  intros f k X [g G]. unfold compute_objective_function.
  rewrite (mapM_ext f (mapM g)) by auto. etransitivity; [apply (mapM_concat frow f64 g)|].
  rewrite G. f_equal. apply (array_split_concat X (S k)). discriminate.
Qed.
Lemma loop_rowwise : forall c e k iters, (forall t, rowwise (e_obj e t)) -> forall m i o q,
  opt_loop c e (Some (S k)) iters m i o q = opt_loop c e None iters m i o q.
Proof.
  intros c e k iters R. induction m; intros i o q; cbn [opt_loop]; auto.
  unfold iteration. assert (E : evaluate_swarm c e (Some (S k)) i o q = evaluate_swarm c e None i o q).
  { unfold evaluate_swarm. rewrite pool_rowwise; auto. }
  rewrite E. destruct (evaluate_swarm c e None i o q); auto. destruct (update_swarm c e iters i o0 q0); auto.
Qed.
Theorem pool_equal : forall c e k iters o, (forall t, rowwise (e_obj e t)) ->
  optimize c e (Some (S k)) iters o = optimize c e None iters o.
Proof. intros. unfold optimize. rewrite loop_rowwise; auto. Qed.
Theorem pool_sizes : forall c e k k' iters o, (forall t, rowwise (e_obj e t)) ->
  optimize c e (Some (S k)) iters o = optimize c e (Some (S k')) iters o.
Proof. intros. rewrite !pool_equal; auto. Qed.
Lemma split_sizes_map : forall A sizes (l : list A), list_sum sizes = length l ->
  map (@length A) (split_sizes sizes l) = sizes.
Proof.
  induction sizes; intros l H; cbn in *; auto. rewrite firstn_length. unfold list_sum in *. f_equal. lia. apply IHsizes. rewrite skipn_length. lia.
Qed.
Lemma chunks : forall A (l : list A) k, let bs := array_split l (S k) in
  concat bs = l /\ length bs = S k /\
  forall a b, In a bs -> In b bs -> length a <= length b + 1.
Proof.
  intros A l k bs. split. apply array_split_concat. discriminate.
  assert (M : map (@length A) bs = chunk_sizes (length l) (S k)).
  { apply split_sizes_map. apply chunk_sizes_sum. discriminate. }
  split.
  - rewrite <- (map_length (@length A)), M. apply chunk_sizes_length. discriminate.
  - assert (B : forall a, In a bs -> length a = length l / S k \/ length a = length l / S k + 1).
    { intros a Ha. apply (in_map (@length A)) in Ha. rewrite M in Ha. unfold chunk_sizes in Ha.
      apply in_app_iff in Ha. destruct Ha as [Ha|Ha]; apply repeat_spec in Ha; auto. }
    intros a b Ha Hb. destruct (B a Ha), (B b Hb); lia.
Qed.

(** *** C44 *)
(** Topology whose stored neighbour lists are never consulted before they are recomputed. *)
Definition forgetful (t : topology) : Prop := t_kind t = Star \/ t_static t = false.
Definition tsim (t t' : topology) : Prop := t_kind t' = t_kind t /\ t_static t' = t_static t.
Record osim (c : config) (o o' : ostate) : Prop := {
  os_top : tsim (o_top o) (o_top o');
  os_obs : observe o' = observe o;
  os_vm : o_vmem o' = o_vmem o;
  os_bm : c_kind c <> Binary -> o_bmem o' = o_bmem o
}.
Lemma needs_forget : forall t, t_static t = false -> needs_neighbors t = true.
Proof. intros t H. unfold needs_neighbors. rewrite H. reflexivity. Qed.
Lemma ring_tsim : forall te p k t t' s, t_static t = false -> tsim t t' ->
  tsim (fst (ring_gbest te p k t s)) (fst (ring_gbest te p k t' s)) /\
  snd (ring_gbest te p k t' s) = snd (ring_gbest te p k t s).
Proof.
  intros te p k t t' s F [K S]. unfold ring_gbest. rewrite !needs_forget by congruence.
  destruct (k <? 1)%Z; [split; [split; auto|auto]|].
  destruct (te_knn te p (Z.to_nat k) (s_position s)) as [rows|x]; [|split; [split; auto|auto]].
  cbv beta iota. cbn [nb_ndim nb_rows]. destruct (k =? 1)%Z.
  - destruct (Nat.leb max_dims _); (split; [split; auto|auto]).
  - cbn [Nat.eqb]. split; [split; auto|auto].
Qed.
Lemma gbest_tsim : forall te a t t' s, forgetful t -> tsim t t' ->
  tsim (fst (compute_gbest te a t s)) (fst (compute_gbest te a t' s)) /\
  snd (compute_gbest te a t' s) = snd (compute_gbest te a t s).
Proof.
  intros te a t t' s F TS. pose proof TS as [K S].
  unfold compute_gbest. rewrite K. destruct F as [F|F].
  - rewrite F. unfold star_gbest. split; auto. cbn. destruct (t_nb t), (t_nb t'); split; auto.
  - destruct (t_kind t) eqn:KT.
    + unfold star_gbest. split; auto. cbn. destruct (t_nb t), (t_nb t'); split; cbn; congruence.
    + destruct (ga_p a), (ga_k a); try (split; auto; fail). apply ring_tsim; auto.
    + destruct (ga_p a) as [p|], (ga_r a) as [r|]; try (split; auto; fail). unfold von_neumann_gbest.
      destruct (r <? 0)%Z; [split; auto|]. apply ring_tsim; auto.
    + unfold pyramid_gbest. destruct (Nat.ltb _ _). { split; [split; cbn; congruence|auto]. }
      rewrite !needs_forget by congruence. destruct (te_delaunay te (s_position s)); cbn; (split; [split; cbn; congruence|auto]).
    + destruct (ga_k a) as [k|]; try (split; auto; fail). unfold random_gbest.
      rewrite !needs_forget by congruence. destruct (random_adj _ _ _ _); cbn; (split; [split; cbn; congruence|auto]).
Qed.
Definition step_sim (c : config) (a b : step) : Prop :=
  match a, b with
  | Next o q, Next o' q' => osim c o o' /\ q' = q
  | Break o, Break o' => osim c o o'
  | Raise o x, Raise o' x' => osim c o o' /\ x' = x
  | _, _ => False
  end.
Lemma evaluate_sim : forall c e pool i o o' q, osim c o o' -> forgetful (o_top o) ->
  step_sim c (evaluate_swarm c e pool i o q) (evaluate_swarm c e pool i o' q).
Proof.
  intros c e pool i o o' q [T O V B] F. unfold observe in O. injection O as O1 O2 O3 O4 O5 O6.
  unfold evaluate_swarm. rewrite O1.
  destruct (compute_objective_function pool (e_obj e i) (s_position (o_swarm o))) as [cost|x].
  2:{ split; auto. constructor; auto. unfold observe. congruence. }
  destruct (compute_pbest (set_current_cost (o_swarm o) cost)) as [[pp pc]|x].
  2:{ split; auto. constructor; auto. unfold observe. cbn. congruence. }
  destruct (gbest_tsim (e_top e i) (gbest_args c) (o_top o) (o_top o')
     (set_pbest (set_current_cost (o_swarm o) cost) pp pc) F T) as [T1 T2].
  destruct (compute_gbest (e_top e i) (gbest_args c) (o_top o) _) as [t r].
  destruct (compute_gbest (e_top e i) (gbest_args c) (o_top o') _) as [t' r']. cbn in T1, T2. subst r'.
  destruct r as [[[bp bc] np]|x].
  2:{ split; auto. constructor; auto. unfold observe. cbn. congruence. }
  cbv zeta. destruct (_ && _); cbn; [|split; auto]; constructor; auto; unfold observe; cbn; congruence.
Qed.
Lemma update_sim : forall c e iters i o o' q, osim c o o' ->
  step_sim c (update_swarm c e iters i o q) (update_swarm c e iters i o' q).
Proof.
  intros c e iters i o o' q [T O V B]. unfold observe in O. injection O as O1 O2 O3 O4 O5 O6.
  unfold update_swarm. rewrite O1.
  destruct (match c_kind c with Binary => Ok (s_options (o_swarm o)) | _ => _ end) as [opts|x].
  2:{ split; auto. constructor; auto. unfold observe. congruence. }
  cbn [o_vmem with_swarm]. rewrite V.
  destruct (compute_velocity _ _ _ _ _ _) as [[v vm]|x].
  2:{ split; auto. constructor; auto. unfold observe. cbn. congruence. }
  cbn [o_bmem with_vmem with_swarm]. destruct (c_kind c) eqn:K.
  all: try rewrite B by discriminate.
  all: match goal with |- step_sim _ (match ?u with _ => _ end) _ => destruct u as [p|x] end;
       try destruct p; (split; [|reflexivity]); constructor; auto; try (unfold observe; cbn; congruence);
       intros _; apply B; discriminate.
Qed.
Lemma loop_sim : forall c e pool iters m i o o' q, osim c o o' -> forgetful (o_top o) ->
  match opt_loop c e pool iters m i o q, opt_loop c e pool iters m i o' q with
  | LDone a, LDone b => osim c a b
  | LRaise a x, LRaise b y => osim c a b /\ y = x
  | _, _ => False
  end.
Proof.
  intros c e pool iters. induction m; intros i o o' q H F; cbn [opt_loop]; auto.
  unfold iteration. pose proof (evaluate_sim c e pool i o o' q H F) as E.
  assert (F1 : forall o1 q1, evaluate_swarm c e pool i o q = Next o1 q1 -> forgetful (o_top o1)).
  { intros o1 q1 Q. pose proof (evaluate_cases c e pool i o q) as EC. rewrite Q in EC.
    destruct EC as (cost & pp & pc & t & bp & bc & np & (_ & _ & G & ->) & _). cbn.
    apply compute_gbest_kind in G. destruct G as [G1 G2]. unfold forgetful in *. rewrite G1, G2. auto. }
  destruct (evaluate_swarm c e pool i o q) as [o1 q1|o1|o1 x], (evaluate_swarm c e pool i o' q) as [o2 q2|o2|o2 y];
    cbn in E; try contradiction; auto.
  destruct E as [E ->]. specialize (F1 _ _ eq_refl).
  pose proof (update_sim c e iters i o1 o2 q1 E) as U.
  assert (F2 : forall o3 q3, update_swarm c e iters i o1 q1 = Next o3 q3 -> forgetful (o_top o3)).
  { intros o3 q3 Q. pose proof (update_cases c e iters i o1 q1) as UC. rewrite Q in UC.
    destruct UC as (_ & CE & _). rewrite (ce_top _ _ CE). auto. }
  destruct (update_swarm c e iters i o1 q1) as [o3 q3|o3|o3 x3], (update_swarm c e iters i o2 q1) as [o4 q4|o4|o4 y4];
    cbn in U; try contradiction; auto.
  destruct U as [U ->]. apply IHm; eauto.
Qed.
(** A call only looks at swarm, histories and topology. *)
Record presim (o o' : ostate) : Prop := {
  ps_top : tsim (o_top o) (o_top o');
  ps_obs : observe o' = observe o
}.
Lemma optimize_sim : forall c e pool iters o o', presim o o' -> forgetful (o_top o) ->
  presim (fst (optimize c e pool iters o)) (fst (optimize c e pool iters o')) /\
  snd (optimize c e pool iters o') = snd (optimize c e pool iters o).
Proof.
  intros c e pool iters o o' [T O] F. unfold optimize.
  assert (O' := O). unfold observe in O'. injection O' as O1 O2 O3 O4 O5 O6.
  assert (S0 : osim c (start_pbest c (start_memory c o)) (start_pbest c (start_memory c o'))).
  { unfold start_pbest, start_memory. rewrite O1. destruct (c_kind c) eqn:K; constructor; auto;
      try congruence; unfold observe; cbn; congruence. }
  assert (S1 : presim (start_memory c o) (start_memory c o')).
  { unfold start_memory. rewrite O1. destruct (c_kind c); constructor; auto; unfold observe; cbn; congruence. }
  assert (F0 : forgetful (o_top (start_pbest c (start_memory c o)))).
  { unfold start_pbest, start_memory. destruct (c_kind c); auto. }
  pose proof (loop_sim c e pool iters iters 0 _ _ [] S0 F0) as L.
  destruct pool as [[|k]|]; [split; auto| |].
  all: destruct (opt_loop c e _ iters iters 0 (start_pbest c (start_memory c o)) []) as [a|a x],
         (opt_loop c e _ iters iters 0 (start_pbest c (start_memory c o')) []) as [b|b y]; try contradiction.
  all: try (destruct L as [L ->]); destruct L as [L1 L2 _ _]; cbn; split; auto; try (constructor; auto; fail).
  all: unfold observe in L2; injection L2 as L2 _ _ _ _ _; unfold final_result; rewrite L2; reflexivity.
Qed.
Lemma play_sim : forall c calls o o', presim o o' -> forgetful (o_top o) ->
  fst (play c o' calls) = fst (play c o calls) /\ observe (snd (play c o' calls)) = observe (snd (play c o calls)).
Proof.
  intros c. induction calls as [|k r IH]; intros o o' P F; cbn [play]. split; auto. apply P.
  destruct (optimize_sim c (k_env k) (k_pool k) (k_iters k) o o' P F) as [P1 R1].
  destruct (optimize c (k_env k) (k_pool k) (k_iters k) o) as [o1 x] eqn:E1.
  destruct (optimize c (k_env k) (k_pool k) (k_iters k) o') as [o2 y] eqn:E2. cbn in P1, R1. subst y.
  assert (F1 : forgetful (o_top o1)). { apply optimize_topo in E1. destruct E1 as [A B]. unfold forgetful in *. rewrite A, B. auto. }
  destruct (IH o1 o2 P1 F1) as [I1 I2].
  destruct (play c o1 r) as [xs oz], (play c o2 r) as [ys oz']. cbn in *. split; congruence.
Qed.
Theorem reset_like_new : forall c top dr0 dr o calls0 o1 o2 o3,
  construct c top dr0 = Ok o -> Session c o calls0 o1 -> reset c dr o1 = Ok o2 ->
  construct c top dr = Ok o3 -> t_kind top = Star \/ t_static top = false ->
  forall calls, fst (play c o2 calls) = fst (play c o3 calls) /\
                observe (snd (play c o2 calls)) = observe (snd (play c o3 calls)).
Proof.
  intros c top dr0 dr o calls0 o1 o2 o3 C0 S R C3 F calls.
  apply construct_inv in C0, C3. apply reset_inv in R.
  destruct C0 as (s0 & _ & -> & _), C3 as (s3 & M3 & -> & _), R as (s2 & M2 & ->).
  rewrite M3 in M2. injection M2 as <-. apply Session_topo in S. destruct S as [S1 S2]. cbn in S1, S2.
  apply play_sim; auto. constructor; [split; auto|reflexivity].
Qed.
(** Same without any history: the two objects have the same observations at once, and the
    construction after [reset] cannot fail when the first one did not. *)
Theorem reset_total : forall c top dr o1, (exists o3, construct c top dr = Ok o3) -> exists o2, reset c dr o1 = Ok o2.
Proof.
  intros c top dr o1 [o3 C]. apply construct_inv in C. destruct C as (s & M & _). unfold reset. rewrite M. cbn. eauto.
Qed.

(** *** C45 *)
Theorem zero_iterations : forall c e pool o, Fresh c o -> pool <> Some 0 ->
  snd (optimize c e pool 0 o) = Err AttributeError.
Proof.
  intros c e pool o F NP. destruct (Fresh_inv _ _ F) as (d & p & v & E & _).
  assert (Q : final_result (started c o) = Err AttributeError).
  { destruct (started_facts c o) as (_ & _ & _ & _ & _ & _ & S & _). unfold final_result. rewrite S, E. reflexivity. }
  unfold optimize. destruct pool as [[|k]|]; try congruence; cbn [opt_loop]; apply Q.
Qed.
Theorem zero_ftol_iter : forall c top dr, c_ftol_iter c = 0 ->
  dget (c_options c) "k" <> None -> dget (c_options c) "p" <> None ->
  construct c top dr = Err AssertionError.
Proof.
  intros c top dr Z K P. unfold construct. rewrite Z. destruct (c_kind c); auto;
  destruct (dget (c_options c) "k"), (dget (c_options c) "p"); try congruence; reflexivity.
Qed.
Theorem missing_keys : forall c top dr, c_kind c = LocalBest \/ c_kind c = Binary ->
  dget (c_options c) "k" = None \/ dget (c_options c) "p" = None -> construct c top dr = Err KeyError.
Proof.
  intros c top dr K M. unfold construct. destruct K as [-> | ->]; destruct M as [M|M];
    rewrite ?M; destruct (dget (c_options c) "k"); try reflexivity; cbn [of_option bind]; rewrite ?M; reflexivity.
Qed.
Theorem zero_ftol_iter_err : forall c top dr, c_ftol_iter c = 0 -> exists x, construct c top dr = Err x.
Proof.
  intros c top dr Z. unfold construct. rewrite Z. destruct (_ : res (pyval F64num)); cbn; eauto.
Qed.
Theorem zero_processes : forall c e iters o, snd (optimize c e (Some 0) iters o) = Err ValueError.
Proof. reflexivity. Qed.

(** Nothing below infinity in the first iteration. *)
Lemma best_rows_empty : forall n d, 2 <= d -> best_rows (N := F64num) n d BPEmpty = Err ValueError.
Proof. intros n [|[|d]] H; try lia; reflexivity. Qed.
Lemma pbest_stays_inf : forall (s : fswarm) pp pc, compute_pbest s = Ok (pp, pc) ->
  (forall v, In v (s_pbest_cost s) -> v = finf) -> (forall v, In v (s_current_cost s) -> flt v finf = false) ->
  forall v, In v pc -> v = finf.
Proof.
  intros s pp pc H I C v Hv. pose proof (compute_pbest_lengths _ _ _ H) as (L1 & L2 & L3 & L4 & L5).
  apply same_shape_length in L3. apply In_nth_error in Hv. destruct Hv as [a Hv].
  assert (Ha : a < length pc) by (eapply nth_error_lt; eauto).
  destruct (nth_error_ex (s_current_cost s) a) as [n1 E1]; [flia|].
  destruct (nth_error_ex (s_pbest_cost s) a) as [n2 E2]; [flia|].
  destruct (nth_error_ex (s_position s) a) as [n3 E3]; [flia|].
  destruct (nth_error_ex (s_pbest_pos s) a) as [n4 E4]; [flia|].
  destruct (compute_pbest_nth _ _ _ _ _ _ _ _ H E1 E2 E3 E4) as [_ Q].
  assert (n2 = finf) by (apply I; eapply nth_error_In; eauto). subst n2.
  rewrite (C n1) in Q by (eapply nth_error_In; eauto). ftypes. congruence.
Qed.
Lemma np_min_in : forall (l : list f64) m, np_min (N := F64num) l = Ok m -> In m l.
Proof.
  assert (G : forall (r : list f64) x, In (fold_left (np_min2 (N := F64num)) r x) (x :: r)).
  { induction r; intros x; cbn [fold_left]. left; auto.
    destruct (IHr (np_min2 (N := F64num) x a)) as [E|I].
    - rewrite <- E. unfold np_min2. destruct (_ || _); [left|right; left]; auto.
    - right; right; auto. }
  intros [|x r] m H; [discriminate|]. injection H as <-. apply G.
Qed.
Lemma pool_costs : forall pool f X cs (P : f64 -> Prop),
  compute_objective_function (N := F64num) pool f X = Ok cs ->
  (forall Y ys, f Y = Ok ys -> forall v, In v ys -> P v) -> forall v, In v cs -> P v.
Proof.
  intros [n|] f X cs P H HP v Hv; cbn in H; [|eapply HP; eauto].
  apply bind_Ok in H. destruct H as (rs & M & H). injection H as <-.
  apply in_concat in Hv. destruct Hv as (ys & Iy & Iv).
  apply In_nth_error in Iy. destruct Iy as [i Ei].
  destruct (mapM_Ok_nth_inv _ _ _ _ _ M Ei) as (b & _ & Q). eapply HP; eauto.
Qed.
Theorem nothing_finite : forall c e pool iters o, Fresh c o -> t_kind (o_top o) = Star ->
  2 <= s_d (o_swarm o) -> (forall X cs, e_obj e 0 X = Ok cs -> forall v, In v cs -> flt v finf = false) ->
  exists x, snd (optimize c e pool iters o) = Err x.
Proof.
  intros c e pool iters o F K D O. destruct (Fresh_inv _ _ F) as (d & p & v & E & _).
  destruct (match pool with Some O => true | _ => false end) eqn:EP.
  { destruct pool as [[|k]|]; try discriminate. exists ValueError. reflexivity. }
  assert (NP : pool <> Some 0) by (destruct pool as [[|n]|]; congruence).
  destruct iters as [|m]. { exists AttributeError. apply zero_iterations; auto. }
  assert (Q : exists x, match opt_loop c e pool (S m) (S m) 0 (started c o) [] with
     | LRaise o' y => Err y | LDone o' => final_result o' end = Err x).
  { cbn [opt_loop]. unfold iteration. pose proof (evaluate_cases c e pool 0 (started c o) []) as EC.
    destruct (started_facts c o) as (S1 & _ & _ & _ & _ & _ & S2 & _).
    assert (G : forall o3 cost pp pc t bp bc np, Evald c e pool 0 (started c o) o3 cost pp pc t bp bc np ->
       s_best_np (o_swarm o3) = false /\ s_best_pos (o_swarm o3) = BPEmpty /\ 2 <= s_d (o_swarm o3)).
    { intros o3 cost pp pc t bp bc np (E1 & E2 & E3 & ->). unfold compute_gbest in E3. rewrite S1, K in E3.
      assert (PI : forall w, In w pc -> w = finf).
      { eapply pbest_stays_inf; eauto.
        - rewrite S2. cbn. apply repeat_spec.
        - cbn. intros w. exact (pool_costs _ _ _ _ (fun w => flt w finf = false) E1 O w). }
      destruct (star_gbest_ok _ _ _ _ _ _ E3) as (mm & Em & [(L & _)|(_ & _ & A & B)]).
      - cbn. apply Forall_forall. intros w Iw. rewrite (PI w Iw). reflexivity.
      - apply np_min_in in Em. cbn in Em. rewrite (PI _ Em) in L. rewrite S2, E in L. discriminate L.
      - rewrite S2, E in A, B. cbn in A, B. subst.
        split; [reflexivity|]. split; [reflexivity|]. cbn [o_swarm populate_history with_top with_swarm s_d set_best set_pbest set_current_cost].
        rewrite S2. exact D. }
    destruct (evaluate_swarm c e pool 0 (started c o) []) as [o1 q1|o1|o1 x].
    - destruct EC as (cost & pp & pc & t & bp & bc & np & EV & _). destruct (G _ _ _ _ _ _ _ _ EV) as (G1 & G2 & G3).
      unfold update_swarm. destruct (match c_kind c with Binary => _ | _ => _ end) as [opts|x]; [|eauto].
      assert (V : forall b, exists x, compute_velocity (e_vel e 0) (c_vh c) (o_vmem (with_swarm o1 (set_options (o_swarm o1) opts)))
         (set_options (o_swarm o1) opts) (c_clamp c) b = Err x).
      { intros b. unfold compute_velocity. destruct (num_of _ "c1"); cbn [bind]; [|eauto].
        destruct (num_of _ "c2"); cbn [bind]; [|eauto]. destruct (num_of _ "w"); cbn [bind]; [|eauto].
        cbn [s_best_pos s_d set_options]. rewrite G2, best_rows_empty by auto. cbn. eauto. }
      cbv zeta. match goal with |- context[compute_velocity _ _ _ _ _ ?b] => destruct (V b) as [x ->] end. eauto.
    - destruct EC as (cost & pp & pc & t & bp & bc & np & EV & _). destruct (G _ _ _ _ _ _ _ _ EV) as (G1 & _).
      unfold final_result. rewrite G1. cbn. eauto.
    - eauto. }
  destruct Q as [x Q]. exists x. unfold optimize. fold (started c o).
  assert (H : snd (match opt_loop c e pool (S m) (S m) 0 (started c o) [] with
    | LDone o' => (o', final_result o') | LRaise o' x => (o', Err x) end) = Err x).
  { destruct (opt_loop c e pool (S m) (S m) 0 (started c o) []); exact Q. }
  destruct pool as [[|k]|]; auto. congruence.
Qed.
