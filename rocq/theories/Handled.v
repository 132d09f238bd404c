(** Every recorded move is what the boundary strategy makes of it (C57). *)
From Coq Require Import String ZArith List Arith Bool Lia.
From Verif Require Import Prelude ListFacts F64 F64Facts Num Np Handlers Swarms Operators Generators Topology Optimizers Spec SpecHandlers SpecOpts SpecDyn
  ShapeFacts HandlerFacts RunFacts RunInv.
Import ListNotations.
Local Open Scope string_scope.
Local Open Scope list_scope.
Local Open Scope nat_scope.

Lemma fmin_fold : forall l x m, fold_left (np_min2 (N := F64num)) l x = m ->
  (m = x \/ In m l) /\ (fisnan x = true -> m = x) /\ flt x m = false /\ forall y, In y l -> flt y m = false.
Proof.
  induction l as [|a l IH]; intros x m E; cbn in E.
  - subst m. split; auto. split; auto. split; [apply flt_irrefl|]. intros y [].
  - destruct (IH _ _ E) as (I & Na & L & A). unfold np_min2 in *. cbn [nle nisnan F64num] in *.
    destruct (fle x a || fisnan x) eqn:Q.
    + split; [destruct I; cbn; auto|]. split; [exact Na|]. split; [exact L|]. intros y [<-|Y]; [|auto].
      apply orb_prop in Q. destruct Q as [Q|Q]; [forder|]. rewrite (Na Q). destruct x; try discriminate Q. apply not_true_is_false. intros H. apply flt_notnan_r in H. discriminate.
    + apply orb_false_elim in Q. destruct Q as [Q1 Q2]. split; [destruct I; cbn; auto|]. split; [congruence|]. split.
      * destruct (fisnan a) eqn:Ea; [|forder]. specialize (Na eq_refl). apply not_true_is_false. intros H. apply flt_notnan_r in H. congruence.
      * intros y [<-|Y]; auto.
Qed.
Lemma fmin_ok : forall (l : list f64) m, np_min (N := F64num) l = Ok m -> In m l /\ forall y, In y l -> flt y m = false.
Proof.
  intros [|x l] m E; cbn in E; [discriminate|]. injection E as E. destruct (fmin_fold l x m E) as (I & _ & L & A).
  split; [destruct I; cbn; auto|]. intros y [<-|Y]; auto.
Qed.

Section Rows.
Context {N : Num}.
Hypothesis min_ok : forall (l : list N) m, np_min l = Ok m -> In m l /\ forall y, In y l -> nlt y m = false.

Lemma each_map3 : forall (b : bounds N) (f : N -> N -> N -> N) (P : N -> N -> N -> N -> Prop) y,
  (forall l u x, P l u x (f x l u)) -> each b P y (map3 f y (b_lb b) (b_ub b)).
Proof.
  intros b f P y H j l u yj [C1 C2] Y. exists (f yj l u). split; [|apply H]. rewrite nth_error_map3, Y, C1, C2. reflexivity.
Qed.
Lemma wrapped_el : forall l u x : N, wrapped l u x (periodic_el x l u).
Proof.
  intros l u x. unfold wrapped, periodic_el, lower, greater. destruct (nlt x l), (nlt u x); repeat split; congruence.
Qed.
Lemma halfway_el : forall l u m x : N, halfway l u m x (intermediate_el x m l u).
Proof.
  intros l u m x. unfold halfway, intermediate_el, lower, greater. destruct (nlt x l), (nlt u x); repeat split; congruence.
Qed.
Lemma allowed_el : forall l u m x : N, allowed l u m x (sigma_el x m l u).
Proof.
  intros l u m x. unfold allowed, sigma_el, lower, greater. destruct (nlt x l), (nlt u x); repeat split; congruence.
Qed.
Lemma allowed_fun : forall l u m x s s' : N, allowed l u m x s -> allowed l u m x s' -> s' = s.
Proof.
  intros l u m x s s' (A & B & C) (A' & B' & C'). destruct (nlt u x) eqn:U; [rewrite C, C'; auto|].
  destruct (nlt x l) eqn:L; [rewrite B, B'|rewrite A, A']; auto.
Qed.
Lemma shrink_row_spec : forall d (b : bounds N) x m x', box_dim d b -> length x = d -> length m = d -> shrink_row b x m = Ok x' ->
  length x' = d /\ (good b x -> x' = x) /\ (~ good b x -> shrunk b m x x').
Proof.
  intros d b x m x' B Lx Lm H. unfold shrink_row in H. apply bind_Ok in H. destruct H as (s & Hs & H). injection H as <-.
  destruct (row_lower x b || row_greater x b) eqn:Q.
  - split; [rewrite map2_length; lia|]. split.
    + intros [G1 G2]. apply orb_prop in Q. destruct Q as [Q|Q]; [apply (row_lower_spec d) in Q|apply (row_greater_spec d) in Q]; tauto.
    + intros _. exists s. destruct (min_ok _ _ Hs) as [I A]. split; [|split].
      * apply In_nth_error in I. destruct I as (j & J). rewrite nth_error_map4 in J.
        destruct (nth_error x j) as [xj|] eqn:X; [|discriminate]. destruct (nth_error m j) as [mj|] eqn:M; [|discriminate].
        destruct (nth_error (b_lb b) j) as [l|] eqn:L; [|discriminate]. destruct (nth_error (b_ub b) j) as [u|] eqn:U; [|discriminate].
        injection J as <-. exists j, l, u, mj, xj. split; [split; auto|]. split; auto. split; auto. apply allowed_el.
      * intros j r (l & u & mj & yj & [C1 C2] & M & X & AL). apply A. apply nth_error_In with j. rewrite nth_error_map4, X, M, C1, C2. f_equal.
        eapply allowed_fun; [exact AL|apply allowed_el].
      * intros j mj yj M X. rewrite nth_error_map2, M, X. reflexivity.
  - apply orb_false_elim in Q. destruct Q as [Q1 Q2]. split; auto. split; auto. intros NG. exfalso. apply NG.
    split; [apply (row_lower_false d)|apply (row_greater_false d)]; auto.
Qed.
Lemma bounced_pass : forall (l u y x : N), nlt u l = false -> bounced l u (reflect_el y l u) x -> (nlt y l = true -> nlt u y = true -> False) -> bounced l u y x.
Proof.
  intros l u y x O H NB. unfold reflect_el, lower, greater in H. destruct (nlt y l) eqn:L, (nlt u y) eqn:U.
  - exfalso. auto.
  - apply Bounced_low; auto.
  - apply Bounced_high; auto.
  - exact H.
Qed.

Hypothesis cross : forall l u y : N, nlt u y = true -> nlt y l = true -> nlt u l = true.
Lemma clipped_el : forall l u x : N, clipped l u x (nearest_el x l u).
Proof.
  intros l u x. unfold clipped, nearest_el, lower, greater. destruct (nlt x l), (nlt u x); repeat split; congruence.
Qed.
Lemma reflective_bounced : forall d fuel (b : bounds N) m m' i y, box_dim d b -> Forall (fun r => length r = d) m ->
  reflective_loop fuel b m = Ok m' -> nth_error m i = Some y ->
  exists x, nth_error m' i = Some x /\ length x = d /\ each b (fun l u yj xj => nlt u l = false -> bounced l u yj xj) y x.
Proof.
  intros d. induction fuel as [|fuel IH]; intros b m m' i y B F H E; cbn [reflective_loop] in H;
    destruct (any_out m b) eqn:Q; try discriminate.
  - injection H as <-. exists y. split; auto. split; [rewrite Forall_forall in F; apply F; eapply nth_error_In; eauto|].
    intros j l u yj C Y. exists yj. split; auto. intros _. destruct ((proj1 (any_out_false d b m B)) Q i j yj l u) as [A1 A2]; auto.
    { exact (entry_of _ _ _ _ _ E Y). } constructor; auto.
  - assert (F' : Forall (fun r => length r = d) (reflect_pass b m)).
    { apply Forall_map. eapply Forall_impl; [|exact F]. intros r L. rewrite map3_length. destruct B as [B1 B2]. cbv beta in L. unfold row in *. rewrite B1, B2, L. lia. }
    destruct (IH b _ _ i (map3 reflect_el y (b_lb b) (b_ub b)) B F' H) as (x & X & L & A). { unfold reflect_pass. rewrite nth_error_map, E. reflexivity. }
    exists x. split; auto. split; auto. intros j l u yj C Y. destruct (A j l u (reflect_el yj l u) C) as (xj & XJ & Bo).
    { rewrite nth_error_map3, Y, (proj1 C), (proj2 C). reflexivity. }
    exists xj. split; auto. intros O. apply bounced_pass; auto. intros Q1 Q2. pose proof (cross _ _ _ Q2 Q1). congruence.
  - injection H as <-. exists y. split; auto. split; [rewrite Forall_forall in F; apply F; eapply nth_error_In; eauto|].
    intros j l u yj C Y. exists yj. split; auto. intros _. destruct ((proj1 (any_out_false d b m B)) Q i j yj l u) as [A1 A2]; auto.
    { exact (entry_of _ _ _ _ _ E Y). } constructor; auto.
Qed.

Lemma bh_handled : forall st dr mem (b : bounds N) m m' mem' i y w, bh_call st dr mem b m = Ok (m', mem') ->
  nth_error m i = Some y -> (st = "shrink" \/ st = "intermediate" -> exists M, mem = Some M /\ nth_error M i = Some w) ->
  exists x, nth_error m' i = Some x /\ handled st dr b w y x.
Proof.
  intros st dr mem b m m' mem' i y w H E W. pose proof H as H0. unfold bh_call in H.
  destruct (negb (bh_known st)); [discriminate|]. destruct (bounds_fit m b) eqn:Fi; cbn [negb] in H; [|discriminate].
  apply fit_dims in Fi. destruct Fi as [Mx B]. set (d := length (b_lb b)) in *.
  assert (Ly : length y = d) by (exact (is_matrix_nth _ _ _ _ _ Mx E)).
  assert (ID : forall x, nth_error m' i = Some x -> good b y -> x = y).
  { intros x X G. pose proof (row_inside d _ _ _ _ _ _ _ i y B Ly H0 E G) as Q. congruence. }
  assert (FIN : forall x, nth_error m' i = Some x -> (length x = length y /\
    ((st = "nearest" -> each b clipped y x) /\
  (st = "periodic" -> each b wrapped y x) /\
  (st = "reflective" -> each b (fun l u yj xj => nlt u l = false -> bounced l u yj xj) y x) /\
  (st = "intermediate" -> forall j l u mj yj, column b j l u -> nth_error w j = Some mj -> nth_error y j = Some yj ->
     exists xj, nth_error x j = Some xj /\ halfway l u mj yj xj) /\
  (st = "shrink" -> ~ good b y -> shrunk b w y x) /\
  (st = "random" -> (below b y -> resampled b (bd_lower dr) x) /\ (~ below b y -> above b y -> resampled b (bd_greater dr) x)))) ->
    exists x, nth_error m' i = Some x /\ handled st dr b w y x).
  { intros x X (L & Q). exists x. split; auto. unfold handled. split; auto. }
  clear H0.
  destruct (String.eqb_spec st "nearest") as [S|S]; [|destruct (String.eqb_spec st "reflective") as [S1|S1]; [|
    destruct (String.eqb_spec st "shrink") as [S2|S2]; [|destruct (String.eqb_spec st "random") as [S3|S3]; [|
    destruct (String.eqb_spec st "intermediate") as [S4|S4]]]]].
  - injection H as <- <-. apply (FIN _ (nth_map_some _ _ _ _ E)). split; [rewrite map3_length; destruct B; fold d; lia|].
    subst st. repeat split; try discriminate. intros _. apply each_map3. apply clipped_el.
  - apply bind_Ok in H. destruct H as (q & Q & H). injection H as <- <-. unfold reflective in Q. destruct (_ && _) in Q; [discriminate|].
    destruct (reflective_bounced d _ _ _ _ _ _ B (proj2 Mx) Q E) as (x & X & L & A). apply (FIN _ X). split; [lia|].
    subst st. repeat split; try discriminate. intros _. exact A.
  - apply bind_Ok in H. destruct H as (q & Q & H). injection H as <- <-. destruct (W (or_introl S2)) as (M & -> & WM).
    cbn [shrink] in Q. destruct (negb (b_arr b)); [discriminate|]. destruct (same_shape m M) eqn:SS; cbn [negb] in Q; [|discriminate].
    apply same_shape_spec in SS. destruct SS as [SS1 SS2].
    assert (CO : nth_error (combine m M) i = Some (y, w)). { clear - E WM. revert m M E WM. induction i as [|i IH]; intros [|a m] [|c M] E WM; try discriminate; cbn in *; [congruence|apply IH; auto]. }
    destruct (mapM_Ok_nth _ _ _ _ _ Q CO) as (x & X & SR). cbn [fst snd] in SR.
    destruct (shrink_row_spec d b y w x B Ly ltac:(rewrite <- Ly; symmetry; eapply SS2; eauto) SR) as (L & _ & SK).
    apply (FIN _ X). split; [lia|]. subst st. repeat split; try discriminate. auto.
  - apply bind_Ok in H. destruct H as (q & Q & H). injection H as <- <-. unfold random_bh in Q. destruct (negb (forallb _ m)) eqn:FB; [discriminate|].
    injection Q as <-. apply negb_false_iff in FB. rewrite forallb_forall in FB. specialize (FB y (nth_error_In _ _ E)). apply andb_true_iff in FB.
    destruct FB as [F1 F2]. apply Nat.eqb_eq in F1, F2.
    apply (FIN _ (nth_map_some _ _ _ _ E)).
    assert (RS : forall r, length r = d -> length (resample b r) = d /\ resampled b r (resample b r)).
    { intros r L. split; [unfold resample; rewrite map3_length; destruct B; fold d; lia|]. intros j l u rj [C1 C2] R. unfold resample. rewrite nth_error_map3, C1, C2, R. reflexivity. }
    destruct (RS (bd_lower dr) ltac:(lia)) as [RL1 RL2]. destruct (RS (bd_greater dr) ltac:(lia)) as [RG1 RG2].
    split. { destruct (row_lower y b), (row_greater y b); lia. }
    subst st. do 5 (split; [discriminate|]). intros _. destruct (row_lower y b) eqn:RL.
    + split; auto. intros NB. exfalso. apply NB. apply (row_lower_spec d); auto.
    + apply (row_lower_false d) in RL; auto. split; [tauto|]. intros _ AB. apply (row_greater_spec d) in AB; auto. rewrite AB. exact RG2.
  - apply bind_Ok in H. destruct H as (q & Q & H). injection H as <- <-. destruct (W (or_intror S4)) as (M & -> & WM).
    cbn [intermediate] in Q. destruct (negb (b_arr b)); [discriminate|]. destruct (same_shape m M) eqn:SS; cbn [negb] in Q; [|discriminate].
    apply same_shape_spec in SS. destruct SS as [SS1 SS2]. injection Q as <-.
    apply (FIN _ (nth_map2_some _ _ _ _ _ _ E WM)). split. { rewrite map4_length. rewrite <- (SS2 _ _ _ E WM). destruct B. fold d. lia. }
    subst st. do 3 (split; [discriminate|]). split; [|split; discriminate]. intros _ j l u mj yj [C1 C2] M1 Y1. eexists. split.
    { rewrite nth_error_map4, Y1, M1, C1, C2. reflexivity. } apply halfway_el.
  - injection H as <- <-. apply (FIN _ (nth_map_some _ _ _ _ E)). split; [rewrite map3_length; destruct B; fold d; lia|].
    split; [congruence|]. split; [|repeat split; congruence]. intros _. apply each_map3. apply wrapped_el.
Qed.
Lemma bh_memory : forall st dr mem (b : bounds N) m m' mem', bh_call st dr mem b m = Ok (m', mem') ->
  st = "shrink" \/ st = "intermediate" -> mem' = Some m'.
Proof.
  intros st dr mem b m m' mem' H S. unfold bh_call in H. destruct (negb (bounds_fit m b)) eqn:Fi; destruct S as [-> | ->]; cbn in H; try discriminate;
    apply bind_Ok in H; destruct H as (q & _ & H); injection H as <- <-; reflexivity.
Qed.
End Rows.
Definition fcross : forall l u y : f64, flt u y = true -> flt y l = true -> flt u l = true.
Proof. intros l u y A B. forder. Qed.

(** A relation between consecutive recorded positions. *)
Lemma motion_link : forall c e pool iters o (I : fmatrix -> option fmatrix -> Prop) (R : nat -> fmatrix -> fmatrix -> fmatrix -> Prop),
  I (s_position (o_swarm o)) (o_bmem (started c o)) ->
  (forall i o1 o2 opts v vm p bm, i < iters -> I (s_position (o_swarm o1)) (o_bmem o1) ->
     Updated c e iters i o1 o2 opts v vm p bm -> I p bm /\ R i (s_position (o_swarm o1)) v p) ->
  forall o' r, pool <> Some 0 -> optimize c e pool iters o = (o', r) ->
  exists hp hv, o_pos_history o' = o_pos_history o ++ hp /\ o_velocity_history o' = o_velocity_history o ++ hv /\ length hv = length hp /\
    forall t X X' V', nth_error hp t = Some X -> nth_error hp (S t) = Some X' -> nth_error hv (S t) = Some V' -> R t X V' X'.
Proof.
  intros c e pool iters o I R H0 HU o' r NP E.
  set (K := fun i (o1 : ostate) hp hv => o_pos_history o1 = o_pos_history o ++ hp /\ o_velocity_history o1 = o_velocity_history o ++ hv /\
    length hp = i /\ length hv = i /\
    forall t X X' V', nth_error hp t = Some X -> nth_error hp (S t) = Some X' -> nth_error hv (S t) = Some V' -> R t X V' X').
  assert (FIN : forall o1, (exists i hp hv, K i o1 hp hv) -> exists hp hv, o_pos_history o1 = o_pos_history o ++ hp /\
    o_velocity_history o1 = o_velocity_history o ++ hv /\ length hv = length hp /\
    forall t X X' V', nth_error hp t = Some X -> nth_error hp (S t) = Some X' -> nth_error hv (S t) = Some V' -> R t X V' X').
  { intros o1 (i & hp & hv & A & B & C & D & F). exists hp, hv. repeat split; auto. lia. }
  set (J := fun (o1 : ostate) => I (s_position (o_swarm o1)) (o_bmem o1)).
  set (PA := fun i (o1 : ostate) (q : list bool) => J o1 /\ exists hp hv, K i o1 hp hv /\
     forall t X, i = S t -> nth_error hp t = Some X -> R t X (s_velocity (o_swarm o1)) (s_position (o_swarm o1))).
  set (PB := fun i (o1 : ostate) (q : list bool) => J o1 /\ exists hp hv, K (S i) o1 hp hv /\ nth_error hp i = Some (s_position (o_swarm o1))).
  assert (EVS : forall i o1 q o3 q2 cost pp pc t bp bc np, Evald c e pool i o1 o3 cost pp pc t bp bc np -> PA i o1 q -> PB i o3 q2).
  { intros i o1 q o3 q2 cost pp pc t bp bc np EV (j & hp & hv & (A & B & C & D & F) & G).
    destruct (motion_eval _ _ _ _ _ _ _ _ _ _ _ _ _ EV) as (Mo & P & V). unfold motion_of in Mo. injection Mo as M1 M2 M3 M4. split.
    - unfold J. rewrite M1, M3. exact j.
    - exists (hp ++ [s_position (o_swarm o1)]), (hv ++ [s_velocity (o_swarm o1)]). split.
      + unfold K. rewrite P, V, A, B, <- !app_assoc, !app_length, C, D. cbn [length]. split; auto. split; auto. split; [lia|]. split; [lia|].
        intros u X X' V' E1 E2 E3. destruct (Nat.eq_dec (S u) i) as [Q|Q].
        * rewrite nth_error_app1 in E1 by lia. rewrite nth_error_app2 in E2, E3 by lia.
          replace (S u - length hp) with 0 in E2 by lia. replace (S u - length hv) with 0 in E3 by lia. injection E2 as <-. injection E3 as <-. apply G; auto.
        * assert (S u < S i). { apply nth_error_lt in E2. rewrite app_length, C in E2. cbn [length] in E2. lia. }
          rewrite nth_error_app1 in E1, E2, E3 by lia. eauto.
      + rewrite nth_error_app2, C, Nat.sub_diag, M1 by lia. reflexivity. }
  destruct (optimize_rule c e pool iters o PA PB
    (fun o1 => exists i hp hv, K i o1 hp hv) (fun o1 x => exists i hp hv, K i o1 hp hv)) with (o' := o') (r := r)
    as [(P & -> & ->)|[(P & Q & ->)|(P & x & Q & ->)]]; auto.
  - destruct (started_facts c o) as (_ & _ & _ & _ & E5 & E6 & E7 & _). split.
    + unfold J. rewrite E7. exact H0.
    + exists [], []. split; [|discriminate]. unfold K. rewrite E5, E6, !app_nil_r. repeat split; auto. intros [|t]; discriminate.
  - intros i o1 q Hi PAi. pose proof (evaluate_cases c e pool i o1 q) as EC.
    destruct (evaluate_swarm c e pool i o1 q) as [o2 q2|o2|o2 x].
    + destruct EC as (cost & pp & pc & t & bp & bc & np & EV & _). eapply EVS; eauto.
    + destruct EC as (cost & pp & pc & t & bp & bc & np & EV & _). destruct (EVS _ _ _ _ q _ _ _ _ _ _ _ EV PAi) as (_ & hp & hv & k & _). eauto.
    + destruct PAi as (j & hp & hv & k & _). destruct (motion_raise _ _ _ _ _ _ _ EC) as (M & P & V). exists i, hp, hv. unfold K. rewrite P, V. exact k.
  - intros i o1 q Hi (j & hp & hv & k & L). pose proof (update_cases c e iters i o1 q) as UC.
    destruct (update_swarm c e iters i o1 q) as [o2 q2|o2|o2 x].
    + destruct UC as (_ & CE & opts & v & vm & p & bm & U). destruct (HU i o1 o2 _ _ _ _ _ Hi j U) as [j' rr].
      pose proof U as (_ & S & Vm & Bm). split; [unfold J; rewrite S, Bm; exact j'|]. exists hp, hv. split.
      * unfold K. rewrite (ce_ph _ _ CE), (ce_vh _ _ CE). exact k.
      * intros t X T Y. injection T as <-. rewrite S. cbn. pose proof (eq_trans (eq_sym L) Y) as Q. injection Q as <-. exact rr.
    + contradiction.
    + destruct UC as (CE & P). exists (S i), hp, hv. unfold K. rewrite (ce_ph _ _ CE), (ce_vh _ _ CE). exact k.
  - intros o1 q (j & hp & hv & k & _). eauto.
  - congruence.
Qed.

Lemma strategy_equation : forall c e pool iters o b o' r, c_kind c <> Binary -> c_bounds c = Some b -> pool <> Some 0 ->
  optimize c e pool iters o = (o', r) ->
  forall t X X' V' i x v, nth_error (o_pos_history o') (length (o_pos_history o) + t) = Some X ->
    nth_error (o_pos_history o') (length (o_pos_history o) + S t) = Some X' ->
    nth_error (o_velocity_history o') (length (o_velocity_history o) + S t) = Some V' ->
    nth_error X i = Some x -> nth_error V' i = Some v ->
  exists x', nth_error X' i = Some x' /\ handled (N := F64num) (c_bh c) (e_bh e t) b x (map2 fadd x v) x'.
Proof.
  intros c e pool iters o b o' r KB HB NP E.
  destruct (motion_link c e pool iters o
    (fun p bm => c_bh c = "shrink" \/ c_bh c = "intermediate" -> bm = Some p)
    (fun t X V' X' => forall i x v, nth_error X i = Some x -> nth_error V' i = Some v ->
       exists x', nth_error X' i = Some x' /\ handled (N := F64num) (c_bh c) (e_bh e t) b x (map2 fadd x v) x')) with (o' := o') (r := r)
    as (hp & hv & A & B & C & D); auto.
  - intros _. unfold started, start_pbest, start_memory. destruct (c_kind c); try congruence; reflexivity.
  - intros i o1 o2 opts v vm p bm Hi j (U & _).
    assert (U3 : compute_position (e_bh e i) (c_bh c) (o_bmem o1) (set_velocity (set_options (o_swarm o1) opts) v) (Some b) = Ok (p, bm)).
    { rewrite <- HB. destruct (c_kind c); try congruence; apply U. }
    clear U. unfold compute_position in U3. cbn [s_position s_velocity set_velocity set_options] in U3.
    destruct (same_shape (s_position (o_swarm o1)) v) eqn:SS; cbn [negb] in U3; [|discriminate]. split.
    + exact (bh_memory (N := F64num) _ _ _ _ _ _ _ U3).
    + intros n x w Ex Ew. pose proof (nth_map2_some (map2 fadd) _ _ _ _ _ Ex Ew) as ME.
      refine (bh_handled (N := F64num) fmin_ok fcross _ _ _ _ _ _ _ n _ x U3 ME _). intros S. exists (s_position (o_swarm o1)). split; auto.
  - intros t X X' V' i x v E1 E2 E3 Ex Ev. rewrite A in E1, E2. rewrite B in E3.
    rewrite nth_error_app2 in E1, E2, E3 by lia.
    replace (length (o_pos_history o) + t - length (o_pos_history o)) with t in E1 by lia.
    replace (length (o_pos_history o) + S t - length (o_pos_history o)) with (S t) in E2 by lia.
    replace (length (o_velocity_history o) + S t - length (o_velocity_history o)) with (S t) in E3 by lia.
    eapply D; eauto.
Qed.
