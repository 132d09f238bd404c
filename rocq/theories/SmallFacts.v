(** Bounds of one element, and numbers as bounds. *)
From Coq Require Import String ZArith List Arith Bool Lia.
From Verif Require Import Prelude F64 Num Np ListFacts Handlers Swarms Operators Generators Topology Optimizers SmallBounds Spec SpecHandlers SpecSmall HandlerFacts RunFacts DTypeFacts.
Import ListNotations.
Local Open Scope string_scope.
Local Open Scope list_scope.
Local Open Scope nat_scope.

(** *** One step *)
Lemma existsb_nth : forall A (f : A -> bool) l, existsb f l = true <-> exists i x, nth_error l i = Some x /\ f x = true.
Proof.
  intros A f l. rewrite existsb_exists. split.
  - intros (x & X & F). apply In_nth_error in X. destruct X as [i X]. eauto.
  - intros (i & x & X & F). exists x. split; [exact (nth_error_In _ _ X)|exact F].
Qed.
Lemma map2_nth : forall A B C (f : A -> B -> C) l m i, nth_error (map2 f l m) i = match nth_error l i, nth_error m i with Some a, Some b => Some (f a b) | _, _ => None end.
Proof.
  intros A B C f. induction l as [|a l IH]; intros [|b m] [|i]; cbn [map2 nth_error]; try reflexivity; [destruct (nth_error l i); reflexivity|apply IH].
Qed.
Lemma entry_sum : forall x v i j y, entry (map2 (map2 fadd) x v) i j = Some y <-> exists a b, entry x i j = Some a /\ entry v i j = Some b /\ y = fadd a b.
Proof.
  intros x v i j y. unfold entry. rewrite map2_nth. destruct (nth_error x i) as [r|]; [|split; [discriminate|intros (a & b & H & _); discriminate H]]. destruct (nth_error v i) as [r'|]; [|split; [discriminate|intros (a & b & _ & H & _); discriminate H]].
  rewrite map2_nth. destruct (nth_error r j) as [a|]; [|split; [discriminate|intros (? & b & H & _); discriminate H]]. destruct (nth_error r' j) as [b|]; [|split; [discriminate|intros (? & ? & _ & H & _); discriminate H]].
  split; [intros H; injection H as <-; eauto|intros (? & ? & H1 & H2 & ->)]. injection H1 as <-. injection H2 as <-. reflexivity.
Qed.
Lemma sb_out_or : forall s x, sb_out s x = true <-> (flt x (sb_lo s) = true \/ flt (sb_hi s) x = true).
Proof. intros. unfold sb_out. apply orb_true_iff. Qed.
Lemma out_any_strays : forall s x v, out_any s (map2 (map2 fadd) x v) = true <-> strays s 0 x v.
Proof.
  intros s x v. unfold out_any. rewrite existsb_nth. split.
  - intros (i & r & R & H). apply existsb_nth in H. destruct H as (j & y & Y & O). assert (E : entry (map2 (map2 fadd) x v) i j = Some y) by (unfold entry; rewrite R; exact Y).
    apply entry_sum in E. destruct E as (a & b & A & B & ->). exists i, j, a, b. split; [lia|]. split; [exact A|]. split; [exact B|]. apply sb_out_or. exact O.
  - intros (i & j & a & b & _ & A & B & O). assert (E : entry (map2 (map2 fadd) x v) i j = Some (fadd a b)) by (apply entry_sum; eauto). unfold entry in E.
    destruct (nth_error (map2 (map2 fadd) x v) i) as [r|] eqn:R; [|discriminate]. exists i, r. split; [exact R|]. apply existsb_nth. exists j, (fadd a b). split; [exact E|]. apply sb_out_or. exact O.
Qed.
Lemma out_beyond_strays : forall s x v, out_beyond s (map2 (map2 fadd) x v) = true <-> strays s 1 x v.
Proof.
  intros s x v. unfold out_beyond. rewrite existsb_nth. split.
  - intros (i & r & R & H). apply existsb_nth in H. destruct H as (j & y & Y & O). assert (Y' : nth_error r (S j) = Some y) by (destruct r; [destruct j; discriminate Y|exact Y]).
    assert (E : entry (map2 (map2 fadd) x v) i (S j) = Some y) by (unfold entry; rewrite R; exact Y').
    apply entry_sum in E. destruct E as (a & b & A & B & ->). exists i, (S j), a, b. split; [lia|]. split; [exact A|]. split; [exact B|]. apply sb_out_or. exact O.
  - intros (i & j & a & b & J & A & B & O). assert (E : entry (map2 (map2 fadd) x v) i j = Some (fadd a b)) by (apply entry_sum; eauto). unfold entry in E.
    destruct (nth_error (map2 (map2 fadd) x v) i) as [r|] eqn:R; [|discriminate]. exists i, r. split; [exact R|]. apply existsb_nth. destruct j as [|j]; [lia|]. exists j, (fadd a b). split; [destruct r; [discriminate E|exact E]|]. apply sb_out_or. exact O.
Qed.

(** Why a move is refused. *)
Definition why (c : config) (b : small) (x v : fmatrix) (y : exn) : Prop :=
  (hopeless c b /\ y = TypeError) \/ exists j0, fragile c b j0 y /\ strays b j0 x v.
Lemma position_small : forall c b dr bmem s, c_kind c <> Binary ->
  (compute_position_small c b dr bmem s = compute_position dr (c_bh c) bmem s (Some (spread (c_d c) b)) /\
     (bmem <> None -> forall j0 x, fragile c b j0 x -> same_shape (s_position s) (s_velocity s) = true -> ~ strays b j0 (s_position s) (s_velocity s)) /\
     (bmem <> None -> hopeless c b -> exists x, compute_position_small c b dr bmem s = Err x /\ (forall r, compute_position dr (c_bh c) bmem s (Some (spread (c_d c) b)) <> Ok r))) \/
  exists x, compute_position_small c b dr bmem s = Err x /\ why c b (s_position s) (s_velocity s) x.
Proof.
  intros c b dr bmem s K. unfold compute_position_small, compute_position. destruct (same_shape (s_position s) (s_velocity s)) eqn:SS; cbn [negb].
  2: left; split; [reflexivity|]; split; [discriminate|]; intros _ _; exists ValueError; split; [reflexivity|discriminate].
  unfold bh_small. change (map2 (map2 (@nadd F64num))) with (map2 (map2 fadd)). set (tp := map2 (map2 fadd) (s_position s) (s_velocity s)).
  set (all := bh_call (N := F64num) (c_bh c) dr bmem (spread (c_d c) b) tp).
  pose proof (out_beyond_strays b (s_position s) (s_velocity s)) as OB. fold tp in OB. pose proof (out_any_strays b (s_position s) (s_velocity s)) as OA. fold tp in OA.
  destruct (bh_known (c_bh c)) eqn:BK; cbn [negb].
  2: { left. assert (NK : forall z, bh_known z = true -> c_bh c <> z) by (intros z Z Q; congruence).
       split; [unfold all, bh_call; rewrite BK; reflexivity|]. split.
       - intros _ j0 x (_ & [(_ & _ & [Q|[_ [Q|[Q|Q]]]])|(_ & _ & _ & Q)]); exfalso; refine (NK _ _ Q); reflexivity.
       - intros _ (_ & _ & [Q|[Q|Q]]); exfalso; refine (NK _ _ Q); reflexivity. }
  destruct (String.eqb_spec (c_bh c) "nearest") as [Q|N1].
  { left. split; [reflexivity|]. split; [intros _ j0 x (_ & [(_ & _ & [R|[_ [R|[R|R]]]])|(_ & _ & _ & R)]); congruence|intros _ (_ & _ & [R|[R|R]]); congruence]. }
  destruct (String.eqb_spec (c_bh c) "random") as [Q|N2].
  { destruct (sb_form b) eqn:F.
    - left. split; [reflexivity|]. split; [intros _ j0 x (_ & [(_ & _ & [R|[_ [R|[R|R]]]])|(_ & _ & _ & R)]); congruence|intros _ (_ & R & _); congruence].
    - right. exists TypeError. split; [reflexivity|]. left. split; [|reflexivity]. split; [exact K|]. split; [exact F|left; exact Q]. }
  destruct (String.eqb_spec (c_bh c) "reflective") as [Q|N3].
  { destruct (sb_form b) eqn:F.
    - destruct (out_beyond b tp) eqn:O.
      + right. exists IndexError. split; [reflexivity|]. right. exists 1. split; [|exact (proj1 OB eq_refl)]. split; [exact K|]. left. split; [reflexivity|]. split; [reflexivity|]. right. split; [exact F|left; exact Q].
      + left. split; [reflexivity|]. split; [|intros _ (_ & R & _); congruence]. intros _ j0 x (_ & [(-> & _)|(_ & _ & R & _)]) _ ST; [apply OB in ST; discriminate ST|congruence].
    - destruct (out_any b tp) eqn:O.
      + right. exists TypeError. split; [reflexivity|]. right. exists 0. split; [|exact (proj1 OA eq_refl)]. split; [exact K|]. right. repeat split; auto.
      + left. split; [reflexivity|]. split; [|intros _ (_ & _ & [R|[R|R]]); congruence]. intros _ j0 x (_ & [(_ & _ & [R|[R _]])|(-> & _)]) _ ST; [congruence|congruence|apply OA in ST; discriminate ST]. }
  destruct (String.eqb_spec (c_bh c) "periodic") as [Q|N4].
  { destruct (out_beyond b tp) eqn:O.
    - right. exists IndexError. split; [reflexivity|]. right. exists 1. split; [|exact (proj1 OB eq_refl)]. split; [exact K|]. left. split; [reflexivity|]. split; [reflexivity|]. left. exact Q.
    - left. split; [reflexivity|]. split; [|intros _ (_ & _ & [R|[R|R]]); congruence]. intros _ j0 x (_ & [(-> & _)|(_ & _ & _ & R)]) _ ST; [apply OB in ST; discriminate ST|congruence]. }
  assert (Q : c_bh c = "shrink" \/ c_bh c = "intermediate").
  { unfold bh_known in BK. apply existsb_exists in BK. destruct BK as (z & Z & E). apply String.eqb_eq in E. subst z. cbn in Z. intuition congruence. }
  destruct bmem as [m|]; [|left; split; [reflexivity|]; split; congruence].
  destruct (sb_form b) eqn:F.
  - destruct (out_beyond b tp) eqn:O.
    + right. exists IndexError. split; [reflexivity|]. right. exists 1. split; [|exact (proj1 OB eq_refl)]. split; [exact K|]. left. split; [reflexivity|]. split; [reflexivity|]. right. split; [exact F|right; exact Q].
    + left. split; [reflexivity|]. split; [|intros _ (_ & R & _); congruence]. intros _ j0 x (_ & [(-> & _)|(_ & _ & R & _)]) _ ST; [apply OB in ST; discriminate ST|congruence].
  - right. exists TypeError. split; [reflexivity|]. left. split; [|reflexivity]. split; [exact K|]. split; [exact F|right; exact Q].
Qed.
Lemma oh_kind : forall c A (a b : A), c_kind c <> Binary -> match c_kind c with Binary => a | _ => b end = b.
Proof. intros c A a b K. destruct (c_kind c); congruence. Qed.
Lemma bh_mem : forall st dr mem b pos p mem', bh_call (N := F64num) st dr mem b pos = Ok (p, mem') -> mem <> None -> mem' <> None.
Proof.
  intros st dr mem b pos p mem' H M. unfold bh_call in H. destruct (negb (bh_known st)); [discriminate|]. destruct (negb (bounds_fit pos b)); [discriminate|].
  repeat match type of H with (if ?x then _ else _) = _ => destruct x end; try (injection H as _ <-; exact M); apply bind_Ok in H; destruct H as (z & _ & H); injection H as _ <-; try exact M; discriminate.
Qed.
Lemma update_small_cases : forall c b e iters i o q,
  (update_small c b e iters i o q = update_swarm (full c b) e iters i o q \/
   exists o' x, update_small c b e iters i o q = Raise o' x /\ core_eq o o' /\ s_position (o_swarm o') = s_position (o_swarm o) /\ why c b (s_position (o_swarm o')) (s_velocity (o_swarm o')) x) /\
  (o_bmem o <> None -> forall o2 q2, update_small c b e iters i o q = Next o2 q2 -> (c_kind c <> Binary -> o_bmem o2 <> None) /\ ~ hopeless c b /\
     forall j0 x, fragile c b j0 x -> ~ strays b j0 (s_position (o_swarm o)) (s_velocity (o_swarm o2))).
Proof.
  intros c b e iters i o q. unfold update_small. destruct (match c_kind c with Binary => true | _ => false end) eqn:KB.
  { assert (K : c_kind c = Binary) by (destruct (c_kind c); congruence). rewrite K. split; [left; reflexivity|]. intros M o2 q2 H. split; [congruence|]. split; [intros (Q & _); congruence|]. intros j0 x (Q & _). congruence. }
  assert (K : c_kind c <> Binary) by (destruct (c_kind c); congruence). rewrite (oh_kind c _ _ _ K). unfold update_swarm. cbn [full c_kind c_oh c_options c_vh c_clamp c_bounds c_bh]. rewrite !(oh_kind c _ _ _ K).
  destruct (oh_call _ _ _ _) as [opts|x]; [|split; [left; reflexivity|discriminate]].
  destruct (compute_velocity _ _ _ _ _ _) as [[v vm]|x]; [|split; [left; reflexivity|discriminate]].
  set (s2 := set_velocity (set_options (o_swarm o) opts) v). cbn [o_bmem with_vmem with_swarm].
  destruct (position_small c b (e_bh e i) (o_bmem o) s2 K) as [(E & F1 & F2)|(x & E & W)].
  - rewrite E. rewrite (oh_kind c _ _ _ K). split; [left; reflexivity|]. intros M o2 q2 H.
    destruct (compute_position _ _ _ _ _) as [[p bm]|x] eqn:CP; [|discriminate H]. injection H as <- <-. cbn [o_bmem with_bmem]. split; [|split].
    + intros _. unfold compute_position in CP. destruct (negb (same_shape _ _)); [discriminate|]. exact (bh_mem _ _ _ _ _ _ _ CP M).
    + intros HO. destruct (F2 M HO) as (x & _ & N). exact (N _ eq_refl).
    + intros j0 x FR. refine (F1 M j0 x FR _). unfold compute_position in CP. destruct (same_shape (s_position s2) (s_velocity s2)); [reflexivity|discriminate CP].
  - rewrite E. split; [right|discriminate]. do 2 eexists. split; [reflexivity|]. split; [constructor; reflexivity|]. split; [reflexivity|]. exact W.
Qed.

(** *** The loop *)
Lemma eval_full : forall c b e pool i o q, evaluate_swarm (full c b) e pool i o q = evaluate_swarm c e pool i o q.
Proof. reflexivity. Qed.
Lemma eval_grows : forall c e pool i o q, match evaluate_swarm c e pool i o q with Next o' _ | Break o' => grows o o' /\ s_position (o_swarm o') = s_position (o_swarm o) /\ s_velocity (o_swarm o') = s_velocity (o_swarm o) /\ o_bmem o' = o_bmem o /\
    o_pos_history o' = o_pos_history o ++ [s_position (o_swarm o)] /\ o_velocity_history o' = o_velocity_history o ++ [s_velocity (o_swarm o)] | Raise _ _ => True end.
Proof.
  intros c e pool i o q. pose proof (evaluate_cases c e pool i o q) as EV. destruct (evaluate_swarm c e pool i o q) as [o1 q1|o1|o1 x]; [| |exact Logic.I];
    destruct EV as (cost & pp & pc & tt & bp & bc & np & (_ & _ & _ & ->) & _); (split; [repeat split; eexists; reflexivity|repeat split; reflexivity]).
Qed.
Lemma loop_agrees : forall c b e pool iters m i o q,
  loop_small c b e pool iters m i o q = opt_loop (full c b) e pool iters m i o q \/
  exists o' x, loop_small c b e pool iters m i o q = LRaise o' x /\ why c b (s_position (o_swarm o')) (s_velocity (o_swarm o')) x /\
    forall o2, opt_loop (full c b) e pool iters m i o q = LDone o2 -> grows o' o2.
Proof.
  intros c b e pool iters. induction m as [|m IH]; intros i o q; [left; reflexivity|]. cbn [loop_small opt_loop]. unfold iteration_small, iteration. rewrite eval_full.
  pose proof (eval_grows c e pool i o q) as G. destruct (evaluate_swarm c e pool i o q) as [o1 q1|o1|o1 x]; [|left; reflexivity|left; reflexivity].
  destruct (update_small_cases c b e iters i o1 q1) as [[E|(o' & x & E & CE & P & W)] _].
  - rewrite E. destruct (update_swarm (full c b) e iters i o1 q1) as [o2 q2|o2|o2 x]; [|left; reflexivity|left; reflexivity]. apply IH.
  - rewrite E. right. exists o', x. split; [reflexivity|]. split; [exact W|]. intros o2 H. pose proof (update_cases (full c b) e iters i o1 q1) as UC. destruct (update_swarm (full c b) e iters i o1 q1) as [o3 q3|o3|o3 y]; [|contradiction|discriminate H].
    destruct UC as (_ & CE3 & _). apply grows_trans with o3; [|exact (loop_grows _ _ _ _ _ _ _ _ _ H)]. apply core_grows. destruct CE, CE3. constructor; congruence.
Qed.
Definition tidy (c : config) (b : small) (v0 : fmatrix) (ps vs : list fmatrix) : Prop :=
  length vs = length ps /\ (forall v, nth_error vs 0 = Some v -> v = v0) /\
  forall j0 x, fragile c b j0 x -> forall t p v, nth_error ps t = Some p -> nth_error vs (S t) = Some v -> ~ strays b j0 p v.
Lemma loop_inside : forall c b e pool iters m i o q o', c_kind c <> Binary -> o_bmem o <> None -> loop_small c b e pool iters m i o q = LDone o' ->
  exists ps vs, o_pos_history o' = o_pos_history o ++ ps /\ o_velocity_history o' = o_velocity_history o ++ vs /\ tidy c b (s_velocity (o_swarm o)) ps vs.
Proof.
  intros c b e pool iters m. induction m as [|m IH]; intros i o q o' K M H; cbn [loop_small] in H.
  { injection H as <-. exists [], []. rewrite !app_nil_r. split; [reflexivity|]. split; [reflexivity|]. split; [reflexivity|]. split; [discriminate|]. intros j0 x _ [|t] p v Q; discriminate Q. }
  unfold iteration_small in H. pose proof (eval_grows c e pool i o q) as G. destruct (evaluate_swarm c e pool i o q) as [o1 q1|o1|o1 x]; [| |discriminate H].
  - destruct G as (_ & P1 & V1 & B1 & HP & HV). rewrite <- B1 in M. destruct (update_small_cases c b e iters i o1 q1) as [A U].
    destruct (update_small c b e iters i o1 q1) as [o2 q2|o2|o2 x] eqn:E.
    + destruct (U M o2 q2 eq_refl) as (M2 & _ & ST). assert (CE : core_eq o1 o2).
      { destruct A as [A|(o3 & x & A & _)]; [|discriminate A]. pose proof (update_cases (full c b) e iters i o1 q1) as UC. rewrite <- A in UC. destruct UC as (_ & CE & _). exact CE. }
      destruct (IH _ _ _ _ K (M2 K) H) as (ps & vs & X1 & X2 & L & F & T). exists (s_position (o_swarm o) :: ps), (s_velocity (o_swarm o) :: vs). destruct CE.
      split; [rewrite X1, ce_ph, HP, <- app_assoc; reflexivity|]. split; [rewrite X2, ce_vh, HV, <- app_assoc; reflexivity|]. split; [cbn; f_equal; exact L|]. split; [intros v Q; injection Q as <-; reflexivity|].
      intros j0 x FR [|t] p v Q1 Q2; cbn [nth_error] in Q1, Q2; [|exact (T j0 x FR t p v Q1 Q2)]. injection Q1 as <-. rewrite (F v Q2), <- P1. exact (ST j0 x FR).
    + exfalso. destruct A as [A|(o3 & x & A & _)]; [|discriminate A]. pose proof (update_cases (full c b) e iters i o1 q1) as UC. rewrite <- A in UC. exact UC.
    + discriminate H.
  - injection H as <-. destruct G as (_ & P1 & V1 & B1 & HP & HV). exists [s_position (o_swarm o)], [s_velocity (o_swarm o)]. split; [exact HP|]. split; [exact HV|]. split; [reflexivity|]. split; [intros v Q; injection Q as <-; reflexivity|].
    intros j0 x _ [|t] p v Q1 Q2; [discriminate Q2|destruct t; discriminate Q1].
Qed.

(** *** Calls *)
Lemma start_full : forall c b o, start_pbest (full c b) (start_memory (full c b) o) = start_pbest c (start_memory c o).
Proof. reflexivity. Qed.
Lemma begin_grows : forall a b, grows a b -> records_begin a b.
Proof. intros a b H. exact H. Qed.
Lemma small_agrees : forall c b e pool iters o,
  optimize_small c b e pool iters o = optimize (full c b) e pool iters o \/
  exists o' x, optimize_small c b e pool iters o = (o', Err x) /\
    ((hopeless c b /\ x = TypeError) \/ exists j0, fragile c b j0 x /\ strays b j0 (s_position (o_swarm o')) (s_velocity (o_swarm o'))) /\
    forall o2 v, optimize (full c b) e pool iters o = (o2, Ok v) -> records_begin o' o2.
Proof.
  intros c b e pool iters o. unfold optimize_small, optimize. rewrite start_full.
  destruct (loop_agrees c b e pool iters iters 0 (start_pbest c (start_memory c o)) []) as [E|(o' & x & E & W & G)].
  - left. rewrite E. destruct pool as [[|n]|]; reflexivity.
  - destruct pool as [[|n]|]; [left; reflexivity| |]; right; exists o', x; rewrite E; (split; [reflexivity|]); (split; [exact W|]); intros o2 v H;
      (destruct (opt_loop _ _ _ _ _ _ _ _) as [o3|o3 y]; [|discriminate H]; injection H as <- _; apply begin_grows; exact (G o3 eq_refl)).
Qed.
Lemma carefree_why : forall c b x v y, carefree c b -> ~ why c b x v y.
Proof.
  intros c b x v y [C|[C|[C F]]] [((K & S0 & R) & _)|(j0 & (K & R) & _)]; try congruence; [intuition congruence|intuition congruence|intuition congruence].
Qed.
Lemma small_free : forall c b e pool iters o, carefree c b -> optimize_small c b e pool iters o = optimize (full c b) e pool iters o.
Proof.
  intros c b e pool iters o C. destruct (small_agrees c b e pool iters o) as [E|(o' & x & _ & W & _)]; [exact E|]. exfalso. exact (carefree_why c b _ _ _ C W).
Qed.
Lemma small_inside : forall c b e pool iters o o' r j0 x, optimize_small c b e pool iters o = (o', Ok r) -> fragile c b j0 x ->
  exists ps vs, o_pos_history o' = o_pos_history o ++ ps /\ o_velocity_history o' = o_velocity_history o ++ vs /\
    forall t p v, nth_error ps t = Some p -> nth_error vs (S t) = Some v -> ~ strays b j0 p v.
Proof.
  intros c b e pool iters o o' r j0 x H FR. pose proof (proj1 FR) as K. unfold optimize_small in H.
  assert (L : exists o1, loop_small c b e pool iters iters 0 (start_pbest c (start_memory c o)) [] = LDone o1 /\ o1 = o') by (destruct pool as [[|n]|]; [discriminate H| |]; (destruct (loop_small _ _ _ _ _ _ _ _ _) as [o1|o1 y]; [|discriminate H]; injection H as <- _; eauto)).
  destruct L as (o1 & L & ->).
  assert (M : o_bmem (start_pbest c (start_memory c o)) <> None) by (unfold start_pbest, start_memory; rewrite (oh_kind c _ _ _ K); discriminate).
  destruct (loop_inside c b e pool iters iters 0 _ _ _ K M L) as (ps & vs & X1 & X2 & _ & _ & T). exists ps, vs. split; [rewrite X1; unfold start_pbest, start_memory; destruct (c_kind c); reflexivity|].
  split; [rewrite X2; unfold start_pbest, start_memory; destruct (c_kind c); reflexivity|]. exact (T j0 x FR).
Qed.
Lemma small_hopeless : forall c b e pool iters o, hopeless c b -> 1 <= iters -> 1 <= c_ftol_iter c ->
  exists o' x, optimize_small c b e pool iters o = (o', Err x) /\ s_position (o_swarm o') = s_position (o_swarm o) /\ (forall o2 v, optimize (full c b) e pool iters o = (o2, Ok v) -> x = TypeError).
Proof.
  intros c b e pool iters o HO I F. pose proof (proj1 HO) as K. set (o1 := start_pbest c (start_memory c o)).
  assert (M : o_bmem o1 <> None) by (unfold o1, start_pbest, start_memory; rewrite (oh_kind c _ _ _ K); discriminate).
  assert (P0 : s_position (o_swarm o1) = s_position (o_swarm o)) by (unfold o1, start_pbest, start_memory; destruct (c_kind c); reflexivity).
  assert (L : exists o' x, loop_small c b e pool iters iters 0 o1 [] = LRaise o' x /\ s_position (o_swarm o') = s_position (o_swarm o) /\ (forall o2, opt_loop (full c b) e pool iters iters 0 o1 [] = LDone o2 -> x = TypeError)).
  { destruct iters as [|m]; [lia|]. set (n := S m). cbn [loop_small opt_loop n]. unfold iteration_small, iteration. rewrite eval_full. pose proof (eval_grows c e pool 0 o1 []) as G. pose proof (evaluate_cases c e pool 0 o1 []) as EV. destruct (evaluate_swarm c e pool 0 o1 []) as [o2 q2|o2|o2 x].
    - destruct G as (_ & P & _ & B & _). rewrite <- B in M. destruct (update_small_cases c b e n 0 o2 q2) as [A U].
      destruct A as [A|(o' & x & A & _ & P2 & W)].
      + destruct (update_small c b e n 0 o2 q2) as [o3 q3|o3|o3 x]; [destruct (U M _ _ eq_refl) as (_ & Q & _); contradiction| |].
        * pose proof (update_cases (full c b) e n 0 o2 q2) as UC. rewrite <- A in UC. contradiction.
        * exists o3, x. split; [reflexivity|]. pose proof (update_cases (full c b) e n 0 o2 q2) as UC. rewrite <- A in UC. destruct UC as [_ P3]. split; [congruence|]. rewrite <- A. discriminate.
      + rewrite A. exists o', x. split; [reflexivity|]. split; [congruence|]. intros _ _. destruct W as [[_ W]|(j0 & (_ & [(_ & _ & R)|(_ & R & _)]) & _)]; [exact W| |exact R]. destruct HO as (_ & S0 & R2). exfalso. intuition congruence.
    - exfalso. destruct EV as (cost & pp & pc & tt & bp & bc & np & _ & EV). apply andb_prop in EV. destruct EV as [EV _]. apply Nat.leb_le in EV. lia.
    - exists o2, x. split; [reflexivity|]. split; [|discriminate]. destruct EV; exact P0. }
  destruct L as (o' & x & L & P & T). unfold optimize_small, optimize. rewrite start_full. fold o1. rewrite L. destruct pool as [[|n]|].
  - exists (start_memory c o), ValueError. split; [reflexivity|]. split; [unfold start_memory; destruct (c_kind c); reflexivity|discriminate].
  - exists o', x. split; [reflexivity|]. split; [exact P|]. intros o2 v H. destruct (opt_loop _ _ _ _ _ _ _ _) as [o3|o3 y]; [exact (T o3 eq_refl)|discriminate H].
  - exists o', x. split; [reflexivity|]. split; [exact P|]. intros o2 v H. destruct (opt_loop _ _ _ _ _ _ _ _) as [o3|o3 y]; [exact (T o3 eq_refl)|discriminate H].
Qed.
Lemma small_construct : forall c b top dr o, construct_small c b top dr = Ok o <-> construct (full c b) top dr = Ok o /\ (sb_form b = FOne \/ c_kind c = Binary \/ c_init c <> None).
Proof.
  intros c b top dr o. unfold construct_small.
  assert (E : forall (g : res (pyval F64num)), g = match c_kind c with LocalBest | Binary => do _ <- of_option KeyError (dget (c_options c) "k"); of_option KeyError (dget (c_options c) "p") | _ => Ok (PInt 0) end ->
    construct (full c b) top dr = do _ <- g; if Nat.eqb (c_ftol_iter c) 0 then Err AssertionError else do s <- make_swarm (full c b) dr; Ok (mkOstate s top None None [] [] [] [] [])) by (intros g ->; reflexivity).
  specialize (E _ eq_refl). set (g := match c_kind c with LocalBest | Binary => _ | _ => _ end) in *.
  destruct g as [z|x]; cbn [bind] in *; [|rewrite E; split; [discriminate|intros [H _]; discriminate H]].
  destruct (Nat.eqb (c_ftol_iter c) 0) eqn:F; [rewrite E; split; [discriminate|intros [H _]; discriminate H]|].
  destruct (sb_form b) eqn:S0; [split; [intros H; split; [exact H|left; reflexivity]|intros [H _]; exact H]|].
  destruct (c_init c) eqn:I; [split; [intros H; split; [destruct (c_kind c); exact H|right; right; discriminate]|intros [H _]; destruct (c_kind c); exact H]|].
  destruct (c_kind c) eqn:K; try (split; [discriminate|intros [_ [Q|[Q|Q]]]; congruence]).
  split; [intros H; split; [exact H|right; left; reflexivity]|intros [H _]; exact H].
Qed.

(** *** The same with the bounds spelled out *)
Lemma const_map : forall A (x : A) d i, map (fun _ => x) (seq i d) = repeat x d.
Proof. intros A x. induction d as [|d IH]; intros i; [reflexivity|]. cbn. f_equal. apply IH. Qed.
Lemma spelled_full : forall c b, spelled c b = full c b.
Proof. intros c b. unfold spelled, full, spread. rewrite !const_map. reflexivity. Qed.
Lemma spelled_construct : forall c b top dr o, construct_small c b top dr = Ok o <-> construct (spelled c b) top dr = Ok o /\ (sb_form b = FOne \/ c_kind c = Binary \/ c_init c <> None).
Proof. intros c b. rewrite spelled_full. exact (small_construct c b). Qed.
Lemma spelled_free : forall c b e pool iters o, carefree c b -> optimize_small c b e pool iters o = optimize (spelled c b) e pool iters o.
Proof. intros c b. rewrite spelled_full. exact (small_free c b). Qed.
Lemma spelled_agrees : forall c b e pool iters o,
  optimize_small c b e pool iters o = optimize (spelled c b) e pool iters o \/
  exists o' x, optimize_small c b e pool iters o = (o', Err x) /\
    ((hopeless c b /\ x = TypeError) \/ exists j0, fragile c b j0 x /\ strays b j0 (s_position (o_swarm o')) (s_velocity (o_swarm o'))) /\
    forall o2 v, optimize (spelled c b) e pool iters o = (o2, Ok v) -> records_begin o' o2.
Proof. intros c b. rewrite spelled_full. exact (small_agrees c b). Qed.
Lemma spelled_hopeless : forall c b e pool iters o, hopeless c b -> 1 <= iters -> 1 <= c_ftol_iter c ->
  exists o' x, optimize_small c b e pool iters o = (o', Err x) /\ s_position (o_swarm o') = s_position (o_swarm o) /\ (forall o2 v, optimize (spelled c b) e pool iters o = (o2, Ok v) -> x = TypeError).
Proof. intros c b. rewrite spelled_full. exact (small_hopeless c b). Qed.
