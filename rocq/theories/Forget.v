(** A call forgets what earlier calls found (C78). *)
From Coq Require Import String ZArith List Arith Bool Lia.
From Verif Require Import Prelude ListFacts F64 F64Facts Num Np NpFacts Handlers Swarms Operators
  Generators Topology Optimizers Spec SpecRun SpecForget RunFacts.
Import ListNotations.
Local Open Scope string_scope.
Local Open Scope list_scope.
Local Open Scope nat_scope.

(** *** Topologies other than the star do not look at the old swarm best *)
Lemma gbest_forgets : forall te a t (s : fswarm) bp bc np, t_kind t <> Star ->
  compute_gbest te a t (set_best s bp bc np) = compute_gbest te a t s.
Proof.
  intros te a t s bp bc np K. unfold compute_gbest. destruct (t_kind t); [congruence| | | |]; destruct s; reflexivity.
Qed.

(** *** A first evaluation does not look at the old personal bests *)
Lemma all_new : forall A (mask : list bool) (x y : list A), Forall (fun m => m = true) mask -> length mask = length x -> length y = length x ->
  map3 (fun (m : bool) (o n : A) => if negb m then o else n) mask x y = y.
Proof.
  induction mask as [|m mask IH]; intros [|a x] [|b y] F L1 L2; cbn in *; try discriminate; auto.
  inversion F; subst. cbn. f_equal. apply IH; auto.
Qed.
Lemma below_mask : forall cost n, Forall (fun x => flt x finf = true) cost -> Forall (fun m => m = true) (map2 flt cost (repeat finf n)).
Proof. induction cost as [|x r IH]; intros [|n] F; cbn; auto. inversion F; subst. constructor; auto. Qed.
Lemma first_pbest : forall (s : fswarm) cost n, s_pbest_cost s = repeat finf n -> s_current_cost s = cost ->
  same_shape (s_position s) (s_pbest_pos s) = true -> Forall (fun x => flt x finf = true) cost ->
  compute_pbest s = if Nat.eqb (length cost) n && Nat.eqb (length (s_position s)) n then Ok (s_position s, cost) else Err ValueError.
Proof.
  intros s cost n PC CC SH F. unfold compute_pbest. rewrite PC, CC, SH. pose proof (same_shape_length _ _ SH) as SL. ftypes.
  rewrite repeat_length. destruct (Nat.eqb_spec (length cost) n) as [L|L]; cbn [negb andb]; [|reflexivity].
  rewrite andb_true_r. rewrite map2_length. ftypes. rewrite repeat_length, L, Nat.min_id, (Nat.eqb_sym n). 
  match goal with |- (if negb (Nat.eqb ?a ?b) then _ else _) = (if Nat.eqb ?a' ?b' then _ else _) => change (Nat.eqb a' b') with (Nat.eqb a b); destruct (Nat.eqb_spec a b) as [L2|L2] end; cbn [negb]; [|reflexivity].
  assert (ML : length (map2 flt cost (repeat finf n)) = n) by (rewrite map2_length, repeat_length; lia).
  do 2 f_equal.
  - apply all_new; [apply below_mask; exact F| |]; ftypes; [change (@nlt F64num) with flt; lia|lia].
  - apply all_new; [apply below_mask; exact F| |]; ftypes; rewrite repeat_length; [change (@nlt F64num) with flt; lia|lia].
Qed.

(** *** After the first evaluation the two objects differ in nothing but the old histories *)
Record alike (c : config) (b b' o o' : ostate) : Prop := {
  al_sw : o_swarm o' = o_swarm o;
  al_top : o_top o' = o_top o;
  al_vm : o_vmem o' = o_vmem o;
  al_bm : c_kind c <> Binary -> o_bmem o' = o_bmem o;
  al_rec : same_new_records b o b' o'
}.
(** The windows agree, except perhaps in the entry of the first iteration. *)
Definition qlike (m i : nat) (q q' : list bool) : Prop :=
  q' = q \/ (i <= m /\ length q = i /\ length q' = i /\ tl q' = tl q).
Lemma qlike_append : forall m i q q' x, qlike m i q q' ->
  qlike m (S i) (deque_append m q x) (deque_append m q' x) /\ (m <= i -> deque_append m q' x = deque_append m q x).
Proof.
  intros m i q q' x [->|(I & L & L' & T)]; [split; [left|]; reflexivity|]. unfold deque_append. rewrite !app_length, L, L'. cbn [length].
  destruct (Nat.eq_dec i m) as [E|E].
  - assert (Z : skipn (i + 1 - m) (q' ++ [x]) = skipn (i + 1 - m) (q ++ [x])).
    { replace (i + 1 - m) with 1 by lia. destruct q as [|a q], q' as [|a' q']; cbn in *; try lia; congruence. }
    split; [left; exact Z|intros _; exact Z].
  - replace (i + 1 - m) with 0 by lia. cbn [skipn]. split; [right|lia]. split; [lia|]. rewrite !app_length. cbn [length]. split; [lia|]. split; [lia|].
    destruct q as [|a q], q' as [|a' q']; cbn in *; try lia; congruence.
Qed.
Definition alike_step (c : config) (m i : nat) (b b' : ostate) (r r' : step) : Prop :=
  match r, r' with
  | Next o q, Next o' q' => alike c b b' o o' /\ qlike m i q q'
  | Break o, Break o' => alike c b b' o o'
  | Raise o x, Raise o' x' => alike c b b' o o' /\ x' = x
  | _, _ => False
  end.
Lemma records_more : forall b o b' o' a1 a2 a3 a4 a5, same_new_records b o b' o' ->
  same_new_records b (populate_history o a1 a2 a3 a4 a5) b' (populate_history o' a1 a2 a3 a4 a5).
Proof.
  intros b o b' o' a1 a2 a3 a4 a5 (hc & hm & hn & hp & hv & (A1 & A2) & (B1 & B2) & (C1 & C2) & (D1 & D2) & (E1 & E2)).
  exists (hc ++ [a1]), (hm ++ [a2]), (hn ++ [a3]), (hp ++ [a4]), (hv ++ [a5]). cbn. rewrite A1, A2, B1, B2, C1, C2, D1, D2, E1, E2, <- !app_assoc. repeat split.
Qed.
Lemma records_none : forall b b', same_new_records b b b' b'.
Proof. intros b b'. exists [], [], [], [], []. rewrite !app_nil_r. repeat split. Qed.
Lemma evaluate_alike : forall c e pool b b' i o o' q q', alike c b b' o o' -> qlike (c_ftol_iter c) i q q' ->
  alike_step c (c_ftol_iter c) (S i) b b' (evaluate_swarm c e pool i o q) (evaluate_swarm c e pool i o' q').
Proof.
  intros c e pool b b' i o o' q q' [S T V B R] Q. unfold evaluate_swarm. rewrite S, T.
  destruct (compute_objective_function pool (e_obj e i) (s_position (o_swarm o))) as [cost|x].
  2:{ split; [constructor|]; auto. }
  destruct (compute_pbest (set_current_cost (o_swarm o) cost)) as [[pp pc]|x].
  2:{ split; [constructor|]; auto. }
  destruct (compute_gbest (e_top e i) (gbest_args c) (o_top o) _) as [t [[[bp bc] np]|x]].
  2:{ split; [constructor|]; auto. }
  cbv zeta. set (y := small_change _ _ bc).
  destruct (qlike_append (c_ftol_iter c) i q q' y Q) as [Q1 Q2].
  destruct (Nat.leb_spec (c_ftol_iter c) i) as [L|L]; cbn [andb].
  - rewrite (Q2 L). destruct (forallb (fun x => x) (deque_append (c_ftol_iter c) q y)); cbn [alike_step]; [|split; [|left; reflexivity]]; (constructor; auto; apply records_more; exact R).
  - cbn [alike_step]. split; [|exact Q1]. constructor; auto. apply records_more. exact R.
Qed.
Lemma update_alike : forall c e iters b b' i o o' q q', alike c b b' o o' -> qlike (c_ftol_iter c) (S i) q q' ->
  alike_step c (c_ftol_iter c) (S i) b b' (update_swarm c e iters i o q) (update_swarm c e iters i o' q').
Proof.
  intros c e iters b b' i o o' q q' [S T V B R] Q. unfold update_swarm. rewrite S.
  destruct (match c_kind c with Binary => Ok (s_options (o_swarm o)) | _ => _ end) as [opts|x].
  2:{ split; [constructor|]; auto. }
  cbn [o_vmem with_swarm]. rewrite V.
  destruct (compute_velocity _ _ _ _ _ _) as [[v vm]|x].
  2:{ split; [constructor|]; auto. }
  cbn [o_bmem with_vmem with_swarm]. destruct (c_kind c) eqn:K.
  all: try rewrite B by discriminate.
  all: match goal with |- alike_step _ _ _ _ _ (match ?u with _ => _ end) _ => destruct u as [p|x] end;
       try destruct p; (split; [|first [exact Q|reflexivity]]); constructor; auto; try (intros _; apply B; discriminate).
Qed.
Lemma loop_alike : forall c e pool iters b b' m i o o' q q', alike c b b' o o' -> qlike (c_ftol_iter c) i q q' ->
  match opt_loop c e pool iters m i o q, opt_loop c e pool iters m i o' q' with
  | LDone a, LDone a' => alike c b b' a a'
  | LRaise a x, LRaise a' x' => alike c b b' a a' /\ x' = x
  | _, _ => False
  end.
Proof.
  intros c e pool iters b b'. induction m; intros i o o' q q' H Q; cbn [opt_loop]; auto.
  unfold iteration. pose proof (evaluate_alike c e pool b b' i o o' q q' H Q) as E.
  destruct (evaluate_swarm c e pool i o q) as [o1 q1|o1|o1 x], (evaluate_swarm c e pool i o' q') as [o2 q2|o2|o2 y];
    cbn in E; try contradiction; auto.
  destruct E as [E QQ]. pose proof (update_alike c e iters b b' i o1 o2 q1 q2 E QQ) as U.
  destruct (update_swarm c e iters i o1 q1) as [o3 q3|o3|o3 x3], (update_swarm c e iters i o2 q2) as [o4 q4|o4|o4 y4];
    cbn in U; try contradiction; auto.
  destruct U as [U U2]. apply IHm; auto.
Qed.

(** *** A call *)
(** What the call looks at. *)
Record agree (o o' : ostate) : Prop := {
  ag_x : s_position (o_swarm o') = s_position (o_swarm o);
  ag_v : s_velocity (o_swarm o') = s_velocity (o_swarm o);
  ag_n : s_n (o_swarm o') = s_n (o_swarm o);
  ag_d : s_d (o_swarm o') = s_d (o_swarm o);
  ag_opt : s_options (o_swarm o') = s_options (o_swarm o);
  ag_top : o_top o' = o_top o;
  ag_sh : same_shape (s_position (o_swarm o)) (s_pbest_pos (o_swarm o)) = true;
  ag_sh' : same_shape (s_position (o_swarm o)) (s_pbest_pos (o_swarm o')) = true;
  ag_best : t_kind (o_top o) = Star -> s_best_pos (o_swarm o') = s_best_pos (o_swarm o) /\ s_best_cost (o_swarm o') = s_best_cost (o_swarm o) /\ s_best_np (o_swarm o') = s_best_np (o_swarm o)
}.
Lemma first_evaluation : forall c e pool o o', agree o o' -> starts_below_inf e pool o ->
  let a := start_pbest c (start_memory c o) in let a' := start_pbest c (start_memory c o') in
  match evaluate_swarm c e pool 0 a [], evaluate_swarm c e pool 0 a' [] with
  | Raise b x, Raise b' x' => x' = x /\ same_new_records o b o' b' /\ s_position (o_swarm b') = s_position (o_swarm b) /\ s_velocity (o_swarm b') = s_velocity (o_swarm b)
  | r, r' => alike_step c (c_ftol_iter c) 1 o o' r r'
  end.
Proof.
  intros c e pool o o' [X V NN D O T S S' B] F a a'.
  assert (HX : s_position (o_swarm a) = s_position (o_swarm o)) by (unfold a, start_memory, start_pbest; destruct (c_kind c); reflexivity).
  assert (HX' : s_position (o_swarm a') = s_position (o_swarm o)) by (unfold a', start_memory, start_pbest; destruct (c_kind c); exact X).
  assert (HS : o_swarm a = set_pbest_cost (o_swarm o) (repeat finf (c_n c))) by (unfold a, start_memory, start_pbest; destruct (c_kind c); reflexivity).
  assert (HS' : o_swarm a' = set_pbest_cost (o_swarm o') (repeat finf (c_n c))) by (unfold a', start_memory, start_pbest; destruct (c_kind c); reflexivity).
  assert (HT : o_top a = o_top o) by (unfold a, start_memory, start_pbest; destruct (c_kind c); reflexivity).
  assert (HT' : o_top a' = o_top o) by (unfold a', start_memory, start_pbest; destruct (c_kind c); exact T).
  assert (HV : o_vmem a' = o_vmem a) by (unfold a, a', start_memory, start_pbest; destruct (c_kind c); cbn; rewrite X; reflexivity).
  assert (HB : c_kind c <> Binary -> o_bmem a' = o_bmem a) by (intros NB; unfold a, a', start_memory, start_pbest; destruct (c_kind c); cbn; congruence).
  assert (HR : same_new_records o a o' a') by (unfold a, a', start_memory, start_pbest; destruct (c_kind c); exact (records_none o o')).
  clearbody a a'. unfold evaluate_swarm. rewrite HX, HX', HT, HT'.
  destruct (compute_objective_function pool (e_obj e 0) (s_position (o_swarm o))) as [cost|x] eqn:EO.
  2:{ split; [reflexivity|]. split; [exact HR|]. rewrite HS, HS'. cbn. auto. }
  specialize (F cost EO). rewrite HS, HS'.
  rewrite (first_pbest (set_current_cost (set_pbest_cost (o_swarm o) (repeat finf (c_n c))) cost) cost (c_n c)); [|reflexivity|reflexivity|exact S|exact F].
  rewrite (first_pbest (set_current_cost (set_pbest_cost (o_swarm o') (repeat finf (c_n c))) cost) cost (c_n c)); [|reflexivity|reflexivity| |exact F].
  2:{ change (same_shape (s_position (o_swarm o')) (s_pbest_pos (o_swarm o')) = true). rewrite X. exact S'. }
  change (s_position (set_current_cost (set_pbest_cost (o_swarm o') (repeat finf (c_n c))) cost)) with (s_position (o_swarm o')).
  change (s_position (set_current_cost (set_pbest_cost (o_swarm o) (repeat finf (c_n c))) cost)) with (s_position (o_swarm o)). rewrite X.
  destruct (Nat.eqb (length cost) (c_n c) && Nat.eqb (length (s_position (o_swarm o))) (c_n c)).
  2:{ split; [reflexivity|]. split; [exact HR|]. cbn. auto. }
  set (s2 := set_pbest (set_current_cost (set_pbest_cost (o_swarm o) (repeat finf (c_n c))) cost) (s_position (o_swarm o)) cost).
  assert (E2 : set_pbest (set_current_cost (set_pbest_cost (o_swarm o') (repeat finf (c_n c))) cost) (s_position (o_swarm o)) cost =
               set_best s2 (s_best_pos (o_swarm o')) (s_best_cost (o_swarm o')) (s_best_np (o_swarm o'))).
  { unfold s2, set_best, set_pbest, set_current_cost, set_pbest_cost, set_pbest. cbn. rewrite X, V, NN, D, O. reflexivity. }
  rewrite E2.
  assert (G : compute_gbest (e_top e 0) (gbest_args c) (o_top o) (set_best s2 (s_best_pos (o_swarm o')) (s_best_cost (o_swarm o')) (s_best_np (o_swarm o'))) =
              compute_gbest (e_top e 0) (gbest_args c) (o_top o) s2).
  { destruct (t_kind (o_top o)) eqn:K; try (apply gbest_forgets; congruence). destruct (B eq_refl) as (B1 & B2 & B3). rewrite B1, B2, B3. f_equal. }
  rewrite G. destruct (compute_gbest (e_top e 0) (gbest_args c) (o_top o) s2) as [t [[[bp bc] np]|x]].
  2:{ split; [reflexivity|]. split; [exact HR|]. cbn. auto. }
  cbv zeta. change (s_best_cost (set_best s2 (s_best_pos (o_swarm o')) (s_best_cost (o_swarm o')) (s_best_np (o_swarm o')))) with (s_best_cost (o_swarm o')).
  change (set_best (set_best s2 (s_best_pos (o_swarm o')) (s_best_cost (o_swarm o')) (s_best_np (o_swarm o'))) bp bc np) with (set_best s2 bp bc np).
  set (y := small_change _ _ bc). set (y' := small_change _ _ bc).
  assert (AL : alike c o o' (populate_history (with_top (with_swarm a (set_best s2 bp bc np)) t) bc (np_mean (e_tree e) cost) bc (s_position (set_best s2 bp bc np)) (s_velocity (set_best s2 bp bc np)))
     (populate_history (with_top (with_swarm a' (set_best s2 bp bc np)) t) bc (np_mean (e_tree e) cost) bc (s_position (set_best s2 bp bc np)) (s_velocity (set_best s2 bp bc np)))).
  { constructor; auto. apply records_more. exact HR. }
  destruct (c_ftol_iter c) as [|m] eqn:M; cbn [Nat.leb andb].
  - cbn. exact AL.
  - cbn [alike_step]. split; [exact AL|]. right. unfold deque_append. cbn. split; [lia|]. replace (0 - m) with 0 by lia. cbn. auto.
Qed.
Lemma final_alike : forall c b b' o o', alike c b b' o o' -> final_result o' = final_result o.
Proof. intros c b b' o o' [S _ _ _ _]. unfold final_result. rewrite S. reflexivity. Qed.
Lemma call_forgets : forall c e pool iters o o' o1 r o1' r', agree o o' -> starts_below_inf e pool o -> 0 < iters ->
  optimize c e pool iters o = (o1, r) -> optimize c e pool iters o' = (o1', r') ->
  r' = r /\ same_new_records o o1 o' o1' /\ s_position (o_swarm o1') = s_position (o_swarm o1) /\ s_velocity (o_swarm o1') = s_velocity (o_swarm o1) /\
  (forall v, r = Ok v -> o_swarm o1' = o_swarm o1 /\ o_top o1' = o_top o1).
Proof.
  intros c e pool iters o o' o1 r o1' r' A F I H H'. unfold optimize in H, H'.
  pose proof (first_evaluation c e pool o o' A F) as E. cbv zeta in E.
  assert (P : match pool with Some 0 => True | _ => False end \/ (opt_loop c e pool iters iters 0 (start_pbest c (start_memory c o)) [] = opt_loop c e pool iters iters 0 (start_pbest c (start_memory c o)) [] /\
     match opt_loop c e pool iters iters 0 (start_pbest c (start_memory c o)) [] with LRaise p x => (p, Err x) | LDone p => (p, final_result p) end = (o1, r) /\
     match opt_loop c e pool iters iters 0 (start_pbest c (start_memory c o')) [] with LRaise p x => (p, Err x) | LDone p => (p, final_result p) end = (o1', r'))).
  { destruct pool as [[|k]|]; auto. }
  destruct P as [P|(_ & P & P')].
  { destruct pool as [[|k]|]; try contradiction. injection H as <- <-. injection H' as <- <-.
    destruct A as [X V _ _ _ _ _ _ _]. split; [reflexivity|]. unfold start_memory. destruct (c_kind c); (split; [exact (records_none o o')|]); (split; [exact X|]); (split; [exact V|]); intros v Z; discriminate Z. }
  clear H H'. destruct iters as [|it]; [lia|]. cbn [opt_loop] in P, P'. unfold iteration in P, P'.
  destruct (evaluate_swarm c e pool 0 (start_pbest c (start_memory c o)) []) as [b q|b|b x], (evaluate_swarm c e pool 0 (start_pbest c (start_memory c o')) []) as [b' q'|b'|b' x'];
    cbn [alike_step] in E; try contradiction.
  - destruct E as [E Q]. pose proof (update_alike c e (S it) o o' 0 b b' q q' E Q) as U.
    destruct (update_swarm c e (S it) 0 b q) as [d w|d|d x], (update_swarm c e (S it) 0 b' q') as [d' w'|d'|d' x']; cbn [alike_step] in U; try contradiction.
    + destruct U as [U Q2]. pose proof (loop_alike c e pool (S it) o o' it 1 d d' w w' U Q2) as L.
      destruct (opt_loop c e pool (S it) it 1 d w) as [z|z x], (opt_loop c e pool (S it) it 1 d' w') as [z'|z' x']; try contradiction.
      * injection P as <- <-. injection P' as <- <-. split; [eapply final_alike; exact L|]. destruct L as [L1 L2 _ _ L3]. split; [exact L3|]. rewrite L1. auto.
      * destruct L as [[L1 L2 _ _ L3] ->]. injection P as <- <-. injection P' as <- <-. split; [reflexivity|]. split; [exact L3|]. rewrite L1. auto.
    + injection P as <- <-. injection P' as <- <-. split; [eapply final_alike; exact U|]. destruct U as [L1 L2 _ _ L3]. split; [exact L3|]. rewrite L1. auto.
    + destruct U as [[L1 L2 _ _ L3] ->]. injection P as <- <-. injection P' as <- <-. split; [reflexivity|]. split; [exact L3|]. rewrite L1. auto.
  - injection P as <- <-. injection P' as <- <-. split; [eapply final_alike; exact E|]. destruct E as [L1 L2 _ _ L3]. split; [exact L3|]. rewrite L1. auto.
  - destruct E as (-> & E1 & E2 & E3). injection P as <- <-. injection P' as <- <-. split; [reflexivity|]. split; [exact E1|]. split; [exact E2|]. split; [exact E3|]. intros v Z; discriminate Z.
Qed.

(** *** The theorems *)
Lemma forgets : forall c e pool iters o o1 r p1 r', t_kind (o_top o) <> Star -> shaped (c_n c) (c_d c) (o_swarm o) -> starts_below_inf e pool o -> 0 < iters ->
  optimize c e pool iters o = (o1, r) -> optimize c e pool iters (restarted o) = (p1, r') ->
  r' = r /\ same_new_records o o1 (restarted o) p1 /\ s_position (o_swarm p1) = s_position (o_swarm o1) /\ s_velocity (o_swarm p1) = s_velocity (o_swarm o1) /\
  (forall v, r = Ok v -> o_swarm p1 = o_swarm o1 /\ o_top p1 = o_top o1).
Proof.
  intros c e pool iters o o1 r p1 r' K (Mx & Mv & Mp) F I H H'. refine (call_forgets c e pool iters o (restarted o) o1 r p1 r' _ F I H H').
  constructor; try reflexivity; [exact (is_matrix_same_shape _ _ _ _ Mx Mp)|exact (is_matrix_same_shape _ _ _ _ Mx Mx)|intros Z; contradiction].
Qed.
Lemma keeps_only_best : forall c e pool iters o o1 r p1 r', shaped (c_n c) (c_d c) (o_swarm o) -> starts_below_inf e pool o -> 0 < iters ->
  optimize c e pool iters o = (o1, r) -> optimize c e pool iters (restarted_with_best o) = (p1, r') ->
  r' = r /\ same_new_records o o1 (restarted_with_best o) p1 /\ s_position (o_swarm p1) = s_position (o_swarm o1) /\ s_velocity (o_swarm p1) = s_velocity (o_swarm o1) /\
  (forall v, r = Ok v -> o_swarm p1 = o_swarm o1 /\ o_top p1 = o_top o1).
Proof.
  intros c e pool iters o o1 r p1 r' (Mx & Mv & Mp) F I H H'. refine (call_forgets c e pool iters o (restarted_with_best o) o1 r p1 r' _ F I H H').
  constructor; try reflexivity; [exact (is_matrix_same_shape _ _ _ _ Mx Mp)|exact (is_matrix_same_shape _ _ _ _ Mx Mx)|]. intros _. auto.
Qed.
