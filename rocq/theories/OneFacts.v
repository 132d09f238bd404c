(** Swarms of one dimension that know no best position. *)
From Coq Require Import String ZArith List Arith Bool Lia.
From Verif Require Import Prelude F64 F64Facts Num Np NpFacts ListFacts Handlers Swarms Operators Generators Topology Optimizers OneDim Spec SpecHandlers SpecRun SpecOne
  HandlerFacts RunFacts PbestFacts ShapeFacts GbestFacts RunMain RunMisc StartRun Shapes.
Import ListNotations.
Local Open Scope string_scope.
Local Open Scope list_scope.
Local Open Scope nat_scope.

(** *** The other cases are those of [optimize] *)
Lemma oh_kind : forall c A (a b : A), c_kind c <> Binary -> match c_kind c with Binary => a | _ => b end = b.
Proof. intros c A a b K. destruct (c_kind c); congruence. Qed.
Lemma not_lost : forall n (s : fswarm), shaped n 1 s -> lost s = false.
Proof.
  intros n s ((P1 & P2) & (V1 & V2) & _). unfold lost. destruct (s_position s) as [|r m] eqn:P; [reflexivity|]. destruct (s_velocity s) as [|r' m'] eqn:V; [reflexivity|].
  inversion V2 as [|? ? R V3]; subst. cbn [forallb]. rewrite R. cbn. apply andb_false_r.
Qed.
Lemma update_shaped : forall n d c e iters i o q o' q', shaped n d (o_swarm o) -> update_swarm c e iters i o q = Next o' q' -> shaped n d (o_swarm o').
Proof.
  intros n d c e iters i o1 q o' q' (S1 & S2 & S3) H. unfold update_swarm in H.
  destruct (match c_kind c with Binary => Ok (s_options (o_swarm o1)) | _ => _ end) as [opts|x]; [|discriminate]. cbv zeta in H.
  destruct (compute_velocity _ _ _ _ _ _) as [[v vmem]|x] eqn:V; [|discriminate].
  apply compute_velocity_shape in V. cbn [s_position set_options] in V. pose proof (shape_eq_matrix _ _ _ _ V S1) as VM.
  assert (PB : forall p : fmatrix, shape_eq (s_position (o_swarm o1)) p -> is_matrix n d p) by (intros p Z; eapply shape_eq_matrix; eauto).
  assert (BP : forall p : fmatrix, binary_position (e_exp e) (e_bits e i) v = Ok p -> is_matrix n d p).
  { intros p B. apply PB. eapply shape_eq_trans; [exact V|]. unfold binary_position in B.
    destruct (forallb _ v) eqn:F; try discriminate. injection B as <-. apply map_shape.
    intros rw I. rewrite forallb_forall in F. specialize (F rw I). apply Nat.eqb_eq in F. rewrite map2_length. flia. }
  assert (CP : forall dr h mem (s : fswarm) b (p : fmatrix) mem', s_position s = s_position (o_swarm o1) -> compute_position dr h mem s b = Ok (p, mem') -> is_matrix n d p).
  { intros dr h mem s b p mem' Z B. apply compute_position_shape in B. rewrite Z in B. auto. }
  cbn [s_velocity set_velocity] in H.
  destruct (c_kind c);
    (destruct (compute_position _ _ _ _ _) as [[p bm]|x] eqn:PP || destruct (binary_position _ _ _) as [p|x] eqn:PP);
    try discriminate; injection H as <- _; (split; [|split; [exact VM|exact S3]]);
    (eapply CP; [|exact PP]; reflexivity) || (apply BP; reflexivity).
Qed.
Lemma eval_shaped : forall n d c e pool i o q, shaped n d (o_swarm o) -> match evaluate_swarm c e pool i o q with Next o' _ | Break o' => shaped n d (o_swarm o') | _ => True end.
Proof.
  intros n d c e pool i o q (S1 & S2 & S3). pose proof (evaluate_cases c e pool i o q) as EV. destruct (evaluate_swarm c e pool i o q) as [o1 q1|o1|o1 x]; [| |exact Logic.I];
    destruct EV as (cost & pp & pc & tt & bp & bc & np & (_ & G & _ & ->) & _); (split; [exact S1|split; [exact S2|exact (pbest_shape n d (set_current_cost (o_swarm o) cost) _ _ S1 S3 G)]]).
Qed.
Lemma velocity_agrees : forall n dr vh vm (s : fswarm) cl b, (s_d s = 1 -> shaped n 1 s) -> compute_velocity dr vh vm s cl b <> Err Unmodelled -> compute_velocity_one dr vh vm s cl b = compute_velocity dr vh vm s cl b.
Proof.
  intros n dr vh vm s cl b S N. unfold compute_velocity_one. destruct (Nat.eqb_spec (s_d s) 1) as [D|D]; [|reflexivity]. rewrite (not_lost n s (S D)), orb_false_r. cbn [andb].
  destruct (unknown s) eqn:U; [|reflexivity]. unfold unknown in U. unfold compute_velocity in N |- *.
  destruct (num_of _ "c1"); [|reflexivity]. destruct (num_of _ "c2"); [|reflexivity]. destruct (num_of _ "w"); [|reflexivity]. cbn [bind] in N |- *. destruct (s_best_pos s); [|discriminate U|discriminate U]. rewrite D in N. cbn in N. congruence.
Qed.
Lemma update_agrees : forall n c e iters i o q, (s_d (o_swarm o) = 1 -> shaped n 1 (o_swarm o)) -> (forall o', update_swarm c e iters i o q <> Raise o' Unmodelled) -> update_one c e iters i o q = update_swarm c e iters i o q.
Proof.
  intros n c e iters i o q S N. unfold update_one. destruct (match c_kind c with Binary => true | _ => false end) eqn:KB; [destruct (c_kind c); try discriminate; reflexivity|].
  assert (K : c_kind c <> Binary) by (destruct (c_kind c); congruence). rewrite (oh_kind c _ _ _ K). revert N. unfold update_swarm. rewrite !(oh_kind c _ _ _ K). intros N.
  destruct (oh_call _ _ _ _) as [opts|x]; [|reflexivity]. cbv zeta in N |- *.
  assert (E : compute_velocity_one (e_vel e i) (c_vh c) (o_vmem (with_swarm o (set_options (o_swarm o) opts))) (set_options (o_swarm o) opts) (c_clamp c) (c_bounds c) =
              compute_velocity (e_vel e i) (c_vh c) (o_vmem (with_swarm o (set_options (o_swarm o) opts))) (set_options (o_swarm o) opts) (c_clamp c) (c_bounds c)).
  { apply (velocity_agrees n); [exact S|]. intros Q. rewrite Q in N. exact (N _ eq_refl). }
  rewrite E. destruct (compute_velocity _ _ _ _ _ _) as [[v vm]|x]; [|reflexivity]. rewrite (oh_kind c _ _ _ K). reflexivity.
Qed.
Lemma eval_dim : forall c e pool i o q, match evaluate_swarm c e pool i o q with Next o' _ | Break o' => s_d (o_swarm o') = s_d (o_swarm o) | _ => True end.
Proof.
  intros c e pool i o q. pose proof (evaluate_cases c e pool i o q) as EV. destruct (evaluate_swarm c e pool i o q) as [o1 q1|o1|o1 x]; [| |exact Logic.I];
    destruct EV as (cost & pp & pc & tt & bp & bc & np & (_ & G & _ & ->) & _); reflexivity.
Qed.
Lemma update_dim : forall c e iters i o q o' q', update_swarm c e iters i o q = Next o' q' -> s_d (o_swarm o') = s_d (o_swarm o).
Proof.
  intros c e iters i o1 q o' q' H. unfold update_swarm in H. destruct (match c_kind c with Binary => Ok (s_options (o_swarm o1)) | _ => _ end) as [opts|x]; [|discriminate]. cbv zeta in H.
  destruct (compute_velocity _ _ _ _ _ _) as [[v vmem]|x]; [|discriminate].
  destruct (c_kind c); (destruct (compute_position _ _ _ _ _) as [[p bm]|x] || destruct (binary_position _ _ _) as [p|x]); try discriminate; injection H as <- _; reflexivity.
Qed.
Lemma loop_agrees : forall n c e pool iters m i o q, (s_d (o_swarm o) = 1 -> shaped n 1 (o_swarm o)) -> (forall o', opt_loop c e pool iters m i o q <> LRaise o' Unmodelled) ->
  loop_one c e pool iters m i o q = opt_loop c e pool iters m i o q.
Proof.
  intros n c e pool iters. induction m as [|m IH]; intros i o q S N; [reflexivity|]. cbn [loop_one opt_loop] in N |- *. unfold iteration_one, iteration in *.
  pose proof (eval_shaped n 1 c e pool i o q) as ES. pose proof (eval_dim c e pool i o q) as ED. destruct (evaluate_swarm c e pool i o q) as [o1 q1|o1|o1 x]; [|reflexivity|reflexivity].
  assert (S1 : s_d (o_swarm o1) = 1 -> shaped n 1 (o_swarm o1)) by (rewrite ED; intros D; exact (ES (S D))).
  rewrite (update_agrees n); [|exact S1|intros o' Q; rewrite Q in N; exact (N _ eq_refl)].
  pose proof (update_shaped n 1 c e iters i o1 q1) as US. pose proof (update_dim c e iters i o1 q1) as UD. destruct (update_swarm c e iters i o1 q1) as [o2 q2|o2|o2 x]; [|reflexivity|reflexivity].
  apply IH; [|exact N]. rewrite (UD _ _ eq_refl). intros D. exact (US _ _ (S1 D) eq_refl).
Qed.
Lemma one_agrees : forall c e pool iters o, (s_d (o_swarm o) = 1 -> shaped (c_n c) 1 (o_swarm o)) -> snd (optimize c e pool iters o) <> Err Unmodelled -> optimize_one c e pool iters o = optimize c e pool iters o.
Proof.
  intros c e pool iters o S N. unfold optimize_one, optimize in *. fold (started c o) in *. destruct (started_facts c o) as (_ & _ & _ & _ & _ & _ & E & _).
  assert (L : loop_one c e pool iters iters 0 (started c o) [] = opt_loop c e pool iters iters 0 (started c o) [] \/ pool = Some 0).
  { destruct (match pool with Some O => true | _ => false end) eqn:EP; [right; destruct pool as [[|k]|]; congruence|left].
    apply (loop_agrees (c_n c)); [rewrite E; exact S|]. intros o' Q. rewrite Q in N. destruct pool as [[|k]|]; [discriminate EP| |]; exact (N eq_refl). }
  destruct L as [L| ->]; [|reflexivity]. destruct pool as [[|k]|]; [reflexivity| |]; rewrite L; reflexivity.
Qed.

(** *** Ruined for good *)
Lemma ruined_lost : forall n o, 1 <= n -> ruined n o -> lost (o_swarm o) = true.
Proof.
  intros n o N (_ & (P & _) & V). unfold lost. rewrite V. change (list (list (T F64num))) with fmatrix in P. rewrite P, repeat_length. destruct n; [lia|]. cbn [Nat.eqb negb andb]. rewrite Nat.eqb_refl. apply forallb_forall. intros r R. apply repeat_spec in R. subst r. reflexivity.
Qed.
Lemma empty_none : forall st cl mem b x v mem', st <> "adjust" -> vh_empty st cl mem b x = Ok (v, mem') -> v = repeat [] (length x) /\ mem' = mem.
Proof.
  intros st cl mem b x v mem' A H. unfold vh_empty in H. destruct (negb (vh_known st)); [discriminate|].
  assert (C : forall w, match cl with None => Ok (repeat (@nil f64) (length x)) | Some c => if clamp_fit x c then Ok (repeat (@nil f64) (length x)) else Err ValueError end = Ok w -> w = repeat (@nil f64) (length x)).
  { intros w Q. destruct cl as [c|]; [destruct (clamp_fit x c); [|discriminate]|]; injection Q as <-; reflexivity. }
  destruct (String.eqb st "unmodified"). { apply bind_Ok in H. destruct H as (w & W & H). injection H as <- <-. split; [exact (C _ W)|reflexivity]. }
  destruct (String.eqb_spec st "adjust"); [congruence|].
  destruct (String.eqb st "invert"); apply bind_Ok in H; destruct H as (z & _ & H).
  - apply bind_Ok in H. destruct H as (w & W & H). injection H as <- <-. split; [exact (C _ W)|reflexivity].
  - injection H as <- <-. split; reflexivity.
Qed.
Lemma narrow_shape : forall n (p : fmatrix), 1 <= n -> is_matrix n 1 p -> same_shape p (repeat (@nil f64) n) = false.
Proof.
  intros n p N (P & F). destruct (same_shape p (repeat [] n)) eqn:E; [|reflexivity]. exfalso. apply shape_eq_iff in E. destruct n; [lia|]. destruct p as [|r p]; [discriminate P|]. inversion F as [|? ? R _]; subst.
  unfold shape_eq in E. cbn in E. inversion E; subst. cbn in *. congruence.
Qed.
Lemma eval_keeps : forall c e pool i o q, match evaluate_swarm c e pool i o q with Next o' _ | Break o' | Raise o' _ =>
  s_position (o_swarm o') = s_position (o_swarm o) /\ s_velocity (o_swarm o') = s_velocity (o_swarm o) /\ s_d (o_swarm o') = s_d (o_swarm o) end.
Proof.
  intros c e pool i o q. pose proof (evaluate_cases c e pool i o q) as EV. destruct (evaluate_swarm c e pool i o q) as [o1 q1|o1|o1 x].
  1-2: destruct EV as (cost & pp & pc & tt & bp & bc & np & (_ & G & _ & ->) & _); repeat split.
  destruct EV; repeat split.
Qed.
Lemma no_break : forall c e pool o q, 1 <= c_ftol_iter c -> match evaluate_swarm c e pool 0 o q with Break _ => False | _ => True end.
Proof.
  intros c e pool o q F. unfold evaluate_swarm. destruct (compute_objective_function _ _ _) as [cost|x]; [|exact Logic.I]. cbv zeta.
  destruct (compute_pbest _) as [[pp pc]|x]; [|exact Logic.I]. destruct (compute_gbest _ _ _ _) as [t [[[bp bc] np]|x]]; [|exact Logic.I].
  destruct (c_ftol_iter c) as [|f] eqn:E; [lia|]. cbn [Nat.leb andb]. exact Logic.I.
Qed.
Lemma update_stuck : forall n c e iters i o q, 1 <= n -> c_kind c <> Binary -> c_vh c <> "adjust" -> ruined n o ->
  exists o' x, update_one c e iters i o q = Raise o' x /\ ruined n o' /\ s_position (o_swarm o') = s_position (o_swarm o) /\ core_eq o o'.
Proof.
  intros n c e iters i o q N K A R. pose proof (ruined_lost n o N R) as L. destruct R as (D & P & V). unfold update_one. rewrite (oh_kind c _ _ _ K). cbv zeta.
  destruct (oh_call _ _ _ _) as [opts|x]; [|exists o, x; repeat split; auto; apply P].
  set (s1 := set_options (o_swarm o) opts). assert (B : forall y, exists o' x, Raise (with_swarm o s1) y = Raise o' x /\ ruined n o' /\ s_position (o_swarm o') = s_position (o_swarm o) /\ core_eq o o').
  { intros y. exists (with_swarm o s1), y. split; [reflexivity|]. split; [split; [exact D|split; [exact P|exact V]]|]. split; [reflexivity|constructor; reflexivity]. }
  destruct (compute_velocity_one _ _ _ _ _ _) as [[v vm]|x] eqn:E; [|apply B].
  assert (Z : v = repeat [] n).
  { unfold compute_velocity_one in E. change (s_d s1) with (s_d (o_swarm o)) in E. change (lost s1) with (lost (o_swarm o)) in E. rewrite D, L, orb_true_r in E. cbn [Nat.eqb andb] in E.
    apply bind_Ok in E. destruct E as (? & _ & E). apply bind_Ok in E. destruct E as (? & _ & E). apply bind_Ok in E. destruct E as (? & _ & E). cbv zeta in E. destruct (negb _); [discriminate|].
    destruct (empty_none _ _ _ _ _ _ _ A E) as [-> _]. change (s_position s1) with (s_position (o_swarm o)). f_equal. apply P. }
  subst v. unfold compute_position. cbn [s_position s_velocity set_velocity]. change (s_position s1) with (s_position (o_swarm o)). match goal with |- context[same_shape ?a ?b] => replace (same_shape a b) with false by (symmetry; exact (narrow_shape n _ N P)) end. cbn [negb].
  do 2 eexists. split; [reflexivity|]. split; [split; [exact D|split; [exact P|reflexivity]]|]. split; [reflexivity|constructor; reflexivity].
Qed.
Lemma one_stuck : forall n c e pool iters o, 1 <= n -> c_kind c <> Binary -> c_vh c <> "adjust" -> 1 <= c_ftol_iter c -> 1 <= iters -> ruined n o ->
  exists o' x, optimize_one c e pool iters o = (o', Err x) /\ ruined n o' /\ s_position (o_swarm o') = s_position (o_swarm o).
Proof.
  intros n c e pool iters o N K A F I R. unfold optimize_one. fold (started c o). destruct (started_facts c o) as (_ & _ & _ & _ & _ & _ & E & _).
  assert (R1 : ruined n (started c o)) by (unfold ruined; rewrite E; exact R).
  assert (L : exists o' x, loop_one c e pool iters iters 0 (started c o) [] = LRaise o' x /\ ruined n o' /\ s_position (o_swarm o') = s_position (o_swarm o)).
  { destruct iters as [|m]; [lia|]. cbn [loop_one]. unfold iteration_one. pose proof (no_break c e pool (started c o) [] F) as NB. pose proof (eval_keeps c e pool 0 (started c o) []) as EK.
    assert (PS : s_position (o_swarm (started c o)) = s_position (o_swarm o)) by (rewrite E; reflexivity).
    destruct (evaluate_swarm c e pool 0 (started c o) []) as [o1 q1|o1|o1 x]; [|contradiction|].
    - destruct EK as (E1 & E2 & E3). assert (R2 : ruined n o1) by (unfold ruined in *; rewrite E1, E2, E3; exact R1).
      destruct (update_stuck n c e (S m) 0 o1 q1 N K A R2) as (o' & x & U & R3 & P & _). rewrite U. exists o', x. split; [reflexivity|]. split; [exact R3|]. congruence.
    - destruct EK as (E1 & E2 & E3). exists o1, x. split; [reflexivity|]. split; [unfold ruined in *; rewrite E1, E2, E3; exact R1|]. congruence. }
  destruct L as (o' & x & L & R2 & P). destruct pool as [[|k]|].
  - exists (start_memory c o), ValueError. split; [reflexivity|]. assert (Q : o_swarm (start_memory c o) = o_swarm o) by (unfold start_memory; destruct (c_kind c); reflexivity). unfold ruined. rewrite Q. split; [exact R|reflexivity].
  - rewrite L. exists o', x. auto.
  - rewrite L. exists o', x. auto.
Qed.
Lemma zero_iters : forall c e pool o, s_position (o_swarm (fst (optimize_one c e pool 0 o))) = s_position (o_swarm o) /\ s_velocity (o_swarm (fst (optimize_one c e pool 0 o))) = s_velocity (o_swarm o) /\ s_d (o_swarm (fst (optimize_one c e pool 0 o))) = s_d (o_swarm o).
Proof. intros c e pool o. unfold optimize_one, start_memory. destruct pool as [[|k]|], (c_kind c); cbn; repeat split. Qed.
Lemma one_forever : forall n c calls o, 1 <= n -> c_kind c <> Binary -> c_vh c <> "adjust" -> 1 <= c_ftol_iter c -> ruined n o ->
  ruined n (after c calls o) /\ s_position (o_swarm (after c calls o)) = s_position (o_swarm o) /\ forall e pool iters, 1 <= iters -> exists x, snd (optimize_one c e pool iters (after c calls o)) = Err x.
Proof.
  intros n c calls o N K A F. revert o. induction calls as [|a l IH]; intros o R; cbn [after].
  - split; [exact R|]. split; [reflexivity|]. intros e pool iters I. destruct (one_stuck n c e pool iters o N K A F I R) as (o' & x & E & _). exists x. rewrite E. reflexivity.
  - assert (G : ruined n (fst (optimize_one c (a_env a) (a_pool a) (a_iters a) o)) /\ s_position (o_swarm (fst (optimize_one c (a_env a) (a_pool a) (a_iters a) o))) = s_position (o_swarm o)).
    { destruct (a_iters a) as [|m] eqn:I.
      - destruct (zero_iters c (a_env a) (a_pool a) o) as (E1 & E2 & E3). split; [|exact E1]. unfold ruined. rewrite E1, E2, E3. exact R.
      - destruct (one_stuck n c (a_env a) (a_pool a) (S m) o N K A F ltac:(lia) R) as (o' & x & E & R' & P). rewrite E. split; [exact R'|exact P]. }
    destruct G as [G1 G2]. destruct (IH _ G1) as (H1 & H2 & H3). split; [exact H1|]. split; [congruence|exact H3].
Qed.

(** *** Nothing found *)
Definition Idle (n : nat) (o : ostate) : Prop :=
  shaped n 1 (o_swarm o) /\ s_d (o_swarm o) = 1 /\ length (s_pbest_cost (o_swarm o)) = n /\ (forall v, In v (s_pbest_cost (o_swarm o)) -> v = finf) /\ s_best_cost (o_swarm o) = finf /\ s_best_pos (o_swarm o) = BPEmpty /\
  s_best_np (o_swarm o) = false /\ t_kind (o_top o) = Star.
Lemma window_false : forall m q, 1 <= m -> forallb (fun x => x) (deque_append m q false) = false.
Proof.
  intros m q M. unfold deque_append. rewrite app_length. cbn [length]. set (k := length q + 1 - m). assert (K : k <= length q) by (unfold k; lia). rewrite skipn_app.
  replace (k - length q) with 0 by lia. cbn [skipn]. rewrite forallb_app. cbn. apply andb_false_r.
Qed.
Lemma no_change : forall ftol, small_change ftol finf finf = false.
Proof. intros ftol. unfold small_change. replace (fabs (fsub finf finf)) with fnan by (vm_compute; reflexivity). reflexivity. Qed.
Lemma eval_nothing : forall n c e i o q, 1 <= n -> 1 <= c_ftol_iter c -> Idle n o -> finds_nothing n e i ->
  exists o' q', evaluate_swarm c e None i o q = Next o' q' /\ Idle n o' /\ s_position (o_swarm o') = s_position (o_swarm o) /\ s_velocity (o_swarm o') = s_velocity (o_swarm o) /\
    o_vmem o' = o_vmem o /\ o_bmem o' = o_bmem o /\ o_pos_history o' = o_pos_history o ++ [s_position (o_swarm o)].
Proof.
  intros n c e i o q N F ((P & V & B) & D & PL & PI & BC & BP & BN & K) X. destruct (X _ P) as (cs & C & CL & CI). unfold evaluate_swarm. cbn [compute_objective_function]. rewrite C. cbv zeta.
  assert (PB : exists pp pc, compute_pbest (set_current_cost (o_swarm o) cs) = Ok (pp, pc)).
  { unfold compute_pbest. cbn [s_current_cost s_pbest_cost s_position s_pbest_pos set_current_cost].
    match goal with |- context[negb (Nat.eqb ?a ?b)] => replace (Nat.eqb a b) with true by (symmetry; apply Nat.eqb_eq; ftypes; congruence) end. cbn [negb].
    match goal with |- context[Nat.eqb ?a ?b] => replace (Nat.eqb a b) with true by (symmetry; apply Nat.eqb_eq; destruct P as [P _]; rewrite map2_length; ftypes; rewrite CL, PL, P; apply Nat.min_id) end.
    match goal with |- context[same_shape ?a ?b] => replace (same_shape a b) with true by (symmetry; exact (is_matrix_same_shape n 1 _ _ P B)) end. cbn [andb negb]. do 2 eexists. reflexivity. }
  destruct PB as (pp & pc & PB). rewrite PB. pose proof (compute_pbest_lengths _ _ _ PB) as (L1 & L2 & L3 & L4 & L5).
  assert (PC : forall v, In v pc -> v = finf) by (eapply pbest_stays_inf; [exact PB|exact PI|exact CI]).
  assert (PN : length pc = n) by (cbn in *; ftypes; congruence || lia).
  assert (PP : is_matrix n 1 pp) by (exact (pbest_shape n 1 (set_current_cost (o_swarm o) cs) _ _ P B PB)).
  unfold compute_gbest. rewrite K. unfold star_gbest. cbn [s_pbest_cost set_pbest].
  destruct pc as [|c0 pc']; [cbn in PN; lia|]. set (m := np_min (N := F64num) (c0 :: pc')). assert (M : exists v, m = Ok v) by (unfold m; cbn; eauto). destruct M as [v M].
  assert (VI : v = finf) by (apply PC; exact (np_min_in _ _ M)). rewrite M. cbn [bind s_best_cost s_best_pos s_best_np set_pbest set_current_cost]. rewrite BC, BP, BN, VI. change (flt finf finf) with false. cbv iota.
  rewrite no_change, (window_false _ _ F), andb_false_r. do 2 eexists. split; [reflexivity|]. split; [|repeat split; reflexivity].
  split; [split; [exact P|split; [exact V|exact PP]]|]. split; [exact D|]. split; [exact PN|]. split; [exact PC|]. split; [reflexivity|]. split; [reflexivity|]. split; [reflexivity|].
  cbn. destruct (t_nb (o_top o)); exact K.
Qed.
Lemma idle_start : forall c top dr o, construct c top dr = Ok o -> t_kind top = Star -> c_d c = 1 -> shaped_draws (c_n c) 1 dr -> (forall p, c_init c = Some p -> is_matrix (c_n c) 1 p) -> Idle (c_n c) (started c o) /\ 1 <= c_ftol_iter c.
Proof.
  intros c top dr o C K D1 SD SI. destruct (construct_inv _ _ _ _ C) as (s & M & EO & F). rewrite <- D1 in SD, SI. destruct (fresh_shaped c top dr o SD SI (or_introl C)) as (S & _ & D). rewrite D1 in S, D.
  destruct (Fresh_inv _ _ (Fresh_construct _ _ _ _ C)) as (dim & p & v & E & _). destruct (started_facts c o) as (T & _ & _ & _ & _ & _ & SW & _). split; [|lia].
  unfold Idle. rewrite SW, T. split; [exact S|]. split; [exact D|]. cbn [s_pbest_cost s_best_cost s_best_pos s_best_np set_pbest_cost]. rewrite E. cbn [new_swarm s_best_cost s_best_pos s_best_np]. split; [apply repeat_length|]. split; [intros w; apply repeat_spec|].
  split; [reflexivity|]. split; [reflexivity|]. split; [reflexivity|]. rewrite EO. exact K.
Qed.
Lemma fit_one : forall n (m : fmatrix) cl, is_matrix n 1 m -> length (fst cl) = 1 -> length (snd cl) = 1 -> clamp_fit (N := F64num) m cl = true.
Proof. intros n m cl (_ & M) L1 L2. unfold clamp_fit. apply forallb_forall. intros r R. rewrite Forall_forall in M. specialize (M r R). ftypes. rewrite M, L1, L2. reflexivity. Qed.
Lemma bfit_one : forall n (m : fmatrix) b, is_matrix n 1 m -> length (b_lb b) = 1 -> length (b_ub b) = 1 -> bounds_fit (N := F64num) m b = true.
Proof. intros n m b (_ & M) L1 L2. unfold bounds_fit. ftypes. rewrite L1, L2. cbn [Nat.eqb andb]. apply forallb_forall. intros r R. rewrite Forall_forall in M. specialize (M r R). ftypes. rewrite M. reflexivity. Qed.
Lemma empty_ok : forall n c mem (x : fmatrix), is_matrix n 1 x -> keeps_shape c -> (forall cl, c_clamp c = Some cl -> length (fst cl) = 1 /\ length (snd cl) = 1) ->
  vh_empty (c_vh c) (c_clamp c) mem (c_bounds c) x = Ok (repeat [] (length x), mem).
Proof.
  intros n c mem x X KS CL. unfold vh_empty.
  assert (CC : match c_clamp c with None => Ok (repeat (@nil (T F64num)) (length x)) | Some cl => if clamp_fit x cl then Ok (repeat (@nil (T F64num)) (length x)) else Err ValueError end = Ok (repeat (@nil (T F64num)) (length x))).
  { destruct (c_clamp c) as [cl|]; [|reflexivity]. destruct (CL cl eq_refl) as [L1 L2]. rewrite (fit_one n x cl X L1 L2). reflexivity. }
  rewrite CC. destruct KS as [-> | ([-> | ->] & b & -> & L1 & L2)]; cbn; try rewrite (bfit_one n x b X L1 L2); reflexivity.
Qed.
Lemma velocity_empty : forall n c e i o opts vm, 1 <= n -> Idle n o -> orderly c -> drawn n e i -> opts = c_options c ->
  compute_velocity_one (e_vel e i) (c_vh c) vm (set_options (o_swarm o) opts) (c_clamp c) (c_bounds c) = vh_empty (c_vh c) (c_clamp c) vm (c_bounds c) (s_position (o_swarm o)).
Proof.
  intros n c e i o opts vm N ((P & V & B) & D & _ & _ & _ & BP & _ & _) (_ & _ & NO & _) (U1 & U2) ->. unfold compute_velocity_one, unknown. cbn [s_d s_best_pos s_options s_position s_pbest_pos s_velocity set_options]. rewrite D, BP. cbn [Nat.eqb andb orb].
  destruct (NO "c1") as [v1 ->]; [cbn; auto|]. destruct (NO "c2") as [v2 ->]; [cbn; auto|]. destruct (NO "w") as [v3 ->]; [cbn; auto|]. cbn [bind]. cbv zeta. cbn [best_rows].
  repeat match goal with |- context[same_shape ?a ?b] => replace (same_shape a b) with true by (symmetry; first [exact (is_matrix_same_shape n 1 _ _ P B)|exact (is_matrix_same_shape n 1 _ _ P V)|exact (is_matrix_same_shape n 1 _ _ P U1)|exact (is_matrix_same_shape n 1 _ _ P U2)]) end.
  rewrite orb_true_r. cbn [andb negb]. reflexivity.
Qed.
Lemma one_first : forall c top dr o e iters, construct c top dr = Ok o -> t_kind top = Star -> c_d c = 1 -> 1 <= c_n c -> shaped_draws (c_n c) 1 dr -> (forall p, c_init c = Some p -> is_matrix (c_n c) 1 p) ->
  orderly c -> keeps_shape c -> drawn (c_n c) e 0 -> finds_nothing (c_n c) e 0 -> 1 <= iters ->
  exists o', optimize_one c e None iters o = (o', Err ValueError) /\ ruined (c_n c) o' /\ s_position (o_swarm o') = s_position (o_swarm o).
Proof.
  intros c top dr o e iters C K D N SD SI OR KS DR FN I. destruct (idle_start c top dr o C K D SD SI) as [ID F]. unfold optimize_one. fold (started c o). destruct iters as [|m]; [lia|]. cbn [loop_one]. unfold iteration_one.
  destruct (eval_nothing (c_n c) c e 0 (started c o) [] N F ID FN) as (o1 & q1 & EV & ID1 & P1 & V1 & _). rewrite EV. unfold update_one. destruct OR as (KB & OH & OR'). rewrite (oh_kind c _ _ _ KB). cbv zeta. rewrite OH. cbn [oh_call].
  rewrite (velocity_empty (c_n c) c e 0 o1 (c_options c) _ N ID1 (conj KB (conj OH OR')) DR eq_refl). destruct ID1 as ((P & V & B) & D1 & _). rewrite (empty_ok (c_n c) c _ _ P KS (proj2 OR')).
  unfold compute_position. cbn [s_position s_velocity set_velocity set_options]. match goal with |- context[same_shape ?a (repeat [] ?k)] => replace (same_shape a (repeat [] k)) with false end.
  2: { symmetry. replace (length (s_position (o_swarm o1))) with (c_n c) by (symmetry; apply P). exact (narrow_shape (c_n c) _ N P). }
  cbn [negb]. eexists. split; [reflexivity|]. destruct (started_facts c o) as (_ & _ & _ & _ & _ & _ & SW & _). rewrite SW in P1. split; [|exact P1]. split; [exact D1|]. split; [exact P|]. cbn. f_equal. apply P.
Qed.
Lemma both_matrix : forall n (f : f64 -> f64 -> f64) (p m : fmatrix), is_matrix n 1 p -> is_matrix n 1 m -> is_matrix n 1 (map2 (map2 f) p m).
Proof.
  intros n f p m P M. apply (shape_eq_matrix m); [|exact M]. apply map2_shape; [apply shape_eq_iff; exact (is_matrix_same_shape n 1 _ _ P M)|]. intros r r' L. rewrite map2_length. ftypes. rewrite L. apply Nat.min_id.
Qed.
Lemma adjust_step : forall n c e iters i o q m, 1 <= n -> Idle n o -> orderly c -> c_vh c = "adjust" -> c_bounds c = None -> c_clamp c = None -> drawn n e i -> o_vmem o = Some m -> is_matrix n 1 m ->
  exists o' m', update_one c e iters i o q = Next o' q /\ Idle n o' /\ o_vmem o' = Some m' /\ is_matrix n 1 m' /\ o_pos_history o' = o_pos_history o.
Proof.
  intros n c e iters i o q m N ID OR VH NB NC DR VM M. unfold update_one. destruct OR as (KB & OH & OR'). rewrite (oh_kind c _ _ _ KB). cbv zeta. rewrite OH. cbn [oh_call].
  rewrite (velocity_empty n c e i o (c_options c) _ N ID (conj KB (conj OH OR')) DR eq_refl). destruct ID as ((P & V & B) & R). unfold vh_empty. rewrite VH, NB, NC. cbn [o_vmem with_swarm]. rewrite VM. pose proof (is_matrix_same_shape n 1 _ _ P M) as SS. pose proof (both_matrix n fsub _ _ P M) as W. pose proof (is_matrix_same_shape n 1 _ _ P W) as SW. pose proof (both_matrix n fadd _ _ P W) as Z.
  assert (A : vh_adjust (N := F64num) None (Some m) (mkVk (Some (s_position (o_swarm o))) (Some None) None) (repeat [] (length (s_position (o_swarm o)))) = Ok (map2 (map2 fsub) (s_position (o_swarm o)) m, Some (s_position (o_swarm o)))).
  { unfold vh_adjust. cbn [vk_position]. match goal with |- context[same_shape ?a ?b] => replace (same_shape a b) with true by (symmetry; exact SS) end. reflexivity. }
  change (negb (vh_known "adjust")) with false. change (String.eqb "adjust" "unmodified") with false. change (String.eqb "adjust" "adjust") with true. cbv iota. rewrite A.
  unfold compute_position. cbn [s_position s_velocity set_velocity set_options]. 
  match goal with |- context[if negb ?b then _ else _] => let Q := fresh in assert (Q : b = true) by exact SW; rewrite Q end. cbn [negb].
  do 2 eexists. split; [reflexivity|]. split; [|split; [reflexivity|split; [exact P|reflexivity]]]. split; [|exact R]. split; [exact Z|split; [exact W|exact B]].
Qed.
Lemma adjust_loop : forall n c e iters m i o q w, 1 <= n -> 1 <= c_ftol_iter c -> Idle n o -> orderly c -> c_vh c = "adjust" -> c_bounds c = None -> c_clamp c = None -> (forall j, drawn n e j /\ finds_nothing n e j) ->
  o_vmem o = Some w -> is_matrix n 1 w -> exists o', loop_one c e None iters m i o q = LDone o' /\ Idle n o' /\ length (o_pos_history o') = length (o_pos_history o) + m.
Proof.
  intros n c e iters. induction m as [|m IH]; intros i o q w N F ID OR VH NB NC DR VM W; cbn [loop_one]. { exists o. split; [reflexivity|]. split; [exact ID|lia]. }
  unfold iteration_one. destruct (eval_nothing n c e i o q N F ID (proj2 (DR i))) as (o1 & q1 & EV & ID1 & P1 & V1 & M1 & _ & H1). rewrite EV. rewrite VM in M1.
  destruct (adjust_step n c e iters i o1 q1 w N ID1 OR VH NB NC (proj1 (DR i)) M1 W) as (o2 & w' & U & ID2 & M2 & W2 & H2). rewrite U.
  destruct (IH (S i) o2 q1 w' N F ID2 OR VH NB NC DR M2 W2) as (o' & L & ID' & H'). exists o'. split; [exact L|]. split; [exact ID'|]. rewrite H', H2, H1, app_length. cbn [length]. lia.
Qed.
Lemma one_adjust : forall c top dr o e iters, construct c top dr = Ok o -> t_kind top = Star -> c_d c = 1 -> 1 <= c_n c -> shaped_draws (c_n c) 1 dr -> (forall p, c_init c = Some p -> is_matrix (c_n c) 1 p) ->
  orderly c -> c_vh c = "adjust" -> c_bounds c = None -> c_clamp c = None -> (forall j, drawn (c_n c) e j /\ finds_nothing (c_n c) e j) ->
  exists o', optimize_one c e None iters o = (o', Err AttributeError) /\ length (o_pos_history o') = iters /\ shaped (c_n c) 1 (o_swarm o').
Proof.
  intros c top dr o e iters C K D N SD SI OR VH NB NC DR. destruct (idle_start c top dr o C K D SD SI) as [ID F]. destruct (started_facts c o) as (_ & _ & _ & _ & H & _ & SW & _).
  destruct (Fresh_inv _ _ (Fresh_construct _ _ _ _ C)) as (dim & p & v & E & _ & _ & _ & E5 & _).
  assert (VM : o_vmem (started c o) = Some (s_position (o_swarm o))) by (unfold started, start_pbest, start_memory; destruct (c_kind c); reflexivity).
  assert (P : is_matrix (c_n c) 1 (s_position (o_swarm o))) by (destruct ID as ((P & _) & _); rewrite SW in P; exact P).
  destruct (adjust_loop (c_n c) c e iters iters 0 (started c o) [] _ N F ID OR VH NB NC DR VM P) as (o' & L & ID' & HL). exists o'. unfold optimize_one. fold (started c o). rewrite L.
  rewrite H, E5 in HL. destruct ID' as (S' & _ & _ & _ & _ & _ & BN & _). split; [|split; [exact HL|exact S']]. unfold final_result. rewrite BN. reflexivity.
Qed.
