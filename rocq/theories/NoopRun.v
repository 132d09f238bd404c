(** During a call that stays in its box, the velocity strategies invert and zero do nothing. *)
From Coq Require Import String ZArith List Arith Bool Reals Lra Lia.
From Verif Require Import Prelude F64 F64Facts F64More Num Np Handlers Swarms Operators Generators Topology Optimizers
  Spec SpecHandlers ListFacts NpFacts ShapeFacts HandlerFacts BhFloat VhFacts VelFacts VhClaims RunFacts RunInv BoxRun VelRun.
Import ListNotations.
Local Open Scope string_scope.
Local Open Scope list_scope.
Local Open Scope nat_scope.

Lemma none_outside_good : forall (b : bounds F64num) (p : fmatrix), none_outside b p ->
  forall i x, nth_error p i = Some x -> ~ below b x /\ ~ above b x.
Proof.
  intros b p H i x X. split; intros (j & y & l & u & Y & C & L); destruct (H i j y l u (entry_of _ _ _ _ _ X Y) C) as [A B];
    cbn [nlt F64num] in L; ftypes; congruence.
Qed.
Lemma velocity_same : forall n d dr vmem (s : fswarm) c b, is_matrix n d (s_position s) -> box_dim d b -> none_outside b (s_position s) ->
  compute_velocity dr "invert" vmem s c (Some b) = compute_velocity dr "unmodified" vmem s c (Some b) /\
  compute_velocity dr "zero" vmem s c (Some b) = compute_velocity dr "unmodified" vmem s None (Some b).
Proof.
  intros n d dr vmem s c b M B G. unfold compute_velocity.
  destruct (num_of (s_options s) "c1"); [|split; reflexivity]. cbn [bind].
  destruct (num_of (s_options s) "c2"); [|split; reflexivity]. cbn [bind].
  destruct (num_of (s_options s) "w"); [|split; reflexivity]. cbn [bind].
  destruct (best_rows (length (s_position s)) (s_d s) (s_best_pos s)) as [best|]; [|split; reflexivity]. cbn [bind].
  destruct (same_shape (s_position s) (s_pbest_pos s)) eqn:S1; [|split; reflexivity].
  destruct (same_shape (s_position s) best) eqn:S2; [|split; reflexivity].
  destruct (same_shape (s_position s) (s_velocity s)) eqn:S3; [|split; reflexivity].
  destruct (same_shape (s_position s) (vd_u1 dr)) eqn:S4; [|split; reflexivity].
  destruct (same_shape (s_position s) (vd_u2 dr)) eqn:S5; [|split; reflexivity].
  cbn [andb negb]. apply shape_eq_iff in S1, S2, S3, S4, S5.
  match goal with |- vh_call _ _ _ _ ?m = _ /\ _ => assert (MT : is_matrix n d m) end.
  { eapply shape_eq_matrix; [|exact M]. apply velocity_mat_shape; auto. }
  destruct (inside_claim (N := F64num) n d c vmem (s_position s) b None _ M MT B (none_outside_good b _ G)) as [A1 A2].
  split; [exact A1|]. rewrite unmodified_eq. exact A2.
Qed.

Definition with_vh (c : config) (vh : string) (cl : option (clamp_t F64num)) : config :=
  mkConfig (c_kind c) (c_n c) (c_d c) (c_options c) (c_bounds c) cl (c_center c) (c_ftol c) (c_ftol_iter c)
    (c_init c) (c_bh c) vh (c_oh c).

Lemma opt_loop_same : forall c c' e pool iters (I : ostate -> Prop),
  (forall i o q, evaluate_swarm c' e pool i o q = evaluate_swarm c e pool i o q) ->
  (forall i o q, I o -> update_swarm c' e iters i o q = update_swarm c e iters i o q) ->
  (forall i o q, I o -> match evaluate_swarm c e pool i o q with Next o' _ => I o' | _ => True end) ->
  (forall i o q, i < iters -> I o -> match update_swarm c e iters i o q with Next o' _ => I o' | _ => True end) ->
  forall m i o q, m + i = iters -> I o -> opt_loop c' e pool iters m i o q = opt_loop c e pool iters m i o q.
Proof.
  intros c c' e pool iters I HE HU PE PU. induction m; intros i o q L Io; simpl; auto.
  unfold iteration. rewrite HE. pose proof (PE i o q Io) as P1. destruct (evaluate_swarm c e pool i o q) as [o1 q1|o1|o1 x]; auto.
  rewrite HU by auto. assert (Hi : i < iters) by lia. pose proof (PU i o1 q1 Hi P1) as P2.
  destruct (update_swarm c e iters i o1 q1) as [o2 q2|o2|o2 x]; auto. apply IHm; auto. lia.
Qed.

Lemma noop_run : forall c e pool iters o b n d, c_kind c <> Binary -> c_bounds c = Some b -> box_dim d b -> finite_box b ->
  box_strategy d b (c_bh c) (e_bh e) ->
  is_matrix n d (s_position (o_swarm o)) -> none_outside b (s_position (o_swarm o)) ->
  (c_vh c = "invert" -> optimize c e pool iters o = optimize (with_vh c "unmodified" (c_clamp c)) e pool iters o) /\
  (c_vh c = "zero" -> optimize c e pool iters o = optimize (with_vh c "unmodified" None) e pool iters o).
Proof.
  intros c e pool iters o b n d K B Bd FB S M0 O0.
  set (I := fun o1 : ostate => is_matrix n d (s_position (o_swarm o1)) /\ none_outside b (s_position (o_swarm o1)) /\
     (c_bh c = "intermediate" -> exists m, o_bmem o1 = Some m /\ is_matrix n d m /\ none_outside b m)).
  assert (IS : I (started c o)).
  { destruct (started_facts c o) as (_ & _ & _ & _ & _ & _ & E7 & _ & E9). unfold I. rewrite E7, E9. cbn [s_position set_pbest_cost].
    split; auto. split; auto. intros _. exists (s_position (o_swarm o)). split; auto. destruct (c_kind c); congruence. }
  assert (PE : forall i o1 q, I o1 -> match evaluate_swarm c e pool i o1 q with Next o' _ => I o' | _ => True end).
  { intros i o1 q Io. pose proof (evaluate_cases c e pool i o1 q) as EC. destruct (evaluate_swarm c e pool i o1 q) as [o2 q2|o2|o2 x]; auto.
    destruct EC as (cost & pp & pc & t & bp & bc & np & EV & _). destruct (motion_eval _ _ _ _ _ _ _ _ _ _ _ _ _ EV) as (M & _).
    unfold motion_of in M. injection M as E1 E2 E3 E4. unfold I in *. rewrite E1, E3. exact Io. }
  assert (PU : forall i o1 q, i < iters -> I o1 -> match update_swarm c e iters i o1 q with Next o' _ => I o' | _ => True end).
  { intros i o1 q Hi (I1 & I2 & I3). pose proof (update_cases c e iters i o1 q) as UC.
    destruct (update_swarm c e iters i o1 q) as [o2 q2|o2|o2 x]; auto.
    destruct UC as (_ & _ & opts & v & vm & p & bm & U & SW & _ & BM). rewrite B in U.
    assert (U' : compute_position (e_bh e i) (c_bh c) (o_bmem o1) (set_velocity (set_options (o_swarm o1) opts) v) (Some b) = Ok (p, bm)).
    { destruct (c_kind c); try congruence; apply U. }
    clear U. unfold compute_position in U'. cbn [s_position set_velocity set_options] in U'.
    destruct (same_shape (s_position (o_swarm o1)) (s_velocity (set_velocity (set_options (o_swarm o1) opts) v))) eqn:SS;
      cbn [negb] in U'; [|discriminate].
    assert (MT := moved_matrix n d (set_velocity (set_options (o_swarm o1) opts) v) I1 SS).
    destruct (bh_none_outside (c_bh c) n d (e_bh e) i (o_bmem o1) b _ p bm S MT Bd FB I3 U') as (P1 & P2 & P3).
    unfold I. rewrite SW, BM. cbn [s_position set_position]. split; auto. split; auto. intros Q. exists p. auto. }
  split; intros VH.
  - set (c' := with_vh c "unmodified" (c_clamp c)).
    assert (HU : forall i o1 q, I o1 -> update_swarm c' e iters i o1 q = update_swarm c e iters i o1 q).
    { intros i o1 q (I1 & I2 & I3). unfold update_swarm. cbn [c_kind c_oh c_options c_bounds c_vh c_clamp c_bh c' with_vh].
      rewrite VH, B. destruct (c_kind c); try congruence;
        (destruct (oh_call _ _ _ _) as [opts|]; [|reflexivity]; cbn [o_vmem with_swarm];
         destruct (velocity_same n d (e_vel e i) (o_vmem o1) (set_options (o_swarm o1) opts) (c_clamp c) b I1 Bd I2) as [A _];
         rewrite <- A; reflexivity). }
    unfold optimize. change (start_memory c' o) with (start_memory c o). change (start_pbest c' (start_memory c o)) with (started c o).
    fold (started c o). rewrite (opt_loop_same c c' e pool iters I (fun _ _ _ => eq_refl) HU PE PU iters 0 (started c o) []); auto.
  - set (c' := with_vh c "unmodified" None).
    assert (HU : forall i o1 q, I o1 -> update_swarm c' e iters i o1 q = update_swarm c e iters i o1 q).
    { intros i o1 q (I1 & I2 & I3). unfold update_swarm. cbn [c_kind c_oh c_options c_bounds c_vh c_clamp c_bh c' with_vh].
      rewrite VH, B. destruct (c_kind c); try congruence;
        (destruct (oh_call _ _ _ _) as [opts|]; [|reflexivity]; cbn [o_vmem with_swarm];
         destruct (velocity_same n d (e_vel e i) (o_vmem o1) (set_options (o_swarm o1) opts) (c_clamp c) b I1 Bd I2) as [_ A];
         rewrite <- A; reflexivity). }
    unfold optimize. change (start_memory c' o) with (start_memory c o). change (start_pbest c' (start_memory c o)) with (started c o).
    fold (started c o). rewrite (opt_loop_same c c' e pool iters I (fun _ _ _ => eq_refl) HU PE PU iters 0 (started c o) []); auto.
Qed.
(** Without bounds, invert and zero raise TypeError as soon as a velocity has to be computed. *)
