(** Cases that meet the hypotheses of C80. *)
From Coq Require Import String ZArith List Arith Bool Lia Reals.
From Flocq Require Import Core BinarySingleNaN.
From Verif Require Import Prelude F64 F64Facts Num Np ListFacts Handlers Swarms Operators Generators Topology Optimizers Spec SpecHandlers SpecOpts SpecDyn SpecMirror SpecTame SpecAlone SpecCoast
  HandlerFacts MirrorFacts Demo ExamplesTame ExamplesAlone.
From Verif Require Tame ExamplesSearch.
Import ListNotations.
Local Open Scope string_scope.
Local Open Scope list_scope.
Local Open Scope nat_scope.

Definition coast_c (n d : nat) (w : pyval F64num) (cl : option (clamp_t F64num)) (b : option (bounds F64num)) : config :=
  {| c_kind := GlobalBest; c_n := n; c_d := d; c_options := [("c1", dec 0 10); ("c2", dec 0 10); ("w", w)]; c_bounds := b; c_clamp := cl;
     c_center := repeat fone d; c_ftol := fninf; c_ftol_iter := 1; c_init := None; c_bh := "nearest"; c_vh := "unmodified"; c_oh := [] |}.
Lemma coast_pull : forall n d w cl b e iters, no_pull (coast_c n d w cl b) e iters.
Proof.
  assert (Z : feq (pnum (dec 0 10)) fzero = true) by (vm_compute; reflexivity).
  intros n d w cl b e iters t v [[(_ & q & Q & ->)|(s & S & _)]|[(_ & q & Q & ->)|(s & S & _)]]; try discriminate S; cbn [coast_c c_options dget] in Q; injection Q as <-; exact Z.
Qed.
Lemma coast_inertia : forall n d w cl b e iters (P : f64 -> Prop), P (pnum (N := F64num) w) -> inertia (coast_c n d w cl b) e iters P.
Proof.
  intros n d w cl b e iters P H t v [(_ & q & Q & ->)|(s & S & _)]; [|discriminate S]. cbn [coast_c c_options dget] in Q. injection Q as <-. exact H.
Qed.
Lemma coast_keys : forall n d w cl b, NoDup (dkeys (c_options (coast_c n d w cl b))).
Proof. intros. cbn. repeat constructor; cbn; intuition discriminate. Qed.
Lemma coast_draws : forall n d, finite_draws (near_e n d).
Proof. intros n d t i j r [H|H]; exact (mat_finite _ _ _ _ _ _ H). Qed.
Definition runs (c : config) (dr : create_draws) (e : env) (iters : nat) (P : ostate -> ostate -> bool) : bool :=
  match construct c star dr with Ok o => match optimize c e None iters o with (z, Ok _) => P o z | _ => false end | Err _ => false end.
Lemma runs_ok : forall c dr e iters P, runs c dr e iters P = true -> exists o z v, Fresh c o /\ optimize c e None iters o = (z, Ok v) /\ P o z = true.
Proof.
  intros c dr e iters P H. unfold runs in H. destruct (construct c star dr) as [o|] eqn:C; [|discriminate]. destruct (optimize c e None iters o) as [z [v|]] eqn:E; [|discriminate].
  exists o, z, v. split; [exact (Fresh_construct c star dr o C)|]. auto.
Qed.
Definition finiteb (V : fmatrix) : bool := forallb (forallb ffinite) V.
Lemma finiteb_ok : forall V, finiteb V = true -> finite_matrix V.
Proof.
  intros V H i j v E. destruct (entry_row _ _ _ _ E) as (r & R & Rj). unfold finiteb in H. rewrite forallb_forall in H. specialize (H r (nth_error_In _ _ R)).
  rewrite forallb_forall in H. exact (H v (nth_error_In _ _ Rj)).
Qed.
(** Component of a recorded velocity. *)
Definition speed (z : ostate) (t : nat) (p : f64 -> bool) : bool :=
  match nth_error (o_velocity_history z) t with Some V => match entry V 0 0 with Some v => p v | None => false end | None => false end.
Lemma speed_ok : forall z t p, speed z t p = true -> exists V v, nth_error (o_velocity_history z) t = Some V /\ entry V 0 0 = Some v /\ p v = true.
Proof.
  intros z t p H. unfold speed in H. destruct (nth_error (o_velocity_history z) t) as [V|]; [|discriminate]. destruct (entry V 0 0) as [v|] eqn:E; [|discriminate]. exists V, v. auto.
Qed.
Definition moving (v : f64) : bool := negb (feq v fzero).

(** Three particles in the plane under velocity limits. *)
Definition limits : option (clamp_t F64num) := Some (repeat (F (-2)) 2, repeat (F 2) 2).
Definition coast_dr : create_draws := d_cd 2 3 2.
Lemma coast_test : runs (coast_c 3 2 (dec 5 10) limits None) coast_dr (near_e 3 2) 4 (fun o z => smallb (o_pos_history z) && finiteb (s_velocity (o_swarm o)) && speed z 3 moving) = true.
Proof. vm_compute. reflexivity. Qed.
(** One particle in a box, as fast as the numbers go: it takes all of the 2099 iterations. *)
Definition fastest : f64 := fofZe (2 ^ 53 - 1) 971.
Definition fast_c : config := coast_c 1 1 (dec 5 10) (Some ([fzero], [fastest])) (Some (mkBounds (N := F64num) [F (-5)] [F 5] true)).
Definition fast_dr : create_draws := mkCd [[fofZe 1 (-1)]] [[true]] [[fofZe (2 ^ 53 - 1) (-53)]].
Lemma fast_test : runs fast_c fast_dr (near_e 1 1) (Z.to_nat 2101)
  (fun o z => smallb (o_pos_history z) && finiteb (s_velocity (o_swarm o)) && speed z (Z.to_nat 2098) moving && speed z (Z.to_nat 2099) (fun _ => true)) = true.
Proof. vm_compute. reflexivity. Qed.
(** The least positive velocity and 9/10. *)
Definition slow_c : config := coast_c 1 1 (dec 9 10) None None.
Definition slow_dr : create_draws := mkCd [[fofZe 1 (-1)]] [[true]] [[fofZe 1 (-1074)]].
Lemma slow_test : runs slow_c slow_dr (near_e 1 1) 4 (fun o z => smallb (o_pos_history z) && match entry (s_velocity (o_swarm o)) 0 0 with Some v => moving v | None => false end && speed z 3 (fun v => feq v (fofZe 1 (-1074)))) = true.
Proof. vm_compute. reflexivity. Qed.

Lemma half_ok : fle (fabs (pnum (N := F64num) (dec 5 10))) (fdec 1 2) = true. Proof. vm_compute. reflexivity. Qed.
Lemma half_one : fle (fabs (pnum (N := F64num) (dec 5 10))) fone = true. Proof. vm_compute. reflexivity. Qed.
Lemma nine_ok : flt (fdec 1 2) (fabs (pnum (N := F64num) (dec 9 10))) = true. Proof. vm_compute. reflexivity. Qed.
Lemma limit_signs : fle (F (-2)) fzero = true /\ fle fzero (F 2) = true /\ fle fzero fzero = true /\ fle fzero fastest = true. Proof. vm_compute. auto. Qed.
Lemma coast_stop : forall n d w b, may_stop (coast_c n d w limits b).
Proof.
  intros n d w b j x y [A B]. destruct limit_signs as (L1 & L2 & _). cbn [fst snd] in A, B. apply nth_error_In, repeat_spec in A. apply nth_error_In, repeat_spec in B. subst x y. split; [exact L1|exact L2].
Qed.
Lemma fast_stop : may_stop fast_c.
Proof.
  intros j x y [A B]. destruct limit_signs as (_ & _ & L3 & L4). cbn [fst snd] in A, B. destruct j as [|[|j]]; try discriminate A. injection A as <-. injection B as <-. split; [exact L3|exact L4].
Qed.
Lemma coast_demo : exists c e o z v V y, Fresh c o /\ c_kind c <> Binary /\ c_vh c = "unmodified" /\ c_clamp c <> None /\ NoDup (dkeys (c_options c)) /\ no_pull c e 4 /\ finite_draws e /\ may_stop c /\
  inertia c e 4 (fun w => fle (fabs w) fone = true) /\ finite_matrix (s_velocity (o_swarm o)) /\ optimize c e None 4 o = (z, Ok v) /\ no_overflow (o_pos_history z) /\
  nth_error (o_velocity_history z) 3 = Some V /\ entry V 0 0 = Some y /\ feq y fzero = false.
Proof.
  destruct (runs_ok _ _ _ _ _ coast_test) as (o & z & v & F & E & B). apply andb_prop in B. destruct B as [B B3]. apply andb_prop in B. destruct B as [B1 B2]. destruct (speed_ok _ _ _ B3) as (V & y & EV & EY & M). apply negb_true_iff in M.
  exists (coast_c 3 2 (dec 5 10) limits None), (near_e 3 2), o, z, v, V, y. split; [exact F|]. split; [discriminate|]. split; [reflexivity|]. split; [discriminate|]. split; [apply coast_keys|]. split; [apply coast_pull|]. split; [apply coast_draws|].
  split; [apply coast_stop|]. split; [apply coast_inertia; exact half_one|]. split; [apply finiteb_ok; exact B2|]. split; [exact E|]. split; [apply smallb_ok; exact B1|]. auto.
Qed.
Lemma rest_demo : exists c e o z v s V y V' y', Fresh c o /\ c_kind c <> Binary /\ c_vh c = "unmodified" /\ c_bounds c <> None /\ NoDup (dkeys (c_options c)) /\ no_pull c e (Z.to_nat 2101) /\ finite_draws e /\ may_stop c /\
  inertia c e (Z.to_nat 2101) (fun w => fle (fabs w) (fdec 1 2) = true) /\ finite_matrix (s_velocity (o_swarm o)) /\ optimize c e None (Z.to_nat 2101) o = (z, Ok v) /\ no_overflow (o_pos_history z) /\
  Z.of_nat s = 2098%Z /\ nth_error (o_velocity_history z) s = Some V /\ entry V 0 0 = Some y /\ feq y fzero = false /\ nth_error (o_velocity_history z) (S s) = Some V' /\ entry V' 0 0 = Some y'.
Proof.
  destruct (runs_ok _ _ _ _ _ fast_test) as (o & z & v & F & E & B). apply andb_prop in B. destruct B as [B B4]. apply andb_prop in B. destruct B as [B B3]. apply andb_prop in B. destruct B as [B1 B2].
  destruct (speed_ok _ _ _ B3) as (V & y & EV & EY & M). apply negb_true_iff in M. destruct (speed_ok _ _ _ B4) as (V' & y' & EV' & EY' & _).
  exists fast_c, (near_e 1 1), o, z, v, (Z.to_nat 2098), V, y, V', y'. split; [exact F|]. split; [discriminate|]. split; [reflexivity|]. split; [discriminate|]. split; [apply coast_keys|]. split; [apply coast_pull|]. split; [apply coast_draws|].
  split; [exact fast_stop|]. split; [apply coast_inertia; exact half_ok|]. split; [apply finiteb_ok; exact B2|]. split; [exact E|]. split; [apply smallb_ok; exact B1|]. split; [apply Z2Nat.id; discriminate|].
  split; [exact EV|]. split; [exact EY|]. split; [exact M|]. split; [|exact EY']. change (Z.to_nat 2099) with (Z.to_nat (Z.succ 2098)) in EV'. rewrite Z2Nat.inj_succ in EV' by discriminate. exact EV'.
Qed.
Lemma restless_demo : exists c e o z v u V y, Fresh c o /\ c_kind c <> Binary /\ c_vh c = "unmodified" /\ c_clamp c = None /\ NoDup (dkeys (c_options c)) /\ no_pull c e 4 /\ finite_draws e /\
  inertia c e 4 (fun w => flt (fdec 1 2) (fabs w) = true) /\ optimize c e None 4 o = (z, Ok v) /\ no_overflow (o_pos_history z) /\ entry (s_velocity (o_swarm o)) 0 0 = Some u /\ feq u fzero = false /\
  nth_error (o_velocity_history z) 3 = Some V /\ entry V 0 0 = Some y /\ feq y (fofZe 1 (-1074)) = true.
Proof.
  destruct (runs_ok _ _ _ _ _ slow_test) as (o & z & v & F & E & B). apply andb_prop in B. destruct B as [B B3]. apply andb_prop in B. destruct B as [B1 B2]. destruct (speed_ok _ _ _ B3) as (V & y & EV & EY & M).
  destruct (entry (s_velocity (o_swarm o)) 0 0) as [u|] eqn:EU; [|discriminate B2]. apply negb_true_iff in B2.
  exists slow_c, (near_e 1 1), o, z, v, u, V, y. split; [exact F|]. split; [discriminate|]. split; [reflexivity|]. split; [reflexivity|]. split; [apply coast_keys|]. split; [apply coast_pull|]. split; [apply coast_draws|].
  split; [apply coast_inertia; exact nine_ok|]. split; [exact E|]. split; [apply smallb_ok; exact B1|]. auto.
Qed.
