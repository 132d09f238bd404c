(** Concrete cases meeting the hypotheses of the theorems on the equations of motion and on
    comparing runs. *)
From Coq Require Import String ZArith List Arith Bool Lia.
From Verif Require Import Prelude ListFacts F64 F64Facts Num Np Handlers Swarms Operators Generators Topology Optimizers Spec
  SpecHandlers SpecOpts SpecDyn Demo Examples.
Import ListNotations.
Local Open Scope string_scope.
Local Open Scope list_scope.
Local Open Scope nat_scope.

(** Some entry of the positions [X], [X'] differs. *)
Definition moved (X X' : fmatrix) : bool :=
  existsb (fun p => existsb (fun q => flt (fst q) (snd q) || flt (snd q) (fst q)) (combine (fst p) (snd p))) (combine X X').
Definition moves_at (t : nat) (o' : ostate) : bool :=
  match nth_error (o_pos_history o') t, nth_error (o_pos_history o') (S t) with
  | Some X, Some X' => moved X X'
  | _, _ => false
  end.
Lemma moves_at_ex : forall t o', moves_at t o' = true ->
  exists X X', nth_error (o_pos_history o') t = Some X /\ nth_error (o_pos_history o') (S t) = Some X' /\ moved X X' = true.
Proof.
  unfold moves_at. intros t o' H. destruct (nth_error (o_pos_history o') t) as [X|]; [|discriminate].
  destruct (nth_error (o_pos_history o') (S t)) as [X'|]; [|discriminate]. eauto.
Qed.

(** *** Equations of motion: clamp, bounds and a schedule *)
Definition y_c (k : opt_kind) (oh : dict string) : config :=
  {| c_kind := k; c_n := 3; c_d := 2; c_options := d_options; c_bounds := Some d_bounds;
     c_clamp := Some ([F (-1); F (-1)], [F 1; F 1]); c_center := repeat fone 2; c_ftol := fninf; c_ftol_iter := 1; c_init := None;
     c_bh := "nearest"; c_vh := "unmodified"; c_oh := oh |}.
Lemma y_keys : NoDup (dkeys d_options).
Proof. repeat (constructor; [cbn; intuition discriminate|]). constructor. Qed.
Definition y_oh : dict string := [("w", "lin_variation")].
Lemma y_star_ok : is_ok (d_run (y_c GlobalBest y_oh) star (d_cd 0 3 2) run_e None 4) = true.
Proof. vm_compute. reflexivity. Qed.
Lemma y_star_moves : d_test false (d_run (y_c GlobalBest y_oh) star (d_cd 0 3 2) run_e None 4) (fun o' _ _ => moves_at 2 o') = true.
Proof. vm_compute. reflexivity. Qed.
Lemma y_ring_ok : is_ok (d_run (y_c LocalBest y_oh) (topo Ring false) (d_cd 0 3 2) run_e None 4) = true.
Proof. vm_compute. reflexivity. Qed.
Lemma y_ring_moves : d_test false (d_run (y_c LocalBest y_oh) (topo Ring false) (d_cd 0 3 2) run_e None 4) (fun o' _ _ => moves_at 2 o') = true.
Proof. vm_compute. reflexivity. Qed.
Lemma y_star : exists c o e o' v X X', Fresh c o /\ t_kind (o_top o) = Star /\ c_kind c <> Binary /\ c_vh c = "unmodified" /\ NoDup (dkeys (c_options c)) /\
  c_bh c = "nearest" /\ c_bounds c <> None /\ c_clamp c <> None /\ c_oh c <> [] /\ optimize c e None 4 o = (o', Ok v) /\
  nth_error (o_pos_history o') 2 = Some X /\ nth_error (o_pos_history o') 3 = Some X' /\ moved X X' = true.
Proof.
  destruct (d_run_test _ _ _ _ _ _ _ _ _ _ y_star_ok y_star_moves) as (o & o' & cost & pos & _ & F & T & E & H).
  apply moves_at_ex in H. destruct H as (X & X' & H1 & H2 & H3).
  exists (y_c GlobalBest y_oh), o, run_e, o', (cost, pos), X, X'. rewrite T.
  repeat match goal with |- _ /\ _ => split end; try assumption; try reflexivity; try discriminate. exact y_keys.
Qed.
Lemma y_ring : exists c o e o' v X X', Fresh c o /\ t_kind (o_top o) = Ring /\ t_static (o_top o) = false /\ int_option c "k" 2 /\
  c_kind c <> Binary /\ c_vh c = "unmodified" /\ NoDup (dkeys (c_options c)) /\ optimize c e None 4 o = (o', Ok v) /\
  nth_error (o_pos_history o') 2 = Some X /\ nth_error (o_pos_history o') 3 = Some X' /\ moved X X' = true.
Proof.
  destruct (d_run_test _ _ _ _ _ _ _ _ _ _ y_ring_ok y_ring_moves) as (o & o' & cost & pos & _ & F & T & E & H).
  apply moves_at_ex in H. destruct H as (X & X' & H1 & H2 & H3).
  exists (y_c LocalBest y_oh), o, run_e, o', (cost, pos), X, X'. rewrite T.
  repeat match goal with |- _ /\ _ => split end; try assumption; try reflexivity; try discriminate. exact y_keys.
Qed.
Lemma y_vn_ok : is_ok (d_run (y_c General y_oh) (topo VonNeumann true) (d_cd 0 3 2) run_e None 4) = true.
Proof. vm_compute. reflexivity. Qed.
Lemma y_vn_moves : d_test false (d_run (y_c General y_oh) (topo VonNeumann true) (d_cd 0 3 2) run_e None 4) (fun o' _ _ => moves_at 2 o') = true.
Proof. vm_compute. reflexivity. Qed.
Lemma y_vn : exists c o e o' v X X', Fresh c o /\ t_kind (o_top o) = VonNeumann /\ t_static (o_top o) = true /\ t_nb (o_top o) = None /\ int_option c "r" 1 /\
  c_kind c <> Binary /\ c_vh c = "unmodified" /\ NoDup (dkeys (c_options c)) /\ optimize c e None 4 o = (o', Ok v) /\
  nth_error (o_pos_history o') 2 = Some X /\ nth_error (o_pos_history o') 3 = Some X' /\ moved X X' = true.
Proof.
  destruct (d_run_test _ _ _ _ _ _ _ _ _ _ y_vn_ok y_vn_moves) as (o & o' & cost & pos & _ & F & T & E & H).
  apply moves_at_ex in H. destruct H as (X & X' & H1 & H2 & H3).
  exists (y_c General y_oh), o, run_e, o', (cost, pos), X, X'. rewrite T.
  repeat match goal with |- _ /\ _ => split end; try assumption; try reflexivity; try discriminate. exact y_keys.
Qed.
(** A particle that moves inside the box. *)
Definition good_b (b : bounds F64num) (r : frow) : bool :=
  forallb (fun p => negb (flt (fst p) (snd p))) (combine r (b_lb b)) && forallb (fun p => negb (flt (snd p) (fst p))) (combine r (b_ub b)).
Lemma forallb_combine : forall A B (f : A * B -> bool) l m j a b, forallb f (combine l m) = true ->
  nth_error l j = Some a -> nth_error m j = Some b -> f (a, b) = true.
Proof.
  intros A B f l m j a b H. revert m j H. induction l as [|x l IH]; intros [|y m] [|j] H Ha Hb; try discriminate.
  - injection Ha as ->. injection Hb as ->. cbn in H. apply andb_prop in H. apply H.
  - cbn in H. apply andb_prop in H. apply (IH m j); tauto.
Qed.
Lemma good_b_ok : forall b r, good_b b r = true -> good b r.
Proof.
  intros b r H. apply andb_prop in H. destruct H as [H1 H2]. split; intros (j & x & l & u & Hx & (Hl & Hu) & L).
  - pose proof (forallb_combine _ _ _ _ _ _ _ _ H1 Hx Hl) as Q. cbn in Q, L. unfold is_true in *. apply negb_true_iff in Q.
    pose proof (eq_trans (eq_sym Q) L). discriminate.
  - pose proof (forallb_combine _ _ _ _ _ _ _ _ H2 Hx Hu) as Q. cbn in Q, L. apply negb_true_iff in Q.
    pose proof (eq_trans (eq_sym Q) L). discriminate.
Qed.
Definition good_at (t i : nat) (b : bounds F64num) (o' : ostate) : bool :=
  match nth_error (o_pos_history o') t, nth_error (o_pos_history o') (S t), nth_error (o_velocity_history o') (S t) with
  | Some X, Some _, Some V =>
      match nth_error X i, nth_error V i with Some xr, Some vr => Nat.eqb (length xr) 2 && good_b b (map2 fadd xr vr) | _, _ => false end
  | _, _, _ => false
  end.
Lemma y_good : d_test false (d_run (y_c GlobalBest y_oh) star (d_cd 0 3 2) run_e None 4) (fun o' _ _ => good_at 2 1 d_bounds o') = true.
Proof. vm_compute. reflexivity. Qed.
Lemma good_at_ex : forall t i b o', good_at t i b o' = true -> exists X X' V' xr vr, nth_error (o_pos_history o') t = Some X /\
  nth_error (o_pos_history o') (S t) = Some X' /\ nth_error (o_velocity_history o') (S t) = Some V' /\ nth_error X i = Some xr /\ nth_error V' i = Some vr /\
  length xr = 2 /\ good b (map2 fadd xr vr).
Proof.
  unfold good_at. intros t i b o' H. destruct (nth_error (o_pos_history o') t) as [X|]; [|discriminate].
  destruct (nth_error (o_pos_history o') (S t)) as [X'|]; [|discriminate]. destruct (nth_error (o_velocity_history o') (S t)) as [V|]; [|discriminate].
  destruct (nth_error X i) as [xr|] eqn:Ex; [|discriminate]. destruct (nth_error V i) as [vr|] eqn:Ev; [|discriminate].
  apply andb_prop in H. destruct H as [H1 H2]. apply Nat.eqb_eq in H1. apply good_b_ok in H2. exists X, X', V, xr, vr. auto 10.
Qed.
Lemma y_inside : exists c e o o' v X X' V' xr vr b, c_kind c <> Binary /\ c_bounds c = Some b /\ o_pos_history o = [] /\ o_velocity_history o = [] /\
  optimize c e None 4 o = (o', Ok v) /\ nth_error (o_pos_history o') 2 = Some X /\ nth_error (o_pos_history o') 3 = Some X' /\
  nth_error (o_velocity_history o') 3 = Some V' /\ nth_error X 1 = Some xr /\ nth_error V' 1 = Some vr /\
  box_dim (length xr) b /\ good b (map2 fadd xr vr).
Proof.
  destruct (d_run_test _ _ _ _ _ _ _ _ _ _ y_star_ok y_good) as (o & o' & cost & pos & C & F & T & E & H).
  apply good_at_ex in H. destruct H as (X & X' & V' & xr & vr & H1 & H2 & H3 & H4 & H5 & H6 & H7).
  assert (K : o_pos_history o = [] /\ o_velocity_history o = []).
  { unfold construct in C. destruct (match c_kind _ with LocalBest | Binary => _ | _ => _ end); [|discriminate]. cbn [bind] in C.
    destruct (Nat.eqb _ 0); [discriminate|]. destruct (make_swarm _ _); [|discriminate]. cbn [bind] in C. injection C as <-. auto. }
  exists (y_c GlobalBest y_oh), run_e, o, o', (cost, pos), X, X', V', xr, vr, d_bounds. destruct K.
  repeat match goal with |- _ /\ _ => split end; try assumption; try reflexivity; try discriminate.
  rewrite H6. split; reflexivity.
Qed.

(** *** Unknown strategies *)
Definition z_c (b : option (bounds F64num)) (bh vh : string) : config := d_config GlobalBest 3 2 b None bh vh.
Definition err_is (x : exn) : bool := match x with KeyError => true | _ => false end.
Lemma z_ok : is_ok (d_run (z_c (Some d_bounds) "nearest" "unmodified") star (d_cd 0 3 2) run_e None 3) = true.
Proof. vm_compute. reflexivity. Qed.
Lemma z_bh : exists c e o o' v, c_kind c <> Binary /\ c_bounds c <> None /\ 0 < c_ftol_iter c /\ Fresh c o /\
  ~ In (c_bh c) ["nearest"; "reflective"; "shrink"; "random"; "intermediate"; "periodic"] /\ optimize (with_bh c "nearest") e None 3 o = (o', Ok v).
Proof.
  destruct (d_run_ok _ _ _ _ _ _ z_ok) as (o & o' & v & C & E).
  exists (z_c (Some d_bounds) "wrap" "unmodified"), run_e, o, o', v. split; [discriminate|]. split; [discriminate|]. split; [cbn; auto|].
  split; [exact (Fresh_construct (z_c (Some d_bounds) "wrap" "unmodified") star (d_cd 0 3 2) o C)|]. split; [cbn; intuition discriminate|]. exact E.
Qed.
Lemma z_vh : exists c e o o' v, 0 < c_ftol_iter c /\ Fresh c o /\ ~ In (c_vh c) ["unmodified"; "adjust"; "invert"; "zero"] /\
  optimize (with_vh c "unmodified") e None 3 o = (o', Ok v).
Proof.
  destruct (d_run_ok _ _ _ _ _ _ z_ok) as (o & o' & v & C & E).
  exists (z_c (Some d_bounds) "nearest" "reverse"), run_e, o, o', v. split; [cbn; auto|].
  split; [exact (Fresh_construct (z_c (Some d_bounds) "nearest" "reverse") star (d_cd 0 3 2) o C)|]. split; [cbn; intuition discriminate|]. exact E.
Qed.
Lemma z_ok' : is_ok (d_run (z_c None "nearest" "unmodified") star (d_cd 0 3 2) run_e None 3) = true.
Proof. vm_compute. reflexivity. Qed.
Lemma z_inv : exists c e o o' v, 0 < c_ftol_iter c /\ Fresh c o /\ c_vh c = "invert" /\ c_bounds c = None /\
  optimize (with_vh c "unmodified") e None 3 o = (o', Ok v).
Proof.
  destruct (d_run_ok _ _ _ _ _ _ z_ok') as (o & o' & v & C & E).
  exists (z_c None "nearest" "invert"), run_e, o, o', v. split; [cbn; auto|].
  split; [exact (Fresh_construct (z_c None "nearest" "invert") star (d_cd 0 3 2) o C)|]. split; [reflexivity|]. split; [reflexivity|]. exact E.
Qed.

(** *** Comparing runs *)
Lemma l_short : is_ok (d_run (y_c GlobalBest []) star (d_cd 0 3 2) run_e None 2) = true.
Proof. vm_compute. reflexivity. Qed.
Lemma l_long : is_ok (d_run (y_c GlobalBest []) star (d_cd 0 3 2) run_e None 5) = true.
Proof. vm_compute. reflexivity. Qed.
Lemma l_lens : d_test 0 (d_run (y_c GlobalBest []) star (d_cd 0 3 2) run_e None 2) (fun o' _ _ => length (o_pos_history o')) = 2 /\
  d_test 0 (d_run (y_c GlobalBest []) star (d_cd 0 3 2) run_e None 5) (fun o' _ _ => length (o_pos_history o')) = 5.
Proof. split; vm_compute; reflexivity. Qed.
Lemma l_demo : exists c e o o1 v1 o2 v2, unscheduled c /\ Fresh c o /\ optimize c e None 2 o = (o1, Ok v1) /\ optimize c e None 5 o = (o2, Ok v2) /\
  length (o_pos_history o1) = 2 /\ length (o_pos_history o2) = 5.
Proof.
  destruct (d_run_test _ _ _ _ _ _ _ _ _ _ l_short (proj1 l_lens)) as (o & o1 & cost & pos & C & F & T & E & H).
  destruct (d_run_test _ _ _ _ _ _ _ _ _ _ l_long (proj2 l_lens)) as (o' & o2 & cost2 & pos2 & C' & _ & _ & E' & H').
  assert (o' = o) as -> by (pose proof (eq_trans (eq_sym C') C) as Q; exact (f_equal (fun r => match r with Ok z => z | Err _ => o end) Q)).
  exists (y_c GlobalBest []), run_e, o, o1, (cost, pos), o2, (cost2, pos2). split; [right; reflexivity|]. auto 10.
Qed.
(** With a schedule the second iteration already depends on the number of iterations. *)
Definition differ_at (t : nat) (o1 o2 : ostate) : bool :=
  match nth_error (o_pos_history o1) t, nth_error (o_pos_history o2) t with Some X, Some X' => moved X X' | _, _ => false end.
Definition two_runs (c : config) (e : env) (m n : nat) (P : ostate -> ostate -> bool) : bool :=
  match construct c star (d_cd 0 3 2) with
  | Ok o => match optimize c e None m o, optimize c e None n o with (o1, Ok _), (o2, Ok _) => P o1 o2 | _, _ => false end
  | Err _ => false
  end.
Lemma two_runs_ex : forall c e m n P, two_runs c e m n P = true -> exists o o1 v1 o2 v2, Fresh c o /\ optimize c e None m o = (o1, Ok v1) /\
  optimize c e None n o = (o2, Ok v2) /\ P o1 o2 = true.
Proof.
  unfold two_runs. intros c e m n P H. destruct (construct c star (d_cd 0 3 2)) as [o|] eqn:C; [|discriminate].
  destruct (optimize c e None m o) as [o1 [v1|]] eqn:E1; [|discriminate]. destruct (optimize c e None n o) as [o2 [v2|]] eqn:E2; [|discriminate].
  exists o, o1, v1, o2, v2. split; [eapply Fresh_construct; eauto|]. auto.
Qed.
Lemma moved_refl : forall X, moved X X = false.
Proof.
  intros X. unfold moved. induction X as [|r X IH]; [reflexivity|]. cbn [combine existsb fst snd]. rewrite IH, orb_false_r. clear.
  induction r as [|x r IH]; [reflexivity|]. cbn [combine existsb fst snd]. rewrite IH, flt_irrefl. reflexivity.
Qed.
Lemma differ_prefix : forall t o1 o2, differ_at t o1 o2 = true -> ~ prefix (o_pos_history o1) (o_pos_history o2).
Proof.
  unfold differ_at. intros t o1 o2 H (k & P). destruct (nth_error (o_pos_history o1) t) as [X|] eqn:E; [|discriminate].
  rewrite P, nth_error_app1, E, moved_refl in H; [discriminate|]. apply nth_error_Some. rewrite E. discriminate.
Qed.
Lemma sched_run : two_runs (y_c GlobalBest y_oh) run_e 3 6 (differ_at 2) = true.
Proof. vm_compute. reflexivity. Qed.
Lemma longer_scheduled : exists c e o o1 v1 o2 v2, Fresh c o /\ optimize c e None 3 o = (o1, Ok v1) /\ optimize c e None 6 o = (o2, Ok v2) /\
  ~ prefix (o_pos_history o1) (o_pos_history o2).
Proof.
  destruct (two_runs_ex _ _ _ _ _ sched_run) as (o & o1 & v1 & o2 & v2 & F & E1 & E2 & D). apply differ_prefix in D.
  exists (y_c GlobalBest y_oh), run_e, o, o1, v1, o2, v2. auto.
Qed.
(** An early stop after two of nine iterations. *)
Lemma s_demo : exists c e o o1 v, unscheduled c /\ 0 < c_ftol_iter c /\ Fresh c o /\ optimize c e None 9 o = (o1, Ok v) /\ length (o_cost_history o1) = 2.
Proof.
  destruct (d_run_test _ _ _ _ _ _ _ _ _ _ stop_ok stop_len) as (o & o' & cost & pos & _ & F & _ & E & L).
  exists stop_c, run_e, o, o', (cost, pos). split; [right; reflexivity|]. split; [cbn; auto|]. auto.
Qed.
(** Another objective, different wherever the run does not ask. *)
Definition f_other (t : nat) (X : fmatrix) : res (list f64) := if Nat.ltb t 4 && Nat.eqb (length X) 3 then d_obj t X else Err ValueError.
Lemma f_lens : d_test false (d_run (run_c GlobalBest) star (d_cd 0 3 2) run_e None 4)
  (fun o' _ _ => Nat.eqb (length (o_pos_history o')) 4 && forallb (fun X => Nat.eqb (length X) 3) (o_pos_history o')) = true.
Proof. vm_compute. reflexivity. Qed.
Lemma f_demo : exists c e f o o' v, Fresh c o /\ optimize c e None 4 o = (o', Ok v) /\ f 4 [] <> e_obj e 4 [] /\ f 0 [] <> e_obj e 0 [] /\
  (forall t X b, (nth_error (o_pos_history o') (length (o_pos_history o) + t) = Some X \/
      ((exists x, @Ok (f64 * frow) v = Err x) /\ length (o_pos_history o) + t = length (o_pos_history o') /\ X = s_position (o_swarm o'))) ->
     part_of None b X -> f t b = e_obj e t b).
Proof.
  destruct (d_run_test _ _ _ _ _ _ _ _ _ _ star_run_ok f_lens) as (o & o' & cost & pos & C & F & T & E & H).
  apply andb_prop in H. destruct H as [H1 H2]. apply Nat.eqb_eq in H1. rewrite forallb_forall in H2.
  exists (run_c GlobalBest), run_e, f_other, o, o', (cost, pos). split; [exact F|]. split; [exact E|]. split; [discriminate|]. split; [discriminate|].
  intros t X b [Q|((x & Q) & _)] P; [|discriminate]. cbn in P. subst b.
  pose proof (nth_error_In _ _ Q) as I. apply H2 in I. pose proof (nth_error_lt _ _ _ Q) as L. rewrite H1 in L.
  unfold f_other. replace (Nat.ltb t 4) with true by (symmetry; apply Nat.ltb_lt; lia). rewrite I. reflexivity.
Qed.

(** *** Relabelled costs: costs 1, 2, 3, relabelled to 1, 2, 1000 *)
Definition step_obj (_ : nat) (X : fmatrix) : res (list f64) :=
  Ok (map (fun r => if flt (sq r) (F 2) then F 1 else if flt (sq r) (F 3) then F 2 else F 3) X).
Definition step_phi (x : f64) : f64 := if flt (F 2) x && flt x finf then F 1000 else x.
Definition step_P (x : f64) : Prop := In x [F 1; F 2; F 3; finf].
Lemma step_order : order_on step_P step_phi.
Proof.
  split.
  - intros a A. repeat (destruct A as [<-|A]; [vm_compute; reflexivity|]). destruct A.
  - intros a b A B. repeat (destruct A as [<-|A]; [repeat (destruct B as [<-|B]; [vm_compute; reflexivity|]); destruct B|]). destruct A.
Qed.
Lemma step_inf : step_P finf /\ step_phi finf = finf.
Proof.
  split; [right; right; right; left; reflexivity|]. unfold step_phi.
  assert (E : flt (F 2) finf && flt finf finf = false) by (vm_compute; reflexivity). rewrite E. reflexivity.
Qed.
Lemma step_costs : forall t X cs, step_obj t X = Ok cs -> Forall step_P cs.
Proof.
  intros t X cs H. unfold step_obj in H.
  assert (E : cs = map (fun r => if flt (sq r) (F 2) then F 1 else if flt (sq r) (F 3) then F 2 else F 3) X) by congruence.
  rewrite E. apply Forall_forall. intros y I. apply in_map_iff in I. destruct I as (r & <- & _). unfold step_P.
  destruct (flt (sq r) (F 2)); [left; reflexivity|]. destruct (flt (sq r) (F 3)); [right; left; reflexivity|right; right; left; reflexivity].
Qed.
Definition step_e : env := d_env 3 2 step_obj.
Lemma step_ok : is_ok (d_run (run_c GlobalBest) star (d_cd 5 3 2) step_e None 6) = true.
Proof. vm_compute. reflexivity. Qed.
Lemma step_seen : d_test false (d_run (run_c GlobalBest) star (d_cd 5 3 2) step_e None 6)
  (fun o' _ _ => match o_cost_history o' with [a; b; _; _; _; d] => feq a (F 3) && feq b (F 2) && feq d (F 1) | _ => false end) = true.
Proof. vm_compute. reflexivity. Qed.
Lemma step_moves : feq (step_phi (F 3)) (F 3) = false. Proof. vm_compute. reflexivity. Qed.
Lemma step_demo : exists P phi c e o o' v, order_on P phi /\ P finf /\ phi finf = finf /\ (forall t X cs, e_obj e t X = Ok cs -> Forall P cs) /\
  c_ftol c = fninf /\ 0 < c_ftol_iter c /\ Fresh c o /\ optimize c e None 6 o = (o', Ok v) /\
  (match o_cost_history o' with [a; b; _; _; _; d] => feq a (F 3) && feq b (F 2) && feq d (F 1) | _ => false end) = true /\
  feq (phi (F 3)) (F 3) = false.
Proof.
  destruct (d_run_test _ _ _ _ _ _ _ _ _ _ step_ok step_seen) as (o & o' & cost & pos & _ & F & T & E & H).
  exists step_P, step_phi, (run_c GlobalBest), step_e, o, o', (cost, pos). split; [exact step_order|]. split; [apply step_inf|]. split; [apply step_inf|].
  split; [exact step_costs|]. split; [reflexivity|]. split; [cbn; auto|]. split; [exact F|]. split; [exact E|]. split; [exact H|exact step_moves].
Qed.
(** With a tolerance the relabelled run goes on longer. *)
Definition tol_c : config :=
  {| c_kind := GlobalBest; c_n := 3; c_d := 2; c_options := d_options; c_bounds := Some d_bounds; c_clamp := None;
     c_center := repeat fone 2; c_ftol := fdec 3 10; c_ftol_iter := 1; c_init := None;
     c_bh := "nearest"; c_vh := "unmodified"; c_oh := [] |}.
Definition two_objs (c : config) (e e' : env) (n : nat) (P : ostate -> ostate -> bool) : bool :=
  match construct c star (d_cd 5 3 2) with
  | Ok o => match optimize c e None n o, optimize c e' None n o with (o1, Ok _), (o2, Ok _) => P o1 o2 | _, _ => false end
  | Err _ => false
  end.
Lemma two_objs_ex : forall c e e' n P, two_objs c e e' n P = true -> exists o o1 v1 o2 v2, Fresh c o /\ optimize c e None n o = (o1, Ok v1) /\
  optimize c e' None n o = (o2, Ok v2) /\ P o1 o2 = true.
Proof.
  unfold two_objs. intros c e e' n P H. destruct (construct c star (d_cd 5 3 2)) as [o|] eqn:C; [|discriminate].
  destruct (optimize c e None n o) as [o1 [v1|]] eqn:E1; [|discriminate]. destruct (optimize c e' None n o) as [o2 [v2|]] eqn:E2; [|discriminate].
  exists o, o1, v1, o2, v2. split; [eapply Fresh_construct; eauto|]. auto.
Qed.
Lemma tol_runs : two_objs tol_c step_e (with_obj step_e (relabel step_phi (e_obj step_e))) 6
  (fun o1 o2 => Nat.eqb (length (o_pos_history o1)) 2 && Nat.eqb (length (o_pos_history o2)) 3) = true.
Proof. vm_compute. reflexivity. Qed.
Lemma tol_matters : exists P phi c e o o1 v1 o2 v2, order_on P phi /\ P finf /\ phi finf = finf /\ (forall t X cs, e_obj e t X = Ok cs -> Forall P cs) /\
  Fresh c o /\ optimize c e None 6 o = (o1, Ok v1) /\ optimize c (with_obj e (relabel phi (e_obj e))) None 6 o = (o2, Ok v2) /\
  length (o_pos_history o1) = 2 /\ length (o_pos_history o2) = 3.
Proof.
  destruct (two_objs_ex _ _ _ _ _ tol_runs) as (o & o1 & v1 & o2 & v2 & F & E1 & E2 & H). apply andb_prop in H. destruct H as [H1 H2].
  apply Nat.eqb_eq in H1. apply Nat.eqb_eq in H2.
  exists step_P, step_phi, tol_c, step_e, o, o1, v1, o2, v2. split; [exact step_order|]. split; [apply step_inf|]. split; [apply step_inf|].
  split; [exact step_costs|]. auto.
Qed.

(** *** Moves that leave the box, under every boundary strategy *)
Definition w_c (bh : string) : config :=
  {| c_kind := GlobalBest; c_n := 3; c_d := 2; c_options := [("c1", dec 5 10); ("c2", dec 3 10); ("w", dec 30 10)]; c_bounds := Some d_bounds;
     c_clamp := None; c_center := repeat fone 2; c_ftol := fninf; c_ftol_iter := 1; c_init := None; c_bh := bh; c_vh := "unmodified"; c_oh := [] |}.
Definition w_cd : create_draws := d_cd 0 3 2.
Definition bad_at (t i : nat) (b : bounds F64num) (o' : ostate) : bool :=
  match nth_error (o_pos_history o') t, nth_error (o_pos_history o') (S t), nth_error (o_velocity_history o') (S t) with
  | Some X, Some _, Some V =>
      match nth_error X i, nth_error V i with Some xr, Some vr => negb (good_b b (map2 fadd xr vr)) | _, _ => false end
  | _, _, _ => false
  end.
Lemma combine_nth_inv : forall A B (l : list A) (m : list B) p, In p (combine l m) -> exists j, nth_error l j = Some (fst p) /\ nth_error m j = Some (snd p).
Proof.
  induction l as [|a l IH]; intros [|b m] p H; try contradiction. destruct H as [<-|H]; [exists 0; auto|]. destruct (IH _ _ H) as (j & J). exists (S j). exact J.
Qed.
Lemma good_b_no : forall b r, length (b_lb b) = length (b_ub b) -> good_b b r = false -> ~ good b r.
Proof.
  intros b r L H [G1 G2]. apply not_true_iff_false in H. apply H. unfold good_b. apply andb_true_iff. split; apply forallb_forall; intros p I;
    apply combine_nth_inv in I; destruct I as (j & J1 & J2); apply negb_true_iff; apply not_true_iff_false; intros Q.
  - apply G1. destruct (nth_error_ex (b_ub b) j) as [u U]. { cbn [T F64num] in *. rewrite <- L. eapply nth_error_lt. exact J2. }
    exists j, (fst p), (snd p), u. split; auto. split; [split; auto|]. exact Q.
  - apply G2. destruct (nth_error_ex (b_lb b) j) as [l U]. { cbn [T F64num] in *. rewrite L. eapply nth_error_lt. exact J2. }
    exists j, (fst p), l, (snd p). split; auto. split; [split; auto|]. exact Q.
Qed.
Lemma w_runs : forallb (fun st => is_ok (d_run (w_c st) star w_cd run_e None 4) &&
    d_test false (d_run (w_c st) star w_cd run_e None 4) (fun o' _ _ => bad_at 2 1 d_bounds o'))
  ["nearest"; "reflective"; "shrink"; "random"; "intermediate"; "periodic"] = true.
Proof. vm_compute. reflexivity. Qed.
Lemma w_demo : forall st, In st ["nearest"; "reflective"; "shrink"; "random"; "intermediate"; "periodic"] ->
  exists c e o o' b v X X' V' xr vr, Fresh c o /\ c_kind c <> Binary /\ c_bounds c = Some b /\ c_bh c = st /\ optimize c e None 4 o = (o', Ok v) /\
    nth_error (o_pos_history o') (length (o_pos_history o) + 2) = Some X /\ nth_error (o_pos_history o') (length (o_pos_history o) + 3) = Some X' /\
    nth_error (o_velocity_history o') (length (o_velocity_history o) + 3) = Some V' /\ nth_error X 1 = Some xr /\ nth_error V' 1 = Some vr /\
    ~ good b (map2 fadd xr vr).
Proof.
  intros st I. pose proof (proj1 (forallb_forall _ _) w_runs st I) as Q. cbv beta in Q. apply andb_true_iff in Q. destruct Q as [Q1 Q2].
  destruct (d_run_test _ _ _ _ _ _ _ _ _ _ Q1 Q2) as (o & o' & cost & pos & C & F & T & E & H). unfold bad_at in H.
  destruct (nth_error (o_pos_history o') 2) as [X|] eqn:E1; [|discriminate].
  destruct (nth_error (o_pos_history o') 3) as [X'|] eqn:E2; [|discriminate]. destruct (nth_error (o_velocity_history o') 3) as [V|] eqn:E3; [|discriminate].
  destruct (nth_error X 1) as [xr|] eqn:Ex; [|discriminate]. destruct (nth_error V 1) as [vr|] eqn:Ev; [|discriminate].
  apply negb_true_iff in H. apply good_b_no in H; [|reflexivity].
  assert (K : o_pos_history o = [] /\ o_velocity_history o = []).
  { unfold construct in C. destruct (match c_kind _ with LocalBest | Binary => _ | _ => _ end); [|discriminate]. cbn [bind] in C.
    destruct (Nat.eqb _ 0); [discriminate|]. destruct (make_swarm _ _); [|discriminate]. cbn [bind] in C. injection C as <-. auto. }
  destruct K as [K1 K2]. exists (w_c st), run_e, o, o', d_bounds, (cost, pos), X, X', V, xr, vr. rewrite K1, K2.
  repeat match goal with |- _ /\ _ => split end; try assumption; try reflexivity; try discriminate.
Qed.
