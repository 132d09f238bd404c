(** Concrete cases for the further run properties (C51, C62-C64). *)
From Coq Require Import String ZArith List Arith Bool Reals Permutation Lia.
From Verif Require Import Prelude ListFacts F64 F64Facts F64More Num Np Handlers Swarms Operators Generators Topology Optimizers
  Spec SpecHandlers SpecDyn SpecTame SpecRun HandlerFacts RunFacts RunMain StartRun Demo Examples ExamplesHandlers ExamplesMotion ExamplesOpts ExamplesDyn ExamplesTame.
Import ListNotations.
Local Open Scope string_scope.
Local Open Scope list_scope.
Local Open Scope nat_scope.
#[local] Arguments fdec : simpl never.
#[local] Arguments fofZ : simpl never.

(** *** A BinaryPSO run of four iterations in which both bit values occur *)
Lemma bin_ok : is_ok (d_run (b_config None) (topo Ring false) (d_cd 0 3 2) (b_env d_obj) None 4) = true.
Proof. vm_compute. reflexivity. Qed.
Lemma bin_moves : d_test false (d_run (b_config None) (topo Ring false) (d_cd 0 3 2) (b_env d_obj) None 4) (fun o' _ _ => moves_at 2 o') = true.
Proof. vm_compute. reflexivity. Qed.
Lemma binary_demo : exists c e o o' v X X', Fresh c o /\ t_kind (o_top o) = Ring /\ ~ int_option c "k" 1 /\ c_kind c = Binary /\ c_vh c = "unmodified" /\
  optimize c e None 4 o = (o', Ok v) /\ nth_error (o_pos_history o') 2 = Some X /\ nth_error (o_pos_history o') 3 = Some X' /\ moved X X' = true.
Proof.
  destruct (d_run_test _ _ _ _ _ _ _ _ _ _ bin_ok bin_moves) as (o & o' & cost & pos & C & F & T & E & H).
  destruct (moves_at_ex _ _ H) as (X & X' & E1 & E2 & M).
  exists (b_config None), (b_env d_obj), o, o', (cost, pos), X, X'. split; [exact F|]. split; [rewrite T; reflexivity|].
  split; [intros Q; discriminate|]. auto 10.
Qed.

(** *** A swarm which agrees in dimension 0 and moves in dimension 1 *)
Definition col_init : fmatrix := [[F 3; F 4]; [F 3; F 1]; [F 3; F 2]].
Definition col_c : config :=
  {| c_kind := GlobalBest; c_n := 3; c_d := 2; c_options := m_options; c_bounds := Some d_bounds; c_clamp := Some m_clamp;
     c_center := repeat fone 2; c_ftol := fninf; c_ftol_iter := 1; c_init := Some col_init;
     c_bh := "nearest"; c_vh := "unmodified"; c_oh := [] |}.
(** The draw 0.5 is the initial velocity 0. *)
Definition col_cd : create_draws := mkCd (d_mat 0 3 2) (cd_bits (d_cd 0 3 2)) [[fhalf; d_draw 3 0 0]; [fhalf; d_draw 5 0 0]; [fhalf; d_draw 9 0 0]].
Definition colb (m : fmatrix) (x : f64) : bool := forallb (fun r => match r with y :: _ => feq y x | [] => true end) m.
Lemma colb_ok : forall m x, colb m x = true -> column_all m 0 x.
Proof.
  intros m x H i y E. destruct (entry_row _ _ _ _ E) as (r & R & Y). unfold colb in H. rewrite forallb_forall in H. specialize (H r (nth_error_In _ _ R)).
  destruct r as [|z r]; [discriminate|]. cbn in Y. injection Y as ->. exact H.
Qed.
Lemma col_start : start_test col_c star col_cd (fun o => colb (s_position (o_swarm o)) (F 3) && colb (s_pbest_pos (o_swarm o)) (F 3) &&
  colb (s_velocity (o_swarm o)) fzero && match s_best_pos (o_swarm o) with BPEmpty => true | _ => false end) = true.
Proof. vm_compute. reflexivity. Qed.
Lemma col_ok : is_ok (d_run col_c star col_cd m_e None 4) = true.
Proof. vm_compute. reflexivity. Qed.
Lemma col_moves : d_test false (d_run col_c star col_cd m_e None 4) (fun o' _ _ => moves_at 2 o') = true.
Proof. vm_compute. reflexivity. Qed.
Lemma collapsed_demo : exists c e o o' v x0 X X', Fresh c o /\ c_kind c <> Binary /\ c_vh c = "unmodified" /\ NoDup (dkeys (c_options c)) /\
  ffinite x0 = true /\ unit_velocity_draws e /\ finite_coefficients c e 4 /\ holds_zero (c_clamp c) 0 /\ keeps c 0 x0 /\
  column_all (s_position (o_swarm o)) 0 x0 /\ column_all (s_pbest_pos (o_swarm o)) 0 x0 /\ best_column (s_best_pos (o_swarm o)) 0 x0 /\
  column_all (s_velocity (o_swarm o)) 0 fzero /\ optimize c e None 4 o = (o', Ok v) /\
  nth_error (o_pos_history o') 2 = Some X /\ nth_error (o_pos_history o') 3 = Some X' /\ moved X X' = true.
Proof.
  destruct (d_run_test _ _ _ _ _ _ _ _ _ _ col_ok col_moves) as (o & o' & cost & pos & C & F' & T & E & H).
  destruct (moves_at_ex _ _ H) as (X & X' & E1 & E2 & M).
  pose proof (start_true _ _ _ _ _ col_start C) as S. apply andb_prop in S. destruct S as [S S4]. apply andb_prop in S. destruct S as [S S3]. apply andb_prop in S. destruct S as [S1 S2].
  exists col_c, m_e, o, o', (cost, pos), (F 3), X, X'. split; [exact F'|]. split; [discriminate|]. split; [reflexivity|]. split; [exact u_keys|].
  split; [vm_compute; reflexivity|]. split; [exact u_draws|]. split.
  { intros t key v I [[_ (q & Q & ->)]|(s & Q & _)]; [|discriminate]. destruct I as [<-|[<-|[<-|[]]]]; cbn in Q; injection Q as <-; vm_compute; reflexivity. }
  split. { exists (fdec (-1) 4), (fdec 1 4). split; [split; reflexivity|]. split; vm_compute; reflexivity. }
  split. { split; [reflexivity|]. exists (F (-5)), (F 5). split; [split; reflexivity|]. split; vm_compute; reflexivity. }
  split; [apply colb_ok; exact S1|]. split; [apply colb_ok; exact S2|]. split.
  { intros i y Y. destruct (s_best_pos (o_swarm o)); discriminate. }
  split; [apply colb_ok; exact S3|]. auto 10.
Qed.

(** *** Two environments which differ everywhere the run does not look *)
Definition loc_e : env :=
  {| e_obj := f_other; e_vel := fun t => if Nat.ltb t 4 then e_vel run_e t else mkVd (N := F64num) [] [];
     e_bh := fun t => if Nat.ltb t 4 then e_bh run_e t else mkBhDraws (N := F64num) [] [] 0; e_oh := e_oh run_e; e_top := e_top run_e;
     e_bits := fun t => if Nat.ltb t 4 then e_bits run_e t else []; e_exp := e_exp run_e; e_tree := e_tree run_e |}.
Lemma local_demo : exists c e e' o o' v, Fresh c o /\ optimize c e None 4 o = (o', Ok v) /\ e_obj e 4 [] <> e_obj e' 4 [] /\ e_obj e 0 [] <> e_obj e' 0 [] /\
  e_vel e 4 <> e_vel e' 4 /\ (forall x, e_exp e x = e_exp e' x) /\ (forall m, e_tree e m = e_tree e' m) /\
  forall t X, nth_error (o_pos_history o') t = Some X -> same_iteration e e' None t X.
Proof.
  destruct (d_run_test _ _ _ _ _ _ _ _ _ _ star_run_ok f_lens) as (o & o' & cost & pos & C & F & T & E & H).
  apply andb_prop in H. destruct H as [H1 H2]. apply Nat.eqb_eq in H1. rewrite forallb_forall in H2.
  exists (run_c GlobalBest), run_e, loc_e, o, o', (cost, pos). split; [exact F|]. split; [exact E|]. split; [discriminate|]. split; [discriminate|].
  split. { intros Q. apply (f_equal (fun z => length (vd_u1 (N := F64num) z))) in Q. discriminate. }
  split; [reflexivity|]. split; [reflexivity|]. intros t X Q.
  pose proof (nth_error_In _ _ Q) as I. apply H2 in I. pose proof (nth_error_lt _ _ _ Q) as L. rewrite H1 in L.
  assert (LT : Nat.ltb t 4 = true) by (apply Nat.ltb_lt; lia). unfold same_iteration, loc_e. cbn [e_obj e_vel e_bh e_oh e_top e_bits same_answers].
  rewrite LT. split; [|auto 10]. unfold f_other. rewrite LT, I. reflexivity.
Qed.

(** *** Recorded means *)
Lemma mean_tree : proper_sum (e_tree run_e 3) 3.
Proof. cbn. apply Permutation_refl. Qed.
Lemma mean_fin : d_test false (d_run (run_c GlobalBest) star (d_cd 0 3 2) run_e None 4)
  (fun o' _ _ => Nat.eqb (length (o_mean_pbest_history o')) 4 && forallb (fun m => ffinite m) (o_mean_pbest_history o')) = true.
Proof. vm_compute. reflexivity. Qed.
Lemma mean_demo : exists c e o o' v, Fresh c o /\ optimize c e None 4 o = (o', Ok v) /\ length (s_position (o_swarm o)) = 3 /\ proper_sum (e_tree e 3) 3 /\
  length (o_mean_pbest_history o') = 4 /\ forall t m, nth_error (o_mean_pbest_history o') t = Some m -> ffinite m = true.
Proof.
  destruct (d_run_test _ _ _ _ _ _ _ _ _ _ star_run_ok mean_fin) as (o & o' & cost & pos & C & F & T & E & H).
  apply andb_prop in H. destruct H as [H1 H2]. apply Nat.eqb_eq in H1. rewrite forallb_forall in H2.
  exists (run_c GlobalBest), run_e, o, o', (cost, pos). split; [exact F|]. split; [exact E|]. split.
  - assert (S : start_test (run_c GlobalBest) star (d_cd 0 3 2) (fun o => Nat.eqb (length (s_position (o_swarm o))) 3) = true) by (vm_compute; reflexivity).
    apply Nat.eqb_eq. exact (start_true _ _ _ _ _ S C).
  - split; [exact mean_tree|]. split; [exact H1|]. intros t m Q. apply H2. eapply nth_error_In; eauto.
Qed.

(** *** Accepted and rejected arguments: a clamp for three dimensions *)
Definition clamp_c : config := d_config GlobalBest 3 2 (Some d_bounds) (Some ([F 0; F 0; F 0], [F 1; F 1; F 1])) "nearest" "unmodified".
Lemma accept_demo : accepts (run_c LocalBest) /\ ~ accepts clamp_c /\ forall k p i j x, c_init (run_c k) = Some p -> entry p i j = Some x -> fisnan x = false.
Proof.
  split; [|split; [intros (_ & _ & H & _); destruct (H _ eq_refl); discriminate|intros k p i j x Q; discriminate Q]].
  split; [intros _; split; discriminate|]. split; [cbn; auto|]. split; [intros cl Q; discriminate Q|]. split; [intros Q; discriminate Q|].
  split; [intros _ b p _ Q; discriminate Q|]. split; [|reflexivity]. intros _ b Q _. injection Q as <-. split; [split; reflexivity|].
  apply (h_columns (fun l u => ffinite (fsub u l) = true)). vm_compute. reflexivity.
Qed.
