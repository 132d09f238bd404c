(** Concrete cases for the run-level motion properties and the generators. *)
From Coq Require Import String ZArith List Arith Bool Reals Lra Lia.
From Verif Require Import Prelude F64 F64Facts F64More Num Np Handlers Swarms Operators Generators Topology Optimizers
  Spec SpecHandlers ListFacts HandlerFacts RunFacts RunMain GenFacts BoxRun VelRun NoopRun StartRun Demo ExamplesHandlers.
Import ListNotations.
Local Open Scope string_scope.
Local Open Scope list_scope.
Local Open Scope nat_scope.
#[local] Arguments fdec : simpl never.
#[local] Arguments fofZ : simpl never.

(** Readers of matrices by booleans. *)
Definition matrix_b (n d : nat) {A} (m : list (list A)) : bool :=
  Nat.eqb (length m) n && forallb (fun r => Nat.eqb (length r) d) m.
Lemma matrix_b_ok : forall n d A (m : list (list A)), matrix_b n d m = true -> is_matrix n d m.
Proof.
  unfold matrix_b. intros n d A m H. apply andb_prop in H. destruct H as [H1 H2]. apply Nat.eqb_eq in H1. split; auto.
  apply Forall_forall. intros r I. rewrite forallb_forall in H2. apply Nat.eqb_eq. auto.
Qed.
Lemma entry_all : forall A (P : A -> bool) (m : list (list A)) i j x, forallb (forallb P) m = true -> entry m i j = Some x -> P x = true.
Proof.
  intros A P m i j x H E. destruct (entry_row _ _ _ _ E) as (r & R & X). rewrite forallb_forall in H.
  specialize (H r (nth_error_In _ _ R)). rewrite forallb_forall in H. apply H. eapply nth_error_In; eauto.
Qed.
Lemma entry_col : forall A n d (m : list (list A)) i j x, is_matrix n d m -> entry m i j = Some x -> j < d.
Proof.
  intros A n d m i j x M E. destruct (entry_row _ _ _ _ E) as (r & R & X). apply nth_error_lt in X.
  rewrite (is_matrix_nth _ _ _ _ _ M R) in X. exact X.
Qed.
Definition unit_b (x : f64) : bool := fle fzero x && flt x fone.
Lemma unit_matrix_ok : forall n d m, matrix_b n d m = true -> forallb (forallb unit_b) m = true -> unit_matrix n d m.
Proof.
  intros n d m H1 H2. split; [apply matrix_b_ok; auto|]. intros i j x X. apply andb_prop. exact (entry_all _ unit_b m i j x H2 X).
Qed.

(** *** Runs *)
Definition m_options : options F64num := [("c1", PInt 2); ("c2", PInt 3); ("w", PInt 2)].
Definition m_c (bh vh : string) (cl : option (clamp_t F64num)) : config :=
  {| c_kind := GlobalBest; c_n := 3; c_d := 2; c_options := m_options; c_bounds := Some d_bounds; c_clamp := cl;
     c_center := repeat fone 2; c_ftol := fninf; c_ftol_iter := 1; c_init := None;
     c_bh := bh; c_vh := vh; c_oh := [] |}.
Definition m_clamp : clamp_t F64num := ([fdec (-1) 4; fdec (-1) 4], [fdec 1 4; fdec 1 4]).
Definition m_cd : create_draws := d_cd 10 3 2.

Lemma m_unit : unit_matrix 3 2 (cd_pos m_cd) /\ unit_matrix 3 2 (cd_vel m_cd).
Proof. split; apply unit_matrix_ok; vm_compute; reflexivity. Qed.

Definition m_e : env :=
  {| e_obj := d_obj; e_vel := e_vel run_e;
     e_bh := fun t => mkBhDraws (N := F64num) (repeat (d_draw t 1 1) 2) (repeat (d_draw t 2 1) 2) 64;
     e_oh := e_oh run_e; e_top := e_top run_e; e_bits := e_bits run_e; e_exp := e_exp run_e; e_tree := e_tree run_e |}.
(** A run read off with one boolean. *)
Lemma d_run_true : forall c top dr e pool iters (P : ostate -> bool),
  d_test false (d_run c top dr e pool iters) (fun o' _ _ => P o') = true ->
  exists o o' cost pos, construct c top dr = Ok o /\ optimize c e pool iters o = (o', Ok (cost, pos)) /\ P o' = true.
Proof.
  intros c top dr e pool iters P H. assert (K : is_ok (d_run c top dr e pool iters) = true).
  { destruct (d_run c top dr e pool iters); [reflexivity|discriminate]. }
  destruct (d_run_test bool false c top dr e pool iters (fun o' _ _ => P o') true K H) as (o & o' & cost & pos & C & _ & _ & E & Q).
  exists o, o', cost, pos. auto.
Qed.
Notation m_run bh vh cl := (d_run (m_c bh vh cl) star m_cd m_e None 4).

Lemma d_draw_unit : forall s i j, unit_b (d_draw s i j) = true.
Proof.
  intros s i j. unfold d_draw. assert (H : (i * 7 + j * 3 + s) mod 16 < 16) by (apply Nat.mod_upper_bound; discriminate).
  remember ((i * 7 + j * 3 + s) mod 16) as k eqn:Q. clear Q.
  do 16 (destruct k as [|k]; [vm_compute; reflexivity|]). lia.
Qed.
Lemma m_draws : forall i, unit_draws 2 (bd_greater (e_bh m_e i)) /\ unit_draws 2 (bd_lower (e_bh m_e i)).
Proof.
  intros i. cbn [m_e e_bh bd_greater bd_lower].
  pose proof (d_draw_unit i 1 1) as A. pose proof (d_draw_unit i 2 1) as B. unfold unit_b in A, B. apply andb_prop in A, B.
  split; (split; [reflexivity|]); intros j x X; apply nth_error_In, repeat_spec in X; rewrite X; auto.
Qed.
Lemma m_strategy : forall st, In st ["nearest"; "reflective"; "periodic"; "random"; "intermediate"] -> box_strategy 2 d_bounds st (e_bh m_e).
Proof.
  intros st [<-|[<-|[<-|[<-|[<-|[]]]]]]; unfold box_strategy.
  - auto.
  - auto.
  - right; right; left. split; auto. exact h_width.
  - right; right; right; left. split; auto. split; [exact h_width|exact m_draws].
  - right; right; right; right. split; auto. apply (h_columns (fun l u => ffinite (fadd l l) = true /\ ffinite (fadd u u) = true)). split; vm_compute; reflexivity.
Qed.

(** Some recorded position satisfies [P], read off a run. *)
Definition some_pos (P : f64 -> bool) (o : ostate) : bool := existsb (existsb (existsb P)) (o_pos_history o).
Definition some_vel (P : f64 -> bool) (o : ostate) : bool := existsb (existsb (existsb P)) (o_velocity_history o).
(** Without bounds the same swarm leaves the box; with them a coordinate is put on the bound. *)
Lemma box_runs_ok : forallb (fun st => is_ok (m_run st "unmodified" None)) ["nearest"; "reflective"; "periodic"; "random"; "intermediate"] = true.
Proof. vm_compute. reflexivity. Qed.
Lemma box_run_active : d_test false (m_run "nearest" "unmodified" None) (fun o' _ _ => some_pos (fun x => feq x (F 5)) o') = true.
Proof. vm_compute. reflexivity. Qed.
Lemma box_example : forall st, In st ["nearest"; "reflective"; "periodic"; "random"; "intermediate"] ->
  exists c top dr e o o' v, c_bh c = st /\ c_kind c = GlobalBest /\ c_bounds c = Some d_bounds /\ box_dim (c_d c) d_bounds /\ finite_box d_bounds /\
    box_strategy (c_d c) d_bounds (c_bh c) (e_bh e) /\
    (c_init c = None -> c_center c = repeat fone (c_d c) /\ unit_matrix (c_n c) (c_d c) (cd_pos dr)) /\
    (forall p, c_init c = Some p -> is_matrix (c_n c) (c_d c) p) /\
    construct c top dr = Ok o /\ optimize c e None 4 o = (o', Ok v).
Proof.
  intros st I. assert (O : is_ok (m_run st "unmodified" None) = true).
  { exact (proj1 (forallb_forall (fun st => is_ok (m_run st "unmodified" None)) _) box_runs_ok st I). }
  destruct (d_run_ok _ _ _ _ _ _ O) as (o & o' & v & C & E).
  exists (m_c st "unmodified" None), star, m_cd, m_e, o, o', v.
  split; [reflexivity|]. split; [reflexivity|]. split; [reflexivity|]. split; [exact h_box_dim|]. split; [exact h_finite_box|].
  split; [exact (m_strategy st I)|]. split. { intros _. split; [reflexivity|exact (proj1 m_unit)]. }
  split; [discriminate|]. split; assumption.
Qed.

Lemma m_run1 : d_test false (d_run (m_c "nearest" "unmodified" (Some m_clamp)) star m_cd m_e None 4) (fun o' _ _ => some_vel (fun x => feq x (fdec 1 4)) o') = true.
Proof. vm_compute. reflexivity. Qed.
Lemma m_run2 : d_test false (d_run (m_c "nearest" "zero" (Some m_clamp)) star m_cd m_e None 4) (fun o' _ _ => forallb (matrix_b 3 2) (o_velocity_history o') && some_vel (fun x => flt (fdec 1 4) x) o') = true.
Proof. vm_compute. reflexivity. Qed.
Lemma m_run3 : d_test false (d_run (m_c "nearest" "adjust" (Some m_clamp)) star m_cd m_e None 4) (fun o' _ _ => Nat.eqb (length (o_pos_history o')) 4) = true.
Proof. vm_compute. reflexivity. Qed.
Lemma m_run_invert : is_ok (d_run (m_c "nearest" "invert" (Some m_clamp)) star m_cd m_e None 4) = true.
Proof. vm_compute. reflexivity. Qed.
Lemma m_clamp_columns : forall j a b, clamp_column m_clamp j a b -> a = fdec (-1) 4 /\ b = fdec 1 4.
Proof.
  intros [|[|j]] a b [A B]; cbn [fst snd m_clamp nth_error] in A, B; try (injection A as <-; injection B as <-; auto).
  destruct j; discriminate.
Qed.
Lemma m_clamp_good : forall j a b, clamp_column m_clamp j a b ->
  ffinite a = true /\ ffinite b = true /\ fle a b = true /\ ffinite (fsub b a) = true.
Proof. intros j a b C. apply m_clamp_columns in C. destruct C as [-> ->]. repeat split; vm_compute; reflexivity. Qed.
Lemma m_clamp_zero : forall j a b, clamp_column m_clamp j a b -> fle a fzero = true /\ fle fzero b = true.
Proof. intros j a b C. apply m_clamp_columns in C. destruct C as [-> ->]. split; vm_compute; reflexivity. Qed.

Lemma clamp_example : exists o o' v, construct (m_c "nearest" "unmodified" (Some m_clamp)) star m_cd = Ok o /\
    unit_matrix 3 2 (cd_vel m_cd) /\ (forall j a b, clamp_column m_clamp j a b ->
    ffinite a = true /\ ffinite b = true /\ fle a b = true /\ ffinite (fsub b a) = true) /\
    optimize (m_c "nearest" "unmodified" (Some m_clamp)) m_e None 4 o = (o', Ok v) /\
    some_vel (fun x => feq x (fdec 1 4)) o' = true.
Proof.
  destruct (d_run_true (m_c "nearest" "unmodified" (Some m_clamp)) star m_cd m_e None 4 _ m_run1) as (o & o' & cost & pos & C & E & P).
  exists o, o', (cost, pos). split; auto. split; [exact (proj2 m_unit)|]. split; [exact m_clamp_good|]. auto.
Qed.

Lemma existsb3_entry : forall (P : f64 -> bool) h, existsb (existsb (existsb P)) h = true ->
  exists (m : list (list f64)) i j x, In m h /\ entry m i j = Some x /\ P x = true.
Proof.
  intros P h H. apply existsb_exists in H. destruct H as (m & I & H). apply existsb_exists in H. destruct H as (r & J & H).
  apply existsb_exists in H. destruct H as (x & K & H). apply In_nth_error in J, K. destruct J as [i J], K as [j K].
  exists m, i, j, x. split; auto. split; auto. eapply entry_of; eauto.
Qed.
(** With [zero] the recorded velocities leave the clamp. *)
Lemma zero_leaves_clamp : exists c top dr e o o' v cl, c_kind c = GlobalBest /\ c_vh c = "zero" /\ c_clamp c = Some cl /\
    (forall j a b, clamp_column cl j a b -> ffinite a = true /\ ffinite b = true /\ fle a b = true /\ ffinite (fsub b a) = true) /\
    unit_matrix (c_n c) (c_d c) (cd_vel dr) /\
    construct c top dr = Ok o /\ optimize c e None 4 o = (o', Ok v) /\ ~ Forall (within_clamp cl) (o_velocity_history o').
Proof.
  destruct (d_run_true (m_c "nearest" "zero" (Some m_clamp)) star m_cd m_e None 4 _ m_run2) as (o & o' & cost & pos & C & E & P).
  exists (m_c "nearest" "zero" (Some m_clamp)), star, m_cd, m_e, o, o', (cost, pos), m_clamp.
  split; [reflexivity|]. split; [reflexivity|]. split; [reflexivity|]. split; [exact m_clamp_good|]. split; [exact (proj2 m_unit)|].
  split; auto. split; auto. intros W. apply andb_prop in P. destruct P as [PM P].
  apply existsb3_entry in P. destruct P as (m & i & j & x & I & X & P). rewrite Forall_forall in W.
  rewrite forallb_forall in PM. pose proof (matrix_b_ok _ _ _ _ (PM m I)) as M.
  assert (J : j < 2). { exact (entry_col _ _ _ _ _ _ _ M X). }
  destruct (W m I i j x (fdec (-1) 4) (fdec 1 4) X) as [_ Q]. { destruct j as [|[|j]]; [split; reflexivity..|lia]. }
  pose proof (eq_trans (eq_sym P) Q). discriminate.
Qed.

(** A frozen run. *)
Lemma frozen_example : exists o o' v, construct (m_c "nearest" "adjust" (Some m_clamp)) star m_cd = Ok o /\
    (forall j a b, clamp_column m_clamp j a b -> fle a fzero = true /\ fle fzero b = true) /\
    box_dim 2 d_bounds /\ none_outside d_bounds (s_position (o_swarm o)) /\ is_matrix 3 2 (s_position (o_swarm o)) /\
    (forall i j x, entry (s_position (o_swarm o)) i j = Some x -> ffinite x = true) /\
    optimize (m_c "nearest" "adjust" (Some m_clamp)) m_e None 4 o = (o', Ok v) /\ length (o_pos_history o') = 4.
Proof.
  destruct (d_run_true (m_c "nearest" "adjust" (Some m_clamp)) star m_cd m_e None 4 _ m_run3) as (o & o' & cost & pos & C & E & P).
  apply Nat.eqb_eq in P. destruct (construct_inv _ _ _ _ C) as (s & MS & Eo & _).
  destruct (start_box (m_c "nearest" "adjust" (Some m_clamp)) m_cd s d_bounds) as [M A]; try reflexivity; auto.
  { discriminate. } { exact h_box_dim. } { exact h_finite_box. } { intros _. split; [reflexivity|exact (proj1 m_unit)]. } { discriminate. }
  assert (PS : o_swarm o = s) by (rewrite Eo; reflexivity). rewrite <- PS in M, A.
  exists o, o', (cost, pos). split; auto. split; [exact m_clamp_zero|]. split; [exact h_box_dim|].
  split; [apply inside_not_outside; auto|]. split; [exact M|]. split; auto.
  intros i j x X. destruct (column_ex 2 d_bounds j h_box_dim) as (l & u & Cc).
  { exact (entry_col _ _ _ _ _ _ _ M X). }
  destruct (h_finite_box j l u Cc) as (Fl & Fu & _). destruct (A i j x l u X Cc). apply (fle_between l x u); auto.
Qed.
(** [invert] on a swarm that stays in the box. *)
Lemma noop_example : exists o v, construct (m_c "nearest" "invert" (Some m_clamp)) star m_cd = Ok o /\
    none_outside d_bounds (s_position (o_swarm o)) /\ is_matrix 3 2 (s_position (o_swarm o)) /\
    snd (optimize (m_c "nearest" "invert" (Some m_clamp)) m_e None 4 o) = Ok v.
Proof.
  destruct (d_run_ok (m_c "nearest" "invert" (Some m_clamp)) star m_cd m_e None 4 m_run_invert) as (o & o' & v & C & E).
  destruct (construct_inv _ _ _ _ C) as (s & MS & Eo & _).
  destruct (start_box (m_c "nearest" "invert" (Some m_clamp)) m_cd s d_bounds) as [M A]; try reflexivity; auto.
  { discriminate. } { exact h_box_dim. } { exact h_finite_box. } { intros _. split; [reflexivity|exact (proj1 m_unit)]. } { discriminate. }
  assert (PS : o_swarm o = s) by (rewrite Eo; reflexivity). rewrite <- PS in M, A.
  exists o, v. split; auto. split; [apply inside_not_outside; auto|]. split; [exact M|]. rewrite E. reflexivity.
Qed.

(** *** Generators *)
(** With [center = 2] a generated position leaves the bounds. *)
Lemma center_leaves_box : exists n d (b : bounds F64num) center u m, box_dim d b /\ finite_box b /\ unit_matrix n d u /\ length center = d /\
    generate_swarm n d (Some b) center None u = Ok m /\ ~ all_inside b m.
Proof.
  set (g := generate_swarm 3 2 (Some d_bounds) [F 2; F 2] None (cd_pos m_cd)).
  assert (G : match g with Ok m => matrix_b 3 2 m && existsb (existsb (existsb (fun x => flt (F 5) x))) [m] | _ => false end = true)
    by (vm_compute; reflexivity).
  destruct g as [m|] eqn:E; [|discriminate]. exists 3, 2, d_bounds, [F 2; F 2], (cd_pos m_cd), m.
  split; [exact h_box_dim|]. split; [exact h_finite_box|]. split; [exact (proj1 m_unit)|]. split; [reflexivity|]. split; [exact E|].
  intros W. apply andb_prop in G. destruct G as [PM P]. apply existsb3_entry in P. destruct P as (m' & i & j & x & [<-|[]] & X & P).
  apply matrix_b_ok in PM.
  destruct (column_ex 2 d_bounds j h_box_dim) as (l & u & Cc).
  { exact (entry_col _ _ _ _ _ _ _ PM X). }
  destruct (W i j x l u X Cc) as [_ Q]. apply (h_columns (fun _ u => u = F 5) eq_refl) in Cc. rewrite Cc in Q. assert (P' : flt (F 5) x = false) by (clear P; forder). pose proof (eq_trans (eq_sym P) P'). discriminate.
Qed.
(** [[3;7]] counts as binary, [[3;7;9]] does not. *)
Lemma binary_init_examples :
  two_valued [[F 3; F 7]; [F 7; F 7]] /\ generate_discrete_swarm true (Some [[F 3; F 7]; [F 7; F 7]]) [] [] = Ok [[F 3; F 7]; [F 7; F 7]] /\
    ~ two_valued [[F 3; F 7]; [F 7; F 9]] /\ generate_discrete_swarm true (Some [[F 3; F 7]; [F 7; F 9]]) [] [] = Err ValueError.
Proof.
  assert (N1 : forall i j x, entry [[F 3; F 7]; [F 7; F 7]] i j = Some x -> fisnan x = false).
  { intros i j x X. apply negb_true_iff. apply (entry_all _ (fun x => negb (fisnan x)) [[F 3; F 7]; [F 7; F 7]] i j x); [vm_compute; reflexivity|exact X]. }
  assert (T : two_valued [[F 3; F 7]; [F 7; F 7]]).
  { exists (F 3), (F 7). intros i j x X. apply orb_true_iff.
    apply (entry_all _ (fun x => feq x (F 3) || feq x (F 7)) [[F 3; F 7]; [F 7; F 7]] i j x); [vm_compute; reflexivity|exact X]. }
  assert (U : ~ two_valued [[F 3; F 7]; [F 7; F 9]]).
  { intros (a & b & H). pose proof (H 0 0 (F 3) eq_refl) as A. pose proof (H 0 1 (F 7) eq_refl) as B. pose proof (H 1 1 (F 9) eq_refl) as D.
    assert (A1 : flt (F 3) (F 7) = true) by (vm_compute; reflexivity). assert (A2 : flt (F 7) (F 9) = true) by (vm_compute; reflexivity).
    clear H. set (x := F 3) in *. set (y := F 7) in *. set (z := F 9) in *. clearbody x y z.
    assert (Q : flt x y = false \/ flt y z = false \/ flt x z = false).
    { destruct A as [A|A], B as [B|B], D as [D|D]; first [left; forder | right; left; forder | right; right; forder]. }
    assert (A3 : flt x z = true) by forder. destruct Q as [Q|[Q|Q]]; congruence. }
  split; [exact T|]. split; [exact (proj1 (discrete_init [] [] _ N1) T)|]. split; [exact U|]. vm_compute. reflexivity.
Qed.
Lemma perm_example : match generate_discrete_swarm false None [] (d_mat 3 2 4) with
  | Ok m => feqm m [[F 0; F 1; F 2; F 3]; [F 2; F 3; F 0; F 1]] | _ => false end = true.
Proof. vm_compute. reflexivity. Qed.
