(** Concrete cases for the properties about overflow. *)
From Coq Require Import String ZArith List Arith Bool Reals Lra Lia.
From Flocq Require Import Core IEEE754.BinarySingleNaN.
From Verif Require Import Prelude ListFacts F64 F64Facts F64More Num Np Handlers Swarms Operators Generators Topology Optimizers
  Spec SpecHandlers SpecDyn SpecTame HandlerFacts RunFacts RunMain StartRun Tame FiniteRun Demo Examples ExamplesHandlers ExamplesMotion ExamplesDyn.
Import ListNotations.
Local Open Scope string_scope.
Local Open Scope list_scope.
Local Open Scope nat_scope.
#[local] Arguments fdec : simpl never.
#[local] Arguments fofZ : simpl never.

Definition u_c (opts : options F64num) (b : option (bounds F64num)) (cl : option (clamp_t F64num)) (bh : string) : config :=
  {| c_kind := GlobalBest; c_n := 3; c_d := 2; c_options := opts; c_bounds := b; c_clamp := cl;
     c_center := repeat fone 2; c_ftol := fninf; c_ftol_iter := 1; c_init := None;
     c_bh := bh; c_vh := "unmodified"; c_oh := [] |}.
Lemma abs_within : forall x y k, ffinite x = true -> ffinite y = true -> fle (fabs x) y = true -> (FR y <= bpow radix2 k)%R -> within k x.
Proof.
  intros x y k Fx Fy L B. destruct (proj1 (abs_dom x y Fy) (conj Fx L)) as (_ & _ & A). split; auto. eapply Rle_trans; [exact A|exact B].
Qed.
Lemma eight : within 3 (F 8).
Proof.
  unfold F, fofZ. eapply within_round; [apply fofZe_round| |lia]. unfold F2R. cbn [Fnum Fexp]. change (bpow radix2 0) with 1%R. change (bpow radix2 3) with 8%R.
  rewrite Rabs_pos_eq; lra.
Qed.
Definition within_8b (x : f64) : bool := ffinite x && fle (fabs x) (F 8).
Lemma within_8 : forall x k, (3 <= k)%Z -> within_8b x = true -> within k x.
Proof.
  intros x k K H. apply andb_prop in H. destruct H as [H1 H2]. destruct eight as [F8 B8]. apply (abs_within x (F 8)); auto.
  eapply Rle_trans; [apply Rle_abs|]. eapply Rle_trans; [exact B8|]. apply bpow_le. exact K.
Qed.
(** The coefficients of a configuration without a schedule. *)
Lemma u_coefficients : forall opts b cl bh e iters t key v, coefficient (u_c opts b cl bh) e iters t key v -> exists q, dget opts key = Some q /\ v = pnum q.
Proof. intros opts b cl bh e iters t key v [[_ H]|(s & H & _)]; [exact H|discriminate]. Qed.
Lemma u_draws : unit_velocity_draws m_e.
Proof.
  assert (G : forall s n d i j r, entry (d_mat s n d) i j = Some r -> fle fzero r = true /\ flt r fone = true).
  { intros s n d i j r E. destruct (entry_row _ _ _ _ E) as (q & Q & R). unfold d_mat in Q. apply nth_error_In, in_map_iff in Q. destruct Q as (k & <- & _).
    apply nth_error_In, in_map_iff in R. destruct R as (l & <- & _). apply andb_prop. apply d_draw_unit. }
  intros t i j r [E|E]; eapply G; exact E.
Qed.
Lemma construct_fresh : forall c top dr o, construct c top dr = Ok o -> Fresh c o.
Proof. intros. eapply Fresh_construct; eauto. Qed.
Definition start_test (c : config) (top : topology) (dr : create_draws) (P : ostate -> bool) : bool :=
  match construct c top dr with Ok o => P o | Err _ => false end.
Lemma start_true : forall c top dr P o, start_test c top dr P = true -> construct c top dr = Ok o -> P o = true.
Proof. unfold start_test. intros c top dr P o H E. rewrite E in H. exact H. Qed.
Lemma u_box : small_box 500 d_bounds.
Proof.
  unfold small_box. apply (h_columns (fun l u => within 500 l /\ within 500 u /\ fle l u = true)).
  split; [apply within_8; [lia|vm_compute; reflexivity]|]. split; [apply within_8; [lia|vm_compute; reflexivity]|vm_compute; reflexivity].
Qed.
Lemma u_clamp_small : forall k, (3 <= k)%Z -> small_clamp k m_clamp.
Proof.
  intros k K j a b C. apply m_clamp_columns in C. destruct C as [-> ->].
  split; [apply within_8; [lia|vm_compute; reflexivity]|]. split; [apply within_8; [lia|vm_compute; reflexivity]|vm_compute; reflexivity].
Qed.
Lemma u_coef : forall b cl bh e iters, small_coefficients 500 (u_c m_options b cl bh) e iters.
Proof.
  intros b cl bh e iters t key v I H. apply u_coefficients in H. destruct H as (q & H & ->). apply within_8; [lia|].
  destruct I as [<-|[<-|[<-|[]]]]; cbn in H; injection H as <-; vm_compute; reflexivity.
Qed.
Lemma u_keys : NoDup (dkeys m_options).
Proof. repeat (constructor; [cbn; intuition discriminate|]). constructor. Qed.

Definition tame_strategies : list string := ["nearest"; "reflective"; "periodic"; "random"; "intermediate"].
Notation u_run1 st := (d_run (u_c m_options (Some d_bounds) (Some m_clamp) st) star m_cd m_e None 4).
Lemma u_runs_ok : forallb (fun st => is_ok (u_run1 st)) tame_strategies = true.
Proof. vm_compute. reflexivity. Qed.
Lemma clamped_example : forall st, In st tame_strategies -> exists c e o o' v b cl, Fresh c o /\ c_kind c <> Binary /\ c_vh c = "unmodified" /\ NoDup (dkeys (c_options c)) /\
  c_bounds c = Some b /\ c_clamp c = Some cl /\ box_dim (c_d c) b /\ small_box 500 b /\ small_clamp 500 cl /\
  c_bh c = st /\ box_strategy (c_d c) b (c_bh c) (e_bh e) /\ (c_bh c = "periodic" -> forall j l u, column b j l u -> flt l u = true) /\
  small_coefficients 500 c e 4 /\ unit_velocity_draws e /\
  is_matrix (c_n c) (c_d c) (s_position (o_swarm o)) /\ all_inside b (s_position (o_swarm o)) /\
  is_matrix (c_n c) (c_d c) (s_velocity (o_swarm o)) /\ all_in_clamp cl (s_velocity (o_swarm o)) /\
  clamp_dim (c_d c) cl /\ optimize c e None 4 o = (o', Ok v).
Proof.
  intros st I. assert (O : is_ok (u_run1 st) = true).
  { exact (proj1 (forallb_forall (fun st => is_ok (u_run1 st)) _) u_runs_ok st I). }
  destruct (d_run_ok _ _ _ _ _ _ O) as (o & o' & v & C & E).
  exists (u_c m_options (Some d_bounds) (Some m_clamp) st), m_e, o, o', v, d_bounds, m_clamp.
  pose proof (construct_fresh _ _ _ _ C) as F. destruct (construct_inv _ _ _ _ C) as (s & M & -> & _).
  destruct (start_box (u_c m_options (Some d_bounds) (Some m_clamp) st) m_cd s d_bounds) as [S1 S2]; [discriminate|reflexivity|exact h_box_dim|exact h_finite_box| | |exact M|].
  { intros _. split; [reflexivity|exact (proj1 m_unit)]. } { discriminate. }
  destruct (start_clamp (u_c m_options (Some d_bounds) (Some m_clamp) st) m_cd s m_clamp) as [S3 S4]; [discriminate|reflexivity|exact (proj2 m_unit)|exact m_clamp_good|exact M|].
  split; [exact F|]. split; [discriminate|]. split; [reflexivity|]. split; [exact u_keys|]. split; [reflexivity|]. split; [reflexivity|]. split; [exact h_box_dim|].
  split; [exact u_box|]. split; [apply u_clamp_small; lia|]. split; [reflexivity|]. split; [exact (m_strategy st I)|].
  split. { intros _. apply (h_columns (fun l u => flt l u = true)). vm_compute. reflexivity. }
  split; [apply u_coef|]. split; [exact u_draws|]. split; [exact S1|]. split; [exact S2|]. split; [exact S3|]. split; [exact S4|].
  split; [split; reflexivity|exact E].
Qed.

(** Without bounds: the swarm starts in the unit square and drifts. *)
Notation u_c2 := (u_c m_options None (Some m_clamp) "nearest").
Definition u_moved : ostate -> bool := some_pos (fun x => flt x fzero).
Lemma u_run2_ok : d_test false (d_run u_c2 star m_cd m_e None 8) (fun o' _ _ => u_moved o') = true.
Proof. vm_compute. reflexivity. Qed.
Lemma u_start2 : start_test u_c2 star m_cd (fun o => matrix_b 3 2 (s_position (o_swarm o)) && forallb (forallb within_8b) (s_position (o_swarm o))) = true.
Proof. vm_compute. reflexivity. Qed.
Lemma free_example : exists c e o o' v cl, Fresh c o /\ c_kind c <> Binary /\ c_vh c = "unmodified" /\ NoDup (dkeys (c_options c)) /\
  c_bounds c = None /\ c_clamp c = Some cl /\ clamp_dim (c_d c) cl /\ small_clamp 3 cl /\
  small_coefficients 500 c e 8 /\ unit_velocity_draws e /\
  is_matrix (c_n c) (c_d c) (s_position (o_swarm o)) /\ at_most 1 3 (s_position (o_swarm o)) /\
  is_matrix (c_n c) (c_d c) (s_velocity (o_swarm o)) /\ all_in_clamp cl (s_velocity (o_swarm o)) /\
  optimize c e None 8 o = (o', Ok v) /\ u_moved o' = true.
Proof.
  destruct (d_run_true u_c2 star m_cd m_e None 8 _ u_run2_ok) as (o & o' & cost & pos & C & E & P).
  exists u_c2, m_e, o, o', (cost, pos), m_clamp. pose proof (construct_fresh _ _ _ _ C) as F. pose proof (start_true _ _ _ _ _ u_start2 C) as S. cbn beta in S.
  apply andb_prop in S. destruct S as [S1 S2]. apply matrix_b_ok in S1.
  destruct (construct_inv _ _ _ _ C) as (s & M & -> & _).
  destruct (start_clamp u_c2 m_cd s m_clamp) as [S3 S4]; [discriminate|reflexivity|exact (proj2 m_unit)|exact m_clamp_good|exact M|].
  split; [exact F|]. split; [discriminate|]. split; [reflexivity|]. split; [exact u_keys|]. split; [reflexivity|]. split; [reflexivity|]. split; [split; reflexivity|].
  split; [apply u_clamp_small; lia|]. split; [apply u_coef|]. split; [exact u_draws|]. split; [exact S1|].
  split. { intros i j x X. pose proof (entry_all _ _ _ _ _ _ S2 X) as Q. apply (within_8 x 3) in Q; [|lia]. destruct Q as [Q1 Q2]. split; auto. rewrite Rmult_1_l. exact Q2. }
  split; [exact S3|]. split; [exact S4|]. split; [exact E|exact P].
Qed.

(** No clamp, inertia 1/2: velocities stay below 32. *)
Definition u_options : options F64num := [("c1", PFloat (N := F64num) (fdec 3 4)); ("c2", PFloat (N := F64num) (fdec 3 4)); ("w", PFloat (N := F64num) (fdec 1 2))].
Notation u_c3 st := (u_c u_options (Some d_bounds) None st).
Lemma u_runs3_ok : forallb (fun st => is_ok (d_run (u_c3 st) star m_cd m_e None 4)) tame_strategies = true.
Proof. vm_compute. reflexivity. Qed.
Lemma u_start3 : forallb (fun st => start_test (u_c3 st) star m_cd (fun o => forallb (forallb (fun x => ffinite x && fle (fabs x) (F 32))) (s_velocity (o_swarm o)))) tame_strategies = true.
Proof. vm_compute. reflexivity. Qed.
Lemma u_contract : fle (fadd (fadd (fmul (fdec 1 2) (F 32)) (fmul (fdec 3 4) (F 10))) (fmul (fdec 3 4) (F 10))) (F 32) = true.
Proof. vm_compute. reflexivity. Qed.
Lemma u_32 : within 1020 (F 32).
Proof.
  unfold F, fofZ. apply (within_le 5); [lia|]. eapply within_round; [apply fofZe_round| |lia]. unfold F2R. cbn [Fnum Fexp]. change (bpow radix2 0) with 1%R. change (bpow radix2 5) with 32%R.
  rewrite Rabs_pos_eq; lra.
Qed.
Lemma u_below : forall st e iters, coefficients_below (u_c3 st) e iters (fdec 1 2) (fdec 3 4) (fdec 3 4).
Proof.
  intros st e iters t v. split; [|split]; intros H; apply u_coefficients in H; destruct H as (q & H & ->); cbn in H; injection H as <-; split; vm_compute; reflexivity.
Qed.
Lemma unclamped_example : forall st, In st tame_strategies -> exists c e o o' v b W C1 C2 D V, Fresh c o /\ c_kind c <> Binary /\ c_vh c = "unmodified" /\ NoDup (dkeys (c_options c)) /\
  c_bounds c = Some b /\ c_clamp c = None /\ box_dim (c_d c) b /\ small_box 1020 b /\
  c_bh c = st /\ box_strategy (c_d c) b (c_bh c) (e_bh e) /\ (c_bh c = "periodic" -> forall j l u, column b j l u -> flt l u = true) /\
  unit_velocity_draws e /\ ffinite W = true /\ ffinite C1 = true /\ ffinite C2 = true /\ ffinite D = true /\ within 1020 V /\
  coefficients_below c e 4 W C1 C2 /\ (forall j l u, column b j l u -> fle (fsub u l) D = true) /\
  fle (fadd (fadd (fmul W V) (fmul C1 D)) (fmul C2 D)) V = true /\ flt fzero W = true /\ flt fzero C1 = true /\ flt fzero C2 = true /\
  is_matrix (c_n c) (c_d c) (s_position (o_swarm o)) /\ all_inside b (s_position (o_swarm o)) /\ speed_below V (s_velocity (o_swarm o)) /\
  optimize c e None 4 o = (o', Ok v).
Proof.
  intros st I. assert (O : is_ok (d_run (u_c3 st) star m_cd m_e None 4) = true).
  { exact (proj1 (forallb_forall (fun st => is_ok (d_run (u_c3 st) star m_cd m_e None 4)) _) u_runs3_ok st I). }
  pose proof (proj1 (forallb_forall _ _) u_start3 st I) as ST. cbn beta in ST.
  destruct (d_run_ok _ _ _ _ _ _ O) as (o & o' & v & C & E). pose proof (start_true _ _ _ _ _ ST C) as S0. cbn beta in S0.
  exists (u_c3 st), m_e, o, o', v, d_bounds, (fdec 1 2), (fdec 3 4), (fdec 3 4), (F 10), (F 32).
  pose proof (construct_fresh _ _ _ _ C) as F0. destruct (construct_inv _ _ _ _ C) as (s & M & -> & _).
  destruct (start_box (u_c3 st) m_cd s d_bounds) as [S1 S2]; [discriminate|reflexivity|exact h_box_dim|exact h_finite_box| | |exact M|].
  { intros _. split; [reflexivity|exact (proj1 m_unit)]. } { discriminate. }
  split; [exact F0|]. split; [discriminate|]. split; [reflexivity|]. split; [exact u_keys|]. split; [reflexivity|]. split; [reflexivity|]. split; [exact h_box_dim|].
  split. { intros j l u Q. destruct (u_box j l u Q) as (Q1 & Q2 & Q3). split; [|split; auto]; apply (within_le 500); auto; lia. }
  split; [reflexivity|]. split; [exact (m_strategy st I)|].
  split. { intros _. apply (h_columns (fun l u => flt l u = true)). vm_compute. reflexivity. }
  split; [exact u_draws|]. do 4 (split; [vm_compute; reflexivity|]). split; [exact u_32|]. split; [apply u_below|].
  split. { apply (h_columns (fun l u => fle (fsub u l) (F 10) = true)). vm_compute. reflexivity. }
  split; [exact u_contract|]. do 3 (split; [vm_compute; reflexivity|]). split; [exact S1|]. split; [exact S2|].
  split; [|exact E]. intros i j x X. apply andb_prop. exact (entry_all _ _ _ _ _ _ S0 X).
Qed.

(** Without clamp and bounds a large inertia makes positions overflow and then turn into NaN. *)
Definition u_wild : options F64num := [("c1", PInt 2); ("c2", PInt 3); ("w", PInt (2 ^ 600))].
Lemma u_run4 : d_test false (d_run (u_c u_wild None None "nearest") star m_cd m_e None 6) (fun o' _ _ => some_pos fisnan o') = true.
Proof. vm_compute. reflexivity. Qed.
Lemma nan_example : exists c e o o' v X i j x, Fresh c o /\ c_kind c = GlobalBest /\ c_vh c = "unmodified" /\ c_bounds c = None /\ c_clamp c = None /\
  (forall t key w, In key ["w"; "c1"; "c2"] -> coefficient c e 6 t key w -> ffinite w = true) /\ unit_velocity_draws e /\
  optimize c e None 6 o = (o', Ok v) /\ In X (o_pos_history o') /\ entry X i j = Some x /\ fisnan x = true.
Proof.
  destruct (d_run_true (u_c u_wild None None "nearest") star m_cd m_e None 6 _ u_run4) as (o & o' & cost & pos & C & E & P).
  apply existsb3_entry in P. destruct P as (X & i & j & x & H1 & H2 & H3).
  exists (u_c u_wild None None "nearest"), m_e, o, o', (cost, pos), X, i, j, x. pose proof (construct_fresh _ _ _ _ C) as F.
  split; [exact F|]. split; [reflexivity|]. split; [reflexivity|]. split; [reflexivity|]. split; [reflexivity|].
  split. { intros t key w I H. apply u_coefficients in H. destruct H as (q & H & ->). destruct I as [<-|[<-|[<-|[]]]]; cbn in H; injection H as <-; vm_compute; reflexivity. }
  split; [exact u_draws|]. auto.
Qed.

(** Velocities inside the clamp. *)
Definition inner_b (a b v : f64) : bool := flt a v && flt v b && ffinite v.
Definition inner_at (t : nat) (a b : f64) (o' : ostate) : bool :=
  match nth_error (o_velocity_history o') t with Some V => matrix_b 3 2 V && existsb (existsb (inner_b a b)) V | None => false end.
Lemma inner_at_ex : forall t a b o', inner_at t a b o' = true -> exists V i j v, nth_error (o_velocity_history o') t = Some V /\ entry V i j = Some v /\ j < 2 /\
  flt a v = true /\ flt v b = true /\ ffinite v = true.
Proof.
  unfold inner_at. intros t a b o' H. destruct (nth_error (o_velocity_history o') t) as [V|]; [|discriminate].
  apply andb_prop in H. destruct H as [M H]. apply matrix_b_ok in M.
  apply existsb_exists in H. destruct H as (r & R & H). apply existsb_exists in H. destruct H as (v & I & H).
  apply In_nth_error in R, I. destruct R as [i R], I as [j I]. apply andb_prop in H. destruct H as [H H3]. apply andb_prop in H. destruct H as [H1 H2].
  exists V, i, j, v. split; auto. assert (X : entry V i j = Some v) by (eapply entry_of; eauto). split; auto.
  split; [exact (entry_col _ _ _ _ _ _ _ M X)|]. auto.
Qed.
Lemma u_run2_is_ok : is_ok (d_run u_c2 star m_cd m_e None 8) = true.
Proof. vm_compute. reflexivity. Qed.
Lemma u_inner2 : d_test false (d_run u_c2 star m_cd m_e None 8) (fun o' _ _ => inner_at 1 (fdec (-1) 4) (fdec 1 4) o') = true.
Proof. vm_compute. reflexivity. Qed.
Lemma star_accuracy_example : exists c e o o' v V i j v1, Fresh c o /\ t_kind (o_top o) = Star /\ c_kind c <> Binary /\ c_vh c = "unmodified" /\ NoDup (dkeys (c_options c)) /\
  c_bounds c = None /\ optimize c e None 8 o = (o', Ok v) /\ nth_error (o_velocity_history o') 1 = Some V /\ entry V i j = Some v1 /\
  ffinite v1 = true /\ c_clamp c <> None /\ unclipped (c_clamp c) j v1.
Proof.
  destruct (d_run_test _ _ _ _ _ _ _ _ _ _ u_run2_is_ok u_inner2) as (o & o' & cost & pos & _ & F & T & E & H).
  apply inner_at_ex in H. destruct H as (V & i & j & v1 & H1 & H2 & J & H3 & H4 & H5).
  exists u_c2, m_e, o, o', (cost, pos), V, i, j, v1. split; [exact F|]. split; [rewrite T; reflexivity|]. split; [discriminate|]. split; [reflexivity|]. split; [exact u_keys|].
  split; [reflexivity|]. split; [exact E|]. split; [exact H1|]. split; [exact H2|]. split; [exact H5|]. split; [discriminate|].
  destruct (clamp_dim_ex 2 m_clamp j) as (a & b & C); [split; reflexivity|exact J|]. exists a, b. split; [exact C|]. apply m_clamp_columns in C. destruct C as [-> ->].
  split; [vm_compute; reflexivity|]. auto.
Qed.
Lemma y_inner : d_test false (d_run (y_c LocalBest y_oh) (topo Ring false) (d_cd 0 3 2) run_e None 4) (fun o' _ _ => inner_at 3 (F (-1)) (F 1) o') = true.
Proof. vm_compute. reflexivity. Qed.
Lemma ring_accuracy_example : exists c e o o' v V i j v1, Fresh c o /\ t_kind (o_top o) = Ring /\ int_option c "k" 2 /\ c_kind c <> Binary /\ c_vh c = "unmodified" /\
  NoDup (dkeys (c_options c)) /\ optimize c e None 4 o = (o', Ok v) /\ nth_error (o_velocity_history o') 3 = Some V /\ entry V i j = Some v1 /\
  ffinite v1 = true /\ c_clamp c <> None /\ unclipped (c_clamp c) j v1.
Proof.
  destruct (d_run_test _ _ _ _ _ _ _ _ _ _ y_ring_ok y_inner) as (o & o' & cost & pos & _ & F0 & T & E & H).
  apply inner_at_ex in H. destruct H as (V & i & j & v1 & H1 & H2 & J & H3 & H4 & H5).
  exists (y_c LocalBest y_oh), run_e, o, o', (cost, pos), V, i, j, v1. split; [exact F0|]. split; [rewrite T; reflexivity|]. split; [reflexivity|]. split; [discriminate|]. split; [reflexivity|]. split; [exact y_keys|].
  split; [exact E|]. split; [exact H1|]. split; [exact H2|]. split; [exact H5|]. split; [discriminate|].
  exists (F (-1)), (F 1). split; [destruct j as [|[|j]]; [split; reflexivity|split; reflexivity|lia]|].
  split; [vm_compute; reflexivity|]. auto.
Qed.
