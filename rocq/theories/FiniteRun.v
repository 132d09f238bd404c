(** No overflow and no NaN during a run (C59), and velocities without a clamp (C60). *)
From Coq Require Import String ZArith List Arith Bool Reals Lra Lia.
From Flocq Require Import Core IEEE754.BinarySingleNaN.
From Verif Require Import Prelude ListFacts F64 F64Facts F64More Num Np NpFacts Handlers Swarms Operators Generators Topology Optimizers Spec SpecHandlers SpecDyn SpecTame
  HandlerFacts ShapeFacts BhFloat RunFacts PbestFacts GbestFacts RunInv BoxRun StartRun RunMain RunResults Entries Textbook Handled Tame.
Import ListNotations.
Local Open Scope string_scope.
Local Open Scope list_scope.
Local Open Scope nat_scope.

Definition in_col (b : bounds F64num) (j : nat) (x : f64) : Prop := exists l u, column b j l u /\ fle l x = true /\ fle x u = true.
Lemma column_fun : forall (b : bounds F64num) j l u l' u', column b j l u -> column b j l' u' -> l' = l /\ u' = u.
Proof.
  intros b j l u l' u' [A B] [A' B']. split; [pose proof (eq_trans (eq_sym A) A') as E|pose proof (eq_trans (eq_sym B) B') as E]; injection E; auto.
Qed.
Lemma inside_cols : forall n d b m, is_matrix n d m -> box_dim d b -> all_inside b m -> all_e (in_col b) m.
Proof.
  intros n d b m M [B1 B2] A i j x X. destruct (entry_lt n d _ _ _ _ M X) as [I J].
  destruct (nth_error_ex (b_lb b) j) as [l L]; [unfold row in *; cbn [T F64num] in *; lia|]. destruct (nth_error_ex (b_ub b) j) as [u U]; [unfold row in *; cbn [T F64num] in *; lia|].
  exists l, u. split; [split; auto|]. apply (A i j x l u X). split; auto.
Qed.
Lemma cols_inside : forall b m, all_e (in_col b) m -> all_inside b m.
Proof.
  intros b m A i j x l u X C. destruct (A i j x X) as (l' & u' & C' & H). destruct (column_fun _ _ _ _ _ _ C C') as [-> ->]. exact H.
Qed.

(** One boundary handler call on finite positions. *)
Lemma bounced_notnan : forall (l u : F64num) y x, bounced (N := F64num) l u y x -> ffinite (fmul ftwo l) = true -> ffinite (fmul ftwo u) = true -> fisnan y = false -> fisnan x = false.
Proof.
  intros l u y x H Fl Fu. 
  assert (S : forall a b : f64, ffinite a = true -> fisnan b = false -> fisnan (fsub a b) = false).
  { intros a b Fa Nb. destruct (ffinite b) eqn:Fb; [exact (is_round_notnan _ _ (fsub_round a b Fa Fb))|].
    destruct b as [|sb| |]; try discriminate. destruct a; try discriminate; reflexivity. }
  induction H; intros N; auto; apply IHbounced; apply S; auto.
Qed.
Lemma within_two : within 1 ftwo.
Proof. split; [reflexivity|]. rewrite ftwo_R. rewrite Rabs_pos_eq by lra. change (bpow radix2 1) with 2%R. lra. Qed.
Lemma mul_notnan : forall a b, ffinite a = true -> ffinite b = true -> fisnan (fmul a b) = false.
Proof. intros a b A B. exact (is_round_notnan _ _ (fmul_round a b A B)). Qed.
Lemma add_notnan : forall a b, fisnan a = false -> ffinite b = true -> fisnan (fadd a b) = false.
Proof.
  intros a b A B. destruct (ffinite a) eqn:Fa; [exact (is_round_notnan _ _ (fadd_round a b Fa B))|].
  destruct a as [|sa| |]; try discriminate. destruct b; try discriminate; reflexivity.
Qed.
Lemma handled_notnan : forall st draws t (b : bounds F64num) m y x d j l u yj xj, handled (N := F64num) st (draws t) b m y x -> box_dim d b -> length y = d ->
  box_strategy d b st draws -> (st = "periodic" -> flt l u = true) ->
  column b j l u -> within 1022 l -> within 1022 u -> fle l u = true -> within 1021 yj ->
  (st = "intermediate" -> exists mj, nth_error m j = Some mj /\ ffinite mj = true) ->
  nth_error y j = Some yj -> nth_error x j = Some xj -> fisnan xj = false.
Proof.
  intros st draws t b m y x d j l u yj xj (L & G & H1 & H2 & H3 & H4 & H5 & H6) B Ly S PL C Wl Wu LU Wy MI Y X.
  assert (Ny : fisnan yj = false) by (apply finite_notnan; apply Wy).
  assert (Nl : fisnan l = false) by (apply finite_notnan; apply Wl). assert (Nu : fisnan u = false) by (apply finite_notnan; apply Wu).
  destruct S as [->|[->|[[-> W]|[[-> [W U]]|[-> D]]]]].
  - destruct (H1 eq_refl j l u yj C Y) as (x' & X' & P1 & P2 & P3). pose proof (eq_trans (eq_sym X) X') as E. injection E as ->.
    cbn [nlt F64num] in *. destruct (flt u yj) eqn:Q; [rewrite P3; auto|]. destruct (flt yj l) eqn:Q'; [rewrite P2|rewrite P1]; auto.
  - destruct (H3 eq_refl j l u yj C Y) as (x' & X' & P). pose proof (eq_trans (eq_sym X) X') as E. injection E as ->.
    assert (O : flt u l = false) by forder. specialize (P O). apply (bounced_notnan l u yj x' P); auto.
    + apply (within_fmul 1 1022 ftwo l); auto using within_two. lia.
    + apply (within_fmul 1 1022 ftwo u); auto using within_two. lia.
  - destruct (H2 eq_refl j l u yj C Y) as (x' & X' & P1 & P2 & P3). pose proof (eq_trans (eq_sym X) X') as E. injection E as ->.
    assert (PE : x' = periodic_el (N := F64num) yj l u).
    { unfold periodic_el, lower, greater. cbn [nlt F64num] in *. destruct (flt yj l) eqn:Q, (flt u yj) eqn:Q'; auto. exfalso. clear -Q Q' LU. forder. }
    destruct (periodic_inside yj l u) as [I1 I2]; try apply Wl; try apply Wu; try apply Wy; auto.
    + exact (W j l u C).
    + intros _. apply (within_fsub 1022); auto; [lia|apply (within_le 1021); [lia|auto]].
    + intros _. apply (within_fsub 1022); auto; [lia|apply (within_le 1021); [lia|auto]].
    + rewrite PE. apply (fle_notnan_r _ _ I1).
  - assert (RS : forall r, unit_draws d r -> resampled (N := F64num) b r x -> fisnan xj = false).
    { intros r [UL UR] R. destruct (nth_error_ex r j) as [rj RJ]. { apply nth_error_lt in Y. lia. }
      pose proof (eq_trans (eq_sym X) (R j l u rj C RJ)) as E. injection E as ->. destruct (UR j rj RJ) as [A1 A2].
      destruct (unit_draw rj A1 A2) as [Fr _]. apply add_notnan; [|apply Wl]. apply mul_notnan; auto. exact (W j l u C). }
    destruct (H6 eq_refl) as [R1 R2]. destruct (U t) as [U1 U2].
    destruct (row_lower (N := F64num) y b) eqn:RL. { apply (row_lower_spec d) in RL; auto. exact (RS _ U2 (R1 RL)). }
    apply (row_lower_false d) in RL; auto. destruct (row_greater (N := F64num) y b) eqn:RG.
    { apply (row_greater_spec d) in RG; auto. exact (RS _ U1 (R2 RL RG)). }
    apply (row_greater_false d) in RG; auto. rewrite (G (conj RL RG)) in X. pose proof (eq_trans (eq_sym X) Y) as E. injection E as ->. exact Ny.
  - destruct (MI eq_refl) as (mj & M & Fm). destruct (H4 eq_refl j l u mj yj C M Y) as (x' & X' & P1 & P2 & P3). pose proof (eq_trans (eq_sym X) X') as E. injection E as ->.
    assert (HF : forall z, ffinite z = true -> fisnan (fmul (fdec 1 2) (fadd mj z)) = false).
    { intros z Fz. pose proof (is_round_notnan _ _ (fadd_round mj z Fm Fz)) as N. destruct (ffinite (fadd mj z)) eqn:F; [apply mul_notnan; auto; reflexivity|].
      destruct (fadd mj z) as [|sz| |]; try discriminate; reflexivity. }
    cbn [nlt nmul nadd ndec F64num] in *. destruct (flt u yj) eqn:Q; [rewrite (P3 eq_refl); apply HF, Wu|].
    destruct (flt yj l) eqn:Q'; [rewrite (P2 eq_refl eq_refl); apply HF, Wl|rewrite (P1 eq_refl eq_refl); auto].
Qed.
Definition Mem (c : config) (n d : nat) (p : fmatrix) (bm : option fmatrix) : Prop :=
  is_matrix n d p /\ (c_bh c = "shrink" \/ c_bh c = "intermediate" -> bm = Some p).
Lemma small_finite : forall k b, small_box k b -> finite_box b.
Proof. intros k b H j l u C. destruct (H j l u C) as ((A & _) & (B & _) & L). auto. Qed.
Lemma in_col_within : forall k b j x, small_box k b -> in_col b j x -> within k x.
Proof. intros k b j x S (l & u & C & A & B). destruct (S j l u C) as (Wl & Wu & _). exact (within_between k l x u Wl Wu A B). Qed.
Lemma position_step : forall c (draws : nat -> bh_draws F64num) t (s : fswarm) mem p bm b n d,
  compute_position (N := F64num) (draws t) (c_bh c) mem s (Some b) = Ok (p, bm) -> box_dim d b -> small_box 1020 b ->
  box_strategy d b (c_bh c) draws -> (c_bh c = "periodic" -> forall j l u, column b j l u -> flt l u = true) ->
  all_e (in_col b) (s_position s) -> Mem c n d (s_position s) mem -> all_e (fun _ => within 1020) (s_velocity s) ->
  all_e (in_col b) p /\ Mem c n d p bm.
Proof.
  intros c draws t s mem p bm b n d H Bd SB S PL IN [M MM] V. pose proof (small_finite _ _ SB) as FB.
  unfold compute_position in H. destruct (same_shape (s_position s) (s_velocity s)) eqn:SS; cbn [negb] in H; [|discriminate].
  assert (MT := moved_matrix n d s M SS).
  destruct (bh_none_outside (c_bh c) n d draws t mem b _ p bm S MT Bd FB) as (P1 & P2 & P3); [|exact H|].
  { intros I. exists (s_position s). split; [apply MM; auto|]. split; auto. apply inside_not_outside. apply cols_inside. exact IN. }
  split; [|split; [exact P1|intros Q; exact (bh_memory (N := F64num) _ _ _ _ _ _ _ H Q)]].
  intros i j x X. destruct (entry_row _ _ _ _ X) as (r & R & Rj). destruct (entry_lt n d _ _ _ _ P1 X) as [I J].
  destruct (entry_in n d _ i j M I J) as [x0 X0]. destruct (entry_row _ _ _ _ X0) as (r0 & R0 & Rj0).
  pose proof (same_shape_is_matrix n d _ _ SS M) as Mv. destruct (entry_in n d _ i j Mv I J) as [v0 V0]. destruct (entry_row _ _ _ _ V0) as (rv & RV & Rjv).
  pose proof (nth_map2_some (map2 fadd) _ _ _ _ _ R0 RV) as ME.
  destruct (bh_handled (N := F64num) fmin_ok fcross _ _ _ _ _ _ _ i _ r0 H ME) as (r' & R' & HD). { intros Q. exists (s_position s). split; auto. }
  pose proof (eq_trans (eq_sym R) R') as E. injection E as <-.
  destruct (IN i j x0 X0) as (l & u & C & A1 & A2). destruct (SB j l u C) as (Wl & Wu & LU).
  exists l, u. split; auto. destruct (P2 i j x l u X C) as [O1 O2].
  assert (W0 : within 1020 x0) by exact (within_between 1020 l x0 u Wl Wu A1 A2).
  assert (N : fisnan x = false).
  { apply (handled_notnan (c_bh c) draws t b r0 _ r d j l u (fadd x0 v0) x HD Bd); auto.
    - rewrite map2_length. pose proof (is_matrix_nth _ _ _ _ _ M R0). pose proof (is_matrix_nth _ _ _ _ _ Mv RV). ftypes. lia.
    - intros Q. exact (PL Q j l u C).
    - apply (within_le 1020); auto. lia.
    - apply (within_le 1020); auto. lia.
    - apply (within_fadd 1020); auto; [lia|]. exact (V i j v0 V0).
    - intros _. exists x0. split; auto. apply W0.
    - apply nth_map2_some; auto. }
  assert (fisnan l = false) by (apply finite_notnan, Wl). assert (fisnan u = false) by (apply finite_notnan, Wu).
  split; forder.
Qed.
Lemma updated_parts : forall c e iters t o1 o2 opts v vm p bm, c_kind c <> Binary -> Updated c e iters t o1 o2 opts v vm p bm ->
  compute_velocity (e_vel e t) (c_vh c) (o_vmem o1) (set_options (o_swarm o1) opts) (c_clamp c) (c_bounds c) = Ok (v, vm) /\
  compute_position (e_bh e t) (c_bh c) (o_bmem o1) (set_velocity (set_options (o_swarm o1) opts) v) (c_bounds c) = Ok (p, bm).
Proof. intros c e iters t o1 o2 opts v vm p bm K (U & _). destruct (c_kind c); try congruence; destruct U as (_ & A & B); auto. Qed.
(** Every entry of the new velocities comes from the equation of motion. *)
Lemma velocity_step : forall c e iters t o1 o2 opts v' vm p' bm (P : nat -> f64 -> Prop) (V V' : nat -> f64 -> Prop), c_kind c <> Binary -> c_vh c = "unmodified" -> NoDup (dkeys (c_options c)) ->
  Updated c e iters t o1 o2 opts v' vm p' bm -> all_e P (s_position (o_swarm o1)) -> all_e V (s_velocity (o_swarm o1)) -> all_e P (s_pbest_pos (o_swarm o1)) ->
  best_e P (s_best_pos (o_swarm o1)) -> unit_velocity_draws e ->
  (forall j w c1 c2 r1 r2 x v p g v1, coefficient c e iters t "w" w -> coefficient c e iters t "c1" c1 -> coefficient c e iters t "c2" c2 ->
     fle fzero r1 = true -> flt r1 fone = true -> fle fzero r2 = true -> flt r2 fone = true -> P j x -> V j v -> P j p -> P j g ->
     clamped (c_clamp c) j (fadd (fadd (fmul w v) (fmul (fmul c1 r1) (fsub p x))) (fmul (fmul c2 r2) (fsub g x))) v1 -> V' j v1) ->
  all_e V' v'.
Proof.
  intros c e iters t o1 o2 opts v' vm p' bm P V V' K VH ND U A1 A2 A3 A4 UD H i j y Y.
  destruct (updated_parts _ _ _ _ _ _ _ _ _ _ _ K U) as [U1 U2].
  pose proof (compute_velocity_shape _ _ _ _ _ _ _ _ U1) as SV. cbn [s_position set_options] in SV.
  destruct (compute_velocity_inv _ _ _ _ _ _ _ _ _ U1) as (q1 & q2 & q3 & best & _ & _ & _ & _ & _ & _ & S3 & _). cbn [s_position s_velocity set_options] in S3.
  destruct (entry_row _ _ _ _ Y) as (ry & RY & RYj).
  assert (X : exists x, entry (s_position (o_swarm o1)) i j = Some x).
  { clear -SV RY RYj. unfold shape_eq in SV. unfold entry. revert i RY. induction SV as [|a b m m' L S IH]; intros [|i] RY; cbn in *; try discriminate.
    - injection RY as ->. apply nth_error_lt in RYj. apply nth_error_ex. lia.
    - eauto. }
  destruct X as [x X]. destruct (shape_entry _ _ _ _ _ _ _ S3 X) as [v V0].
  destruct (step_equation _ _ _ _ _ _ _ _ _ _ _ _ _ _ _ K VH ND U X V0) as (w & c1 & c2 & r1 & r2 & p & g & v1 & x1 & W & C1 & C2 & R1 & R2 & Pp & G & V1 & _ & CL & _).
  pose proof (eq_trans (eq_sym Y) V1) as E. injection E as ->.
  destruct (UD t i j r1 (or_introl R1)) as [B1 B2]. destruct (UD t i j r2 (or_intror R2)) as [B3 B4].
  eapply (H j w c1 c2 r1 r2 x v p g v1); eauto.
Qed.

Definition in_clamp (cl : clamp_t F64num) (j : nat) (x : f64) : Prop := exists a b, clamp_column cl j a b /\ fle a x = true /\ fle x b = true.
Lemma clamp_column_fun : forall (cl : clamp_t F64num) j l u l' u', clamp_column cl j l u -> clamp_column cl j l' u' -> l' = l /\ u' = u.
Proof.
  intros b j l u l' u' [A B] [A' B']. split; [pose proof (eq_trans (eq_sym A) A') as E|pose proof (eq_trans (eq_sym B) B') as E]; injection E; auto.
Qed.
Lemma fresh_start : forall c o (P V : nat -> nat -> f64 -> Prop) (J : fmatrix -> option fmatrix -> Prop), Fresh c o -> c_kind c <> Binary ->
  all_e (P 0) (s_position (o_swarm o)) -> all_e (V 0) (s_velocity (o_swarm o)) -> J (s_position (o_swarm o)) (Some (s_position (o_swarm o))) ->
  EInv P V J 0 (started c o).
Proof.
  intros c o P V J F K A B D. destruct (Fresh_inv _ _ F) as (dim & pos & vel & S & _).
  destruct (started_facts c o) as (_ & _ & _ & _ & _ & _ & E7 & _ & E9).
  constructor; rewrite ?E7, ?E9; cbn.
  - exact A.
  - exact B.
  - rewrite S in A |- *. exact A.
  - rewrite S. intros i j x X. discriminate.
  - destruct (c_kind c); try congruence; exact D.
Qed.
Lemma in_clamp_small : forall k cl j x, small_clamp k cl -> in_clamp cl j x -> within k x.
Proof. intros k cl j x S (l & u & C & A & B). destruct (S j l u C) as (Wl & Wu & _). exact (within_between k l x u Wl Wu A B). Qed.
Lemma clamp_step : forall cl j raw v1 w, small_clamp w cl -> (exists a b, clamp_column cl j a b) -> fisnan raw = false -> clamped (Some cl) j raw v1 -> in_clamp cl j v1.
Proof.
  intros cl j raw v1 w S (a & b & C) N H. destruct (S j a b C) as (_ & _ & L). destruct (H a b C L) as (_ & _ & _ & _ & Q). exists a, b. split; auto.
Qed.
Lemma hist_all : forall P V o t o1, o_pos_history o = [] -> o_velocity_history o = [] -> EHist o (fun _ => P) (fun _ => V) t o1 ->
  Forall (all_e P) (o_pos_history o1) /\ Forall (all_e V) (o_velocity_history o1).
Proof.
  intros P V o t o1 P0 V0 (hp & hv & A & B & _ & _ & F & G). rewrite P0 in A. rewrite V0 in B. cbn in A, B. rewrite A, B.
  split; apply Forall_forall; intros X I; apply In_nth_error in I; destruct I as [k I]; eauto.
Qed.
Lemma returned_entries : forall P o' r cost pos, all_e P (s_pbest_pos (o_swarm o')) -> r = final_result o' -> r = Ok (cost, pos) -> forall j x, nth_error pos j = Some x -> P j x.
Proof.
  intros P o' r cost pos A R E j x X. rewrite R in E. destruct (final_result_inv _ _ _ E) as (_ & _ & k & _ & PK). exact (row_entries _ _ _ _ A PK j x X).
Qed.

(** C59 *)
Lemma clamped_finite : forall c e pool iters o o' r b cl, Fresh c o -> c_kind c <> Binary -> c_vh c = "unmodified" -> NoDup (dkeys (c_options c)) ->
  c_bounds c = Some b -> c_clamp c = Some cl -> box_dim (c_d c) b -> small_box 500 b -> small_clamp 500 cl ->
  box_strategy (c_d c) b (c_bh c) (e_bh e) -> (c_bh c = "periodic" -> forall j l u, column b j l u -> flt l u = true) ->
  small_coefficients 500 c e iters -> unit_velocity_draws e ->
  is_matrix (c_n c) (c_d c) (s_position (o_swarm o)) -> all_inside b (s_position (o_swarm o)) ->
  is_matrix (c_n c) (c_d c) (s_velocity (o_swarm o)) -> all_in_clamp cl (s_velocity (o_swarm o)) ->
  clamp_dim (c_d c) cl -> pool <> Some 0 ->
  optimize c e pool iters o = (o', r) ->
  Forall all_finite (o_pos_history o') /\ Forall all_finite (o_velocity_history o') /\
  Forall (all_inside b) (o_pos_history o') /\ Forall (all_in_clamp cl) (o_velocity_history o') /\
  forall cost pos, r = Ok (cost, pos) -> row_inside_box b pos.
Proof.
  intros c e pool iters o o' r b cl F K VH ND HB HC Bd SB SC S PL CO UD M A MV AV [L1 L2] NP E.
  destruct (Fresh_inv _ _ F) as (dim & pos & vel & _ & _ & _ & _ & P0 & V0).
  assert (CC : forall j, j < c_d c -> exists a b, clamp_column cl j a b).
  { intros j J. destruct (nth_error_ex (fst cl) j) as [x X]; [unfold row in *; cbn [T F64num] in *; lia|]. destruct (nth_error_ex (snd cl) j) as [y Y]; [unfold row in *; cbn [T F64num] in *; lia|]. exists x, y. split; auto. }
  assert (AV' : all_e (in_clamp cl) (s_velocity (o_swarm o))).
  { intros i j x X. destruct (entry_lt _ _ _ _ _ _ MV X) as [I J]. destruct (CC j J) as (a & z & C). exists a, z. split; auto. apply (AV i j x a z X C). }
  pose proof (inside_cols _ _ _ _ M Bd A) as A'.
  assert (CB : forall j x, in_col b j x -> exists a z, clamp_column cl j a z).
  { intros j x (l & u & [Cl Cu] & _). apply CC. apply nth_error_lt in Cl. destruct Bd as [D1 D2]. unfold row in *. cbn [T F64num] in *. lia. }
  destruct (entries_rule c e pool iters o (fun _ => in_col b) (fun _ => in_clamp cl) (Mem c (c_n c) (c_d c))) with (o' := o') (r := r) as (t & _ & EH & _ & EP & _); auto.
  - apply fresh_start; auto. split; auto.
  - intros t o1 o2 opts v vm p bm Ht [I1 I2 I3 I4 I5] U.
    assert (VV : all_e (in_clamp cl) v).
    { eapply (velocity_step c e iters t o1 o2 opts v vm p bm (in_col b) (in_clamp cl)); eauto.
      intros j w c1 c2 r1 r2 x v0 q g v1 W C1 C2 B1 B2 B3 B4 X V Q G CL. rewrite HC in CL.
      eapply clamp_step; [exact SC|exact (CB j x X)| |exact CL]. apply finite_notnan.
      apply raw_within; try (eapply in_col_within; eauto; fail); try (eapply in_clamp_small; eauto; fail); auto using within_unit.
      - apply (CO t "w" w); cbn; auto.
      - apply (CO t "c1" c1); cbn; auto.
      - apply (CO t "c2" c2); cbn; auto. }
    destruct (updated_parts _ _ _ _ _ _ _ _ _ _ _ K U) as [_ U2]. rewrite HB in U2.
    destruct (position_step c (e_bh e) t _ _ _ _ b (c_n c) (c_d c) U2 Bd) as [P1 P2]; auto.
    { intros j l u C. destruct (SB j l u C) as (W1 & W2 & W3). split; [|split; auto]; apply (within_le 500); auto; lia. }
    { intros i j x X. apply (within_le 500); [lia|]. eapply in_clamp_small; eauto. }
  - destruct (hist_all _ _ _ _ _ P0 V0 EH) as [H1 H2]. rewrite Forall_forall in H1, H2.
    split; [apply Forall_forall; intros X I i j x X0; eapply in_col_within; [exact SB|apply (H1 X I i j x X0)]|].
    split; [apply Forall_forall; intros X I i j x X0; eapply in_clamp_small; [exact SC|apply (H2 X I i j x X0)]|].
    split; [apply Forall_forall; intros X I; apply cols_inside; auto|].
    split. { apply Forall_forall. intros X I i j x a z X0 C. destruct (H2 X I i j x X0) as (a' & z' & C' & Q). destruct (clamp_column_fun _ _ _ _ _ _ C C') as [-> ->]. exact Q. }
    intros cost ps ->. destruct (optimize_ok _ _ _ _ _ _ _ E) as (FR0 & _). intros j x l u X C.
    destruct (returned_entries _ _ _ _ _ EP (eq_sym FR0) eq_refl j x X) as (l' & u' & C' & Q). destruct (column_fun _ _ _ _ _ _ C C') as [-> ->]. exact Q.
Qed.

Lemma clamp_dim_ex : forall d cl j, clamp_dim d cl -> j < d -> exists a b, clamp_column cl j a b.
Proof.
  intros d cl j [L1 L2] J. destruct (nth_error_ex (fst cl) j) as [x X]; [unfold row in *; cbn [T F64num] in *; lia|].
  destruct (nth_error_ex (snd cl) j) as [y Y]; [unfold row in *; cbn [T F64num] in *; lia|]. exists x, y. split; auto.
Qed.
Lemma clamp_cols : forall n d cl m, clamp_dim d cl -> is_matrix n d m -> all_in_clamp cl m -> all_e (in_clamp cl) m.
Proof.
  intros n d cl m L M A i j x X. destruct (entry_lt _ _ _ _ _ _ M X) as [I J]. destruct (clamp_dim_ex _ _ _ L J) as (a & z & C). exists a, z. split; auto. apply (A i j x a z X C).
Qed.
Lemma cols_clamp : forall cl m, all_e (in_clamp cl) m -> all_in_clamp cl m.
Proof. intros cl m H i j x a z X0 C. destruct (H i j x X0) as (a' & z' & C' & Q). destruct (clamp_column_fun _ _ _ _ _ _ C C') as [-> ->]. exact Q. Qed.

(** Every entry of the new positions is an old entry plus a velocity entry, without bounds. *)
Lemma position_free : forall c e iters t o1 o2 opts v' vm p' bm (P P' V : nat -> f64 -> Prop), c_kind c <> Binary -> c_bounds c = None ->
  Updated c e iters t o1 o2 opts v' vm p' bm -> all_e P (s_position (o_swarm o1)) -> all_e V v' ->
  (forall j x v, P j x -> V j v -> P' j (fadd x v)) -> all_e P' p' /\ shape_eq (s_position (o_swarm o1)) p'.
Proof.
  intros c e iters t o1 o2 opts v' vm p' bm P P' V K HB U A1 A2 H. destruct (updated_parts _ _ _ _ _ _ _ _ _ _ _ K U) as [_ U2].
  split; [|exact (compute_position_shape _ _ _ _ _ _ _ U2)].
  rewrite HB in U2. unfold compute_position in U2. cbn [s_position s_velocity set_velocity set_options] in U2.
  destruct (same_shape (s_position (o_swarm o1)) v'); cbn [negb] in U2; [|discriminate]. injection U2 as <- _.
  intros i j y Y. destruct (entry_row _ _ _ _ Y) as (r & R & Rj). destruct (nth_map2_inv _ _ _ _ _ R) as (a & b & RA & RB & ->).
  destruct (nth_map2_inv _ _ _ _ _ Rj) as (x & v & X & V0 & ->). apply H; [exact (A1 i j x (entry_of _ _ _ _ _ RA X))|exact (A2 i j v (entry_of _ _ _ _ _ RB V0))].
Qed.

(** C59 without bounds: the positions grow by at most one clamp interval per iteration. *)
Definition up_to (k m : Z) (x : f64) : Prop := ffinite x = true /\ (Rabs (FR x) <= IZR k * bpow radix2 m)%R.
Lemma up_to_within : forall k m x, (0 <= k <= 2 ^ 53)%Z -> up_to k m x -> within (53 + m) x.
Proof.
  intros k m x K [F A]. split; auto. rewrite bpow_plus. eapply Rle_trans; [exact A|]. apply Rmult_le_compat_r; [apply bpow_ge_0|].
  change (bpow radix2 53) with (IZR (2 ^ 53)). apply IZR_le. lia.
Qed.
Lemma up_to_add : forall k m x v, (0 <= k)%Z -> (k + 1 <= 2 ^ 53)%Z -> (-1074 <= m <= 400)%Z -> up_to k m x -> within m v -> up_to (k + 1) m (fadd x v).
Proof.
  intros k m x v K K' M [Fx Ax] [Fv Av]. apply (round_below _ _ (k + 1) m (fadd_round x v Fx Fv)); try lia.
  - rewrite plus_IZR. eapply Rle_trans; [apply Rabs_triang|]. lra.
  - apply Rle_lt_trans with (bpow radix2 (53 + m)); [|apply bpow_lt; unfold emax; lia].
    rewrite bpow_plus. apply Rmult_le_compat_r; [apply bpow_ge_0|]. change (bpow radix2 53) with (IZR (2 ^ 53)). apply IZR_le. lia.
Qed.
Lemma free_finite : forall c e pool iters o o' r cl m k, Fresh c o -> c_kind c <> Binary -> c_vh c = "unmodified" -> NoDup (dkeys (c_options c)) ->
  c_bounds c = None -> c_clamp c = Some cl -> clamp_dim (c_d c) cl -> small_clamp m cl -> (-1074 <= m <= 400)%Z ->
  small_coefficients 500 c e iters -> unit_velocity_draws e -> (0 <= k)%Z -> (k + Z.of_nat iters <= 2 ^ 53)%Z ->
  is_matrix (c_n c) (c_d c) (s_position (o_swarm o)) -> at_most k m (s_position (o_swarm o)) ->
  is_matrix (c_n c) (c_d c) (s_velocity (o_swarm o)) -> all_in_clamp cl (s_velocity (o_swarm o)) -> pool <> Some 0 ->
  optimize c e pool iters o = (o', r) ->
  (forall t X, nth_error (o_pos_history o') t = Some X -> at_most (k + Z.of_nat t) m X) /\
  Forall all_finite (o_velocity_history o') /\ Forall (all_in_clamp cl) (o_velocity_history o') /\
  forall cost pos, r = Ok (cost, pos) -> at_most (k + Z.of_nat iters) m [pos].
Proof.
  intros c e pool iters o o' r cl m k F K VH ND HB HC CD SC HM CO UD Hk HK M A MV AV NP E.
  destruct (Fresh_inv _ _ F) as (dim & pos & vel & _ & _ & _ & _ & P0 & V0).
  pose proof (clamp_cols _ _ _ _ CD MV AV) as AV'.
  destruct (entries_rule c e pool iters o (fun t j x => j < c_d c /\ up_to (k + Z.of_nat t) m x) (fun _ => in_clamp cl) (fun p _ => is_matrix (c_n c) (c_d c) p)) with (o' := o') (r := r) as (t & Ht & EH & _ & EP & _); auto.
  - intros t j x [J [Fx Ax]]. split; auto. split; auto. eapply Rle_trans; [exact Ax|]. apply Rmult_le_compat_r; [apply bpow_ge_0|]. apply IZR_le. lia.
  - apply fresh_start; auto. intros i j x X. split; [apply (entry_lt _ _ _ _ _ _ M X)|]. replace (k + Z.of_nat 0)%Z with k by lia. exact (A i j x X).
  - intros t o1 o2 opts v vm p bm Ht [I1 I2 I3 I4 I5] U.
    assert (PW : forall j x, j < c_d c /\ up_to (k + Z.of_nat t) m x -> within 500 x).
    { intros j x [_ Q]. apply (within_le (53 + m)); [lia|]. apply (up_to_within (k + Z.of_nat t)); auto. lia. }
    assert (VV : all_e (in_clamp cl) v).
    { eapply (velocity_step c e iters t o1 o2 opts v vm p bm (fun j x => j < c_d c /\ up_to (k + Z.of_nat t) m x) (in_clamp cl)); eauto.
      intros j w c1 c2 r1 r2 x v0 q g v1 W C1 C2 B1 B2 B3 B4 X V Q G CL. rewrite HC in CL.
      eapply clamp_step; [exact SC|exact (clamp_dim_ex _ _ _ CD (proj1 X))| |exact CL]. apply finite_notnan.
      apply raw_within; auto using within_unit; try (apply (PW j); assumption).
      - apply (CO t "w" w); cbn; auto.
      - apply (CO t "c1" c1); cbn; auto.
      - apply (CO t "c2" c2); cbn; auto.
      - apply (within_le m); [lia|]. eapply in_clamp_small; eauto. }
    destruct (position_free c e iters t o1 o2 opts v vm p bm _ (fun j x => j < c_d c /\ up_to (k + Z.of_nat (S t)) m x) _ K HB U I1 VV) as [Q1 Q2].
    { intros j x v0 [J X] V. split; auto. replace (k + Z.of_nat (S t))%Z with (k + Z.of_nat t + 1)%Z by lia. apply up_to_add; auto; try lia. eapply in_clamp_small; eauto. }
    split; auto. split; auto. exact (shape_eq_matrix _ _ _ _ Q2 I5).
  - destruct EH as (hp & hv & EA & EB & _ & _ & EF & EG). rewrite P0 in EA. rewrite V0 in EB. cbn in EA, EB. rewrite EA, EB.
    assert (HV : forall X, In X hv -> all_e (in_clamp cl) X). { intros X I. apply In_nth_error in I. destruct I as [q I]. eauto. }
    split. { intros q X X0 i j x Y. apply (EF q X X0 i j x Y). }
    split. { apply Forall_forall. intros X I i j x X0. eapply in_clamp_small; [exact SC|apply (HV X I i j x X0)]. }
    split. { apply Forall_forall. intros X I. apply cols_clamp. auto. }
    intros cost ps ->. destruct (optimize_ok _ _ _ _ _ _ _ E) as (FR0 & _). intros [|i] j x X; [|destruct i; discriminate].
    destruct (returned_entries _ _ _ _ _ EP (eq_sym FR0) eq_refl j x X) as (_ & Fx & Ax). split; auto. eapply Rle_trans; [exact Ax|]. apply Rmult_le_compat_r; [apply bpow_ge_0|]. apply IZR_le. lia.
Qed.

(** C60 *)
Lemma abs_dom : forall x X, ffinite X = true -> ffinite x = true /\ fle (fabs x) X = true <-> dom x X.
Proof.
  intros x X FX. assert (AB : ffinite x = true -> ffinite (fabs x) = true /\ FR (fabs x) = Rabs (FR x)).
  { intros Fx. split; [destruct x; auto|]. unfold FR, fabs. apply B2R_Babs. }
  split.
  - intros [Fx L]. destruct (AB Fx) as [Fa Ea]. split; auto. split; auto. rewrite <- Ea. apply (fle_fin _ _ Fa FX). exact L.
  - intros (Fx & _ & L). destruct (AB Fx) as [Fa Ea]. split; auto. apply (fle_fin _ _ Fa FX). rewrite Ea. exact L.
Qed.
Lemma unclamped_bounded : forall c e pool iters o o' r b W C1 C2 D V, Fresh c o -> c_kind c <> Binary -> c_vh c = "unmodified" -> NoDup (dkeys (c_options c)) ->
  c_bounds c = Some b -> c_clamp c = None -> box_dim (c_d c) b -> small_box 1020 b ->
  box_strategy (c_d c) b (c_bh c) (e_bh e) -> (c_bh c = "periodic" -> forall j l u, column b j l u -> flt l u = true) ->
  unit_velocity_draws e -> ffinite W = true -> ffinite C1 = true -> ffinite C2 = true -> ffinite D = true -> within 1020 V ->
  coefficients_below c e iters W C1 C2 -> (forall j l u, column b j l u -> fle (fsub u l) D = true) ->
  fle (fadd (fadd (fmul W V) (fmul C1 D)) (fmul C2 D)) V = true ->
  is_matrix (c_n c) (c_d c) (s_position (o_swarm o)) -> all_inside b (s_position (o_swarm o)) -> speed_below V (s_velocity (o_swarm o)) -> pool <> Some 0 ->
  optimize c e pool iters o = (o', r) ->
  Forall (speed_below V) (o_velocity_history o') /\ Forall all_finite (o_pos_history o') /\ Forall (all_inside b) (o_pos_history o') /\
  forall cost pos, r = Ok (cost, pos) -> row_inside_box b pos.
Proof.
  intros c e pool iters o o' r b W C1 C2 D V F K VH ND HB HC Bd SB S PL UD FW FC1 FC2 FD WV CB HD HV M A SV NP E.
  destruct (Fresh_inv _ _ F) as (dim & pos & vel & _ & _ & _ & _ & P0 & V0).
  pose proof (inside_cols _ _ _ _ M Bd A) as A'. assert (FV : ffinite V = true) by apply WV.
  assert (DW : forall x, dom x V -> within 1020 x). { intros x (Fx & _ & Ax). split; auto. destruct WV as [_ WV]. eapply Rle_trans; [exact Ax|]. eapply Rle_trans; [apply Rle_abs|exact WV]. }
  destruct (entries_rule c e pool iters o (fun _ => in_col b) (fun _ _ x => dom x V) (Mem c (c_n c) (c_d c))) with (o' := o') (r := r) as (t & _ & EH & _ & EP & _); auto.
  - apply fresh_start; auto; [|split; auto]. intros i j x X. apply (abs_dom x V FV). exact (SV i j x X).
  - intros t o1 o2 opts v vm p bm Ht [I1 I2 I3 I4 I5] U.
    assert (VV : all_e (fun _ x => dom x V) v).
    { eapply (velocity_step c e iters t o1 o2 opts v vm p bm (in_col b) (fun _ x => dom x V)); eauto.
      intros j w c1 c2 r1 r2 x v0 q g v1 HW H1 H2 B1 B2 B3 B4 X Hv Q G CL. rewrite HC in CL. cbn in CL. rewrite CL.
      destruct X as (l & u & C & X1 & X2).
      assert (Q' : fle l q = true /\ fle q u = true). { destruct Q as (l' & u' & C' & Q). destruct (column_fun _ _ _ _ _ _ C C') as [-> ->]. exact Q. }
      assert (G' : fle l g = true /\ fle g u = true). { destruct G as (l' & u' & C' & G). destruct (column_fun _ _ _ _ _ _ C C') as [-> ->]. exact G. }
      destruct Q' as [Q1 Q2]. destruct G' as [G1 G2]. destruct (SB j l u C) as (Wl & Wu & LU).
      eapply (raw_dom W C1 C2 D V w c1 c2 r1 r2 l u x v0 q g); auto.
      - apply (abs_dom w W FW). apply (CB t w). exact HW.
      - apply (abs_dom c1 C1 FC1). apply (CB t c1). exact H1.
      - apply (abs_dom c2 C2 FC2). apply (CB t c2). exact H2.
      - apply (within_fsub 1020 u l); auto. lia.
      - exact (HD j l u C).
      - apply Wl.
      - apply Wu. }
    destruct (updated_parts _ _ _ _ _ _ _ _ _ _ _ K U) as [_ U2]. rewrite HB in U2.
    destruct (position_step c (e_bh e) t _ _ _ _ b (c_n c) (c_d c) U2 Bd) as [P1 P2]; auto.
    { intros i j x X. apply DW. exact (VV i j x X). }
  - destruct (hist_all _ _ _ _ _ P0 V0 EH) as [H1 H2]. rewrite Forall_forall in H1, H2.
    split; [apply Forall_forall; intros X I i j x X0; apply (abs_dom x V FV); exact (H2 X I i j x X0)|].
    split; [apply Forall_forall; intros X I i j x X0; eapply in_col_within; [exact SB|apply (H1 X I i j x X0)]|].
    split; [apply Forall_forall; intros X I; apply cols_inside; auto|].
    intros cost ps ->. destruct (optimize_ok _ _ _ _ _ _ _ E) as (FR0 & _). intros j x l u X C.
    destruct (returned_entries _ _ _ _ _ EP (eq_sym FR0) eq_refl j x X) as (l' & u' & C' & Q). destruct (column_fun _ _ _ _ _ _ C C') as [-> ->]. exact Q.
Qed.
