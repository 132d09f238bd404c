(** Whole calls of BinaryPSO follow its equations of motion. *)
From Coq Require Import String ZArith List Arith Bool Reals Lia.
From Verif Require Import Prelude ListFacts F64 F64Facts Num Np NpFacts Handlers Swarms Operators Generators Topology Optimizers
  Spec SpecHandlers SpecOpts SpecDyn RunFacts PbestFacts ShapeFacts HandlerFacts GbestFacts BhFloat BhClaims VhFacts VhClaims VelFacts OptFacts
  RunBest TopoFacts RunMain RunInv TopoGraphs RunClaims VelRun Trajectory TopoRun Textbook BinFacts.
Import ListNotations.
Local Open Scope string_scope.
Local Open Scope list_scope.
Local Open Scope nat_scope.
#[local] Arguments fdec : simpl never.
#[local] Arguments fofZ : simpl never.

Lemma binary_position_shape : forall ex u vel p, binary_position ex u vel = Ok p -> shape_eq vel p.
Proof.
  unfold binary_position. intros ex u vel p H. destruct (forallb _ vel) eqn:Q; [|discriminate]. injection H as <-.
  rewrite forallb_forall in Q. unfold shape_eq. clear -Q. induction vel as [|r vel IH]; cbn [map]; constructor.
  - rewrite map2_length. specialize (Q r (or_introl eq_refl)). apply Nat.eqb_eq in Q. ftypes. lia.
  - apply IH. intros x I. apply Q. right. exact I.
Qed.

(** One step. *)
Lemma binary_step : forall c e iters t o1 o2 opts v' vm p' bm i j x v, c_kind c = Binary -> c_vh c = "unmodified" ->
  s_options (o_swarm o1) = c_options c ->
  Updated c e iters t o1 o2 opts v' vm p' bm -> entry (s_position (o_swarm o1)) i j = Some x -> entry (s_velocity (o_swarm o1)) i j = Some v ->
  exists w c1 c2 r1 r2 p g v1 u, dget (c_options c) "w" = Some w /\ dget (c_options c) "c1" = Some c1 /\ dget (c_options c) "c2" = Some c2 /\
    entry (vd_u1 (e_vel e t)) i j = Some r1 /\ entry (vd_u2 (e_vel e t)) i j = Some r2 /\
    entry (s_pbest_pos (o_swarm o1)) i j = Some p /\ best_entry (s_best_pos (o_swarm o1)) i j = Some g /\
    entry v' i j = Some v1 /\ nth_error (e_bits e t) j = Some u /\
    clamped (c_clamp c) j (fadd (fadd (fmul (pnum w) v) (fmul (fmul (pnum c1) r1) (fsub p x))) (fmul (fmul (pnum c2) r2) (fsub g x))) v1 /\
    entry p' i j = Some (if flt u (fdiv fone (fadd fone (e_exp e (fopp v1)))) then fone else fzero).
Proof.
  intros c e iters t o1 o2 opts v' vm p' bm i j x v K VH OP U X V. destruct U as (U & _). rewrite K in U. destruct U as (U1 & U2 & U3 & _).
  rewrite OP in U1. subst opts.
  destruct (compute_velocity_inv _ _ _ _ _ _ _ _ _ U2) as (q1 & q2 & q3 & best & Q1 & Q2 & Q3 & BR & S1 & S2 & S3 & S4 & S5 & H).
  cbn [s_position s_velocity s_options set_options s_pbest_pos s_best_pos s_d] in *.
  destruct (shape_entry _ _ _ _ _ _ _ S1 X) as [p P]. destruct (shape_entry _ _ _ _ _ _ _ S2 X) as [g G].
  destruct (shape_entry _ _ _ _ _ _ _ S4 X) as [r1 R1]. destruct (shape_entry _ _ _ _ _ _ _ S5 X) as [r2 R2].
  pose proof (compute_velocity_shape _ _ _ _ _ _ _ _ U2) as SV. cbn [s_position set_options] in SV.
  destruct (shape_entry _ _ _ _ _ _ _ SV X) as [v1 V1].
  destruct (shape_entry _ _ _ _ _ _ _ (binary_position_shape _ _ _ _ U3) V1) as [x1 X1].
  destruct (binary_entry _ _ _ _ U3 _ _ _ X1) as (v1' & u & V1' & UJ & EX).
  pose proof (eq_trans (eq_sym V1') V1) as EV. injection EV as ->.
  exists q3, q1, q2, r1, r2, p, g, v1, u. split; [exact Q3|]. split; [exact Q1|]. split; [exact Q2|].
  split; [exact R1|]. split; [exact R2|]. split; [exact P|].
  split. { eapply best_rows_entry; [exact BR| |exact G]. destruct (entry_row _ _ _ _ X) as (r & R & _). apply nth_error_lt in R. exact R. }
  split; [exact V1|]. split; [exact UJ|]. split; [|exact (eq_trans X1 (f_equal Some EX))].
  pose proof (velocity_entry (N := F64num) (pnum q1) (pnum q2) (pnum q3) i j _ _ _ _ _ _ _ _ _ _ _ _ R1 R2 X V P G) as VE.
  rewrite VH, unmodified_eq in H. unfold clamped. destruct (c_clamp c) as [cl|]; cbn [maybe_clamp] in H.
  - intros a b CC LE. destruct (apply_clamp cl _) as [v2|] eqn:AC in H; [|discriminate]. injection H as -> _.
    destruct (clamped_entry _ _ _ _ _ _ _ _ AC VE CC LE) as (y & Y & CU). pose proof (eq_trans (eq_sym Y) V1) as EY. injection EY as ->. exact CU.
  - injection H as HV HM. rewrite HV in VE. pose proof (eq_trans (eq_sym VE) V1) as EY. injection EY as <-. reflexivity.
Qed.

Lemma binary_equations : forall c e pool iters o o' r, Fresh c o -> t_kind (o_top o) = Ring -> ~ int_option c "k" 1 ->
  c_kind c = Binary -> c_vh c = "unmodified" -> pool <> Some 0 -> optimize c e pool iters o = (o', r) ->
  exists C, logged e pool (o_pos_history o') C /\ length (o_velocity_history o') = length (o_pos_history o') /\
    (forall X V, nth_error (o_pos_history o') 0 = Some X -> nth_error (o_velocity_history o') 0 = Some V ->
       X = s_position (o_swarm o) /\ V = s_velocity (o_swarm o)) /\
    forall t X V X' V' i j x v, nth_error (o_pos_history o') t = Some X -> nth_error (o_velocity_history o') t = Some V ->
      nth_error (o_pos_history o') (S t) = Some X' -> nth_error (o_velocity_history o') (S t) = Some V' ->
      entry X i j = Some x -> entry V i j = Some v ->
      exists w c1 c2 r1 r2 x0 px py p rows row gx gy g v1 u,
        dget (c_options c) "w" = Some w /\ dget (c_options c) "c1" = Some c1 /\ dget (c_options c) "c2" = Some c2 /\
        entry (vd_u1 (e_vel e t)) i j = Some r1 /\ entry (vd_u2 (e_vel e t)) i j = Some r2 /\ nth_error (e_bits e t) j = Some u /\
        nth_error (s_position (o_swarm o)) i = Some x0 /\
        best_of_run (so_far t (o_pos_history o')) (so_far t C) i x0 px py /\ nth_error px j = Some p /\
        neighbour_lists c e o (o_pos_history o') t rows /\ nth_error rows i = Some row /\
        neighbour_best (so_far t (o_pos_history o')) (so_far t C) (s_position (o_swarm o)) row gx gy /\ nth_error gx j = Some g /\
        entry V' i j = Some v1 /\
        clamped (c_clamp c) j (fadd (fadd (fmul (pnum w) v) (fmul (fmul (pnum c1) r1) (fsub p x))) (fmul (fmul (pnum c2) r2) (fsub g x))) v1 /\
        entry X' i j = Some (if flt u (fdiv fone (fadd fone (e_exp e (fopp v1)))) then fone else fzero).
Proof.
  intros c e pool iters o o' r F K N1 KB VH NP E. destruct (optimize_trace _ _ _ _ _ _ _ NP E) as (k & tr & C & H & _).
  destruct H as (H1 & H2 & H3 & H4 & H5 & H6 & H7). destruct (Fresh_inv _ _ F) as (dim & pos & vel & S & _ & _ & _ & P0 & V0).
  rewrite P0 in H3. rewrite V0 in H4. cbn in H3, H4. rewrite H3, H4. exists C. split; [exact H5|]. split; [rewrite !map_length; reflexivity|]. split.
  { intros X V X0 V0'. pose proof (H6 _ (nth_split _ _ _ _ _ _ X0 V0')) as Q. unfold here in Q. injection Q as -> ->. auto. }
  intros t X V X' V' i j x v E1 E2 E3 E4 Ex Ev.
  destruct (H7 t _ _ (nth_split _ _ _ _ _ _ E1 E2) (nth_split _ _ _ _ _ _ E3 E4)) as (o1 & o2 & opts & vm & bm & h & Ch & B & R & PH & PC & Q1 & Q2 & (_ & OP) & U).
  cbn [fst snd] in Q1, Q2, U.
  assert (EH : h = so_far t (map fst tr)).
  { rewrite (prefix_firstn _ _ _ PH) at 1. unfold so_far. rewrite (pi_len _ _ _ _ _ _ _ _ (ru_p _ _ _ _ _ _ _ _ _ R)). reflexivity. }
  assert (EC : Ch = so_far t C).
  { rewrite (prefix_firstn _ _ _ PC) at 1. unfold so_far. destruct (pi_log _ _ _ _ _ _ _ _ (ru_p _ _ _ _ _ _ _ _ _ R)) as [L _].
    rewrite L, (pi_len _ _ _ _ _ _ _ _ (ru_p _ _ _ _ _ _ _ _ _ R)). reflexivity. }
  rewrite <- Q1 in Ex. rewrite <- Q2 in Ev.
  assert (OP' : s_options (o_swarm o1) = c_options c) by (rewrite (OP KB), S; reflexivity).
  destruct (binary_step _ _ _ _ _ _ _ _ _ _ _ _ _ _ _ KB VH OP' U Ex Ev) as (w & c1 & c2 & r1 & r2 & p & g & v1 & u & W & W1 & W2 & R1 & R2 & Pp & G & V1 & UJ & CL & X1).
  destruct (entry_row _ _ _ _ Pp) as (px & Px & Pj).
  destruct (run_pbest _ _ _ _ _ _ _ _ _ _ _ F R Px) as (x0 & py & X0 & PY & BR).
  assert (M1 : t_kind (o_top o) <> Star) by (rewrite K; discriminate).
  assert (M2 : ~ (t_kind (o_top o) = Ring /\ int_option c "k" 1)) by (intros [_ Q]; exact (N1 Q)).
  assert (M3 : ~ (t_kind (o_top o) = VonNeumann /\ int_option c "r" 0)) by (rewrite K; intros [Q _]; discriminate).
  assert (M4 : t_kind (o_top o) = Pyramid -> s_d (o_swarm o) < s_n (o_swarm o)) by (rewrite K; discriminate).
  assert (M5 : t_kind (o_top o) = VonNeumann -> 0 < s_d (o_swarm o)) by (rewrite K; discriminate).
  destruct (run_nbest _ _ _ _ _ _ _ _ _ _ _ _ F M1 M2 M3 M4 M5 R G) as (rows & row & gx & gy & NL & RW & NBB & Gj).
  apply (lists_longer _ _ _ _ _ _ _ PH) in NL; [|rewrite (pi_len _ _ _ _ _ _ _ _ (ru_p _ _ _ _ _ _ _ _ _ R)); lia].
  rewrite EH, EC in BR, NBB.
  exists w, c1, c2, r1, r2, x0, px, py, p, rows, row, gx, gy, g, v1, u. auto 20.
Qed.
