(** From the constructor to the end of the first run: the generated swarm meets the
    hypotheses of the run theorems. *)
From Coq Require Import String ZArith List Arith Bool Reals Lra Lia.
From Verif Require Import Prelude F64 F64Facts F64More Num Np Handlers Swarms Operators Generators Topology Optimizers
  Spec SpecHandlers ListFacts NpFacts ShapeFacts RunFacts RunMain RunResults HandlerFacts BhFloat VelFacts RunInv BoxRun VelRun GenFacts.
Import ListNotations.
Local Open Scope string_scope.
Local Open Scope list_scope.
Local Open Scope nat_scope.

Lemma create_swarm_inv : forall n d disc bin opts b ce init cl dr s, create_swarm n d disc bin opts b ce init cl dr = Ok s ->
  s_velocity s = match generate_velocity d cl (cd_vel dr) with Ok v => v | Err _ => [] end /\
  generate_velocity d cl (cd_vel dr) = Ok (s_velocity s) /\ s_pbest_pos s = s_position s /\
  (if disc then generate_discrete_swarm bin init (cd_bits dr) (cd_pos dr) else generate_swarm n d b ce init (cd_pos dr)) = Ok (s_position s).
Proof.
  unfold create_swarm. intros n d disc bin opts b ce init cl dr s H. apply bind_Ok in H. destruct H as (p & P & H).
  apply bind_Ok in H. destruct H as (v & V & H). injection H as <-. cbn [s_velocity s_position s_pbest_pos new_swarm]. rewrite V. auto.
Qed.
Lemma make_swarm_inv : forall c dr s, c_kind c <> Binary -> make_swarm c dr = Ok s ->
  generate_velocity (c_d c) (c_clamp c) (cd_vel dr) = Ok (s_velocity s) /\ s_pbest_pos s = s_position s /\
  generate_swarm (c_n c) (c_d c) (c_bounds c) (c_center c) (c_init c) (cd_pos dr) = Ok (s_position s).
Proof.
  unfold make_swarm. intros c dr s K H.
  destruct (c_kind c); try congruence; destruct (create_swarm_inv _ _ _ _ _ _ _ _ _ _ _ H) as (_ & A & B & C); auto.
Qed.

(** C25 for a constructor or a reset *)
Lemma start_box : forall c dr s b, c_kind c <> Binary -> c_bounds c = Some b -> box_dim (c_d c) b -> finite_box b ->
  (c_init c = None -> c_center c = repeat fone (c_d c) /\ unit_matrix (c_n c) (c_d c) (cd_pos dr)) ->
  (forall p, c_init c = Some p -> is_matrix (c_n c) (c_d c) p) ->
  make_swarm c dr = Ok s ->
  is_matrix (c_n c) (c_d c) (s_position s) /\ all_inside b (s_position s).
Proof.
  intros c dr s b K B Bd FB NI IN H. destruct (make_swarm_inv c dr s K H) as (_ & _ & G). rewrite B in G.
  destruct (c_init c) as [p|].
  - specialize (IN p eq_refl). unfold generate_swarm in G. destruct (bounds_fit p b) eqn:BF; cbn [negb] in G; [|discriminate].
    destruct (all_within b p) eqn:AW; [|discriminate]. injection G as <-. split; auto.
    intros i j x l u X C. unfold all_within in AW. apply andb_prop in AW. destruct AW as [A1 A2]. rewrite forallb_forall in A1, A2.
    destruct (entry_row _ _ _ _ X) as (r & R & Xj). pose proof (nth_error_In _ _ R) as I. destruct C as [C1 C2]. split.
    + exact (forallb_map2_inv _ _ fle _ _ (A1 r I) j l x C1 Xj).
    + exact (forallb_map2_inv _ _ fle _ _ (A2 r I) j x u Xj C2).
  - destruct (NI eq_refl) as [CE U]. rewrite CE in G.
    destruct (forallb (fun x => x) (map2 (fun l h : f64 => ffinite (fsub h l)) (b_lb b) (b_ub b))) eqn:W.
    + destruct (generate_bounded (c_n c) (c_d c) b (cd_pos dr) Bd FB) as (m & G' & M & A); auto.
      { intros j l h [C1 C2]. exact (forallb_map2_inv _ _ (fun l h : f64 => ffinite (fsub h l)) _ _ W j l h C1 C2). }
      rewrite G' in G. injection G as <-. auto.
    + exfalso. revert G. unfold generate_swarm, row. rewrite repeat_length, (proj1 Bd), (proj2 Bd), Nat.eqb_refl. cbn [andb negb].
      unfold row in W. ftypes. rewrite W. cbn [negb]. discriminate.
Qed.
Lemma inside_not_outside : forall b m, all_inside b m -> none_outside b m.
Proof. intros b m H i j x l u X C. destruct (H i j x l u X C) as [A B]. split; forder. Qed.

(** C26 for a constructor or a reset *)
Lemma start_clamp : forall c dr s cl, c_kind c <> Binary -> c_clamp c = Some cl -> unit_matrix (c_n c) (c_d c) (cd_vel dr) ->
  (forall j a b, clamp_column cl j a b -> ffinite a = true /\ ffinite b = true /\ fle a b = true /\ ffinite (fsub b a) = true) ->
  make_swarm c dr = Ok s ->
  is_matrix (c_n c) (c_d c) (s_velocity s) /\ all_in_clamp cl (s_velocity s).
Proof.
  intros c dr s cl K CL U CC H. destruct (make_swarm_inv c dr s K H) as (G & _ & _). rewrite CL in G.
  pose proof G as G0. unfold generate_velocity in G0. destruct cl as [mn mx].
  destruct (Nat.eqb_spec (length mn) (c_d c)) as [L1|]; cbn [andb negb] in G0; [|discriminate].
  destruct (Nat.eqb_spec (length mx) (c_d c)) as [L2|]; cbn [andb negb] in G0; [|discriminate].
  destruct (generate_velocity_clamped (c_n c) (c_d c) (mn, mx) (cd_vel dr) L1 L2 U CC) as (m & G' & M & A).
  rewrite G' in G. injection G as <-. auto.
Qed.
Lemma in_clamp_within : forall cl m, all_in_clamp cl m -> within_clamp cl m.
Proof. intros b m H i j x l u X C. destruct (H i j x l u X C) as [A B]. split; forder. Qed.

(** C19 from the constructor on, with the returned position *)
Lemma first_run_box : forall c top dr e pool iters o o' r b, c_kind c <> Binary -> c_bounds c = Some b -> box_dim (c_d c) b -> finite_box b ->
  box_strategy (c_d c) b (c_bh c) (e_bh e) ->
  (c_init c = None -> c_center c = repeat fone (c_d c) /\ unit_matrix (c_n c) (c_d c) (cd_pos dr)) ->
  (forall p, c_init c = Some p -> is_matrix (c_n c) (c_d c) p) ->
  construct c top dr = Ok o -> optimize c e pool iters o = (o', r) ->
  Forall (fun p => is_matrix (c_n c) (c_d c) p /\ none_outside b p) (o_pos_history o') /\
  is_matrix (c_n c) (c_d c) (s_position (o_swarm o')) /\ none_outside b (s_position (o_swarm o')) /\
  forall cost pos, r = Ok (cost, pos) -> length pos = c_d c /\ row_not_outside b pos.
Proof.
  intros c top dr e pool iters o o' r b K B Bd FB S NI IN C E.
  destruct (construct_inv _ _ _ _ C) as (s & MS & Eo & _).
  destruct (start_box c dr s b K B Bd FB NI IN MS) as [M0 A0].
  assert (PS : o_swarm o = s) by (rewrite Eo; reflexivity). assert (PH : o_pos_history o = []) by (rewrite Eo; reflexivity).
  rewrite <- PS in M0, A0.
  destruct (box_run c e pool iters o o' r b _ _ K B Bd FB S M0 (inside_not_outside _ _ A0) E) as (hp & H1 & H2 & H3 & H4).
  rewrite PH in H1. cbn [app] in H1. rewrite H1. split; auto. split; auto. split; auto.
  intros cost pos ->. destruct (pbest_of_call _ _ _ _ _ _ _ E) as (h & CC & G1 & G2 & _ & G4 & G5 & G6).
  rewrite PH in G1. cbn [app] in G1. assert (Hh : h = hp) by congruence. rewrite Hh in *. clear Hh G1 h.
  destruct (optimize_ok _ _ _ _ _ _ _ E) as (FR0 & _). unfold final_result in FR0.
  destruct (negb (s_best_np (o_swarm o'))); [discriminate|]. apply bind_Ok in FR0. destruct FR0 as (j & J & FR0).
  apply bind_Ok in FR0. destruct FR0 as (p & P & FR0). injection FR0 as _ ->.
  destruct (nth_error (s_pbest_pos (o_swarm o')) j) as [p'|] eqn:PJ; [|discriminate]. injection P as ->.
  destruct (nth_error_ex (s_pbest_pos (o_swarm o)) j) as [x0 X0]. { apply nth_error_lt in PJ. ftypes. lia. }
  assert (PB : s_pbest_pos (o_swarm o) = s_position (o_swarm o)). { rewrite PS. apply (make_swarm_inv c dr s K MS). }
  destruct (nth_error_ex (s_pbest_cost (o_swarm o')) j) as [w Wj].
  { rewrite G4. apply nth_error_lt in X0. rewrite PB in X0. destruct M0 as [M0 _]. ftypes. lia. }
  destruct (G6 j x0 pos w X0 PJ Wj) as [(_ & -> & _)|(_ & t & (X & cs & N1 & N2 & N3 & N4) & _)].
  - rewrite PB in X0. split; [exact (is_matrix_nth _ _ _ _ _ M0 X0)|]. intros k v l u V Cc.
    destruct (A0 j k v l u (entry_of _ _ _ _ _ X0 V) Cc). split; forder.
  - rewrite Forall_forall in H2. destruct (H2 X (nth_error_In _ _ N1)) as [M O]. split; [exact (is_matrix_nth _ _ _ _ _ M N3)|].
    intros k v l u V Cc. exact (O j k v l u (entry_of _ _ _ _ _ N3 V) Cc).
Qed.
(** C21 from the constructor on *)
Lemma first_run_clamp : forall c top dr e pool iters o o' r cl, c_kind c <> Binary -> c_clamp c = Some cl ->
  unit_matrix (c_n c) (c_d c) (cd_vel dr) ->
  (forall j a b, clamp_column cl j a b -> ffinite a = true /\ ffinite b = true /\ fle a b = true /\ ffinite (fsub b a) = true) ->
  c_vh c = "unmodified" \/ c_vh c = "invert" \/ c_vh c = "adjust" ->
  construct c top dr = Ok o -> optimize c e pool iters o = (o', r) ->
  Forall (within_clamp cl) (o_velocity_history o') /\
  (forall x, r = Ok x -> within_clamp cl (s_velocity (o_swarm o'))).
Proof.
  intros c top dr e pool iters o o' r cl K CL U CC S C E.
  destruct (construct_inv _ _ _ _ C) as (s & MS & Eo & _).
  destruct (start_clamp c dr s cl K CL U CC MS) as [M0 A0].
  assert (PS : o_swarm o = s) by (rewrite Eo; reflexivity). assert (PH : o_velocity_history o = []) by (rewrite Eo; reflexivity).
  rewrite <- PS in M0, A0.
  destruct (clamp_run c e pool iters o o' r cl CL) as (hv & H1 & H2 & H3); auto. { intros j a b Q. apply (CC j a b Q). } { apply in_clamp_within; auto. }
  rewrite PH in H1. cbn [app] in H1. rewrite H1. auto.
Qed.
