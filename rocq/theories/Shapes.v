(** Every matrix of a run has the shape of the swarm (C68). *)
From Coq Require Import String ZArith List Arith Bool Lia.
From Flocq Require Import BinarySingleNaN.
From Verif Require Import Prelude ListFacts F64 F64Facts Num Np NpFacts Handlers Swarms Operators
  Generators Topology Optimizers Spec SpecHandlers SpecDyn SpecRun RunFacts PbestFacts ShapeFacts GbestFacts RunBest RunInv RunMain RunResults GenFacts StartRun.
Import ListNotations.
Local Open Scope list_scope.
Local Open Scope nat_scope.

(** *** The constructors *)
Lemma map2_len : forall (A B C : Type) (f : A -> B -> C) a b k, length a = k -> length b = k -> length (map2 f a b) = k.
Proof. intros. rewrite map2_length. lia. Qed.
Lemma swarm_shape : forall n d b center init u m, is_matrix n d u -> (forall p, init = Some p -> is_matrix n d p) ->
  generate_swarm n d b center init u = Ok m -> is_matrix n d m.
Proof.
  intros n d b center init u m U I G. unfold generate_swarm in G. destruct init as [p|].
  - destruct b as [b|]; [|injection G as <-; auto]. destruct (bounds_fit p b); cbn [negb] in G; [|discriminate].
    destruct (all_within b p); [|discriminate]. injection G as <-. auto.
  - destruct b as [b|].
    + destruct (Nat.eqb_spec (length center) d); cbn [andb negb] in G; [|discriminate].
      destruct (Nat.eqb_spec (length (b_lb b)) d); cbn [andb negb] in G; [|discriminate].
      destruct (Nat.eqb_spec (length (b_ub b)) d); cbn [andb negb] in G; [|discriminate].
      destruct (forallb _ _); cbn [negb] in G; [|discriminate]. injection G as <-.
      apply map_is_matrix; [exact U|]. intros r R. apply map4_len; auto.
    + destruct (Nat.eqb_spec (length center) d); cbn [andb negb] in G; [|discriminate]. injection G as <-.
      apply map_is_matrix; [exact U|]. intros r R. apply map2_len; auto.
Qed.
Lemma discrete_shape : forall n d bits u init m, is_matrix n d bits -> (forall p, init = Some p -> is_matrix n d p) ->
  generate_discrete_swarm true init bits u = Ok m -> is_matrix n d m.
Proof.
  intros n d bits u init m U I G. unfold generate_discrete_swarm in G. destruct init as [p|].
  - destruct (_ <=? _); [|discriminate]. injection G as <-. auto.
  - injection G as <-. apply map_is_matrix; [exact U|]. intros r R. rewrite map_length. exact R.
Qed.
Lemma velocity_shape : forall n d cl u m, is_matrix n d u -> generate_velocity d cl u = Ok m -> is_matrix n d m.
Proof.
  intros n d cl u m U G. unfold generate_velocity in G.
  destruct (match cl with None => (repeat fzero d, repeat fone d) | Some c => c end) as [mn mx].
  destruct (Nat.eqb_spec (length mn) d); cbn [andb negb] in G; [|discriminate].
  destruct (Nat.eqb_spec (length mx) d); cbn [andb negb] in G; [|discriminate]. injection G as <-.
  apply map_is_matrix; [exact U|]. intros r R. apply map3_len; auto.
Qed.
Lemma start_shaped : forall c dr s, shaped_draws (c_n c) (c_d c) dr -> (forall p, c_init c = Some p -> is_matrix (c_n c) (c_d c) p) ->
  make_swarm c dr = Ok s -> shaped (c_n c) (c_d c) s /\ s_n s = c_n c /\ s_d s = c_d c.
Proof.
  intros c dr s (D1 & D2 & D3) I H.
  assert (G : (if match c_kind c with Binary => true | _ => false end then generate_discrete_swarm true (c_init c) (cd_bits dr) (cd_pos dr)
               else generate_swarm (c_n c) (c_d c) (c_bounds c) (c_center c) (c_init c) (cd_pos dr)) = Ok (s_position s) /\
          generate_velocity (c_d c) (c_clamp c) (cd_vel dr) = Ok (s_velocity s) /\ s_pbest_pos s = s_position s /\
          s_n s = length (s_position s) /\ s_d s = match s_position s with [] => c_d c | r :: _ => length r end).
  { unfold make_swarm, create_swarm in H. destruct (c_kind c);
      (apply bind_Ok in H; destruct H as (p & P & H); apply bind_Ok in H; destruct H as (v & V & H); injection H as <-; cbn; auto). }
  destruct G as (G1 & G2 & G3 & G4 & G5).
  assert (P : is_matrix (c_n c) (c_d c) (s_position s)).
  { destruct (c_kind c); cbn iota in G1; first [exact (swarm_shape _ _ _ _ _ _ _ D1 I G1)|exact (discrete_shape _ _ _ _ _ _ D2 I G1)]. }
  split; [|split].
  - split; [exact P|]. split; [exact (velocity_shape _ _ _ _ _ D3 G2)|].
    refine (eq_ind _ (fun m => is_matrix (c_n c) (c_d c) m) P _ (eq_sym G3)).
  - rewrite G4. apply P.
  - rewrite G5. destruct P as [_ P]. destruct P as [|r m R _]; [reflexivity|exact R].
Qed.
Lemma fresh_shaped : forall c top dr o, shaped_draws (c_n c) (c_d c) dr -> (forall p, c_init c = Some p -> is_matrix (c_n c) (c_d c) p) ->
  (construct c top dr = Ok o \/ exists o0, reset c dr o0 = Ok o) ->
  shaped (c_n c) (c_d c) (o_swarm o) /\ s_n (o_swarm o) = c_n c /\ s_d (o_swarm o) = c_d c.
Proof.
  intros c top dr o D I [H|[o0 H]].
  - apply construct_inv in H. destruct H as (s & M & -> & _). cbn. eapply start_shaped; eauto.
  - apply reset_inv in H. destruct H as (s & M & ->). cbn. eapply start_shaped; eauto.
Qed.

(** *** Runs *)
Lemma select_shape : forall (A : Type) n d (mask : list bool) (q p : list (list A)), length mask = length p -> is_matrix n d p -> is_matrix n d q ->
  is_matrix n d (map3 (fun (m : bool) (o n : list A) => if negb m then o else n) mask q p).
Proof.
  intros A n d mask q p E [P1 P2] [Q1 Q2]. split; [rewrite map3_length; rewrite E, P1, Q1; lia|].
  clear E P1 Q1. revert mask q Q2. induction P2 as [|r m R P2 IH]; intros mask q Q2.
  - destruct mask, q; constructor.
  - destruct Q2 as [|r' q R' Q2]; [destruct mask; constructor|]. destruct mask as [|b mask]; [constructor|].
    cbn [map3]. constructor; [destruct b; assumption|apply IH; exact Q2].
Qed.
Lemma pbest_shape : forall n d (s : fswarm) pp pc, is_matrix n d (s_position s) -> is_matrix n d (s_pbest_pos s) -> compute_pbest s = Ok (pp, pc) -> is_matrix n d pp.
Proof.
  intros n d s pp pc P Q H. unfold compute_pbest in H.
  destruct (Nat.eqb_spec (length (s_current_cost s)) (length (s_pbest_cost s))) as [E|E]; try discriminate. cbn [negb] in H.
  destruct (Nat.eqb_spec (length (map2 nlt (s_current_cost s) (s_pbest_cost s))) (length (s_position s))) as [E'|E']; try discriminate.
  destruct (same_shape (s_position s) (s_pbest_pos s)); try discriminate. cbn [andb negb] in H. injection H as <- _.
  exact (select_shape f64 n d _ _ _ E' P Q).
Qed.
Definition ShInv (n d : nat) (o o1 : ostate) : Prop :=
  shaped n d (o_swarm o1) /\ exists hp hv, o_pos_history o1 = o_pos_history o ++ hp /\ o_velocity_history o1 = o_velocity_history o ++ hv /\
    Forall (is_matrix n d) hp /\ Forall (is_matrix n d) hv.
Lemma ShInv_eval : forall n d c e pool o k o1 o3 cost pp pc tp bp bc np, ShInv n d o o1 -> Evald c e pool k o1 o3 cost pp pc tp bp bc np -> ShInv n d o o3.
Proof.
  intros n d c e pool o k o1 o3 cost pp pc tp bp bc np ((S1 & S2 & S3) & hp & hv & E1 & E2 & F1 & F2) (_ & G & _ & ->).
  pose proof (pbest_shape n d (set_current_cost (o_swarm o1) cost) _ _ S1 S3 G) as P. split; [split; [exact S1|split; [exact S2|exact P]]|].
  exists (hp ++ [s_position (o_swarm o1)]), (hv ++ [s_velocity (o_swarm o1)]). cbn. rewrite E1, E2, !app_assoc.
  split; [reflexivity|]. split; [reflexivity|]. split; apply Forall_app; split; auto.
Qed.
Lemma shaped_run : forall n d c e pool iters o o' r, shaped n d (o_swarm o) -> optimize c e pool iters o = (o', r) ->
  ShInv n d o o' /\ forall cost pos, r = Ok (cost, pos) -> length pos = d.
Proof.
  intros n d c e pool iters o o' r S E.
  assert (ST : ShInv n d o (started c o)).
  { destruct (started_facts c o) as (_ & _ & _ & _ & E5 & E6 & E7 & _). split; [rewrite E7; exact S|]. exists [], []. rewrite E5, E6, !app_nil_r. auto. }
  assert (I : ShInv n d o o' /\ (r = final_result o' \/ exists x, r = Err x)).
  { destruct (optimize_rule c e pool iters o (fun _ o1 _ => ShInv n d o o1) (fun _ o1 _ => ShInv n d o o1) (ShInv n d o) (fun o1 _ => ShInv n d o o1)) with (o' := o') (r := r)
      as [(Q & -> & ->)|[(_ & Q & ->)|(_ & x & Q & ->)]]; eauto.
    - intros i o1 q Hi I. pose proof (evaluate_cases c e pool i o1 q) as EC. destruct (evaluate_swarm c e pool i o1 q) as [o2 q2|o2|o2 x].
      + destruct EC as (cost & pp & pc & t & bp & bc & np & EV & _). eapply ShInv_eval; eauto.
      + destruct EC as (cost & pp & pc & t & bp & bc & np & EV & _). eapply ShInv_eval; eauto.
      + destruct I as ((S1 & S2 & S3) & H). destruct EC as [x E1|cost x E1 E2|cost pp pc t x E1 E2 E3]; (split; [|exact H]); repeat (split; auto).
        all: try (apply S1); try (apply S2); try (apply S3).
        all: apply (pbest_shape n d (set_current_cost (o_swarm o1) cost) _ _ S1 S3 E2).
    - intros i o1 q Hi ((S1 & S2 & S3) & H). unfold update_swarm.
      destruct (match c_kind c with Binary => Ok (s_options (o_swarm o1)) | _ => _ end) as [opts|x]; [|split; [split; auto|exact H]].
      cbv zeta. destruct (compute_velocity _ _ _ _ _ _) as [[v vmem]|x] eqn:V; [|split; [split; auto|exact H]].
      apply compute_velocity_shape in V. cbn [s_position set_options] in V. pose proof (shape_eq_matrix _ _ _ _ V S1) as VM.
      assert (PB : forall p : fmatrix, shape_eq (s_position (o_swarm o1)) p -> is_matrix n d p) by (intros p Z; eapply shape_eq_matrix; eauto).
      assert (BP : forall p : fmatrix, binary_position (e_exp e) (e_bits e i) v = Ok p -> is_matrix n d p).
      { intros p B. apply PB. eapply shape_eq_trans; [exact V|]. unfold binary_position in B.
        destruct (forallb _ v) eqn:F; try discriminate. injection B as <-. apply map_shape.
        intros rw I. rewrite forallb_forall in F. specialize (F rw I). apply Nat.eqb_eq in F. rewrite map2_length. flia. }
      assert (CP : forall dr h mem (s : fswarm) b (p : fmatrix) mem', s_position s = s_position (o_swarm o1) -> compute_position dr h mem s b = Ok (p, mem') -> is_matrix n d p).
      { intros dr h mem s b p mem' Z B. apply compute_position_shape in B. rewrite Z in B. auto. }
      cbn [s_velocity set_velocity].
      destruct (c_kind c);
        (destruct (compute_position _ _ _ _ _) as [[p bm]|x] eqn:PP || destruct (binary_position _ _ _) as [p|x] eqn:PP);
        (split; [|exact H]); (split; [|split; [exact VM|exact S3]]); try exact S1;
        (eapply CP; [|exact PP]; reflexivity) || (apply BP; reflexivity).
    }
  destruct I as [I R]. split; [exact I|]. intros cost pos Ep. destruct R as [R|[x R]]; [|congruence].
  rewrite Ep in R. symmetry in R. destruct (final_result_inv _ _ _ R) as (_ & _ & j & _ & P). apply nth_error_In in P.
  destruct I as ((_ & _ & _ & I) & _). rewrite Forall_forall in I. apply I. exact P.
Qed.
Lemma run_shapes : forall n d c e pool iters o o' r, shaped n d (o_swarm o) -> optimize c e pool iters o = (o', r) ->
  shaped n d (o_swarm o') /\ (exists hp hv, o_pos_history o' = o_pos_history o ++ hp /\ o_velocity_history o' = o_velocity_history o ++ hv /\
    Forall (is_matrix n d) hp /\ Forall (is_matrix n d) hv) /\ forall cost pos, r = Ok (cost, pos) -> length pos = d.
Proof. intros n d c e pool iters o o' r S E. destruct (shaped_run _ _ _ _ _ _ _ _ _ S E) as [[A B] D]. auto. Qed.
Lemma session_shapes : forall c o calls o', shaped (c_n c) (c_d c) (o_swarm o) -> Fresh c o -> Session c o calls o' ->
  shaped (c_n c) (c_d c) (o_swarm o') /\ Forall (is_matrix (c_n c) (c_d c)) (o_pos_history o') /\ Forall (is_matrix (c_n c) (c_d c)) (o_velocity_history o').
Proof.
  intros c o calls o' S F Z. induction Z as [o|o l o1 k o2 r Z IH H].
  - destruct (Fresh_inv _ _ F) as (d & p & v & _ & _ & _ & _ & P0 & V0). rewrite P0, V0. auto.
  - destruct (IH S F) as (I1 & I2 & I3). destruct (run_shapes _ _ _ _ _ _ _ _ _ I1 H) as (J1 & (hp & hv & -> & -> & J2 & J3) & _).
    split; [exact J1|]. split; apply Forall_app; auto.
Qed.
