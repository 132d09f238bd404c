(** A dimension in which the swarm has collapsed is never explored again (C63). *)
From Coq Require Import String ZArith List Arith Bool Reals Lra Lia.
From Flocq Require Import Core IEEE754.BinarySingleNaN.
From Verif Require Import Prelude ListFacts F64 F64Facts F64More Num Np NpFacts Handlers Swarms Operators Generators Topology Optimizers Spec SpecHandlers SpecDyn SpecTame SpecRun
  HandlerFacts ShapeFacts BhFloat RunFacts PbestFacts GbestFacts RunInv BoxRun StartRun RunMain RunResults Entries Textbook Handled Tame FiniteRun.
Import ListNotations.
Local Open Scope string_scope.
Local Open Scope list_scope.
Local Open Scope nat_scope.

(** *** Zeros *)
Definition zerof (x : f64) : Prop := ffinite x = true /\ FR x = 0%R.
Lemma zerof_eq : forall x, feq x fzero = true <-> zerof x.
Proof.
  intros x. split.
  - intros H. assert (F : ffinite x = true). { destruct x as [s|[|]| |s m e B]; try reflexivity; discriminate. }
    split; auto. apply (feq_fin x fzero F eq_refl) in H. rewrite H. reflexivity.
  - intros [F Z]. apply (feq_fin x fzero F eq_refl). rewrite Z. reflexivity.
Qed.
Lemma rnd_0 : rnd 0 = 0%R. Proof. unfold rnd. apply round_0. apply valid_rnd_N. Qed.
Lemma is_round_zero : forall z, is_round 0 z -> zerof z.
Proof. intros z [H _]. rewrite rnd_0, Rabs_R0 in H. destruct H as [F Z]; [apply bpow_gt_0|]. split; auto. Qed.
Lemma zerof_mul : forall a b, ffinite a = true -> zerof b -> zerof (fmul a b).
Proof. intros a b A [B Z]. apply is_round_zero. pose proof (fmul_round a b A B) as H. rewrite Z, Rmult_0_r in H. exact H. Qed.
Lemma zerof_add : forall a b, zerof a -> zerof b -> zerof (fadd a b).
Proof. intros a b [A Z] [B Y]. apply is_round_zero. pose proof (fadd_round a b A B) as H. rewrite Z, Y, Rplus_0_r in H. exact H. Qed.
Lemma zerof_sub : forall a b, ffinite a = true -> ffinite b = true -> FR a = FR b -> zerof (fsub a b).
Proof. intros a b A B E. apply is_round_zero. pose proof (fsub_round a b A B) as H. rewrite E, Rminus_diag_eq in H by reflexivity. exact H. Qed.
Lemma add_zerof : forall x v, ffinite x = true -> zerof v -> ffinite (fadd x v) = true /\ FR (fadd x v) = FR x.
Proof.
  intros x v Fx [Fv Z]. pose proof (fadd_round x v Fx Fv) as [H _]. rewrite Z, Rplus_0_r in H.
  assert (R : rnd (FR x) = FR x). { apply round_generic; [apply valid_rnd_N|]. apply generic_format_B2R. }
  rewrite R in H. apply H. apply abs_B2R_lt_emax.
Qed.
Lemma feq_same : forall x y, ffinite y = true -> feq x y = true -> ffinite x = true /\ FR x = FR y.
Proof.
  intros x y F H. assert (Fx : ffinite x = true). { destruct x as [s|[|]| |s m e B]; destruct y as [s'|[|]| |[|] m' e' B']; try reflexivity; try discriminate. }
  split; auto. apply (feq_fin x y Fx F). exact H.
Qed.
Lemma same_feq : forall x y, ffinite x = true -> ffinite y = true -> FR x = FR y -> feq x y = true.
Proof. intros x y A B E. apply (feq_fin x y A B). exact E. Qed.

Lemma mul_unit_finite : forall a r, ffinite a = true -> fle fzero r = true -> flt r fone = true -> ffinite (fmul a r) = true.
Proof.
  intros a r Fa L H. destruct (unit_draw r L H) as [Fr Rr]. destruct (fmul_round a r Fa Fr) as [Q _]. apply Q.
  apply Rle_lt_trans with (Rabs (FR a)); [|apply abs_B2R_lt_emax].
  unfold rnd. apply abs_round_le_generic; [apply FLT_exp_valid; reflexivity|apply valid_rnd_N| |].
  - apply generic_format_abs. apply generic_format_B2R.
  - rewrite Rabs_mult, (Rabs_pos_eq (FR r)) by lra. pose proof (Rabs_pos (FR a)). nra.
Qed.

(** *** Every entry of the next positions and velocities comes from the equations of motion *)
Lemma motion_step : forall c e iters t o1 o2 opts v' vm p' bm (P V V' P' : nat -> f64 -> Prop), c_kind c <> Binary -> c_vh c = "unmodified" -> NoDup (dkeys (c_options c)) ->
  Updated c e iters t o1 o2 opts v' vm p' bm -> all_e P (s_position (o_swarm o1)) -> all_e V (s_velocity (o_swarm o1)) -> all_e P (s_pbest_pos (o_swarm o1)) ->
  best_e P (s_best_pos (o_swarm o1)) -> unit_velocity_draws e ->
  (forall j w c1 c2 r1 r2 x v p g v1, coefficient c e iters t "w" w -> coefficient c e iters t "c1" c1 -> coefficient c e iters t "c2" c2 ->
     fle fzero r1 = true -> flt r1 fone = true -> fle fzero r2 = true -> flt r2 fone = true -> P j x -> V j v -> P j p -> P j g ->
     clamped (c_clamp c) j (fadd (fadd (fmul w v) (fmul (fmul c1 r1) (fsub p x))) (fmul (fmul c2 r2) (fsub g x))) v1 -> V' j v1) ->
  (forall j x v1 x1, P j x -> V' j v1 -> placed c j (fadd x v1) x1 -> P' j x1) ->
  all_e V' v' /\ all_e P' p'.
Proof.
  intros c e iters t o1 o2 opts v' vm p' bm P V V' P' K VH ND U A1 A2 A3 A4 UD H HP.
  assert (VV : all_e V' v') by (eapply velocity_step; eauto). split; [exact VV|]. intros i j y Y.
  destruct (updated_parts _ _ _ _ _ _ _ _ _ _ _ K U) as [U1 U2].
  pose proof (compute_position_shape _ _ _ _ _ _ _ U2) as SP. cbn [s_position set_options set_velocity] in SP.
  destruct (compute_velocity_inv _ _ _ _ _ _ _ _ _ U1) as (q1 & q2 & q3 & best & _ & _ & _ & _ & _ & _ & S3 & _). cbn [s_position s_velocity set_options] in S3.
  destruct (shape_entry _ _ _ _ _ _ _ (shape_eq_sym _ _ SP) Y) as [x X]. destruct (shape_entry _ _ _ _ _ _ _ S3 X) as [v V0].
  destruct (step_equation _ _ _ _ _ _ _ _ _ _ _ _ _ _ _ K VH ND U X V0) as (w & c1 & c2 & r1 & r2 & p & g & v1 & x1 & _ & _ & _ & _ & _ & _ & _ & V1 & X1 & _ & PL).
  pose proof (eq_trans (eq_sym Y) X1) as E. injection E as ->. eapply HP; [exact (A1 i j x X)|exact (VV i j v1 V1)|exact PL].
Qed.

Lemma collapsed : forall c e pool iters o o' r j x0, c_kind c <> Binary -> c_vh c = "unmodified" -> NoDup (dkeys (c_options c)) ->
  ffinite x0 = true -> unit_velocity_draws e -> finite_coefficients c e iters -> holds_zero (c_clamp c) j -> keeps c j x0 ->
  column_all (s_position (o_swarm o)) j x0 -> column_all (s_pbest_pos (o_swarm o)) j x0 -> best_column (s_best_pos (o_swarm o)) j x0 ->
  column_all (s_velocity (o_swarm o)) j fzero -> pool <> Some 0 -> optimize c e pool iters o = (o', r) ->
  exists hp hv, o_pos_history o' = o_pos_history o ++ hp /\ o_velocity_history o' = o_velocity_history o ++ hv /\
    Forall (fun X => column_all X j x0) hp /\ Forall (fun V => column_all V j fzero) hv /\
    column_all (s_position (o_swarm o')) j x0 /\
    forall cost pos y, r = Ok (cost, pos) -> nth_error pos j = Some y -> feq y x0 = true.
Proof.
  intros c e pool iters o o' r j0 x0 K VH ND F0 UD CO HZ KE A1 A3 A4 A2 NP E.
  set (P := fun j x => j = j0 -> ffinite x = true /\ FR x = FR x0). set (V := fun j x => j = j0 -> zerof x).
  assert (PC : forall m, column_all m j0 x0 -> all_e P m). { intros m H i j x X ->. apply feq_same; auto. exact (H i x X). }
  assert (CP : forall m, all_e P m -> column_all m j0 x0). { intros m H i x X. destruct (H i j0 x X eq_refl). apply same_feq; auto. }
  assert (VC : forall m, column_all m j0 fzero -> all_e V m). { intros m H i j x X ->. apply zerof_eq. exact (H i x X). }
  assert (CV : forall m, all_e V m -> column_all m j0 fzero). { intros m H i x X. apply zerof_eq. exact (H i j0 x X eq_refl). }
  destruct (entries_rule c e pool iters o (fun _ => P) (fun _ => V) (fun _ _ => True)) with (o' := o') (r := r) as (t & Ht & EH & EX & EP & _); auto.
  - destruct (started_facts c o) as (_ & _ & _ & _ & _ & _ & E7 & _). constructor; rewrite ?E7; auto.
    intros i j x X ->. apply feq_same; auto. exact (A4 i x X).
  - intros t o1 o2 opts v vm p bm Ht [I1 I2 I3 I4 I5] U.
    destruct (motion_step c e iters t o1 o2 opts v vm p bm P V V P) as [Q1 Q2]; auto.
    + intros j w c1 c2 r1 r2 x v0 q g v1 W C1 C2 B1 B2 B3 B4 X V0 Q G CL ->.
      destruct (X eq_refl) as [Fx Ex]. destruct (Q eq_refl) as [Fq Eq]. destruct (G eq_refl) as [Fg Eg]. specialize (V0 eq_refl).
      pose proof (CO t "c1" c1 ltac:(cbn; auto) C1) as F1. pose proof (CO t "c2" c2 ltac:(cbn; auto) C2) as F2.
      assert (RAW : zerof (fadd (fadd (fmul w v0) (fmul (fmul c1 r1) (fsub q x))) (fmul (fmul c2 r2) (fsub g x)))).
      { apply zerof_add; [apply zerof_add|].
        - apply zerof_mul; [apply (CO t "w" w); cbn; auto|auto].
        - apply zerof_mul; [|apply zerof_sub; auto; congruence]. apply mul_unit_finite; auto.
        - apply zerof_mul; [|apply zerof_sub; auto; congruence]. apply mul_unit_finite; auto. }
      unfold clamped, holds_zero in *. destruct (c_clamp c) as [cl|]; [|rewrite CL; exact RAW].
      destruct HZ as (a & b & CC & La & Lb).
      assert (L : fle a b = true) by forder. specialize (CL a b CC L). apply zerof_eq in RAW.
      destruct CL as (CL1 & CL2 & CL3 & _ & CL5). apply zerof_eq.
      destruct (flt a fzero) eqn:Qa; [destruct (flt fzero b) eqn:Qb|].
      * rewrite CL1; auto; clear -RAW Qa Qb; forder.
      * assert (T : fle b (fadd (fadd (fmul w v0) (fmul (fmul c1 r1) (fsub q x))) (fmul (fmul c2 r2) (fsub g x))) = true) by (clear -RAW Qb Lb; forder).
        specialize (CL3 T). clear -CL3 Qb Lb. forder.
      * assert (T : fle (fadd (fadd (fmul w v0) (fmul (fmul c1 r1) (fsub q x))) (fmul (fmul c2 r2) (fsub g x))) a = true) by (clear -RAW Qa La; forder).
        specialize (CL2 T). clear -CL2 Qa La. forder.
    + intros j x v1 x1 X V1 PL ->. destruct (X eq_refl) as [Fx Ex]. destruct (add_zerof x v1 Fx (V1 eq_refl)) as [Fy Ey].
      unfold placed, keeps in *. destruct (c_bounds c) as [b|]; [|rewrite PL; split; [exact Fy|congruence]].
      destruct KE as (NB & l & u & CC & Ll & Lu). assert (FE : feq (fadd x v1) x0 = true) by (apply same_feq; auto; congruence).
      assert (L : fle l u = true) by (clear -Ll Lu; forder).
      destruct (PL NB l u CC L) as (PR & _). rewrite PR; [split; [exact Fy|congruence]| |]; clear -Ll Lu FE; forder.
  - destruct EH as (hp & hv & EA & EB & _ & _ & EF & EG). exists hp, hv. split; auto. split; auto.
    split. { apply Forall_forall. intros X I. apply In_nth_error in I. destruct I as [q I]. apply CP. eauto. }
    split. { apply Forall_forall. intros X I. apply In_nth_error in I. destruct I as [q I]. apply CV. eauto. }
    split. { apply CP. exact EX. }
    intros cost ps y -> Y. destruct (optimize_ok _ _ _ _ _ _ _ E) as (FR0 & _).
    destruct (returned_entries _ _ _ _ _ EP (eq_sym FR0) eq_refl j0 y Y eq_refl) as [Fy Ey]. apply same_feq; auto.
Qed.
