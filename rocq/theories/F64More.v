(** Further binary64 facts: scaled unit draws, remainders, midpoints. *)
From Coq Require Import ZArith Bool Reals Lra Lia.
From Flocq Require Import Core IEEE754.BinarySingleNaN Plus_error Mult_error.
From Verif Require Import F64 F64Facts.

Local Open Scope R_scope.
#[local] Arguments bpow : simpl never.

Lemma fle_fin : forall a b, ffinite a = true -> ffinite b = true -> (fle a b = true <-> FR a <= FR b).
Proof.
  intros a b Fa Fb. rewrite fle_spec, (fkey_finite a), (fkey_finite b) by auto.
  pose proof (finite_notnan _ Fa). pose proof (finite_notnan _ Fb). tauto.
Qed.
Lemma flt_fin : forall a b, ffinite a = true -> ffinite b = true -> (flt a b = true <-> FR a < FR b).
Proof.
  intros a b Fa Fb. rewrite flt_spec, (fkey_finite a), (fkey_finite b) by auto.
  pose proof (finite_notnan _ Fa). pose proof (finite_notnan _ Fb). tauto.
Qed.
Lemma feq_fin : forall a b, ffinite a = true -> ffinite b = true -> (feq a b = true <-> FR a = FR b).
Proof.
  intros a b Fa Fb. rewrite feq_spec, (fkey_finite a), (fkey_finite b) by auto.
  pose proof (finite_notnan _ Fa). pose proof (finite_notnan _ Fb). tauto.
Qed.
Lemma fle_between : forall a x b, fle a x = true -> fle x b = true -> ffinite a = true -> ffinite b = true -> ffinite x = true.
Proof.
  intros a x b A B Fa Fb. apply fle_spec in A. apply fle_spec in B. destruct A as (_ & N & A), B as (_ & _ & B).
  rewrite (fkey_finite a) in A by auto. rewrite (fkey_finite b) in B by auto.
  pose proof (FR_bound a). pose proof (FR_bound b). pose proof bmax_pos.
  destruct x as [s|[]| |s m e Hz]; simpl in *; try reflexivity; try lra; try discriminate.
Qed.
Lemma format_B2R : forall x : f64, generic_format radix2 fexp64 (FR x).
Proof. intros. apply generic_format_B2R. Qed.

(** A float below the rounding of [t] is at most [t]. *)
Lemma below_round : forall t s m, is_round t s -> ffinite s = true -> FR m < FR s -> FR m <= t.
Proof.
  intros t s m R F L. rewrite (is_round_finite_eq _ _ R F) in L. apply Rnot_lt_le. intros H.
  assert (rnd t <= rnd (FR m)) by (apply rnd_le; lra). rewrite rnd_id in H0. lra.
Qed.
Lemma fexp64_FLT : forall e, fexp64 e = FLT_exp (3 - emax - prec) prec e.
Proof. reflexivity. Qed.

(** The difference of two floats is exact when it is small. *)
Lemma small_diff_exact : forall a b : f64, Rabs (FR a - FR b) <= bpow radix2 (-1021) -> rnd (FR a - FR b) = FR a - FR b.
Proof.
  intros a b H. apply round_generic; auto with typeclass_instances.
  unfold Rminus. apply (FLT_format_plus_small radix2 (3 - emax - prec) prec).
  - apply format_B2R.
  - apply generic_format_opp, format_B2R.
  - exact H.
Qed.

(** A product with a factor below one does not round up to the other factor (normal range). *)
Lemma unit_below : forall u : f64, ffinite u = true -> FR u < 1 -> FR u <= 1 - bpow radix2 (-53).
Proof.
  intros u F H. assert (P : pred radix2 fexp64 1 = 1 - bpow radix2 (-53)).
  { change 1 with (bpow radix2 0) at 1. rewrite pred_bpow. f_equal. }
  rewrite <- P. apply pred_ge_gt; auto with typeclass_instances.
  - apply format_B2R.
  - rewrite <- fone_R. apply format_B2R.
Qed.
Lemma pred_gap : forall x, generic_format radix2 fexp64 x -> bpow radix2 (-1021) < x ->
  (x - pred radix2 fexp64 x) / 2 < x * bpow radix2 (-53).
Proof.
  intros x Fx Hx. pose proof (bpow_gt_0 radix2 (-1021)) as P0.
  rewrite pred_eq_pos by lra. unfold pred_pos.
  pose proof (bpow_mag_le radix2 x ltac:(lra)) as L1. pose proof (bpow_mag_gt radix2 x) as L2.
  rewrite Rabs_pos_eq in L1, L2 by lra.
  assert (M : (-1021 < mag radix2 x)%Z).
  { apply (lt_bpow radix2). lra. }
  assert (X : bpow radix2 (mag radix2 x - 1) * bpow radix2 (-53) = bpow radix2 (mag radix2 x - 54)).
  { rewrite <- bpow_plus. f_equal. lia. }
  assert (Y : bpow radix2 (mag radix2 x - 54) * 2 = bpow radix2 (mag radix2 x - 53)).
  { change 2 with (bpow radix2 1). rewrite <- bpow_plus. f_equal. lia. }
  assert (P : 0 < bpow radix2 (-53)) by apply bpow_gt_0.
  case Req_bool_spec; intros E.
  - assert (Z1 : fexp64 (mag radix2 x - 1) = (mag radix2 x - 54)%Z).
    { rewrite fexp64_FLT. unfold FLT_exp, emax, prec. rewrite Z.max_l. lia.
      assert (-1022 <> mag radix2 x - 1)%Z; [|lia].
      intros Q. assert (-1021 < mag radix2 x - 1)%Z; [|lia]. apply (lt_bpow radix2). lra. }
    rewrite <- E in X. rewrite Z1, X. pose proof (bpow_gt_0 radix2 (mag radix2 x - 54)). lra.
  - rewrite ulp_neq_0 by lra. unfold cexp.
    assert (Z1 : fexp64 (mag radix2 x) = (mag radix2 x - 53)%Z).
    { rewrite fexp64_FLT. unfold FLT_exp, emax, prec. rewrite Z.max_l; lia. }
    rewrite Z1. rewrite <- Y.
    assert (bpow radix2 (mag radix2 x - 1) * bpow radix2 (-53) < x * bpow radix2 (-53)).
    { apply Rmult_lt_compat_r; lra. }
    lra.
Qed.
Lemma scaled_below : forall x u, generic_format radix2 fexp64 x -> bpow radix2 (-1021) < x -> 0 <= u <= 1 - bpow radix2 (-53) ->
  rnd (x * u) < x.
Proof.
  intros x u Fx Hx Hu. pose proof (bpow_gt_0 radix2 (-1021)) as P0.
  assert (Fp : generic_format radix2 fexp64 (pred radix2 fexp64 x)) by (apply generic_format_pred; auto with typeclass_instances).
  assert (Lp : pred radix2 fexp64 x < x) by (apply pred_lt_id; lra).
  apply Rnot_le_lt. intros H.
  assert (U : x * u <= x - x * bpow radix2 (-53)) by nra.
  assert (W : 0 < x * bpow radix2 (-53)) by (apply Rmult_lt_0_compat; [lra | apply bpow_gt_0]).
  destruct (Rle_or_lt (x * u) (pred radix2 fexp64 x)) as [L|L].
  - apply rnd_le in L. unfold rnd in L at 2. rewrite (round_generic radix2 fexp64 ZnearestE _ Fp) in L. lra.
  - assert (N : Rabs (rnd (x * u) - x * u) <= Rabs (pred radix2 fexp64 x - x * u)).
    { apply (round_N_pt radix2 fexp64 (fun z => negb (Z.even z)) (x * u)). exact Fp. }
    rewrite (Rabs_left1 (pred radix2 fexp64 x - x * u)) in N by lra.
    rewrite Rabs_pos_eq in N by lra.
    pose proof (pred_gap x Fx Hx). lra.
Qed.

(** [(h - l) * u] for a unit draw [u]. *)
Lemma draw_width : forall l h u, ffinite l = true -> ffinite h = true -> fle l h = true -> ffinite (fsub h l) = true ->
  ffinite u = true -> 0 <= FR u < 1 ->
  ffinite (fmul (fsub h l) u) = true /\ 0 <= FR (fmul (fsub h l) u) <= FR h - FR l.
Proof.
  intros l h u Fl Fh L Fd Fu [U0 U1]. apply (fle_fin l h Fl Fh) in L.
  pose proof (fsub_round h l Fh Fl) as RD. pose proof (is_round_finite_eq _ _ RD Fd) as ED.
  assert (D0 : 0 <= FR (fsub h l)). { rewrite ED, <- rnd_0. apply rnd_le. lra. }
  pose proof (fmul_round (fsub h l) u Fd Fu) as RM.
  assert (B1 : 0 <= FR (fsub h l) * FR u) by nra.
  assert (B2 : FR (fsub h l) * FR u <= FR (fsub h l)) by nra.
  assert (FM : ffinite (fmul (fsub h l) u) = true).
  { apply (is_round_between _ _ fzero (fsub h l) RM); auto. }
  split; auto. rewrite (is_round_finite_eq _ _ RM FM).
  assert (C1 : 0 <= rnd (FR (fsub h l) * FR u)) by (rewrite <- rnd_0; apply rnd_le; lra).
  assert (C2 : rnd (FR (fsub h l) * FR u) <= FR (fsub h l)) by (rewrite <- (rnd_id (fsub h l)) at 2; apply rnd_le; lra).
  split; auto. destruct (Rle_or_lt (FR (fsub h l)) (FR h - FR l)) as [Q|Q]; [lra|].
  assert (BIG : bpow radix2 (-1021) < FR h - FR l).
  { apply Rnot_le_lt. intros W. rewrite ED in Q. rewrite small_diff_exact in Q. lra. rewrite Rabs_pos_eq; lra. }
  assert (LT : rnd (FR (fsub h l) * FR u) < FR (fsub h l)).
  { apply scaled_below. apply format_B2R. lra. split; auto. apply unit_below; auto. }
  rewrite <- (is_round_finite_eq _ _ RM FM) in LT |- *. apply (below_round _ _ _ RD Fd LT).
Qed.
Lemma draw_in_l : forall l h u, ffinite l = true -> ffinite h = true -> fle l h = true -> ffinite (fsub h l) = true ->
  ffinite u = true -> 0 <= FR u < 1 ->
  fle l (fadd (fmul (fsub h l) u) l) = true /\ fle (fadd (fmul (fsub h l) u) l) h = true.
Proof.
  intros l h u Fl Fh L Fd Fu U. destruct (draw_width l h u) as (FM & A & B); auto.
  pose proof (fadd_round _ _ FM Fl) as R. split.
  - apply (is_round_le_l _ _ _ R Fl). lra.
  - apply (is_round_le_r _ _ _ R Fh). lra.
Qed.
Lemma draw_in_r : forall l h u, ffinite l = true -> ffinite h = true -> fle l h = true -> ffinite (fsub h l) = true ->
  ffinite u = true -> 0 <= FR u < 1 ->
  fle l (fadd l (fmul (fsub h l) u)) = true /\ fle (fadd l (fmul (fsub h l) u)) h = true.
Proof.
  intros l h u Fl Fh L Fd Fu U. destruct (draw_width l h u) as (FM & A & B); auto.
  pose proof (fadd_round _ _ Fl FM) as R. split.
  - apply (is_round_le_l _ _ _ R Fl). lra.
  - apply (is_round_le_r _ _ _ R Fh). lra.
Qed.
(** A unit draw as the model's draws are: a float in [0,1). *)
Lemma unit_draw : forall u, fle fzero u = true -> flt u fone = true -> ffinite u = true /\ 0 <= FR u < 1.
Proof.
  intros u A B. assert (F : ffinite u = true). { apply (fle_between fzero u fone); auto. apply flt_le; auto. }
  split; auto. apply (fle_fin fzero u) in A; auto. apply (flt_fin u fone) in B; auto. rewrite fone_R in B. cbn in A. lra.
Qed.

(** Midpoint [0.5 * (m + b)] of two floats whose sum does not overflow. *)
Lemma rnd_double : forall x : f64, rnd (2 * FR x) = 2 * FR x.
Proof.
  intros x. apply round_generic; auto with typeclass_instances.
  rewrite Rmult_comm. change 2 with (bpow radix2 1). apply mult_bpow_pos_exact_FLT. apply format_B2R. lia.
Qed.
Lemma midpoint_in : forall a b s, ffinite a = true -> ffinite b = true -> fle a b = true ->
  is_round (FR a + FR b) s -> ffinite s = true ->
  forall m, FR m = / 2 -> ffinite m = true ->
  fle a (fmul m s) = true /\ fle (fmul m s) b = true.
Proof.
  intros a b s Fa Fb L RS Fs m Em Fm. apply (fle_fin a b Fa Fb) in L.
  pose proof (is_round_finite_eq _ _ RS Fs) as ES.
  assert (L1 : 2 * FR a <= FR s). { rewrite ES, <- (rnd_double a). apply rnd_le. lra. }
  assert (L2 : FR s <= 2 * FR b). { rewrite ES, <- (rnd_double b). apply rnd_le. lra. }
  pose proof (fmul_round m s Fm Fs) as RM. rewrite Em in RM. split.
  - apply (is_round_le_l _ _ _ RM Fa). lra.
  - apply (is_round_le_r _ _ _ RM Fb). lra.
Qed.
Lemma dec_half : FR (fdec 1 2) = / 2 /\ ffinite (fdec 1 2) = true.
Proof. split; [fconst | vm_compute; reflexivity]. Qed.

(** [fmod] of a non-negative by a positive number is the exact remainder. *)
Lemma ffmod_exact : forall x y, ffinite x = true -> ffinite y = true -> 0 <= FR x -> 0 < FR y ->
  ffinite (ffmod x y) = true /\ 0 <= FR (ffmod x y) < FR y /\ exists k, FR (ffmod x y) = FR x - IZR k * FR y.
Proof.
  intros x y Fx Fy X Y.
  destruct y as [sy|sy| |sy my ey By]; try discriminate; [simpl in Y; lra|].
  destruct x as [sx|sx| |sx mx ex Bx]; try discriminate.
  - cbn [ffmod]. split; [reflexivity|]. cbn [B2R]. split; [split; [lra | exact Y]|]. exists 0%Z. cbn [B2R]. lra.
  - assert (sx = false). { destruct sx; auto. exfalso. cbn [B2R] in X. pose proof (F2R_lt_0 radix2 (Float radix2 (Zneg mx) ex) eq_refl). simpl in X. lra. }
    assert (sy = false). { destruct sy; auto. exfalso. cbn [B2R] in Y. pose proof (F2R_lt_0 radix2 (Float radix2 (Zneg my) ey) eq_refl). simpl in Y. lra. }
    subst sx sy. cbn [ffmod]. set (e := Z.min ex ey).
    set (mx' := (Zpos mx * 2 ^ (ex - e))%Z). set (my' := (Zpos my * 2 ^ (ey - e))%Z). set (r := (mx' mod my')%Z).
    assert (PM : (0 < my')%Z) by (unfold my'; apply Z.mul_pos_pos; [lia | apply Z.pow_pos_nonneg; lia]).
    assert (PX : (0 < mx')%Z) by (unfold mx'; apply Z.mul_pos_pos; [lia | apply Z.pow_pos_nonneg; lia]).
    pose proof (Z.mod_pos_bound mx' my' PM) as RB. fold r in RB.
    assert (EX : FR (B754_finite false mx ex Bx) = F2R (Float radix2 mx' e)).
    { cbn [B2R]. unfold SpecFloat.cond_Zopp. rewrite (F2R_change_exp radix2 e) by lia. reflexivity. }
    assert (EY : FR (B754_finite false my ey By) = F2R (Float radix2 my' e)).
    { cbn [B2R]. unfold SpecFloat.cond_Zopp. rewrite (F2R_change_exp radix2 e) by lia. reflexivity. }
    assert (DM : mx' = (my' * (mx' / my') + r)%Z) by (apply Z.div_mod; lia).
    pose proof (fnorm_round r e false) as R.
    assert (LY : F2R (Float radix2 r e) < FR (B754_finite false my ey By)) by (rewrite EY; apply F2R_lt; tauto).
    assert (L0 : 0 <= F2R (Float radix2 r e)) by (apply F2R_ge_0; tauto).
    assert (P53 : forall m e' (B : SpecFloat.bounded prec emax m e' = true), (Zpos m < 2 ^ 53)%Z /\ (-1074 <= e')%Z).
    { intros m e' B. unfold SpecFloat.bounded in B. apply andb_prop in B. destruct B as [B _].
      unfold SpecFloat.canonical_mantissa in B. apply Zeq_bool_eq in B.
      unfold SpecFloat.fexp, SpecFloat.emin, prec, emax in B. split; [|lia].
      apply Z.lt_le_trans with (2 ^ (Zpos (SpecFloat.digits2_pos m)))%Z.
      - rewrite Digits.Zpos_digits2_pos. exact (Digits.Zpower_gt_Zdigits radix2 _ (Zpos m) (Z.le_refl _)).
      - apply Z.pow_le_mono_r; lia. }
    assert (G : generic_format radix2 fexp64 (F2R (Float radix2 r e))).
    { apply generic_format_FLT. exists (Float radix2 r e).
      - reflexivity.
      - cbn [Fnum]. rewrite Z.abs_eq by lia. change (radix2 ^ 53)%Z with (2 ^ 53)%Z.
        destruct (Z.le_ge_cases ex ey).
        + assert (mx' = Zpos mx). { unfold mx', e. rewrite Z.min_l, Z.sub_diag by lia. lia. }
          apply Z.le_lt_trans with mx'. unfold r. apply Z.mod_le; lia.
          rewrite H0. apply (P53 mx ex Bx).
        + assert (my' = Zpos my). { unfold my', e. rewrite Z.min_r, Z.sub_diag by lia. lia. }
          apply Z.lt_trans with my'. lia. rewrite H0. apply (P53 my ey By).
      - cbn [Fexp]. unfold e. pose proof (P53 mx ex Bx). pose proof (P53 my ey By).
        unfold SpecFloat.emin, emax, prec. lia. }
    assert (ER : rnd (F2R (Float radix2 r e)) = F2R (Float radix2 r e)) by (apply round_generic; auto with typeclass_instances).
    pose proof (FR_bound (B754_finite false my ey By)) as BB.
    assert (FF : ffinite (binary_normalize prec emax _ _ mode_NE r e false) = true).
    { apply (is_round_between _ _ fzero (B754_finite false my ey By) R); auto. rewrite fzero_R. split; [exact L0 | apply Rlt_le; exact LY]. }
    split; [exact FF|]. rewrite (is_round_finite_eq _ _ R FF), ER.
    split; [split; lra|]. exists (mx' / my')%Z. rewrite EX, EY. unfold F2R. cbn [Fnum Fexp].
    rewrite DM at 1. rewrite plus_IZR, mult_IZR. ring.
Qed.
Lemma fnpmod_exact : forall x y, ffinite x = true -> ffinite y = true -> 0 <= FR x -> 0 < FR y ->
  ffinite (fnpmod x y) = true /\ 0 <= FR (fnpmod x y) < FR y /\ exists k, FR (fnpmod x y) = FR x - IZR k * FR y.
Proof.
  intros x y Fx Fy X Y. destruct (ffmod_exact x y) as (F & B & k & E); auto. unfold fnpmod.
  destruct (feq y fzero) eqn:Q. { repeat split; eauto; tauto. }
  destruct (flt y fzero) eqn:Q1. { apply (flt_fin y fzero) in Q1; auto. rewrite fzero_R in Q1. lra. }
  destruct (feq (ffmod x y) fzero) eqn:Q2.
  { apply (feq_fin _ fzero) in Q2; auto. rewrite fzero_R in Q2. cbn [B2R]. repeat split; auto; try lra. exists k. lra. }
  destruct (flt (ffmod x y) fzero) eqn:Q3. { apply (flt_fin _ fzero) in Q3; auto. rewrite fzero_R in Q3. lra. }
  cbn [Bool.eqb]. repeat split; eauto; tauto.
Qed.
Lemma fnpmod_zero : forall x y, FR y = 0 -> ffinite y = true -> fnpmod x y = fnan.
Proof.
  intros x y Y Fy. destruct y as [s|s| |s m e B]; try discriminate.
  - unfold fnpmod. destruct x; destruct s; reflexivity.
  - exfalso. cbn [B2R] in Y. apply eq_0_F2R in Y. destruct s; discriminate.
Qed.
Lemma fnpmod_inf : forall s y, fnpmod (B754_infinity s) y = fnan.
Proof.
  intros s y. unfold fnpmod. assert (E : ffmod (B754_infinity s) y = fnan) by (destruct y; reflexivity).
  rewrite E. destruct (feq y fzero); auto. change (feq fnan fzero) with false. change (flt fnan fzero) with false.
  destruct (flt y fzero); reflexivity.
Qed.

(** Adding something tiny does not change a float. *)
Lemma ulp_ge : forall x, 0 < x -> x * bpow radix2 (-53) <= ulp radix2 fexp64 x.
Proof.
  intros x H. rewrite ulp_neq_0 by lra. unfold cexp. pose proof (bpow_mag_gt radix2 x) as L. rewrite Rabs_pos_eq in L by lra.
  apply Rle_trans with (bpow radix2 (mag radix2 x) * bpow radix2 (-53)).
  - apply Rmult_le_compat_r. apply bpow_ge_0. lra.
  - rewrite <- bpow_plus. apply bpow_le. rewrite fexp64_FLT. unfold FLT_exp, prec. lia.
Qed.
Lemma pred_gap_ge : forall x, 0 < x -> generic_format radix2 fexp64 x -> x * bpow radix2 (-54) <= x - pred radix2 fexp64 x.
Proof.
  intros x H F. rewrite pred_eq_pos by lra. unfold pred_pos.
  pose proof (bpow_mag_gt radix2 x) as L. rewrite Rabs_pos_eq in L by lra.
  case Req_bool_spec; intros E.
  - apply Rle_trans with (bpow radix2 (fexp64 (mag radix2 x - 1))); [|lra].
    apply Rle_trans with (bpow radix2 (mag radix2 x) * bpow radix2 (-54)).
    + apply Rmult_le_compat_r. apply bpow_ge_0. lra.
    + rewrite <- bpow_plus. apply bpow_le. rewrite fexp64_FLT. unfold FLT_exp, prec. lia.
  - pose proof (ulp_ge x H). assert (bpow radix2 (-54) <= bpow radix2 (-53)) by (apply bpow_le; lia). nra.
Qed.
Lemma absorb_pos : forall x e, 0 < x -> generic_format radix2 fexp64 x -> 2 * Rabs e < x * bpow radix2 (-54) -> rnd (x + e) = x.
Proof.
  intros x e H F E.
  assert (N : Rabs (rnd (x + e) - (x + e)) <= Rabs (x - (x + e))).
  { apply (round_N_pt radix2 fexp64 (fun z => negb (Z.even z)) (x + e)). exact F. }
  replace (x - (x + e)) with (- e) in N by ring. rewrite Rabs_Ropp in N.
  assert (Fr : generic_format radix2 fexp64 (rnd (x + e))) by (apply generic_format_round; auto with typeclass_instances).
  assert (D : Rabs (rnd (x + e) - x) < x * bpow radix2 (-54)).
  { apply Rle_lt_trans with (Rabs (rnd (x + e) - (x + e)) + Rabs e); [|lra].
    replace (rnd (x + e) - x) with ((rnd (x + e) - (x + e)) + e) by ring. apply Rabs_triang. }
  destruct (Rtotal_order (rnd (x + e)) x) as [Q|[Q|Q]]; auto; exfalso.
  - assert (rnd (x + e) <= pred radix2 fexp64 x) by (apply pred_ge_gt; auto with typeclass_instances).
    pose proof (pred_gap_ge x H F). rewrite Rabs_left1 in D by lra. lra.
  - assert (succ radix2 fexp64 x <= rnd (x + e)) by (apply succ_le_lt; auto with typeclass_instances).
    rewrite succ_eq_pos in H0 by lra. pose proof (ulp_ge x H).
    assert (bpow radix2 (-54) <= bpow radix2 (-53)) by (apply bpow_le; lia).
    rewrite Rabs_pos_eq in D by lra. nra.
Qed.
Lemma rnd_opp : forall x, rnd (- x) = - rnd x.
Proof. intros. apply round_NE_opp. Qed.
Lemma absorb : forall (x : f64) e, 2 * Rabs e < Rabs (FR x) * bpow radix2 (-54) -> rnd (FR x + e) = FR x.
Proof.
  intros x e E. destruct (Rtotal_order (FR x) 0) as [Q|[Q|Q]].
  - rewrite (Rabs_left (FR x)) in E by lra. rewrite <- (Ropp_involutive (FR x)), <- (Ropp_involutive e).
    rewrite <- Ropp_plus_distr, rnd_opp. f_equal. apply absorb_pos. lra. apply generic_format_opp, format_B2R.
    rewrite Rabs_Ropp. lra.
  - rewrite Q, Rabs_R0 in E. pose proof (Rabs_pos e). lra.
  - rewrite (Rabs_pos_eq (FR x)) in E by lra. apply absorb_pos; auto. apply format_B2R.
Qed.
Lemma fopp_R : forall x, FR (fopp x) = - FR x.
Proof. intros. unfold fopp. apply B2R_Bopp. Qed.
Lemma fopp_fin : forall x, ffinite (fopp x) = ffinite x.
Proof. intros. unfold fopp, ffinite. apply is_finite_Bopp. Qed.
Lemma two_minus : forall x b : f64, ffinite x = true -> ffinite b = true -> 4 * Rabs (FR b) < Rabs (FR x) * bpow radix2 (-54) ->
  ffinite (fsub (fmul (fofZ 2) b) x) = true /\ FR (fsub (fmul (fofZ 2) b) x) = - FR x.
Proof.
  intros x b Fx Fb H.
  assert (P : 0 < bpow radix2 (-54) < 1) by (split; [apply bpow_gt_0 | apply (bpow_lt radix2 (-54) 0); lia]).
  pose proof (Rabs_pos (FR b)). pose proof (Rabs_pos (FR x)).
  pose proof (fmul_round (fofZ 2) b eq_refl Fb) as R. change (FR (fofZ 2)) with (FR ftwo) in R. rewrite ftwo_R in R.
  assert (B : Rabs (2 * FR b) <= Rabs (FR x)). { rewrite Rabs_mult, (Rabs_pos_eq 2) by lra. nra. }
  assert (F2 : ffinite (fmul (fofZ 2) b) = true).
  { assert (G : forall y, Rabs (FR y) = Rabs (FR x) -> (FR y <= 0 -> ffinite y = true -> ffinite (fopp y) = true -> ffinite (fmul (fofZ 2) b) = true)).
    { intros y Y Y0 Fy Fy'. apply (is_round_between _ _ y (fopp y) R Fy Fy'). rewrite fopp_R. 
      rewrite (Rabs_left1 (FR y)) in Y by lra. pose proof (Rle_abs (2 * FR b)). pose proof (Rle_abs (- (2 * FR b))).
      rewrite Rabs_Ropp in H3. lra. }
    destruct (Rle_or_lt (FR x) 0).
    - apply (G x); auto. rewrite fopp_fin; auto.
    - apply (G (fopp x)); rewrite ?fopp_fin; auto. rewrite fopp_R, Rabs_Ropp; auto. rewrite fopp_R. lra. }
  pose proof (is_round_finite_eq _ _ R F2) as E2. rewrite rnd_double in E2.
  pose proof (fsub_round _ _ F2 Fx) as RS. rewrite E2 in RS.
  assert (EQ : rnd (2 * FR b - FR x) = - FR x).
  { replace (2 * FR b - FR x) with (- (FR x + - (2 * FR b))) by ring. rewrite rnd_opp. f_equal. apply absorb.
    rewrite Rabs_Ropp, Rabs_mult, (Rabs_pos_eq 2) by lra. lra. }
  destruct RS as [RS _]. rewrite EQ in RS. rewrite Rabs_Ropp in RS.
  destruct RS; auto. pose proof (FR_bound x). apply Rabs_lt. lra.
Qed.
