(** The minimum of the cross-in-tray function (C48). *)
From Coq Require Import Reals Lra Lia Psatz ZArith Ratan.
From Verif Require Import RealFacts.
Local Open Scope R_scope.

(** The sine lies below its tangents, except where it touches them. *)
Lemma sin_tangent : forall a t, 0 < a < PI -> 0 <= t <= PI -> t <> a -> sin t < sin a + cos a * (t - a).
Proof.
  intros a t A T NE. assert (DS : forall u, derivable_pt_lim sin u (cos u)) by (intros; apply derivable_pt_lim_sin).
  destruct (Rtotal_order t a) as [L|[E|G]]; [|contradiction|].
  - destruct (MVT_cor2 sin cos t a L (fun u _ => DS u)) as (c & E & C). assert (cos a < cos c) by (apply cos_decreasing_1; lra). nra.
  - destruct (MVT_cor2 sin cos a t G (fun u _ => DS u)) as (c & E & C). assert (cos c < cos a) by (apply cos_decreasing_1; lra). nra.
Qed.
Lemma abs_sin_tangent : forall a t, 0 < a < PI / 2 -> 0 <= t -> t <> a -> Rabs (sin t) < sin a + cos a * (t - a).
Proof.
  intros a t A T NE. pose proof PI_RGT_0 as P. destruct (Rle_dec t PI) as [L|L].
  - rewrite Rabs_right by (apply Rle_ge, sin_ge_0; lra). apply sin_tangent; lra.
  - pose proof (sin_tangent a (PI / 2) ltac:(lra) ltac:(lra) ltac:(lra)) as S. rewrite sin_PI2 in S.
    assert (0 < cos a) by (apply cos_gt_0; lra). assert (B : Rabs (sin t) <= 1) by (apply Rabs_le; apply SIN_bound).
    assert (cos a * (PI / 2 - a) < cos a * (t - a)) by (apply Rmult_lt_compat_l; lra). lra.
Qed.
Lemma exp_tangent : forall u, 1 + u <= exp u.
Proof. intros u. destruct (Req_dec u 0) as [->|N]; [rewrite exp_0; lra|]. left. apply exp_ineq1; exact N. Qed.

(** The minimiser: cot a = 1 / (sqrt 2 pi). *)
Definition tray : R := atan (sqrt 2 * PI).
Lemma s2pi_pos : 0 < sqrt 2 * PI.
Proof. apply Rmult_lt_0_compat; [apply sqrt_lt_R0; lra|apply PI_RGT_0]. Qed.
Lemma tray_range : 0 < tray < PI / 2.
Proof. unfold tray. pose proof (atan_bound (sqrt 2 * PI)). split; [|lra]. rewrite <- atan_0. apply atan_increasing, s2pi_pos. Qed.
Lemma tray_cot : cos tray = sin tray / (sqrt 2 * PI).
Proof.
  pose proof tray_range as T. assert (C : 0 < cos tray) by (apply cos_gt_0; lra). assert (E : tan tray = sqrt 2 * PI) by apply tan_atan.
  pose proof s2pi_pos as S. unfold tan in E. rewrite <- E. field. split; [lra|]. intros Z. rewrite Z in E. unfold Rdiv in E. rewrite Rmult_0_l in E. lra.
Qed.
Lemma tray_peak : forall t, 0 <= t -> t <> tray -> Rabs (sin t) * exp (- t / (sqrt 2 * PI)) < sin tray * exp (- tray / (sqrt 2 * PI)).
Proof.
  intros t T NE. pose proof tray_range as TR. pose proof s2pi_pos as SP. pose proof (abs_sin_tangent tray t TR T NE) as B.
  assert (S : 0 < sin tray) by (apply sin_gt_0; lra). rewrite tray_cot in B. assert (S2 : sqrt 2 <> 0) by (intros Z; rewrite Z in SP; lra). pose proof PI_RGT_0 as PP.
  assert (Rabs (sin t) < sin tray * exp ((t - tray) / (sqrt 2 * PI))) as H.
  { eapply Rlt_le_trans; [exact B|]. pose proof (exp_tangent ((t - tray) / (sqrt 2 * PI))) as X. apply (Rmult_le_compat_l (sin tray)) in X; [|lra].
    eapply Rle_trans; [|exact X]. right. field. lra. }
  apply (Rmult_lt_compat_r (exp (- t / (sqrt 2 * PI)))) in H; [|apply exp_pos]. rewrite Rmult_assoc, <- exp_plus in H.
  replace ((t - tray) / (sqrt 2 * PI) + - t / (sqrt 2 * PI)) with (- tray / (sqrt 2 * PI)) in H by (field; lra). exact H.
Qed.
Lemma tray_peak_le : forall t, 0 <= t -> Rabs (sin t) * exp (- t / (sqrt 2 * PI)) <= sin tray * exp (- tray / (sqrt 2 * PI)).
Proof.
  intros t T. destruct (Req_dec t tray) as [->|NE]; [|left; apply tray_peak; auto]. right. rewrite Rabs_right; [reflexivity|].
  pose proof tray_range. apply Rle_ge, sin_ge_0; lra.
Qed.

(** The radius is at least the mean of the coordinates times sqrt 2. *)
Lemma radius_mean : forall x y, (Rabs x + Rabs y) / sqrt 2 <= sqrt (x ^ 2 + y ^ 2).
Proof.
  intros x y. assert (S : 0 < sqrt 2) by (apply sqrt_lt_R0; lra). assert (Q : sqrt 2 * sqrt 2 = 2) by (apply sqrt_sqrt; lra).
  apply Rsqr_incr_0_var; [|apply sqrt_pos]. rewrite Rsqr_sqrt by nra. unfold Rsqr.
  replace ((Rabs x + Rabs y) / sqrt 2 * ((Rabs x + Rabs y) / sqrt 2)) with ((Rabs x + Rabs y) * (Rabs x + Rabs y) / (sqrt 2 * sqrt 2)) by (field; lra). rewrite Q.
  rewrite <- (pow2_abs x), <- (pow2_abs y). pose proof (Rle_0_sqr (Rabs x - Rabs y)) as D. unfold Rsqr in D. lra.
Qed.
Definition tray_height (x y : R) : R := Rabs (sin x * sin y * exp (Rabs (100 - sqrt (x ^ 2 + y ^ 2) / PI))).
Lemma abs_sin_abs : forall x, Rabs (sin (Rabs x)) = Rabs (sin x).
Proof. intros x. unfold Rabs at 2. destruct (Rcase_abs x); [rewrite sin_neg; apply Rabs_Ropp|reflexivity]. Qed.
Lemma radius_small : forall x y, -10 <= x <= 10 -> -10 <= y <= 10 -> sqrt (x ^ 2 + y ^ 2) <= 15.
Proof. intros x y X Y. rewrite <- (sqrt_square 15) by lra. apply sqrt_le_1_alt. nra. Qed.
Lemma tray_height_eq : forall x y, -10 <= x <= 10 -> -10 <= y <= 10 -> tray_height x y = Rabs (sin x) * Rabs (sin y) * exp (100 - sqrt (x ^ 2 + y ^ 2) / PI).
Proof.
  intros x y X Y. unfold tray_height. pose proof (radius_small x y X Y) as R. pose proof pi_lo as P.
  assert (sqrt (x ^ 2 + y ^ 2) / PI <= 15). { apply (Rmult_le_reg_r PI); [lra|]. unfold Rdiv. rewrite Rmult_assoc, Rinv_l; lra. }
  rewrite (Rabs_right (100 - _)) by lra. rewrite !Rabs_mult. rewrite (Rabs_right (exp _)); [reflexivity|]. apply Rle_ge. left. apply exp_pos.
Qed.
Definition tray_top : R := exp 100 * (sin tray * exp (- tray / (sqrt 2 * PI))) ^ 2.
Lemma tray_split : forall x y, -10 <= x <= 10 -> -10 <= y <= 10 ->
  tray_height x y <= exp 100 * ((Rabs (sin (Rabs x)) * exp (- Rabs x / (sqrt 2 * PI))) * (Rabs (sin (Rabs y)) * exp (- Rabs y / (sqrt 2 * PI)))).
Proof.
  intros x y X Y. rewrite (tray_height_eq x y X Y), !abs_sin_abs. pose proof PI_RGT_0 as P. assert (S : 0 < sqrt 2) by (apply sqrt_lt_R0; lra).
  replace (exp 100 * (Rabs (sin x) * exp (- Rabs x / (sqrt 2 * PI)) * (Rabs (sin y) * exp (- Rabs y / (sqrt 2 * PI))))) with
    (Rabs (sin x) * Rabs (sin y) * (exp 100 * (exp (- Rabs x / (sqrt 2 * PI)) * exp (- Rabs y / (sqrt 2 * PI))))) by ring. rewrite <- !exp_plus.
  apply Rmult_le_compat_l; [apply Rmult_le_pos; apply Rabs_pos|]. pose proof (radius_mean x y) as R.
  assert (E : 100 - sqrt (x ^ 2 + y ^ 2) / PI <= 100 + (- Rabs x / (sqrt 2 * PI) + - Rabs y / (sqrt 2 * PI))).
  { replace (- Rabs x / (sqrt 2 * PI) + - Rabs y / (sqrt 2 * PI)) with (- ((Rabs x + Rabs y) / sqrt 2 / PI)) by (field; lra).
    unfold Rminus. apply Rplus_le_compat_l, Ropp_le_contravar. unfold Rdiv at 1 3. apply Rmult_le_compat_r; [left; apply Rinv_0_lt_compat; lra|exact R]. }
  destruct E as [E|E]; [left; apply exp_increasing; exact E|right; f_equal; exact E].
Qed.
Lemma tray_bound : forall x y, -10 <= x <= 10 -> -10 <= y <= 10 -> tray_height x y <= tray_top /\ (tray_height x y = tray_top -> Rabs x = tray /\ Rabs y = tray).
Proof.
  intros x y X Y. pose proof (tray_split x y X Y) as S. pose proof (tray_peak_le (Rabs x) (Rabs_pos x)) as PX. pose proof (tray_peak_le (Rabs y) (Rabs_pos y)) as PY.
  pose proof (tray_peak (Rabs x) (Rabs_pos x)) as SX. pose proof (tray_peak (Rabs y) (Rabs_pos y)) as SY. pose proof (exp_pos 100) as E. unfold tray_top.
  set (p := Rabs (sin (Rabs x)) * exp (- Rabs x / (sqrt 2 * PI))) in *. set (q := Rabs (sin (Rabs y)) * exp (- Rabs y / (sqrt 2 * PI))) in *.
  set (m := sin tray * exp (- tray / (sqrt 2 * PI))) in *.
  assert (P0 : 0 <= p) by (apply Rmult_le_pos; [apply Rabs_pos|left; apply exp_pos]). assert (Q0 : 0 <= q) by (apply Rmult_le_pos; [apply Rabs_pos|left; apply exp_pos]).
  assert (M0 : 0 < m). { pose proof tray_range. apply Rmult_lt_0_compat; [apply sin_gt_0; lra|apply exp_pos]. }
  assert (PQ : p * q <= m ^ 2) by nra. split.
  - eapply Rle_trans; [exact S|]. apply Rmult_le_compat_l; [lra|exact PQ].
  - intros EQ. assert (p * q = m ^ 2) as Z. { rewrite EQ in S. apply Rmult_le_reg_l in S; [lra|exact E]. }
    split. + destruct (Req_dec (Rabs x) tray) as [|N]; [auto|]. specialize (SX N). nra. + destruct (Req_dec (Rabs y) tray) as [|N]; [auto|]. specialize (SY N). nra.
Qed.
Lemma tray_in : 1 <= tray <= 10 -> tray_height tray tray = tray_top.
Proof.
  intros T. rewrite tray_height_eq by lra. pose proof tray_range as R. assert (0 <= sin tray) by (apply sin_ge_0; lra). rewrite !Rabs_right by lra. unfold tray_top.
  assert (S : 0 < sqrt 2) by (apply sqrt_lt_R0; lra). pose proof PI_RGT_0 as P. replace (tray ^ 2 + tray ^ 2) with (2 * (tray * tray)) by ring.
  rewrite sqrt_mult by nra. rewrite sqrt_square by lra. replace (100 - sqrt 2 * tray / PI) with (100 + (- tray / (sqrt 2 * PI) + - tray / (sqrt 2 * PI))).
  - rewrite !exp_plus. ring.
  - assert (Q : sqrt 2 * sqrt 2 = 2) by (apply sqrt_sqrt; lra). replace (sqrt 2 * tray / PI) with ((sqrt 2 * sqrt 2) * tray / (sqrt 2 * PI)) by (field; lra). rewrite Q. field. lra.
Qed.

(** *** Numeric values *)
Lemma sqrt2_bounds : 1.41421356 < sqrt 2 < 1.41421357.
Proof.
  assert (S : 0 <= sqrt 2) by apply sqrt_pos. assert (Q : sqrt 2 * sqrt 2 = 2) by (apply sqrt_sqrt; lra). split.
  - destruct (Rlt_dec 1.41421356 (sqrt 2)) as [|N]; auto. exfalso. assert (sqrt 2 * sqrt 2 <= 1.41421356 * 1.41421356) by (apply Rmult_le_compat; lra). lra.
  - destruct (Rlt_dec (sqrt 2) 1.41421357) as [|N]; auto. exfalso. assert (1.41421357 * 1.41421357 <= sqrt 2 * sqrt 2) by (apply Rmult_le_compat; lra). lra.
Qed.
Lemma s2pi_bounds : 4.442882 < sqrt 2 * PI < 4.442884.
Proof.
  pose proof sqrt2_bounds. pose proof pi_bounds. split.
  - eapply Rlt_trans; [|apply (Rmult_gt_0_lt_compat 1.41421356 (sqrt 2) 3.1415926535 PI); lra]. lra.
  - eapply Rlt_trans; [apply (Rmult_gt_0_lt_compat (sqrt 2) 1.41421357 PI 3.1415926536); lra|]. lra.
Qed.
Lemma tray_above : forall d, 0 < d < 1 -> cos d < sqrt 2 * PI * sin d -> PI / 2 - d < tray.
Proof.
  intros d D H. pose proof tray_range as R. pose proof pi_lo. destruct (Rlt_dec (PI / 2 - d) tray) as [|N]; auto. exfalso.
  assert (S : 0 < sin d) by (apply sin_gt_0; lra).
  assert (T : tan tray <= tan (PI / 2 - d)). { destruct (Req_dec tray (PI / 2 - d)) as [->|NE]; [lra|]. left. apply tan_increasing; lra. }
  unfold tray in T at 1. rewrite tan_atan in T. unfold tan in T. rewrite sin_shift, cos_shift in T. apply (Rmult_le_compat_r (sin d)) in T; [|lra].
  replace (cos d / sin d * sin d) with (cos d) in T by (field; lra). lra.
Qed.
Lemma tray_below : forall d, 0 < d < 1 -> sqrt 2 * PI * sin d < cos d -> tray < PI / 2 - d.
Proof.
  intros d D H. pose proof tray_range as R. pose proof pi_lo. destruct (Rlt_dec tray (PI / 2 - d)) as [|N]; auto. exfalso.
  assert (S : 0 < sin d) by (apply sin_gt_0; lra).
  assert (T : tan (PI / 2 - d) <= tan tray). { destruct (Req_dec tray (PI / 2 - d)) as [->|NE]; [lra|]. left. apply tan_increasing; lra. }
  unfold tray in T. rewrite tan_atan in T. unfold tan in T. rewrite sin_shift, cos_shift in T. apply (Rmult_le_compat_r (sin d)) in T; [|lra].
  replace (cos d / sin d * sin d) with (cos d) in T by (field; lra). lra.
Qed.
Lemma tray_bounds : 1.34940 < tray < 1.34942.
Proof.
  pose proof s2pi_bounds as S. pose proof pi_bounds as P. split.
  - assert (PI / 2 - 0.221396 < tray); [|lra]. apply tray_above; [lra|]. pose proof (sin_lower 0.221396 ltac:(lra)) as L. pose proof (cos_upper 0.221396 ltac:(lra)) as U. nra.
  - assert (tray < PI / 2 - 0.221377); [|lra]. apply tray_below; [lra|]. pose proof (sin_upper 0.221377 ltac:(lra)) as L. pose proof (cos_lower 0.221377 ltac:(lra)) as U. nra.
Qed.
Lemma sin2_tray : sin tray ^ 2 = (sqrt 2 * PI) ^ 2 / (1 + (sqrt 2 * PI) ^ 2).
Proof.
  pose proof (sin2_cos2 tray) as E. unfold Rsqr in E. rewrite tray_cot in E. pose proof s2pi_bounds as S. set (k := sqrt 2 * PI) in *. set (s := sin tray) in *.
  apply (Rmult_eq_reg_r ((1 + k ^ 2) / k ^ 2)); [|unfold Rdiv; apply Rmult_integral_contrapositive; split; [nra|apply Rinv_neq_0_compat; nra]].
  transitivity (s * s + s / k * (s / k)); [field; lra|]. rewrite E. field. split; nra.
Qed.
Lemma tray_top_eq : tray_top = sin tray ^ 2 * (exp 1 ^ 99 * exp (1 - sqrt 2 * tray / PI)).
Proof.
  unfold tray_top. assert (S : 0 < sqrt 2) by (apply sqrt_lt_R0; lra). pose proof PI_RGT_0 as P. assert (Q : sqrt 2 * sqrt 2 = 2) by (apply sqrt_sqrt; lra).
  rewrite Rpow_mult_distr. replace (exp (- tray / (sqrt 2 * PI)) ^ 2) with (exp (- (sqrt 2 * tray / PI))).
  - rewrite <- Rmult_assoc, (Rmult_comm (exp 100)), Rmult_assoc. f_equal. rewrite <- exp_plus. assert (PW : forall n, exp 1 ^ n = exp (INR n)).
    { induction n; [cbn [pow INR]; rewrite exp_0; reflexivity|]. cbn [pow]. rewrite IHn, <- exp_plus, S_INR. f_equal. ring. }
    rewrite PW, <- exp_plus. f_equal. rewrite INR_IZR_INZ. change (Z.of_nat 99) with 99%Z. ring.
  - cbn [pow]. rewrite Rmult_1_r, <- exp_plus. f_equal. replace (sqrt 2 * tray / PI) with ((sqrt 2 * sqrt 2) * tray / (sqrt 2 * PI)) by (field; lra). rewrite Q. field. lra.
Qed.
Lemma e_bounds : 2.7182815255 < exp 1 < 2.7182818701.
Proof. pose proof (exp_lower 1 ltac:(lra)) as L. pose proof (exp_upper 1 ltac:(lra)) as U. unfold exp_lo in L. unfold exp_hi in U. lra. Qed.
Lemma tray_exponent : 0.39254 < 1 - sqrt 2 * tray / PI < 0.39256.
Proof.
  pose proof sqrt2_bounds as S. pose proof pi_bounds as P. pose proof tray_bounds as T.
  assert (A : 1.41421356 * 1.34940 < sqrt 2 * tray < 1.41421357 * 1.34942) by (split; apply Rmult_gt_0_lt_compat; lra).
  assert (B : 0.60744 * PI < sqrt 2 * tray < 0.60746 * PI) by (split; lra). destruct B as [B1 B2].
  assert (E : sqrt 2 * tray / PI * PI = sqrt 2 * tray) by (field; lra). split; nra.
Qed.
Lemma exp_mono : forall x y, x <= y -> exp x <= exp y.
Proof. intros x y [L| ->]; [left; apply exp_increasing; exact L|lra]. Qed.
Lemma tray_top_bounds : 20626.0 ^ 10 <= tray_top + 1 <= 20626.2 ^ 10.
Proof.
  rewrite tray_top_eq, sin2_tray. pose proof e_bounds as E. pose proof tray_exponent as X. pose proof s2pi_bounds as S.
  assert (Q : 0.951780 < (sqrt 2 * PI) ^ 2 / (1 + (sqrt 2 * PI) ^ 2) < 0.951783).
  { set (k := sqrt 2 * PI) in *. assert (K : 4.442882 ^ 2 < k ^ 2 < 4.442884 ^ 2) by (cbn [pow]; nra). assert (D : k ^ 2 / (1 + k ^ 2) * (1 + k ^ 2) = k ^ 2) by (field; nra). split; nra. }
  assert (E1 : 2.7182815255 ^ 99 <= exp 1 ^ 99 <= 2.7182818701 ^ 99) by (split; apply pow_incr; lra).
  assert (E2 : exp_lo 0.39254 <= exp (1 - sqrt 2 * tray / PI) <= exp_hi 0.39256).
  { split; [eapply Rle_trans; [apply exp_lower; lra|apply exp_mono; lra]|eapply Rle_trans; [apply exp_mono|apply exp_upper]; lra]. }
  assert (E2' : 1.48073 <= exp (1 - sqrt 2 * tray / PI) <= 1.48078) by (unfold exp_lo, exp_hi in E2; lra).
  set (u := (sqrt 2 * PI) ^ 2 / (1 + (sqrt 2 * PI) ^ 2)) in *. set (v := exp 1 ^ 99) in *. set (w := exp (1 - sqrt 2 * tray / PI)) in *.
  assert (V0 : 0 < 2.7182815255 ^ 99) by (apply pow_lt; lra). split.
  - apply Rle_trans with (0.951780 * (2.7182815255 ^ 99 * 1.48073)); [lra|]. assert (0.951780 * (2.7182815255 ^ 99 * 1.48073) <= u * (v * w)); [|lra].
    apply Rmult_le_compat; [lra|apply Rmult_le_pos; lra|lra|apply Rmult_le_compat; lra].
  - apply Rle_trans with (0.951783 * (2.7182818701 ^ 99 * 1.48078) + 1); [|lra]. assert (u * (v * w) <= 0.951783 * (2.7182818701 ^ 99 * 1.48078)); [|lra].
    apply Rmult_le_compat; [lra|apply Rmult_le_pos; lra|lra|apply Rmult_le_compat; lra].
Qed.
