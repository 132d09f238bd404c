(** The minimum of the Holder table function (C48). *)
From Coq Require Import Reals Lra Lia Psatz ZArith Ratan.
From Coquelicot Require Import Coquelicot.
From Verif Require Import RealFacts ObjCross.
Local Open Scope R_scope.

(** A function with a derivative that never increases lies below its tangents. *)
Lemma below_tangent : forall (g g' : R -> R) a b, (forall x, a < x < b -> derivable_pt_lim g x (g' x)) ->
  (forall x y, a < x -> x <= y -> y < b -> g' y <= g' x) -> forall u u0, a < u < b -> a < u0 < b -> g u <= g u0 + g' u0 * (u - u0).
Proof.
  intros g g' a b D M u u0 U U0. destruct (Rtotal_order u u0) as [L|[->|L]]; [|lra|].
  - destruct (MVT_cor2 g g' u u0 L) as (c & E & C); [intros; apply D; lra|]. pose proof (M c u0 ltac:(lra) ltac:(lra) ltac:(lra)). nra.
  - destruct (MVT_cor2 g g' u0 u L) as (c & E & C); [intros; apply D; lra|]. pose proof (M u0 c ltac:(lra) ltac:(lra) ltac:(lra)). nra.
Qed.
Lemma tan_minus_id : forall x y, - (PI / 2) < x -> x <= y -> y < PI / 2 -> - (sin y / cos y) + y <= - (sin x / cos x) + x.
Proof.
  intros x y X XY Y. destruct (Rle_lt_or_eq_dec _ _ XY) as [L| ->]; [|lra].
  destruct (MVT_cor2 (fun t => - (sin t / cos t) + t) (fun t => - (sin t / cos t) ^ 2) x y L) as (c & E & C).
  - intros c C. assert (0 < cos c) by (apply cos_gt_0; lra). apply is_derive_Reals. auto_derive; [lra|]. pose proof (sin2_cos2 c) as Q. unfold Rsqr in Q.
    field_simplify_eq; [|lra]. ring_simplify. nra.
  - pose proof (pow2_ge_0 (sin c / cos c)). nra.
Qed.
Lemma cos_gauss : forall u u0, - (PI / 2) < u < PI / 2 -> - (PI / 2) < u0 < PI / 2 ->
  cos u <= cos u0 * exp (- (sin u0 / cos u0) * (u - u0) - (u - u0) ^ 2 / 2).
Proof.
  intros u u0 U U0. assert (C : 0 < cos u) by (apply cos_gt_0; lra). assert (C0 : 0 < cos u0) by (apply cos_gt_0; lra).
  pose proof (below_tangent (fun t => ln (cos t) + t ^ 2 / 2) (fun t => - (sin t / cos t) + t) (- (PI / 2)) (PI / 2)) as B.
  assert (T : ln (cos u) + u ^ 2 / 2 <= ln (cos u0) + u0 ^ 2 / 2 + (- (sin u0 / cos u0) + u0) * (u - u0)).
  { apply B; auto; [|apply tan_minus_id]. intros x X. assert (0 < cos x) by (apply cos_gt_0; lra). apply is_derive_Reals. auto_derive; [lra|]. field. lra. }
  rewrite <- (exp_ln (cos u)) by exact C. rewrite <- (exp_ln (cos u0)) at 1 by exact C0. rewrite <- exp_plus. apply exp_mono. lra.
Qed.
(** The square root lies below its tangents. *)
Lemma sqrt_tangent : forall q r, 0 <= q -> 0 < r -> sqrt q <= q / (2 * r) + r / 2.
Proof.
  intros q r Q R. pose proof (sqrt_sqrt q Q) as S. pose proof (Rle_0_sqr (sqrt q - r)) as D. unfold Rsqr in D.
  apply (Rmult_le_reg_r (2 * r)); [lra|]. replace ((q / (2 * r) + r / 2) * (2 * r)) with (q + r * r) by (field; lra). nra.
Qed.

Definition table_height (x y : R) : R := Rabs (sin x * cos y * exp (Rabs (1 - sqrt (x ^ 2 + y ^ 2) / PI))).
Lemma table_height_eq : forall x y, table_height x y = Rabs (sin x) * Rabs (cos y) * exp (Rabs (1 - sqrt (x ^ 2 + y ^ 2) / PI)).
Proof. intros. unfold table_height. rewrite !Rabs_mult. rewrite (Rabs_right (exp _)); [reflexivity|]. apply Rle_ge. left. apply exp_pos. Qed.
Lemma abs_cos_abs : forall x, cos (Rabs x) = cos x.
Proof. intros x. unfold Rabs. destruct (Rcase_abs x); [apply cos_neg|reflexivity]. Qed.
Lemma table_height_abs : forall x y, table_height (Rabs x) (Rabs y) = table_height x y.
Proof. intros. rewrite !table_height_eq, abs_sin_abs, abs_cos_abs, !pow2_abs. reflexivity. Qed.

(** The point everything is compared with. *)
Definition du : R := 0.2010414.
Definition dw : R := 0.239812.
Definition X0 : R := 5 * (PI / 2) + du.
Definition Y0 : R := 3 * PI + dw.
Definition R0 : R := sqrt (X0 ^ 2 + Y0 ^ 2).
Definition kappa : R := / (2 * PI * R0).
Lemma X0_bounds : 8.0550230 < X0 < 8.0550231.
Proof. unfold X0, du. pose proof pi_bounds. lra. Qed.
Lemma Y0_bounds : 9.6645899 < Y0 < 9.6645900.
Proof. unfold Y0, dw. pose proof pi_bounds. lra. Qed.
Lemma R0_sqr : R0 * R0 = X0 ^ 2 + Y0 ^ 2.
Proof. unfold R0. apply sqrt_sqrt. pose proof (pow2_ge_0 X0). pose proof (pow2_ge_0 Y0). lra. Qed.
Lemma R0_bounds : 12.581243 < R0 < 12.581244.
Proof.
  pose proof X0_bounds as X. pose proof Y0_bounds as Y. pose proof R0_sqr as E. assert (P : 0 <= R0) by apply sqrt_pos. 
  assert (XX : 8.0550230 * 8.0550230 < X0 * X0 < 8.0550231 * 8.0550231) by (split; apply Rmult_gt_0_lt_compat; lra).
  assert (YY : 9.6645899 * 9.6645899 < Y0 * Y0 < 9.6645900 * 9.6645900) by (split; apply Rmult_gt_0_lt_compat; lra). cbn [pow] in E. split.
  - destruct (Rlt_dec 12.581243 R0) as [|N]; auto. exfalso. assert (R0 * R0 <= 12.581243 * 12.581243) by (apply Rmult_le_compat; lra). lra.
  - destruct (Rlt_dec R0 12.581244) as [|N]; auto. exfalso. assert (12.581244 * 12.581244 <= R0 * R0) by (apply Rmult_le_compat; lra). lra.
Qed.
Lemma pir_bounds : 39.525140 < PI * R0 < 39.525144.
Proof.
  pose proof R0_bounds. pose proof pi_bounds. split.
  - eapply Rlt_trans; [|apply (Rmult_gt_0_lt_compat 3.1415926535 PI 12.581243 R0); lra]. lra.
  - eapply Rlt_trans; [apply (Rmult_gt_0_lt_compat PI 3.1415926536 R0 12.581244); lra|]. lra.
Qed.
Lemma kappa_bounds : 0.01265017 < kappa < 0.01265018.
Proof.
  pose proof pir_bounds as P. unfold kappa. assert (E : / (2 * PI * R0) * (2 * (PI * R0)) = 1). { field. pose proof PI_RGT_0. pose proof R0_bounds. lra. }
  set (k := / (2 * PI * R0)) in *. set (q := PI * R0) in *. split; nra.
Qed.

(** The two factors of the separated bound. *)
Definition phi (x : R) : R := Rabs (sin x) * exp (kappa * x ^ 2).
Definition psi (y : R) : R := Rabs (cos y) * exp (kappa * y ^ 2).
Lemma phi_pos : forall x, 0 <= phi x. Proof. intros. apply Rmult_le_pos; [apply Rabs_pos|left; apply exp_pos]. Qed.
Lemma psi_pos : forall x, 0 <= psi x. Proof. intros. apply Rmult_le_pos; [apply Rabs_pos|left; apply exp_pos]. Qed.
Lemma separated : forall x y, PI <= sqrt (x ^ 2 + y ^ 2) -> table_height x y <= phi x * psi y * exp (R0 / (2 * PI) - 1).
Proof.
  intros x y H. rewrite table_height_eq. pose proof PI_RGT_0 as P. pose proof R0_bounds as RB. unfold phi, psi.
  replace (Rabs (sin x) * exp (kappa * x ^ 2) * (Rabs (cos y) * exp (kappa * y ^ 2)) * exp (R0 / (2 * PI) - 1)) with
    (Rabs (sin x) * Rabs (cos y) * (exp (kappa * x ^ 2) * exp (kappa * y ^ 2) * exp (R0 / (2 * PI) - 1))) by ring. rewrite <- !exp_plus.
  apply Rmult_le_compat_l; [apply Rmult_le_pos; apply Rabs_pos|]. apply exp_mono.
  assert (G : 1 <= sqrt (x ^ 2 + y ^ 2) / PI). { apply (Rmult_le_reg_r PI); [lra|]. unfold Rdiv. rewrite Rmult_assoc, Rinv_l; lra. }
  rewrite Rabs_left1 by lra. pose proof (sqrt_tangent (x ^ 2 + y ^ 2) R0) as T. specialize (T ltac:(pose proof (pow2_ge_0 x); pose proof (pow2_ge_0 y); lra) ltac:(lra)).
  apply (Rmult_le_compat_r (/ PI)) in T; [|left; apply Rinv_0_lt_compat; lra]. unfold Rdiv at 1. unfold kappa.
  replace (/ (2 * PI * R0) * x ^ 2 + / (2 * PI * R0) * y ^ 2 + (R0 / (2 * PI) - 1)) with (((x ^ 2 + y ^ 2) / (2 * R0) + R0 / 2) * / PI - 1) by (field; lra). lra.
Qed.
Lemma separated_eq : table_height X0 Y0 = phi X0 * psi Y0 * exp (R0 / (2 * PI) - 1).
Proof.
  rewrite table_height_eq. pose proof pi_bounds as P. pose proof R0_bounds as RB. unfold phi, psi. fold R0.
  replace (Rabs (sin X0) * exp (kappa * X0 ^ 2) * (Rabs (cos Y0) * exp (kappa * Y0 ^ 2)) * exp (R0 / (2 * PI) - 1)) with
    (Rabs (sin X0) * Rabs (cos Y0) * (exp (kappa * X0 ^ 2) * exp (kappa * Y0 ^ 2) * exp (R0 / (2 * PI) - 1))) by ring. rewrite <- !exp_plus.
  f_equal. f_equal. assert (G : 1 <= R0 / PI). { apply (Rmult_le_reg_r PI); [lra|]. unfold Rdiv. rewrite Rmult_assoc, Rinv_l; lra. }
  rewrite Rabs_left1 by lra. replace (kappa * X0 ^ 2 + kappa * Y0 ^ 2) with (kappa * (R0 * R0)) by (rewrite R0_sqr; ring). unfold kappa. field. lra.
Qed.

(** *** One factor at a time *)
Lemma peak : forall b u u0, - (PI / 2) < u < PI / 2 -> - (PI / 2) < u0 < PI / 2 ->
  cos u * exp (kappa * (b + u) ^ 2) <= cos u0 * exp (kappa * (b + u0) ^ 2) * exp ((2 * kappa * (b + u0) - sin u0 / cos u0) * (u - u0) - (1 / 2 - kappa) * (u - u0) ^ 2).
Proof.
  intros b u u0 U U0. pose proof (cos_gauss u u0 U U0) as G. apply (Rmult_le_compat_r (exp (kappa * (b + u) ^ 2))) in G; [|left; apply exp_pos].
  eapply Rle_trans; [exact G|]. rewrite !Rmult_assoc, <- !exp_plus. right. f_equal. f_equal. field. apply Rgt_not_eq, cos_gt_0; lra.
Qed.
Lemma sin_phase : forall u, sin (5 * (PI / 2) + u) = cos u.
Proof. intros u. replace (5 * (PI / 2) + u) with (PI / 2 + u + 2 * INR 1 * PI) by (simpl; field). rewrite sin_period. symmetry. rewrite cos_sin. reflexivity. Qed.
Lemma cos_phase : forall w, cos (3 * PI + w) = - cos w.
Proof. intros w. replace (3 * PI + w) with (w + PI + 2 * INR 1 * PI) by (simpl; ring). rewrite cos_period. apply neg_cos. Qed.
Lemma phi_phase : forall u, - (PI / 2) < u < PI / 2 -> phi (5 * (PI / 2) + u) = cos u * exp (kappa * (5 * (PI / 2) + u) ^ 2).
Proof. intros u U. unfold phi. rewrite sin_phase, Rabs_right; [reflexivity|]. apply Rle_ge. left. apply cos_gt_0; lra. Qed.
Lemma psi_phase : forall w, - (PI / 2) < w < PI / 2 -> psi (3 * PI + w) = cos w * exp (kappa * (3 * PI + w) ^ 2).
Proof. intros u U. unfold psi. rewrite cos_phase, Rabs_Ropp, Rabs_right; [reflexivity|]. apply Rle_ge. left. apply cos_gt_0; lra. Qed.
Lemma small_du : - (PI / 2) < du < PI / 2. Proof. unfold du. pose proof pi_lo. lra. Qed.
Lemma small_dw : - (PI / 2) < dw < PI / 2. Proof. unfold dw. pose proof pi_lo. lra. Qed.
Definition slope_u : R := 2 * kappa * X0 - sin du / cos du.
Definition slope_w : R := 2 * kappa * Y0 - sin dw / cos dw.
Lemma phi_peak : forall u, - (PI / 2) < u < PI / 2 -> phi (5 * (PI / 2) + u) <= phi X0 * exp (slope_u * (u - du) - (1 / 2 - kappa) * (u - du) ^ 2).
Proof. intros u U. unfold X0, slope_u. rewrite !phi_phase by (auto; apply small_du). apply peak; [exact U|apply small_du]. Qed.
Lemma psi_peak : forall w, - (PI / 2) < w < PI / 2 -> psi (3 * PI + w) <= psi Y0 * exp (slope_w * (w - dw) - (1 / 2 - kappa) * (w - dw) ^ 2).
Proof. intros w W. unfold Y0, slope_w. rewrite !psi_phase by (auto; apply small_dw). apply peak; [exact W|apply small_dw]. Qed.
Lemma two_kappa : forall x, 2 * kappa * x * (PI * R0) = x.
Proof. intros x. unfold kappa. pose proof PI_RGT_0. pose proof R0_bounds. field. lra. Qed.
Lemma slope_u_small : -1 / 500000 < slope_u < 1 / 500000.
Proof.
  unfold slope_u. pose proof pir_bounds as P. pose proof X0_bounds as X. pose proof (two_kappa X0) as K. set (q := 2 * kappa * X0) in *. set (p := PI * R0) in *.
  assert (Q : 0.2037946 < q < 0.2037952) by (split; nra).
  assert (S1 : du - du ^ 3 / 6 + du ^ 5 / 120 - du ^ 7 / 5040 <= sin du <= du - du ^ 3 / 6 + du ^ 5 / 120 - du ^ 7 / 5040 + du ^ 9 / 362880).
  { split; [apply sin_lower|apply sin_upper]; unfold du; lra. }
  assert (C1 : 1 - du ^ 2 / 2 + du ^ 4 / 24 - du ^ 6 / 720 <= cos du <= 1 - du ^ 2 / 2 + du ^ 4 / 24 - du ^ 6 / 720 + du ^ 8 / 40320).
  { split; [apply cos_lower|apply cos_upper]; unfold du; lra. }
  assert (C0 : 0 < cos du) by (unfold du in *; lra). assert (T : sin du / cos du * cos du = sin du) by (field; lra). set (t := sin du / cos du) in *.
  assert (0.203794 < t < 0.203795) by (unfold du in *; split; nra). lra.
Qed.
Lemma slope_w_small : -1 / 500000 < slope_w < 1 / 500000.
Proof.
  unfold slope_w. pose proof pir_bounds as P. pose proof Y0_bounds as X. pose proof (two_kappa Y0) as K. set (q := 2 * kappa * Y0) in *. set (p := PI * R0) in *.
  assert (Q : 0.2445175 < q < 0.2445176) by (split; nra).
  assert (S1 : dw - dw ^ 3 / 6 + dw ^ 5 / 120 - dw ^ 7 / 5040 <= sin dw <= dw - dw ^ 3 / 6 + dw ^ 5 / 120 - dw ^ 7 / 5040 + dw ^ 9 / 362880).
  { split; [apply sin_lower|apply sin_upper]; unfold dw; lra. }
  assert (C1 : 1 - dw ^ 2 / 2 + dw ^ 4 / 24 - dw ^ 6 / 720 <= cos dw <= 1 - dw ^ 2 / 2 + dw ^ 4 / 24 - dw ^ 6 / 720 + dw ^ 8 / 40320).
  { split; [apply cos_lower|apply cos_upper]; unfold dw; lra. }
  assert (C0 : 0 < cos dw) by (unfold dw in *; lra). assert (T : sin dw / cos dw * cos dw = sin dw) by (field; lra). set (t := sin dw / cos dw) in *.
  assert (0.2445170 < t < 0.2445179) by (unfold dw in *; split; nra). lra.
Qed.

(** *** Away from the peak *)
Lemma pow2_incr : forall a b, 0 <= a <= b -> a ^ 2 <= b ^ 2. Proof. intros. apply pow_incr. lra. Qed.
Lemma kx2_small : forall x, 0 <= x <= 5 * (PI / 2) -> exp (kappa * x ^ 2) <= 2.2.
Proof.
  intros x X. pose proof pi_bounds as P. pose proof kappa_bounds as K. pose proof (pow2_incr x 7.854 ltac:(lra)) as Q. pose proof (pow2_ge_0 x) as N.
  apply Rle_trans with (exp 0.7804); [apply exp_mono; nra|]. eapply Rle_trans; [apply exp_upper; lra|]. unfold exp_hi. lra.
Qed.
Lemma abs_le_1 : forall x, Rabs (sin x) <= 1 /\ Rabs (cos x) <= 1.
Proof. intros x. split; apply Rabs_le; [apply SIN_bound|apply COS_bound]. Qed.
Lemma phi_low : forall x, 0 <= x <= 5 * (PI / 2) -> phi x <= 2.2.
Proof.
  intros x X. pose proof (kx2_small x X). pose proof (proj1 (abs_le_1 x)). unfold phi. rewrite <- (Rmult_1_l 2.2).
  apply Rmult_le_compat; auto; [apply Rabs_pos|left; apply exp_pos].
Qed.
Lemma psi_low : forall x, 0 <= x <= 5 * (PI / 2) -> psi x <= 2.2.
Proof.
  intros x X. pose proof (kx2_small x X). pose proof (proj2 (abs_le_1 x)). unfold psi. rewrite <- (Rmult_1_l 2.2).
  apply Rmult_le_compat; auto; [apply Rabs_pos|left; apply exp_pos].
Qed.
Lemma phi_high : forall x, 3 * PI <= x <= 10 -> phi x <= 2.2.
Proof.
  intros x X. pose proof pi_bounds as P. pose proof kappa_bounds as K. unfold phi.
  assert (S : Rabs (sin x) <= 0.576).
  { replace x with ((x - 3 * PI) + PI + 2 * INR 1 * PI) by (simpl; ring). rewrite sin_period, neg_sin, Rabs_Ropp.
    assert (0 <= sin (x - 3 * PI)) by (apply sin_ge_0; lra). rewrite Rabs_right by lra.
    destruct (Req_dec (x - 3 * PI) 0) as [->|N]; [rewrite sin_0; lra|]. pose proof (sin_lt_x (x - 3 * PI) ltac:(lra)). lra. }
  assert (E : exp (kappa * x ^ 2) <= 3.6).
  { pose proof (pow2_incr x 10 ltac:(lra)) as Q. apply Rle_trans with (exp (1 + 0.27)); [apply exp_mono; nra|]. rewrite exp_plus. pose proof e_bounds as EB.
    pose proof (exp_upper 0.27 ltac:(lra)) as U. pose proof (exp_pos 0.27). unfold exp_hi in U. nra. }
  apply Rle_trans with (0.576 * 3.6); [|lra]. apply Rmult_le_compat; auto; [apply Rabs_pos|left; apply exp_pos].
Qed.
Lemma cos_du : 0.97985 < cos du < 0.97986.
Proof. pose proof (cos_lower du ltac:(unfold du; lra)) as A. pose proof (cos_upper du ltac:(unfold du; lra)) as B. unfold du in *. lra. Qed.
Lemma cos_dw : 0.97138 < cos dw < 0.97139.
Proof. pose proof (cos_lower dw ltac:(unfold dw; lra)) as A. pose proof (cos_upper dw ltac:(unfold dw; lra)) as B. unfold dw in *. lra. Qed.
Lemma phi_X0 : phi X0 <= 2.23.
Proof.
  unfold X0. rewrite phi_phase by apply small_du. fold X0. pose proof cos_du as C. pose proof kappa_bounds as K. pose proof X0_bounds as X. pose proof (pow2_incr X0 8.0550231 ltac:(lra)) as Q.
  assert (E : exp (kappa * X0 ^ 2) <= 2.274). { apply Rle_trans with (exp 0.821); [apply exp_mono; nra|]. eapply Rle_trans; [apply exp_upper; lra|]. unfold exp_hi. lra. }
  pose proof (exp_pos (kappa * X0 ^ 2)). nra.
Qed.
Lemma psi_Y0 : psi Y0 <= 3.17.
Proof.
  unfold Y0. rewrite psi_phase by apply small_dw. fold Y0. pose proof cos_dw as C. pose proof kappa_bounds as K. pose proof Y0_bounds as X. pose proof (pow2_incr Y0 9.66459 ltac:(lra)) as Q.
  assert (E : exp (kappa * Y0 ^ 2) <= 3.262).
  { apply Rle_trans with (exp (1 + 0.182)); [apply exp_mono; nra|]. rewrite exp_plus. pose proof e_bounds as EB. pose proof (exp_upper 0.182 ltac:(lra)) as U. pose proof (exp_pos 0.182). unfold exp_hi in U. nra. }
  pose proof (exp_pos (kappa * Y0 ^ 2)). nra.
Qed.
Lemma scale_bound : exp (R0 / (2 * PI) - 1) <= 2.726.
Proof.
  pose proof R0_bounds as R. pose proof pi_bounds as P. assert (E : R0 / (2 * PI) * (2 * PI) = R0) by (field; lra).
  apply Rle_trans with (exp (1 + 0.0025)); [apply exp_mono; nra|]. rewrite exp_plus. pose proof e_bounds as EB. pose proof (exp_upper 0.0025 ltac:(lra)) as U. pose proof (exp_pos 0.0025). unfold exp_hi in U. nra.
Qed.
Lemma dip : forall s e, -1 / 500000 < s < 1 / 500000 -> s * e - (1 / 2 - kappa) * e ^ 2 <= 1 / 100000000000.
Proof.
  intros s e S. pose proof kappa_bounds as K. assert (D : 0 <= (e - s / 0.96) ^ 2) by apply pow2_ge_0. assert (E : 0 <= e ^ 2) by apply pow2_ge_0.
  assert (S2 : s * s <= 4 / 1000000000000) by nra. assert (F : 0.48 * e ^ 2 <= (1 / 2 - kappa) * e ^ 2) by (apply Rmult_le_compat_r; lra).
  assert (s * e - 0.48 * e ^ 2 <= s * s / 1.92) by lra. lra.
Qed.
Lemma exp_tiny : exp (1 / 100000000000) <= 1.0000000001.
Proof. eapply Rle_trans; [apply exp_upper; lra|]. unfold exp_hi. lra. Qed.
Lemma phi_all : forall x, 0 <= x <= 10 -> phi x <= 2.231.
Proof.
  intros x X. pose proof pi_bounds as P. destruct (Rle_dec x (5 * (PI / 2))) as [A|A]; [pose proof (phi_low x ltac:(lra)); lra|].
  destruct (Rle_dec (3 * PI) x) as [B|B]; [pose proof (phi_high x ltac:(lra)); lra|].
  pose proof (phi_peak (x - 5 * (PI / 2)) ltac:(lra)) as Q. replace (5 * (PI / 2) + (x - 5 * (PI / 2))) with x in Q by ring. pose proof (dip slope_u (x - 5 * (PI / 2) - du) slope_u_small) as D.
  apply exp_mono in D. pose proof exp_tiny as T. pose proof phi_X0 as PX. pose proof (phi_pos X0). set (k := exp (slope_u * _ - _)) in *. nra.
Qed.
Lemma psi_all : forall x, 0 <= x <= 10 -> psi x <= 3.171.
Proof.
  intros x X. pose proof pi_bounds as P. destruct (Rle_dec x (5 * (PI / 2))) as [A|A]; [pose proof (psi_low x ltac:(lra)); lra|].
  pose proof (psi_peak (x - 3 * PI) ltac:(lra)) as Q. replace (3 * PI + (x - 3 * PI)) with x in Q by ring. pose proof (dip slope_w (x - 3 * PI - dw) slope_w_small) as D.
  apply exp_mono in D. pose proof exp_tiny as T. pose proof psi_Y0 as PX. pose proof (psi_pos Y0). set (k := exp (slope_w * _ - _)) in *. nra.
Qed.
Lemma product_bound : forall x y p q, table_height x y <= phi x * psi y * exp (R0 / (2 * PI) - 1) -> phi x <= p -> psi y <= q -> table_height x y <= p * q * 2.726.
Proof.
  intros x y p q H A B. eapply Rle_trans; [exact H|]. pose proof (phi_pos x). pose proof (psi_pos y).
  apply Rmult_le_compat; [apply Rmult_le_pos; lra|left; apply exp_pos|apply Rmult_le_compat; lra|apply scale_bound].
Qed.
Lemma table_outside : forall x y, 0 <= x <= 10 -> 0 <= y <= 10 -> x <= 5 * (PI / 2) \/ 3 * PI <= x \/ y <= 5 * (PI / 2) -> table_height x y <= 19.1.
Proof.
  intros x y X Y O. destruct (Rle_dec PI (sqrt (x ^ 2 + y ^ 2))) as [L|L].
  - pose proof (separated x y L) as S. destruct O as [O|[O|O]].
    + pose proof (product_bound x y 2.2 3.171 S (phi_low x ltac:(lra)) (psi_all y Y)). lra.
    + pose proof (product_bound x y 2.2 3.171 S (phi_high x ltac:(lra)) (psi_all y Y)). lra.
    + pose proof (product_bound x y 2.231 2.2 S (phi_all x X) (psi_low y ltac:(lra))). lra.
  - rewrite table_height_eq. pose proof (sqrt_pos (x ^ 2 + y ^ 2)) as P. pose proof pi_bounds as PB. assert (E : sqrt (x ^ 2 + y ^ 2) / PI * PI = sqrt (x ^ 2 + y ^ 2)) by (field; lra).
    assert (G : 0 <= sqrt (x ^ 2 + y ^ 2) / PI <= 1) by (split; nra). rewrite (Rabs_right (1 - _)) by lra.
    assert (exp (1 - sqrt (x ^ 2 + y ^ 2) / PI) <= exp 1) as EE by (apply exp_mono; lra). pose proof e_bounds. destruct (abs_le_1 x) as [A _]. destruct (abs_le_1 y) as [_ B].
    pose proof (Rabs_pos (sin x)). pose proof (Rabs_pos (cos y)). apply Rle_trans with (1 * 1 * 3); [|lra].
    apply Rmult_le_compat; [apply Rmult_le_pos; lra|left; apply exp_pos|apply Rmult_le_compat; lra|lra].
Qed.
Lemma table_inside : forall x y, 5 * (PI / 2) < x < 3 * PI -> 5 * (PI / 2) < y <= 10 ->
  table_height x y <= table_height X0 Y0 * exp (slope_u * (x - X0) - (1 / 2 - kappa) * (x - X0) ^ 2 + (slope_w * (y - Y0) - (1 / 2 - kappa) * (y - Y0) ^ 2)).
Proof.
  intros x y X Y. pose proof pi_bounds as P. assert (L : PI <= sqrt (x ^ 2 + y ^ 2)). { rewrite <- (sqrt_pow2 PI) by lra. apply sqrt_le_1_alt. nra. }
  pose proof (separated x y L) as S. pose proof (phi_peak (x - 5 * (PI / 2)) ltac:(lra)) as A. pose proof (psi_peak (y - 3 * PI) ltac:(lra)) as B.
  replace (5 * (PI / 2) + (x - 5 * (PI / 2))) with x in A by ring. replace (3 * PI + (y - 3 * PI)) with y in B by ring.
  replace (x - 5 * (PI / 2) - du) with (x - X0) in A by (unfold X0; ring). replace (y - 3 * PI - dw) with (y - Y0) in B by (unfold Y0; ring).
  rewrite separated_eq, exp_plus. eapply Rle_trans; [exact S|].
  match goal with |- _ <= phi X0 * psi Y0 * ?k * (?a * ?b) => replace (phi X0 * psi Y0 * k * (a * b)) with ((phi X0 * a) * (psi Y0 * b) * k) by ring end.
  apply Rmult_le_compat_r; [left; apply exp_pos|]. apply Rmult_le_compat; auto; [apply phi_pos|apply psi_pos].
Qed.
(** The value at the reference point. *)
Lemma half_bounds : 1.648721270 < exp (1 / 2) < 1.648721272.
Proof. pose proof (exp_lower (1 / 2) ltac:(lra)) as L. pose proof (exp_upper (1 / 2) ltac:(lra)) as U. unfold exp_lo in L. unfold exp_hi in U. lra. Qed.
Lemma table_value : 19.20849 < table_height X0 Y0 < 19.208506.
Proof.
  rewrite table_height_eq. fold R0. pose proof pi_bounds as P. pose proof R0_bounds as R. unfold X0, Y0. rewrite sin_phase, cos_phase, Rabs_Ropp.
  assert (CU : 0.979859152 < cos du < 0.979859153). { pose proof (cos_lower du ltac:(unfold du; lra)) as A. pose proof (cos_upper du ltac:(unfold du; lra)) as B. unfold du in *. lra. }
  assert (CW : 0.971382645 < cos dw < 0.971382646). { pose proof (cos_lower dw ltac:(unfold dw; lra)) as A. pose proof (cos_upper dw ltac:(unfold dw; lra)) as B. unfold dw in *. lra. }
  rewrite !Rabs_right by lra. rewrite Rabs_left1.
  2: { assert (E : R0 / PI * PI = R0) by (field; lra). nra. }
  assert (Z : 0.0047340 < R0 / PI - 4 < 0.00473435). { assert (E : R0 / PI * PI = R0) by (field; lra). split; nra. }
  replace (- (1 - R0 / PI)) with (1 / 2 + 1 / 2 + 1 / 2 + 1 / 2 + 1 / 2 + 1 / 2 + (R0 / PI - 4)) by lra. rewrite !exp_plus. pose proof half_bounds as H.
  assert (E : 1.00474522 < exp (R0 / PI - 4) < 1.00474558).
  { split; [eapply Rlt_le_trans; [|eapply Rle_trans; [apply (exp_lower 0.0047340); lra|apply exp_mono; lra]]; unfold exp_lo; lra|].
    eapply Rle_lt_trans; [eapply Rle_trans; [apply exp_mono; apply Rlt_le, Z|apply exp_upper; lra]|]. unfold exp_hi. lra. }
  set (h := exp (1 / 2)) in *. set (z := exp (R0 / PI - 4)) in *. set (a := cos du) in *. set (b := cos dw) in *.
  replace (h * h * h * h * h * h * z) with (h ^ 6 * z) by ring.
  assert (H6 : 1.648721270 ^ 6 <= h ^ 6 <= 1.648721272 ^ 6) by (split; apply pow_incr; lra).
  assert (AB : 0.979859152 * 0.971382645 <= a * b <= 0.979859153 * 0.971382646) by (split; apply Rmult_le_compat; lra).
  assert (HZ : 1.648721270 ^ 6 * 1.00474522 <= h ^ 6 * z <= 1.648721272 ^ 6 * 1.00474558) by (split; apply Rmult_le_compat; lra).
  assert (ABHZ : 0.979859152 * 0.971382645 * (1.648721270 ^ 6 * 1.00474522) <= a * b * (h ^ 6 * z) <= 0.979859153 * 0.971382646 * (1.648721272 ^ 6 * 1.00474558)) by (split; apply Rmult_le_compat; lra). lra.
Qed.
