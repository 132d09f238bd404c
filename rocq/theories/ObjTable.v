(** The Holder table function has exactly four minimisers (C48). *)
From Coq Require Import Reals Lra Lia Psatz ZArith.
From Verif Require Import RealFacts ObjCross ObjHolder ExtremeValue.
Local Open Scope R_scope.

(** *** Existence *)
Lemma exp_lip : forall a b k, a <= k -> b <= k -> Rabs (exp a - exp b) <= exp k * Rabs (a - b).
Proof.
  assert (W : forall a b k, a < b -> b <= k -> Rabs (exp a - exp b) <= exp k * Rabs (a - b)).
  { intros a b k L B. destruct (MVT_cor2 exp exp a b L (fun c _ => derivable_pt_lim_exp c)) as (c & E & C).
    rewrite (Rabs_left (exp a - exp b)) by (pose proof (exp_increasing a b L); lra). rewrite (Rabs_left (a - b)) by lra.
    assert (exp c <= exp k) by (apply exp_mono; lra). assert (exp c * (b - a) <= exp k * (b - a)) by (apply Rmult_le_compat_r; lra). lra. }
  intros a b k A B. destruct (Rtotal_order a b) as [L|[->|L]]; [apply W; auto| |].
  - rewrite !Rminus_eq_0, Rabs_R0. lra.
  - rewrite (Rabs_minus_sym (exp a)), (Rabs_minus_sym a). apply W; auto.
Qed.
Lemma sin_lip : forall a b, Rabs (sin a - sin b) <= Rabs (a - b).
Proof.
  assert (W : forall a b, a < b -> Rabs (sin a - sin b) <= Rabs (a - b)).
  { intros a b L. destruct (MVT_cor2 sin cos a b L (fun c _ => derivable_pt_lim_sin c)) as (c & E & C). rewrite (Rabs_left (a - b)) by lra.
    pose proof (COS_bound c) as B. apply Rabs_le. split; nra. }
  intros a b. destruct (Rtotal_order a b) as [L|[->|L]]; [apply W; auto| |].
  - rewrite !Rminus_eq_0, Rabs_R0. lra.
  - rewrite (Rabs_minus_sym (sin a)), (Rabs_minus_sym a). apply W; auto.
Qed.
Lemma cos_lip : forall a b, Rabs (cos a - cos b) <= Rabs (a - b).
Proof. intros a b. rewrite !cos_sin. eapply Rle_trans; [apply sin_lip|]. right. f_equal. ring. Qed.
Lemma abs_lip : forall a b, Rabs (Rabs a - Rabs b) <= Rabs (a - b). Proof. intros. apply Rabs_triang_inv2. Qed.
Lemma radius_lip : forall x x' y, 0 <= x -> 0 <= x' -> Rabs (sqrt (x ^ 2 + y ^ 2) - sqrt (x' ^ 2 + y ^ 2)) <= Rabs (x - x').
Proof.
  intros x x' y X X'. assert (W : forall a b, 0 <= a <= b -> sqrt (b ^ 2 + y ^ 2) <= sqrt (a ^ 2 + y ^ 2) + (b - a)).
  { intros a b A. pose proof (sqrt_pos (a ^ 2 + y ^ 2)) as P. pose proof (pow2_ge_0 y). pose proof (pow2_ge_0 a). pose proof (sqrt_sqrt (a ^ 2 + y ^ 2) ltac:(lra)) as S.
    assert (G : a <= sqrt (a ^ 2 + y ^ 2)). { rewrite <- (sqrt_pow2 a) at 1 by lra. apply sqrt_le_1_alt. lra. }
    rewrite <- (sqrt_pow2 (sqrt (a ^ 2 + y ^ 2) + (b - a))) by lra. apply sqrt_le_1_alt. nra. }
  assert (M : forall a b, 0 <= a <= b -> sqrt (a ^ 2 + y ^ 2) <= sqrt (b ^ 2 + y ^ 2)). { intros a b A. apply sqrt_le_1_alt. pose proof (pow_incr a b 2 A). lra. }
  apply Rabs_le. destruct (Rle_dec x x') as [L|L].
  - rewrite (Rabs_left1 (x - x')) by lra. specialize (W x x' ltac:(lra)). specialize (M x x' ltac:(lra)). lra.
  - rewrite (Rabs_right (x - x')) by lra. specialize (W x' x ltac:(lra)). specialize (M x' x ltac:(lra)). lra.
Qed.
Lemma height_exponent : forall x y, 0 <= x <= 10 -> 0 <= y <= 10 -> Rabs (1 - sqrt (x ^ 2 + y ^ 2) / PI) <= 5.
Proof.
  intros x y X Y. pose proof (radius_small x y ltac:(lra) ltac:(lra)) as R. pose proof (sqrt_pos (x ^ 2 + y ^ 2)) as P. pose proof pi_bounds as PB.
  assert (E : sqrt (x ^ 2 + y ^ 2) / PI * PI = sqrt (x ^ 2 + y ^ 2)) by (field; lra). apply Rabs_le. split; nra.
Qed.
Lemma exponent_lip : forall r r', Rabs (Rabs (1 - r / PI) - Rabs (1 - r' / PI)) <= Rabs (r - r').
Proof.
  intros r r'. pose proof pi_bounds as P. eapply Rle_trans; [apply abs_lip|]. replace (1 - r / PI - (1 - r' / PI)) with (- ((r - r') / PI)) by (field; lra). rewrite Rabs_Ropp.
  unfold Rdiv. rewrite Rabs_mult. rewrite <- (Rmult_1_r (Rabs (r - r'))) at 2. apply Rmult_le_compat_l; [apply Rabs_pos|].
  rewrite Rabs_right by (apply Rle_ge; left; apply Rinv_0_lt_compat; lra). rewrite <- Rinv_1. apply Rinv_le_contravar; lra.
Qed.
Lemma product_lip : forall s s' c e e' k d, 0 <= s' <= 1 -> 0 <= c <= 1 -> 0 <= e <= k -> Rabs (s - s') <= d -> Rabs (e - e') <= k * d -> Rabs (s * c * e - s' * c * e') <= 2 * k * d.
Proof.
  intros s s' c e e' k d S C E D1 D2. replace (s * c * e - s' * c * e') with (c * ((s - s') * e + s' * (e - e'))) by ring. rewrite Rabs_mult, (Rabs_right c) by lra.
  assert (Q : Rabs ((s - s') * e + s' * (e - e')) <= 2 * k * d).
  { eapply Rle_trans; [apply Rabs_triang|]. rewrite !Rabs_mult, (Rabs_right e), (Rabs_right s') by lra. pose proof (Rabs_pos (s - s')). pose proof (Rabs_pos (e - e')).
    assert (Rabs (s - s') * e <= d * k) by (apply Rmult_le_compat; lra). assert (s' * Rabs (e - e') <= 1 * (k * d)) by (apply Rmult_le_compat; lra). lra. }
  pose proof (Rabs_pos ((s - s') * e + s' * (e - e'))). nra.
Qed.
Lemma table_attains : exists x y, 0 <= x <= 10 /\ 0 <= y <= 10 /\ forall x' y', 0 <= x' <= 10 -> 0 <= y' <= 10 -> table_height x' y' <= table_height x y.
Proof.
  apply (attains_2d table_height 0 10 0 10 (2 * exp 5)); [lra|lra|pose proof (exp_pos 5); lra| |].
  - intros x x' y X X' Y. rewrite !table_height_eq. destruct (abs_le_1 x') as [A _]. destruct (abs_le_1 y) as [_ B].
    apply product_lip; [split; [apply Rabs_pos|auto]|split; [apply Rabs_pos|auto]|split; [left; apply exp_pos|apply exp_mono, height_exponent; auto]| |].
    + eapply Rle_trans; [apply abs_lip|apply sin_lip].
    + eapply Rle_trans; [apply (exp_lip _ _ 5); apply height_exponent; auto|]. apply Rmult_le_compat_l; [left; apply exp_pos|]. eapply Rle_trans; [apply exponent_lip|apply radius_lip; lra].
  - intros x y y' X Y Y'. rewrite !table_height_eq. destruct (abs_le_1 x) as [A _]. destruct (abs_le_1 y') as [_ B]. rewrite !(Rmult_comm (Rabs (sin x))).
    apply product_lip; [split; [apply Rabs_pos|auto]|split; [apply Rabs_pos|auto]|split; [left; apply exp_pos|apply exp_mono, height_exponent; auto]| |].
    + eapply Rle_trans; [apply abs_lip|apply cos_lip].
    + eapply Rle_trans; [apply (exp_lip _ _ 5); apply height_exponent; auto|]. apply Rmult_le_compat_l; [left; apply exp_pos|]. eapply Rle_trans; [apply exponent_lip|].
      rewrite !(Rplus_comm (x ^ 2)). apply radius_lip; lra.
Qed.

(** *** Location *)
Lemma dip2 : forall s e, -1 / 500000 < s < 1 / 500000 -> s * e - (1 / 2 - kappa) * e ^ 2 <= s * e - 0.48 * e ^ 2.
Proof. intros s e S. pose proof kappa_bounds as K. pose proof (pow2_ge_0 e). nra. Qed.
Lemma exp_ge_1 : forall u, 1 <= exp u -> 0 <= u.
Proof. intros u H. destruct (Rle_dec 0 u) as [|N]; auto. assert (exp u < exp 0) by (apply exp_increasing; lra). rewrite exp_0 in H0. lra. Qed.
Lemma two_dips : forall a b s t, -1 / 500000 < s < 1 / 500000 -> -1 / 500000 < t < 1 / 500000 -> 0 <= s * a - 0.48 * a ^ 2 + (t * b - 0.48 * b ^ 2) -> Rabs a <= 6 / 1000000 /\ Rabs b <= 6 / 1000000.
Proof.
  intros a b s t S T H. assert (forall a b s t, -1 / 500000 < s < 1 / 500000 -> -1 / 500000 < t < 1 / 500000 -> 0 <= s * a - 0.48 * a ^ 2 + (t * b - 0.48 * b ^ 2) -> a <= 6 / 1000000) as W.
  { clear. intros a b s t S T H. destruct (Rle_dec a (6 / 1000000)) as [|N]; auto. exfalso.
    assert (T2 : t * t <= 4 / 1000000000000) by nra. assert (B : t * b - 0.48 * b ^ 2 <= t * t / 1.92). { assert (0 <= (b - t / 0.96) ^ 2) by apply pow2_ge_0. lra. }
    assert (s * a <= 2 / 1000000 * a) by nra. assert (6 / 1000000 * a <= a ^ 2) by (cbn [pow]; nra). lra. }
  split; apply Rabs_le; split.
  - assert (- a <= 6 / 1000000); [|lra]. apply (W (- a) b (- s) t); [lra|lra|]. replace (- s * - a) with (s * a) by ring. replace ((- a) ^ 2) with (a ^ 2) by ring. exact H.
  - apply (W a b s t); auto.
  - assert (- b <= 6 / 1000000); [|lra]. apply (W (- b) a (- t) s); [lra|lra|]. replace (- t * - b) with (t * b) by ring. replace ((- b) ^ 2) with (b ^ 2) by ring. lra.
  - apply (W b a t s); auto. lra.
Qed.
Lemma table_near : forall x y, 0 <= x <= 10 -> 0 <= y <= 10 -> table_height X0 Y0 <= table_height x y -> Rabs (x - X0) <= 6 / 1000000 /\ Rabs (y - Y0) <= 6 / 1000000.
Proof.
  intros x y X Y H. pose proof table_value as V. destruct (Rle_dec x (5 * (PI / 2))) as [A|A]; [pose proof (table_outside x y X Y ltac:(lra)); lra|].
  destruct (Rle_dec (3 * PI) x) as [B|B]; [pose proof (table_outside x y X Y ltac:(lra)); lra|]. destruct (Rle_dec y (5 * (PI / 2))) as [C|C]; [pose proof (table_outside x y X Y ltac:(lra)); lra|].
  pose proof (table_inside x y ltac:(lra) ltac:(lra)) as I. apply (two_dips _ _ slope_u slope_w); [apply slope_u_small|apply slope_w_small|].
  pose proof (dip2 slope_u (x - X0) slope_u_small) as D1. pose proof (dip2 slope_w (y - Y0) slope_w_small) as D2.
  assert (G : 0 <= slope_u * (x - X0) - (1 / 2 - kappa) * (x - X0) ^ 2 + (slope_w * (y - Y0) - (1 / 2 - kappa) * (y - Y0) ^ 2)); [|lra].
  apply exp_ge_1. set (k := exp _) in *. nra.
Qed.

(** *** Uniqueness *)
Lemma cos_gap : forall d, - (PI / 2) < d < PI / 2 -> cos d <= exp (- d ^ 2 / 2).
Proof.
  intros d D. pose proof PI_RGT_0. pose proof (cos_gauss d 0 D ltac:(lra)) as G. rewrite sin_0, cos_0, Rmult_1_l in G. eapply Rle_trans; [exact G|]. apply exp_mono. right. field.
Qed.
Lemma cos_mid : forall a h, 0 < cos a -> - (PI / 2) < h < PI / 2 -> 0 <= cos (a + h) -> 0 <= cos (a - h) -> cos (a + h) * cos (a - h) <= cos a ^ 2 * exp (- h ^ 2).
Proof.
  intros a h A H P Q. pose proof (cos_gap h H) as G. assert (C : 0 < cos h) by (apply cos_gt_0; lra).
  assert (E : cos (a + h) * cos (a - h) = cos a ^ 2 * cos h ^ 2 - sin a ^ 2 * sin h ^ 2) by (rewrite cos_plus, cos_minus; ring).
  assert (G2 : cos h ^ 2 <= exp (- h ^ 2)). { replace (- h ^ 2) with (- h ^ 2 / 2 + - h ^ 2 / 2) by field. rewrite exp_plus. replace (cos h ^ 2) with (cos h * cos h) by ring. apply Rmult_le_compat; lra. }
  rewrite E. pose proof (pow2_ge_0 (sin a * sin h)) as N. rewrite Rpow_mult_distr in N. assert (cos a ^ 2 * cos h ^ 2 <= cos a ^ 2 * exp (- h ^ 2)) by (apply Rmult_le_compat_l; [apply pow2_ge_0|exact G2]). lra.
Qed.
Lemma sq_sum : forall a b : R, 0 <= a ^ 2 + b ^ 2.
Proof. intros a b. pose proof (pow2_ge_0 a). pose proof (pow2_ge_0 b). lra. Qed.
Lemma radius_mid : forall x y h k, 0 < x -> sqrt ((x + h) ^ 2 + (y + k) ^ 2) + sqrt ((x - h) ^ 2 + (y - k) ^ 2) <= 2 * sqrt (x ^ 2 + y ^ 2) + (h ^ 2 + k ^ 2) / sqrt (x ^ 2 + y ^ 2).
Proof.
  intros x y h k X. set (r := sqrt (x ^ 2 + y ^ 2)). assert (R : 0 < r) by (apply sqrt_lt_R0; nra). assert (E : r * r = x ^ 2 + y ^ 2) by (apply sqrt_sqrt, sq_sum).
  pose proof (sqrt_tangent ((x + h) ^ 2 + (y + k) ^ 2) r (sq_sum _ _) R) as A. pose proof (sqrt_tangent ((x - h) ^ 2 + (y - k) ^ 2) r (sq_sum _ _) R) as B.
  eapply Rle_trans; [apply Rplus_le_compat; [exact A|exact B]|]. right. apply (Rmult_eq_reg_r (2 * r)); [|lra].
  replace (((2 * r) + (h ^ 2 + k ^ 2) / r) * (2 * r)) with (4 * (r * r) + 2 * (h ^ 2 + k ^ 2)) by (field; lra).
  replace ((((x + h) ^ 2 + (y + k) ^ 2) / (2 * r) + r / 2 + (((x - h) ^ 2 + (y - k) ^ 2) / (2 * r) + r / 2)) * (2 * r)) with ((x + h) ^ 2 + (y + k) ^ 2 + (x - h) ^ 2 + (y - k) ^ 2 + 2 * (r * r)) by (field; lra).
  rewrite E. ring.
Qed.
Lemma abs_range : forall a b, Rabs a <= b -> - b <= a <= b.
Proof. intros a b H. unfold Rabs in H. destruct (Rcase_abs a); lra. Qed.
(** Near the reference point. *)
Definition near (x y : R) : Prop := Rabs (x - X0) <= 6 / 1000000 /\ Rabs (y - Y0) <= 6 / 1000000.
Lemma near_height : forall x y, near x y -> table_height x y = cos (x - 5 * (PI / 2)) * cos (y - 3 * PI) * exp (sqrt (x ^ 2 + y ^ 2) / PI - 1) /\ 0 < cos (x - 5 * (PI / 2)) /\ 0 < cos (y - 3 * PI) /\ 12 <= sqrt (x ^ 2 + y ^ 2).
Proof.
  intros x y [A B]. apply abs_range in A. apply abs_range in B. pose proof X0_bounds as XB. pose proof Y0_bounds as YB. pose proof pi_bounds as P.
  assert (CX : 0 < cos (x - 5 * (PI / 2))) by (apply cos_gt_0; lra). assert (CY : 0 < cos (y - 3 * PI)) by (apply cos_gt_0; lra).
  assert (R : 12 <= sqrt (x ^ 2 + y ^ 2)). { rewrite <- (sqrt_pow2 12) by lra. apply sqrt_le_1_alt. nra. }
  split; [|auto]. rewrite table_height_eq. replace (sin x) with (cos (x - 5 * (PI / 2))) by (rewrite <- sin_phase; f_equal; ring). replace (cos y) with (- cos (y - 3 * PI)) by (rewrite <- cos_phase; f_equal; ring).
  rewrite Rabs_Ropp, !(Rabs_right (cos _)) by lra. f_equal. f_equal. assert (E : sqrt (x ^ 2 + y ^ 2) / PI * PI = sqrt (x ^ 2 + y ^ 2)) by (field; lra). rewrite Rabs_left1 by nra. ring.
Qed.
Lemma table_unique : forall x y x' y', near x y -> near x' y' -> (forall a b, near a b -> table_height a b <= table_height x y) -> table_height x' y' = table_height x y -> x' = x /\ y' = y.
Proof.
  intros x y x' y' N N' M E. set (a := (x + x') / 2). set (b := (y + y') / 2). set (h := (x - x') / 2). set (k := (y - y') / 2).
  assert (NM : near a b). { destruct N as [A B], N' as [A' B']. split; apply Rabs_le; apply abs_range in A; apply abs_range in B; apply abs_range in A'; apply abs_range in B'; unfold a, b; lra. }
  assert (HK : -1 / 10000 < h < 1 / 10000 /\ -1 / 10000 < k < 1 / 10000).
  { destruct N as [A B], N' as [A' B']. apply abs_range in A. apply abs_range in B. apply abs_range in A'. apply abs_range in B'. unfold h, k. lra. }
  destruct (Req_dec (h ^ 2 + k ^ 2) 0) as [Z|NZ]. { assert (h = 0 /\ k = 0) as [H0 K0] by (split; nra). unfold h in H0. unfold k in K0. lra. }
  exfalso. assert (HP : 0 < h ^ 2 + k ^ 2) by (pose proof (pow2_ge_0 h); pose proof (pow2_ge_0 k); lra). pose proof pi_bounds as P.
  specialize (M a b NM). destruct (near_height x y N) as (E1 & P1 & Q1 & _). destruct (near_height x' y' N') as (E2 & P2 & Q2 & _). destruct (near_height a b NM) as (E3 & P3 & Q3 & R3).
  assert (Tp : 0 < table_height x y) by (rewrite E1; repeat apply Rmult_lt_0_compat; auto; apply exp_pos). assert (Ta : 0 < table_height a b) by (rewrite E3; repeat apply Rmult_lt_0_compat; auto; apply exp_pos).
  assert (S : table_height x y * table_height x' y' < table_height a b * table_height a b); [|rewrite E in S; nra].
  replace x with (a + h) in E1, P1 by (unfold a, h; field). replace x' with (a - h) in E2, P2 by (unfold a, h; field). replace y with (b + k) in E1, Q1 by (unfold b, k; field). replace y' with (b - k) in E2, Q2 by (unfold b, k; field).
  replace x with (a + h) by (unfold a, h; field). replace x' with (a - h) by (unfold a, h; field). replace y with (b + k) by (unfold b, k; field). replace y' with (b - k) by (unfold b, k; field).
  rewrite E1, E2, E3. clear E1 E2 E3. replace (a + h - 5 * (PI / 2)) with (a - 5 * (PI / 2) + h) in * by ring. replace (a - h - 5 * (PI / 2)) with (a - 5 * (PI / 2) - h) in * by ring.
  replace (b + k - 3 * PI) with (b - 3 * PI + k) in * by ring. replace (b - k - 3 * PI) with (b - 3 * PI - k) in * by ring.
  pose proof (cos_mid (a - 5 * (PI / 2)) h P3 ltac:(lra) ltac:(lra) ltac:(lra)) as C1. pose proof (cos_mid (b - 3 * PI) k Q3 ltac:(lra) ltac:(lra) ltac:(lra)) as C2.
  assert (A0 : 0 < a). { destruct NM as [A _]. apply abs_range in A. pose proof X0_bounds. lra. }
  pose proof (radius_mid a b h k A0) as R. set (u := a - 5 * (PI / 2)) in *. set (w := b - 3 * PI) in *. set (r := sqrt (a ^ 2 + b ^ 2)) in *.
  set (r1 := sqrt ((a + h) ^ 2 + (b + k) ^ 2)) in *. set (r2 := sqrt ((a - h) ^ 2 + (b - k) ^ 2)) in *.
  replace (cos (u + h) * cos (w + k) * exp (r1 / PI - 1) * (cos (u - h) * cos (w - k) * exp (r2 / PI - 1))) with
    ((cos (u + h) * cos (u - h)) * (cos (w + k) * cos (w - k)) * (exp (r1 / PI - 1) * exp (r2 / PI - 1))) by ring. rewrite <- exp_plus.
  apply Rle_lt_trans with ((cos u ^ 2 * exp (- h ^ 2)) * (cos w ^ 2 * exp (- k ^ 2)) * exp (r1 / PI - 1 + (r2 / PI - 1))).
  { apply Rmult_le_compat_r; [left; apply exp_pos|]. apply Rmult_le_compat; auto; apply Rmult_le_pos; lra. }
  replace (cos u ^ 2 * exp (- h ^ 2) * (cos w ^ 2 * exp (- k ^ 2)) * exp (r1 / PI - 1 + (r2 / PI - 1))) with ((cos u * cos w) ^ 2 * (exp (- h ^ 2) * exp (- k ^ 2) * exp (r1 / PI - 1 + (r2 / PI - 1)))) by ring.
  replace (cos u * cos w * exp (r / PI - 1) * (cos u * cos w * exp (r / PI - 1))) with ((cos u * cos w) ^ 2 * (exp (r / PI - 1) * exp (r / PI - 1))) by ring. rewrite <- !exp_plus.
  apply Rmult_lt_compat_l; [apply pow_lt, Rmult_lt_0_compat; auto|]. apply exp_increasing.
  assert (I : (h ^ 2 + k ^ 2) / r <= (h ^ 2 + k ^ 2) / 12). { unfold Rdiv. apply Rmult_le_compat_l; [lra|]. apply Rinv_le_contravar; lra. }
  assert (S : (r1 + r2) * / PI <= (2 * r + (h ^ 2 + k ^ 2) / 12) * / PI). { apply Rmult_le_compat_r; [left; apply Rinv_0_lt_compat; lra|lra]. }
  assert (IP : / PI < 1) by (rewrite <- Rinv_1; apply Rinv_lt_contravar; lra). assert ((h ^ 2 + k ^ 2) / 12 * / PI <= (h ^ 2 + k ^ 2) / 12). { rewrite <- (Rmult_1_r ((h ^ 2 + k ^ 2) / 12)) at 2. apply Rmult_le_compat_l; lra. }
  lra.
Qed.
