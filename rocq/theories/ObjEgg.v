(** The eggholder function: where it can come near its minimum (C48). *)
From Coq Require Import Reals Lra Lia Psatz ZArith.
From Verif Require Import RealFacts ObjTable.
Local Open Scope R_scope.

(** Minus the function, of [x] and [u = y + 47]. *)
Definition egg (x u : R) : R := u * sin (sqrt (Rabs (x / 2 + u))) + x * sin (sqrt (Rabs (x - u))).

Lemma sin_turns : forall k x, sin x = sin (x - 2 * INR k * PI).
Proof. intros k x. rewrite <- (sin_period (x - 2 * INR k * PI) k). f_equal. ring. Qed.
Lemma sin_17 : forall x, sin x = cos (x - 17 * (PI / 2)).
Proof. intros x. rewrite (sin_turns 4 x). rewrite cos_sin. f_equal. simpl INR. field. Qed.
Lemma sin_5 : forall x, sin x = cos (x - 5 * (PI / 2)).
Proof. intros x. rewrite (sin_turns 1 x). rewrite cos_sin. f_equal. simpl INR. field. Qed.
Lemma sin_1 : forall x, sin x = cos (x - PI / 2).
Proof. intros x. rewrite cos_sin. f_equal. field. Qed.
Lemma sqrt_between : forall a x b, 0 <= a -> a ^ 2 <= x <= b ^ 2 -> 0 <= b -> a <= sqrt x <= b.
Proof.
  intros a x b A H B. rewrite <- (sqrt_pow2 a) at 1 by exact A. rewrite <- (sqrt_pow2 b) by exact B. split; apply sqrt_le_1_alt; lra.
Qed.
Lemma times_sin : forall a w, a * sin w <= Rabs a.
Proof. intros a w. pose proof (SIN_bound w). unfold Rabs. destruct (Rcase_abs a); nra. Qed.

(** Only the corner where both are large and positive comes close. *)
Lemma egg_corner : forall x u, -512 <= x <= 512 -> -465 <= u <= 559 -> 959.64 <= egg x u -> 0 < x /\ 0 < u /\ 959.64 <= x + u.
Proof.
  intros x u X U H. unfold egg in H. pose proof pi_bounds as P. set (p := sqrt (Rabs (x / 2 + u))) in *. set (q := sqrt (Rabs (x - u))) in *.
  pose proof (times_sin u p) as T1. pose proof (times_sin x q) as T2. unfold Rabs in T1, T2. destruct (Rcase_abs u) as [NU|PU], (Rcase_abs x) as [NX|PX].
  - exfalso. assert (S : 26.3 <= p <= 26.9). { apply sqrt_between; [lra| |lra]. rewrite Rabs_left by lra. lra. }
    rewrite (sin_turns 4 p) in H. assert (0 < sin (p - 2 * INR 4 * PI)) by (simpl INR; apply sin_gt_0; lra). nra.
  - exfalso. assert (S : 30.9 <= q <= 31.3). { apply sqrt_between; [lra| |lra]. rewrite Rabs_right by lra. lra. }
    rewrite (sin_turns 5 q) in H. assert (sin (q - 2 * INR 5 * PI) < 0) by (simpl INR; apply sin_lt_0_var; lra). nra.
  - exfalso. assert (S : 30.9 <= q <= 33). { apply sqrt_between; [lra| |lra]. rewrite Rabs_left by lra. lra. }
    rewrite (sin_turns 5 q) in H. assert (-0.6 < sin (q - 2 * INR 5 * PI)); [|nra]. simpl INR. set (d := q - _). assert (D : -0.55 <= d <= 2) by (unfold d; lra).
    destruct (Rle_dec 0 d) as [G|G]. { pose proof (sin_ge_0 d G ltac:(lra)). lra. } pose proof (sin_lt_x (- d) ltac:(lra)) as Q. rewrite sin_neg in Q. lra.
  - split; [|split]; lra.
Qed.

(** There both sines are close to one. *)
Lemma cos_far : forall t, 0.7 <= t <= 2 * PI - 0.7 -> cos t <= 0.77.
Proof.
  intros t T. pose proof pi_bounds as P. assert (C : cos 0.7 <= 0.77) by (pose proof (cos_upper 0.7 ltac:(lra)); lra).
  assert (W : forall w, 0.7 <= w <= PI -> cos w <= 0.77). { intros w W. eapply Rle_trans; [|exact C]. apply cos_decr_1; lra. }
  destruct (Rle_dec t PI); [apply W; lra|]. replace (cos t) with (cos (2 * PI - t)); [apply W; lra|]. rewrite <- (cos_neg t). rewrite <- (cos_period (- t) 1). f_equal. simpl INR. ring.
Qed.
Lemma cos_near : forall t, -2 * PI + 0.7 <= t <= 2 * PI - 0.7 -> 0.77 < cos t -> -0.7 < t < 0.7 /\ cos t <= 1 - 0.479 * t ^ 2.
Proof.
  intros t T C. assert (N : -0.7 < t < 0.7).
  { split; apply Rnot_le_lt; intros L; [rewrite <- (cos_neg t) in C; pose proof (cos_far (- t) ltac:(lra))|pose proof (cos_far t ltac:(lra))]; lra. }
  split; [exact N|]. assert (W : forall w, 0 <= w < 0.7 -> cos w <= 1 - 0.479 * w ^ 2).
  { intros w W. pose proof (cos_upper w ltac:(lra)) as U. assert (0 <= w ^ 2 <= 0.49) by nra. assert (w ^ 4 = w ^ 2 * w ^ 2) by ring. assert (w ^ 6 = w ^ 2 * w ^ 2 * w ^ 2) by ring. assert (w ^ 8 = w ^ 2 * w ^ 2 * (w ^ 2 * w ^ 2)) by ring. nra. }
  destruct (Rle_dec 0 t) as [G|G]; [apply W; lra|]. rewrite <- (cos_neg t). replace (t ^ 2) with ((- t) ^ 2) by ring. apply W; lra.
Qed.

Lemma sq_between : forall a x b, 0 <= a -> a <= x <= b -> a ^ 2 <= x ^ 2 <= b ^ 2.
Proof. intros a x b A H. split; apply pow_incr; lra. Qed.
Lemma times_le : forall k z b, 0 <= k <= b -> k * z <= b * Rabs z.
Proof. intros k z b K. apply Rle_trans with (k * Rabs z); [apply Rmult_le_compat_l; [lra|apply Rle_abs]|apply Rmult_le_compat_r; [apply Rabs_pos|lra]]. Qed.
Lemma times_range : forall k z a b, a <= k <= b -> -1 <= z <= 1 -> Rabs (k * z - a * z) <= b - a.
Proof.
  intros k z a b K Z. rewrite <- Rmult_minus_distr_r, Rabs_mult, (Rabs_right (k - a)) by lra. rewrite <- (Rmult_1_r (b - a)).
  apply Rmult_le_compat; [lra|apply Rabs_pos|lra|apply Rabs_le; lra].
Qed.
Lemma sq_root : forall z b, z ^ 2 <= b ^ 2 -> 0 <= b -> - b <= z <= b.
Proof. intros z b H B. split; apply Rnot_lt_le; intros L; nra. Qed.
(** The height in terms of the two phases: [p = x / 2 + u] and [q = x - u]. *)
Lemma egg_bound : forall x u t s, 447 <= u -> 400 <= x -> cos t <= 1 - 0.479 * t ^ 2 -> cos s <= 1 - 0.479 * s ^ 2 -> u * cos t + x * cos s <= x + u - 214 * t ^ 2 - 191 * s ^ 2.
Proof. intros x u t s U X T S. pose proof (pow2_ge_0 t). pose proof (pow2_ge_0 s). nra. Qed.
Lemma quarter : forall a b z, 0 < a -> b * z - a * z ^ 2 <= b ^ 2 / (4 * a).
Proof.
  intros a b z A. apply (Rmult_le_reg_r (4 * a)); [lra|]. replace (b ^ 2 / (4 * a) * (4 * a)) with (b ^ 2) by (field; lra). pose proof (pow2_ge_0 (b - 2 * a * z)). lra.
Qed.
Lemma egg_local : forall x u, -512 <= x <= 512 -> -465 <= u <= 559 -> 959.64 <= egg x u -> 511.8 <= x <= 512 /\ 450.5 <= u <= 452.5.
Proof.
  intros x u X U H. destruct (egg_corner x u X U H) as (PX & PU & XU). unfold egg in H. pose proof pi_bounds as P. rewrite (Rabs_right (x / 2 + u)) in H by lra.
  assert (SP : 25.4 <= sqrt (x / 2 + u) <= 28.6) by (apply sqrt_between; lra). assert (PE : sqrt (x / 2 + u) ^ 2 = x / 2 + u) by (apply pow2_sqrt; lra). set (a := sqrt (x / 2 + u)) in *.
  assert (AB : 0 <= Rabs (x - u) <= 12.6 ^ 2) by (split; [apply Rabs_pos|apply Rabs_le; lra]).
  assert (SQ : 0 <= sqrt (Rabs (x - u)) <= 12.6) by (apply sqrt_between; lra). assert (QE : sqrt (Rabs (x - u)) ^ 2 = Rabs (x - u)) by (apply pow2_sqrt; lra). set (b := sqrt (Rabs (x - u))) in *.
  pose proof (SIN_bound a) as BA. pose proof (SIN_bound b) as BB. assert (CA : 0.77 < sin a) by nra. assert (CB : 0.77 < sin b) by nra.
  rewrite (sin_17 a) in *. destruct (cos_near (a - 17 * (PI / 2)) ltac:(lra) CA) as [TN TC]. set (t := a - 17 * (PI / 2)) in *.
  assert (AE : a = t + 17 * (PI / 2)) by (unfold t; ring). rewrite AE in PE. clear AE.
  pose proof (sq_between 26.70353 (17 * (PI / 2)) 26.70354 ltac:(lra) ltac:(lra)) as A0.
  assert (PQ : x / 2 + u = t ^ 2 + 17 * PI * t + (17 * (PI / 2)) ^ 2) by (rewrite <- PE; field).
  destruct (Rle_dec b (3 * (PI / 2))) as [L|L].
  - exfalso. rewrite (sin_1 b) in *. destruct (cos_near (b - PI / 2) ltac:(lra) CB) as [SN SC]. set (s := b - PI / 2) in *. pose proof (egg_bound x u t s ltac:(lra) ltac:(lra) TC SC) as E.
    assert (Q : x - u <= (s + PI / 2) ^ 2). { replace (s + PI / 2) with b by (unfold s; ring). rewrite QE. apply Rle_abs. } 
    assert (Q2 : (s + PI / 2) ^ 2 <= 2.5 + 3.2 * Rabs s + s ^ 2).
    { pose proof (times_le PI s 3.2 ltac:(lra)). pose proof (sq_between 0 (PI / 2) 1.58 ltac:(lra) ltac:(lra)). replace ((s + PI / 2) ^ 2) with ((PI / 2) ^ 2 + PI * s + s ^ 2) by field. lra. }
    assert (Q3 : s ^ 2 = Rabs s ^ 2) by (symmetry; apply pow2_abs). pose proof (Rabs_pos s). pose proof (quarter 190 2 (Rabs s) ltac:(lra)) as Q4.
    assert (T1 : 17 * PI * t <= 53.41 * Rabs t) by (apply times_le; lra). assert (T2 : t ^ 2 = Rabs t ^ 2) by (symmetry; apply pow2_abs). pose proof (quarter 212 71.3 (Rabs t) ltac:(lra)) as T4.
    lra.
  - rewrite (sin_5 b) in *. destruct (cos_near (b - 5 * (PI / 2)) ltac:(lra) CB) as [SN SC]. set (s := b - 5 * (PI / 2)) in *. pose proof (egg_bound x u t s ltac:(lra) ltac:(lra) TC SC) as E.
    assert (BE : b = s + 5 * (PI / 2)) by (unfold s; ring). rewrite BE in QE. clear BE.
    unfold Rabs in QE. destruct (Rcase_abs (x - u)) as [NQ|PQ0].
    + exfalso. assert (T1 : 17 * PI * t <= 53.41 * Rabs t) by (apply times_le; lra). assert (T2 : t ^ 2 = Rabs t ^ 2) by (symmetry; apply pow2_abs). pose proof (quarter 212 71.3 (Rabs t) ltac:(lra)) as T4.
      pose proof (pow2_ge_0 s). lra.
    + pose proof (sq_between 7.85398 (5 * (PI / 2)) 7.85399 ltac:(lra) ltac:(lra)) as B0.
      assert (QQ : x - u = s ^ 2 + 5 * PI * s + (5 * (PI / 2)) ^ 2) by (rewrite <- QE; field).
      pose proof (times_range (17 * PI) t 53.407 53.4071 ltac:(lra) ltac:(lra)) as K1. apply abs_range in K1. pose proof (times_range (5 * PI) s 15.7079 15.708 ltac:(lra) ltac:(lra)) as K2. apply abs_range in K2.
      (* [x + u], plus 3.39 times [512 - x], completed to squares *)
      assert (K : 214 * (t + 0.11563) ^ 2 + 192 * (s + 0.07881) ^ 2 + 3.39 * (512 - x) <= 0.48).
      { assert (S1 : (t + 0.11563) ^ 2 = t ^ 2 + 0.23126 * t + 0.0133702969) by lra. assert (S2 : (s + 0.07881) ^ 2 = s ^ 2 + 0.15762 * s + 0.0062110161) by lra. pose proof (pow2_ge_0 t). pose proof (pow2_ge_0 s). lra. }
      pose proof (pow2_ge_0 (t + 0.11563)) as N1. pose proof (pow2_ge_0 (s + 0.07881)) as N2.
      assert (SB : - (0.05) <= s + 0.07881 <= 0.05) by (apply sq_root; lra). pose proof (sq_between 0 (- s) 0.13 ltac:(lra) ltac:(lra)) as S2. replace ((- s) ^ 2) with (s ^ 2) in S2 by ring. lra.
Qed.
