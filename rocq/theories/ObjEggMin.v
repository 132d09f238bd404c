(** The eggholder function has one minimiser (C48). *)
From Coq Require Import Reals Lra Lia Psatz ZArith.
From Coquelicot Require Import Coquelicot.
From Verif Require Import RealFacts ObjTable ObjEgg.
Local Open Scope R_scope.

(** *** Phases near the optimum *)
Lemma quarter_turn : forall k w, 2 * INR k * PI < w < 2 * INR k * PI + PI / 2 -> 0 < sin w /\ 0 < cos w.
Proof.
  intros k w W. pose proof PI_RGT_0. rewrite (sin_turns k w). replace (cos w) with (cos (w - 2 * INR k * PI)) by (rewrite <- (cos_period (w - 2 * INR k * PI) k); f_equal; ring).
  split; [apply sin_gt_0|apply cos_gt_0]; lra.
Qed.
Lemma phases : forall x u, 511.8 <= x <= 512 -> 450.5 <= u <= 452.5 ->
  26.57 <= sqrt (x / 2 + u) <= 26.63 /\ 7.68 <= sqrt (x - u) <= 7.85 /\ 0 < sin (sqrt (x / 2 + u)) /\ 0 < cos (sqrt (x / 2 + u)) /\ 0 < sin (sqrt (x - u)) /\ 0 < cos (sqrt (x - u)).
Proof.
  intros x u X U. pose proof pi_bounds as P. assert (A : 26.57 <= sqrt (x / 2 + u) <= 26.63) by (apply sqrt_between; lra). assert (B : 7.68 <= sqrt (x - u) <= 7.85) by (apply sqrt_between; lra).
  destruct (quarter_turn 4 (sqrt (x / 2 + u)) ltac:(simpl INR; lra)). destruct (quarter_turn 1 (sqrt (x - u)) ltac:(simpl INR; lra)). auto 10.
Qed.
Lemma egg_form : forall x u, 511.8 <= x <= 512 -> 450.5 <= u <= 452.5 -> egg x u = u * sin (sqrt (x / 2 + u)) + x * sin (sqrt (x - u)).
Proof. intros x u X U. unfold egg. rewrite !Rabs_right by lra. reflexivity. Qed.

(** *** The larger [x] the higher *)
Lemma egg_x : forall x u, 511.8 <= x < 512 -> 450.5 <= u <= 452.5 -> egg x u < egg 512 u.
Proof.
  intros x u X U. rewrite !egg_form by lra.
  destruct (MVT_cor2 (fun x => u * sin (sqrt (x / 2 + u)) + x * sin (sqrt (x - u)))
    (fun x => u * (cos (sqrt (x / 2 + u)) / (4 * sqrt (x / 2 + u))) + (sin (sqrt (x - u)) + x * (cos (sqrt (x - u)) / (2 * sqrt (x - u))))) x 512 ltac:(lra)) as (c & E & C).
  { intros c C. destruct (phases c u ltac:(lra) U) as (A & B & _). apply is_derive_Reals. auto_derive; [repeat split; lra|]. unfold Rminus, Rdiv in *. field. lra. }
  destruct (phases c u ltac:(lra) U) as (A & B & SA & CA & SB & CB). cbv beta in E.
  assert (D : 0 < u * (cos (sqrt (c / 2 + u)) / (4 * sqrt (c / 2 + u))) + (sin (sqrt (c - u)) + c * (cos (sqrt (c - u)) / (2 * sqrt (c - u))))).
  { apply Rplus_lt_0_compat; [|apply Rplus_lt_0_compat; [exact SB|]]; (apply Rmult_lt_0_compat; [lra|]; apply Rdiv_lt_0_compat; lra). }
  set (d := u * _ + (_ + _)) in *. assert (0 < d * (512 - x)) by (apply Rmult_lt_0_compat; lra). lra.
Qed.

(** *** Concavity in [u] *)
Definition edge (u : R) : R := u * sin (sqrt (256 + u)) + 512 * sin (sqrt (512 - u)).
Definition edge' (u : R) : R := sin (sqrt (256 + u)) + u * (cos (sqrt (256 + u)) / (2 * sqrt (256 + u))) - 512 * (cos (sqrt (512 - u)) / (2 * sqrt (512 - u))).
Lemma edge_phases : forall u, 450.5 <= u <= 452.5 -> 26.57 <= sqrt (256 + u) <= 26.63 /\ 7.68 <= sqrt (512 - u) <= 7.85 /\ 0 < sin (sqrt (256 + u)) /\ 0 < cos (sqrt (256 + u)) /\ 0 < sin (sqrt (512 - u)) /\ 0 < cos (sqrt (512 - u)).
Proof. intros u U. pose proof (phases 512 u ltac:(lra) U) as H. replace (512 / 2) with 256 in H by lra. exact H. Qed.
Lemma egg_edge : forall u, 450.5 <= u <= 452.5 -> egg 512 u = edge u.
Proof. intros u U. rewrite egg_form by lra. unfold edge. replace (512 / 2) with 256 by lra. reflexivity. Qed.
Lemma edge_derive : forall u, 450.5 <= u <= 452.5 -> derivable_pt_lim edge u (edge' u).
Proof. intros u U. destruct (edge_phases u U) as (A & B & _). apply is_derive_Reals. unfold edge, edge'. auto_derive; [repeat split; lra|]. unfold Rminus, Rdiv in *. field. lra. Qed.
Lemma edge_decreasing : forall u v, 450.5 <= u -> u < v -> v <= 452.5 -> edge' v < edge' u.
Proof.
  intros u v U L V.
  destruct (MVT_cor2 edge' (fun u => cos (sqrt (256 + u)) / sqrt (256 + u) - u * sin (sqrt (256 + u)) / (4 * sqrt (256 + u) ^ 2) - u * cos (sqrt (256 + u)) / (4 * sqrt (256 + u) ^ 3)
    - 512 * (sin (sqrt (512 - u)) + cos (sqrt (512 - u)) / sqrt (512 - u)) / (4 * sqrt (512 - u) ^ 2)) u v L) as (c & E & C).
  { intros c C. destruct (edge_phases c ltac:(lra)) as (A & B & _). apply is_derive_Reals. unfold edge'. auto_derive; [unfold Rminus in *; repeat split; lra|]. unfold Rminus, Rdiv in *. field. lra. }
  destruct (edge_phases c ltac:(lra)) as (A & B & SA & CA & SB & CB). set (a := sqrt (256 + c)) in *. set (b := sqrt (512 - c)) in *. cbv beta in E. fold a in E. fold b in E.
  assert (P1 : 0 < c * cos a / (4 * a ^ 3)). { apply Rdiv_lt_0_compat; [apply Rmult_lt_0_compat; lra|]. pose proof (pow_lt a 3 ltac:(lra)). lra. }
  assert (P2 : 0 < 512 * (sin b + cos b / b) / (4 * b ^ 2)). { pose proof (Rdiv_lt_0_compat (cos b) b CB ltac:(lra)). apply Rdiv_lt_0_compat; [lra|]. pose proof (pow_lt b 2 ltac:(lra)). lra. }
  assert (Q : 4 * a * cos a < c * sin a).
  { pose proof pi_bounds as P. assert (T : cos a <= 0.2). { replace (cos a) with (sin (17 * (PI / 2) - a)). - apply Rle_trans with (17 * (PI / 2) - a); [|lra]. left. apply sin_lt_x. lra.
      - rewrite (sin_17 (17 * (PI / 2) - a)). rewrite <- (cos_neg a). f_equal. ring. }
    assert (S : 0.9 < sin a). { rewrite (sin_17 a), <- cos_neg. pose proof (cos_lower (- (a - 17 * (PI / 2))) ltac:(lra)) as Z. set (w := - (a - _)) in *. assert (W : 0 <= w <= 0.2) by (unfold w; lra).
      assert (0 <= w ^ 2 <= 0.04) by nra. assert (0 <= w ^ 4) by (apply pow_le; lra). assert (w ^ 6 <= 1) by (rewrite <- (pow1 6); apply pow_incr; lra). lra. }
    apply Rlt_trans with 100; nra. }
  assert (P3 : cos a / a < c * sin a / (4 * a ^ 2)). { apply (Rmult_lt_reg_r (4 * a ^ 2)); [pose proof (pow_lt a 2 ltac:(lra)); lra|]. replace (cos a / a * (4 * a ^ 2)) with (4 * a * cos a) by (field; lra). replace (c * sin a / (4 * a ^ 2) * (4 * a ^ 2)) with (c * sin a) by (field; lra). exact Q. }
  set (d := cos a / a - _ - _ - _) in *. assert (D : 0 < - d) by (unfold d; lra). assert (0 < - d * (v - u)) by (apply Rmult_lt_0_compat; lra). lra.
Qed.

(** *** Values *)
Lemma sin_range : forall l w h, 0 <= l -> l <= w <= h -> h <= 1 -> l - l ^ 3 / 6 + l ^ 5 / 120 - l ^ 7 / 5040 <= sin w <= h - h ^ 3 / 6 + h ^ 5 / 120 - h ^ 7 / 5040 + h ^ 9 / 362880.
Proof.
  intros l w h L W H. pose proof pi_bounds as P. split.
  - eapply Rle_trans; [apply sin_lower; lra|]. apply sin_incr_1; lra.
  - eapply Rle_trans; [|apply sin_upper; lra]. apply sin_incr_1; lra.
Qed.
Lemma cos_range : forall l w h, 0 <= l -> l <= w <= h -> h <= 1 -> 1 - h ^ 2 / 2 + h ^ 4 / 24 - h ^ 6 / 720 <= cos w <= 1 - l ^ 2 / 2 + l ^ 4 / 24 - l ^ 6 / 720 + l ^ 8 / 40320.
Proof.
  intros l w h L W H. pose proof pi_bounds as P. split.
  - eapply Rle_trans; [apply cos_lower; lra|]. apply cos_decr_1; lra.
  - eapply Rle_trans; [|apply cos_upper; lra]. apply cos_decr_1; lra.
Qed.
Lemma div_range : forall nl n nh dl d dh, 0 <= nl -> nl <= n <= nh -> 0 < dl -> dl <= d <= dh -> nl / dh <= n / d <= nh / dl.
Proof.
  intros nl n nh dl d dh N0 N D0 D. assert (I1 : / dh <= / d) by (apply Rinv_le_contravar; lra). assert (I2 : / d <= / dl) by (apply Rinv_le_contravar; lra).
  assert (0 < / dh) by (apply Rinv_0_lt_compat; lra). unfold Rdiv. split; apply Rmult_le_compat; lra.
Qed.
Lemma turn_17 : forall a, sin a = cos (17 * (PI / 2) - a) /\ cos a = sin (17 * (PI / 2) - a).
Proof. intros a. split; [rewrite (sin_17 a), <- cos_neg; f_equal; ring|]. rewrite (sin_17 (17 * (PI / 2) - a)), <- (cos_neg a). f_equal. ring. Qed.
Lemma turn_5 : forall a, sin a = cos (5 * (PI / 2) - a) /\ cos a = sin (5 * (PI / 2) - a).
Proof. intros a. split; [rewrite (sin_5 a), <- cos_neg; f_equal; ring|]. rewrite (sin_5 (5 * (PI / 2) - a)), <- (cos_neg a). f_equal. ring. Qed.
Lemma edge_left : 0 < edge' 451.2318 < 0.001 /\ 959.64066 <= edge 451.2318 <= 959.64067.
Proof.
  pose proof pi_bounds as P. unfold edge', edge.
  assert (A : 26.593830111 <= sqrt (256 + 451.2318) <= 26.593830112) by (apply sqrt_between; lra). assert (B : 7.795396077 <= sqrt (512 - 451.2318) <= 7.795396078) by (apply sqrt_between; lra).
  set (a := sqrt _) in *. set (b := sqrt (512 - _)) in *. destruct (turn_17 a) as [-> ->]. destruct (turn_5 b) as [-> ->].
  assert (W : 0.109707442 <= 17 * (PI / 2) - a <= 0.109707445) by lra. assert (Z : 0.058585555 <= 5 * (PI / 2) - b <= 0.058585558) by lra.
  set (w := 17 * _ - a) in *. set (z := 5 * _ - b) in *.
  pose proof (sin_range 0.109707442 w 0.109707445 ltac:(lra) W ltac:(lra)) as SW. pose proof (cos_range 0.109707442 w 0.109707445 ltac:(lra) W ltac:(lra)) as CW. pose proof (sin_range 0.058585555 z 0.058585558 ltac:(lra) Z ltac:(lra)) as SZ. pose proof (cos_range 0.058585555 z 0.058585558 ltac:(lra) Z ltac:(lra)) as CZ.
  assert (SW0 : 0 <= 0.109707442 - 0.109707442 ^ 3 / 6 + 0.109707442 ^ 5 / 120 - 0.109707442 ^ 7 / 5040) by lra. assert (SZ0 : 0 <= 0.058585555 - 0.058585555 ^ 3 / 6 + 0.058585555 ^ 5 / 120 - 0.058585555 ^ 7 / 5040) by lra.
  pose proof (div_range _ (sin w) _ (2 * 26.593830111) (2 * a) (2 * 26.593830112) SW0 SW ltac:(lra) ltac:(lra)) as Q1.
  pose proof (div_range _ (sin z) _ (2 * 7.795396077) (2 * b) (2 * 7.795396078) SZ0 SZ ltac:(lra) ltac:(lra)) as Q2.
  split; lra.
Qed.
Lemma edge_right : edge' 451.23181 < 0.
Proof.
  pose proof pi_bounds as P. unfold edge'.
  assert (A : 26.593830299 <= sqrt (256 + 451.23181) <= 26.5938303) by (apply sqrt_between; lra). assert (B : 7.795395435 <= sqrt (512 - 451.23181) <= 7.795395436) by (apply sqrt_between; lra).
  set (a := sqrt _) in *. set (b := sqrt (512 - _)) in *. destruct (turn_17 a) as [-> ->]. destruct (turn_5 b) as [_ ->].
  assert (W : 0.109707254 <= 17 * (PI / 2) - a <= 0.109707257) by lra. assert (Z : 0.058586197 <= 5 * (PI / 2) - b <= 0.0585862) by lra.
  set (w := 17 * _ - a) in *. set (z := 5 * _ - b) in *.
  pose proof (sin_range 0.109707254 w 0.109707257 ltac:(lra) W ltac:(lra)) as SW. pose proof (cos_range 0.109707254 w 0.109707257 ltac:(lra) W ltac:(lra)) as CW. pose proof (sin_range 0.058586197 z 0.0585862 ltac:(lra) Z ltac:(lra)) as SZ.
  assert (SW0 : 0 <= 0.109707254 - 0.109707254 ^ 3 / 6 + 0.109707254 ^ 5 / 120 - 0.109707254 ^ 7 / 5040) by lra. assert (SZ0 : 0 <= 0.058586197 - 0.058586197 ^ 3 / 6 + 0.058586197 ^ 5 / 120 - 0.058586197 ^ 7 / 5040) by lra.
  pose proof (div_range _ (sin w) _ (2 * 26.593830299) (2 * a) (2 * 26.5938303) SW0 SW ltac:(lra) ltac:(lra)) as Q1.
  pose proof (div_range _ (sin z) _ (2 * 7.795395435) (2 * b) (2 * 7.795395436) SZ0 SZ ltac:(lra) ltac:(lra)) as Q2.
  lra.
Qed.
(** The point that the docstring gives. *)
Lemma edge_docstring : edge 451.3219 <= 959.632.
Proof.
  pose proof pi_bounds as P. unfold edge.
  assert (A : 26.59552 <= sqrt (256 + 451.3219) <= 26.59553) by (apply sqrt_between; lra). assert (B : 7.78961 <= sqrt (512 - 451.3219) <= 7.78962) by (apply sqrt_between; lra).
  set (a := sqrt _) in *. set (b := sqrt (512 - _)) in *. destruct (turn_17 a) as [-> _]. destruct (turn_5 b) as [-> _].
  pose proof (cos_range 0.108007 (17 * (PI / 2) - a) 0.1081 ltac:(lra) ltac:(lra) ltac:(lra)) as CW. pose proof (cos_range 0.06436 (5 * (PI / 2) - b) 0.0644 ltac:(lra) ltac:(lra) ltac:(lra)) as CZ. lra.
Qed.

(** *** The maximum of [egg] *)
Lemma edge_rise : forall u v, 450.5 <= u -> u < v -> v <= 452.5 -> 0 <= edge' v -> edge u < edge v.
Proof.
  intros u v U L V D. destruct (MVT_cor2 edge edge' u v L) as (c & E & C); [intros; apply edge_derive; lra|]. pose proof (edge_decreasing c v ltac:(lra) ltac:(lra) V).
  assert (0 < edge' c * (v - u)) by (apply Rmult_lt_0_compat; lra). lra.
Qed.
Lemma edge_fall : forall u v, 450.5 <= u -> u < v -> v <= 452.5 -> edge' u <= 0 -> edge v < edge u.
Proof.
  intros u v U L V D. destruct (MVT_cor2 edge edge' u v L) as (c & E & C); [intros; apply edge_derive; lra|]. pose proof (edge_decreasing u c ltac:(lra) ltac:(lra) ltac:(lra)).
  assert (0 < - edge' c * (v - u)) by (apply Rmult_lt_0_compat; lra). lra.
Qed.
Lemma edge_flat : forall u v, 450.5 <= u -> u < v -> v <= 452.5 -> edge u = edge v -> exists c, u < c < v /\ edge u < edge c.
Proof.
  intros u v U L V E0. destruct (MVT_cor2 edge edge' u v L) as (c & E & C); [intros; apply edge_derive; lra|]. exists c. split; [exact C|].
  assert (edge' c = 0) by (apply (Rmult_eq_reg_r (v - u)); lra). apply edge_rise; lra.
Qed.
Lemma edge_peak : exists u, 451.2318 <= u <= 451.23181 /\ 959.64066 <= edge u <= 959.6407 /\ forall v, 450.5 <= v <= 452.5 -> edge v <= edge u /\ (edge v = edge u -> v = u).
Proof.
  destruct edge_left as [DL VL]. pose proof edge_right as DR.
  destruct (continuity_ab_maj edge 451.2318 451.23181 ltac:(lra)) as (u & M & U).
  { intros c C. apply derivable_continuous_pt. exists (edge' c). apply edge_derive. lra. }
  exists u. split; [exact U|].
  assert (MA : forall v, 450.5 <= v <= 452.5 -> edge v <= edge u).
  { intros v V. destruct (Rlt_dec v 451.2318) as [A|A]; [pose proof (edge_rise v 451.2318 ltac:(lra) A ltac:(lra) ltac:(lra)); pose proof (M 451.2318 ltac:(lra)); lra|].
    destruct (Rlt_dec 451.23181 v) as [B|B]; [pose proof (edge_fall 451.23181 v ltac:(lra) B ltac:(lra) ltac:(lra)); pose proof (M 451.23181 ltac:(lra)); lra|]. apply M. lra. }
  split.
  - split; [pose proof (M 451.2318 ltac:(lra)); lra|]. destruct (Req_dec u 451.2318) as [->|N]; [lra|].
    destruct (MVT_cor2 edge edge' 451.2318 u ltac:(lra)) as (c & E & C); [intros; apply edge_derive; lra|]. pose proof (edge_decreasing 451.2318 c ltac:(lra) ltac:(lra) ltac:(lra)).
    assert (edge' c * (u - 451.2318) <= 0.001 * 0.00001); [|lra]. apply Rle_trans with (0.001 * (u - 451.2318)); [apply Rmult_le_compat_r; lra|lra].
  - intros v V. split; [apply MA; exact V|]. intros E. destruct (Rtotal_order v u) as [A|[A|A]]; [|exact A|]; exfalso.
    + destruct (edge_flat v u ltac:(lra) A ltac:(lra) E) as (c & C & G). pose proof (MA c ltac:(lra)). lra.
    + destruct (edge_flat u v ltac:(lra) A ltac:(lra) (eq_sym E)) as (c & C & G). pose proof (MA c ltac:(lra)). lra.
Qed.
Lemma egg_peak : exists u, 451.2318 <= u <= 451.23181 /\ 959.64066 <= egg 512 u <= 959.6407 /\
  forall x v, -512 <= x <= 512 -> -465 <= v <= 559 -> egg x v <= egg 512 u /\ (egg x v = egg 512 u -> x = 512 /\ v = u).
Proof.
  destruct edge_peak as (u & U & V & M). exists u. rewrite (egg_edge u) by lra. split; [exact U|]. split; [exact V|]. intros x v X W.
  destruct (Rlt_dec (egg x v) 959.64) as [L|L]; [split; [lra|intros; lra]|]. destruct (egg_local x v X W ltac:(lra)) as [X' W']. destruct (M v ltac:(lra)) as [M1 M2]. rewrite <- (egg_edge v) in M1, M2 by lra.
  destruct (Req_dec x 512) as [->|N]; [auto|]. pose proof (egg_x x v ltac:(lra) ltac:(lra)). split; [lra|]. intros. lra.
Qed.
