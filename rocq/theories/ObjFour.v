(** The cross-in-tray and Holder table functions have four minima, at the documented points (C48). *)
From Coq Require Import String ZArith List Arith Bool Reals Lra Lia.
From Flocq Require Import Core.
From Verif Require Import Prelude ListFacts Num Objectives SpecObj ObjFacts ObjReal ObjFormula RealFacts ObjCross ObjHolder ObjTable.
Import ListNotations.
Local Open Scope string_scope.
Local Open Scope list_scope.
Local Open Scope R_scope.

Lemma within_range : forall (X : list (list R)) i r x y, within (N := Rnum) (-10) 10 X = true -> nth_error X i = Some r -> r = [x; y] -> -10 <= x <= 10 /\ -10 <= y <= 10.
Proof.
  intros X i r x y W Xi ->. pose proof (forallb_nth _ _ X i [x; y] W Xi) as Q. cbn [forallb] in Q. unfold between in Q. cbn [nle Rnum] in Q. rewrite !andb_true_r in Q.
  apply andb_true_iff in Q. destruct Q as [A B]. apply andb_true_iff in A. apply andb_true_iff in B. destruct A as [A1 A2], B as [B1 B2].
  destruct (Rle_bool_spec (-10) x), (Rle_bool_spec x 10), (Rle_bool_spec (-10) y), (Rle_bool_spec y 10); try discriminate; lra.
Qed.
Lemma range_within : forall x y : R, -10 <= x <= 10 -> -10 <= y <= 10 -> within (N := Rnum) (-10) 10 [[x; y]] = true.
Proof. intros x y X Y. unfold within. cbn [forallb]. rewrite !between_R by lra. reflexivity. Qed.
(** Any number is a sign times its absolute value. *)
Lemma sign_abs : forall x a, Rabs x = a -> exists s, sign s /\ x = s * a.
Proof. intros x a <-. unfold sign, Rabs. destruct (Rcase_abs x); [exists (-1)|exists 1]; split; auto; ring. Qed.

(** What is to be shown of the two heights [h]. *)
Definition four_peaks (h : R -> R -> R) (x y : R) : Prop :=
  0 <= x <= 10 /\ 0 <= y <= 10 /\ forall a b, -10 <= a <= 10 -> -10 <= b <= 10 -> h a b <= h x y /\ (h a b = h x y -> Rabs a = x /\ Rabs b = y).
Lemma tray_four : four_peaks tray_height tray tray.
Proof.
  pose proof tray_bounds as T. split; [lra|]. split; [lra|]. intros a b A B. rewrite (tray_in ltac:(lra)). apply tray_bound; auto.
Qed.
Lemma abs_ten : forall a, -10 <= a <= 10 -> 0 <= Rabs a <= 10.
Proof. intros a A. split; [apply Rabs_pos|apply Rabs_le; lra]. Qed.
Lemma table_four : exists x y, four_peaks table_height x y /\ near x y /\ table_height X0 Y0 <= table_height x y.
Proof.
  destruct table_attains as (x & y & X & Y & M). exists x, y. assert (T0 : table_height X0 Y0 <= table_height x y) by (apply M; pose proof X0_bounds; pose proof Y0_bounds; lra).
  assert (N : near x y) by (apply table_near; auto). split; [|auto]. split; [exact X|]. split; [exact Y|]. intros a b A B. rewrite <- (table_height_abs a b). split; [apply M; apply abs_ten; auto|].
  intros E. pose proof (abs_ten a A) as A'. pose proof (abs_ten b B) as B'. apply table_unique; auto.
  - apply table_near; auto. lra.
  - intros p q [P Q]. pose proof X0_bounds. pose proof Y0_bounds. apply abs_range in P. apply abs_range in Q. apply M; lra.
Qed.

Definition tray_cost (x y : R) : R := - (Rpower (tray_height x y + 1) (1 / 10)) / 10000.
Lemma tray_height_pos : forall x y, 0 <= tray_height x y. Proof. intros. apply Rabs_pos. Qed.
Lemma Rpower_strict : forall a b c, 0 < a < b -> 0 < c -> Rpower a c < Rpower b c.
Proof. intros a b c H C. unfold Rpower. apply exp_increasing. apply Rmult_lt_compat_l; [exact C|]. apply ln_increasing; lra. Qed.
Lemma tray_cost_order : forall a b x y, tray_height a b <= tray_height x y -> tray_cost x y <= tray_cost a b /\ (tray_cost a b = tray_cost x y -> tray_height a b = tray_height x y).
Proof.
  intros a b x y H. unfold tray_cost. pose proof (tray_height_pos a b) as P. destruct H as [H|H]; [|rewrite H; split; [lra|reflexivity]].
  pose proof (Rpower_strict (tray_height a b + 1) (tray_height x y + 1) (1 / 10) ltac:(lra) ltac:(lra)) as Q. split; [lra|]. intros E. exfalso. lra.
Qed.
Lemma tray_cost_value : Rabs (tray_cost tray tray - (-2.06261)) <= 1 / 100000.
Proof.
  unfold tray_cost. pose proof tray_bounds as T. rewrite (tray_in ltac:(lra)). pose proof tray_top_bounds as B.
  assert (R : forall u, 0 < u -> Rpower (u ^ 10) (1 / 10) = u).
  { intros u U. rewrite <- (Rpower_pow 10 u U), Rpower_mult. replace (INR 10 * (1 / 10)) with 1 by (simpl; field). apply Rpower_1. exact U. }
  assert (L : 20626.0 <= Rpower (tray_top + 1) (1 / 10)). { rewrite <- (R 20626.0) at 1 by lra. apply Rle_Rpower_l; [lra|]. split; [apply pow_lt|]; lra. }
  assert (U : Rpower (tray_top + 1) (1 / 10) <= 20626.2). { rewrite <- (R 20626.2) by lra. apply Rle_Rpower_l; [lra|]. split; [|lra]. pose proof (pow_lt 20626.0 10 ltac:(lra)). lra. }
  apply Rabs_le. lra.
Qed.
Lemma exp_tiny2 : forall x y, near x y -> table_height x y <= 19.20851.
Proof.
  intros x y [A B]. apply abs_range in A. apply abs_range in B. pose proof X0_bounds. pose proof Y0_bounds. pose proof pi_bounds. pose proof table_value as V.
  pose proof (table_inside x y ltac:(lra) ltac:(lra)) as I. rewrite exp_plus in I. pose proof (dip slope_u (x - X0) slope_u_small) as D1. pose proof (dip slope_w (y - Y0) slope_w_small) as D2.
  apply exp_mono in D1. apply exp_mono in D2. pose proof exp_tiny as T. set (p := exp (slope_u * _ - _)) in *. set (q := exp (slope_w * _ - _)) in *.
  assert (0 < p) by apply exp_pos. assert (0 < q) by apply exp_pos. assert (p * q <= 1.0000000001 * 1.0000000001) by (apply Rmult_le_compat; lra).
  assert (table_height X0 Y0 * (p * q) <= 19.208506 * (1.0000000001 * 1.0000000001)); [|lra]. apply Rmult_le_compat; try lra. apply Rmult_le_pos; lra.
Qed.

Lemma four_minima : forall m : mathlib Rnum, real_math m -> forall name f px py pv, In (name, f) (bundled m) -> documented_four name px py pv ->
  exists x y v, Rabs (x - px) <= 1 / 100000 /\ Rabs (y - py) <= 1 / 100000 /\ Rabs (v - pv) <= 1 / 100000 /\
  (forall s t, sign s -> sign t -> f 2%nat [[s * x; t * y]] = Ok [v]) /\
  forall n X costs, is_matrix n 2 X -> f 2%nat X = Ok costs -> forall i r c, nth_error X i = Some r -> nth_error costs i = Some c ->
    v <= c /\ (c = v -> exists s t, sign s /\ sign t /\ r = [s * x; t * y]).
Proof.
  intros m M name f px py pv I D.
  assert (ST : exists (h g : R -> R -> R) x y, Rabs (x - px) <= 1 / 100000 /\ Rabs (y - py) <= 1 / 100000 /\ Rabs (g x y - pv) <= 1 / 100000 /\ four_peaks h x y /\
    (forall a b, formula name [a; b] = g a b) /\ (forall a b, h a b <= h x y -> g x y <= g a b /\ (g a b = g x y -> h a b = h x y)) /\ (forall a b, g (Rabs a) (Rabs b) = g a b) /\
    (forall X, f 2%nat X = if within (N := Rnum) (-10) 10 X then Ok (map (fun r => match f 2%nat [r] with Ok [c] => c | _ => 0 end) X) else Err ValueError) /\ (forall r, within (N := Rnum) (-10) 10 [r] = true -> exists c, f 2%nat [r] = Ok [c])).
  { destruct D.
    - assert (F : f = crossintray m) by (cbn in I; intuition congruence). exists tray_height, tray_cost, tray, tray. pose proof tray_bounds as T.
      split; [apply Rabs_le; lra|]. split; [apply Rabs_le; lra|]. split; [apply tray_cost_value|]. split; [apply tray_four|]. split; [reflexivity|]. split; [intros; apply tray_cost_order; auto|].
      split; [intros a b; unfold tray_cost, tray_height; rewrite !pow2_abs, !Rabs_mult, !abs_sin_abs; reflexivity|]. subst f. split.
      + intros X. unfold crossintray. cbn [Nat.eqb negb]. change (nofZ (n := Rnum) (-10)) with (-10). change (nofZ (n := Rnum) 10) with 10. destruct (within (N := Rnum) (-10) 10 X) eqn:W; [|reflexivity]. cbn [negb].
        f_equal. apply map_ext_in. intros r R. assert (Wr : within (N := Rnum) (-10) 10 [r] = true). { unfold within in *. rewrite forallb_forall in W. cbn [forallb]. rewrite (W r R). reflexivity. } rewrite Wr. reflexivity.
      + intros r W. unfold crossintray. cbn [Nat.eqb negb]. change (nofZ (n := Rnum) (-10)) with (-10). change (nofZ (n := Rnum) 10) with 10. rewrite W. eexists. reflexivity.
    - assert (F : f = holdertable m) by (cbn in I; intuition congruence). destruct table_four as (x & y & P & N & L). exists table_height, (fun a b => - table_height a b), x, y. pose proof table_value as V. pose proof (exp_tiny2 x y N) as U.
      pose proof X0_bounds as XB. pose proof Y0_bounds as YB. destruct N as [A B]. apply abs_range in A. apply abs_range in B.
      split; [apply Rabs_le; lra|]. split; [apply Rabs_le; lra|]. split; [apply Rabs_le; lra|]. split; [exact P|]. split; [reflexivity|]. split; [intros; split; lra|].
      split; [intros a b; f_equal; apply table_height_abs|]. subst f. split.
      + intros X. unfold holdertable. cbn [Nat.eqb negb]. change (nofZ (n := Rnum) (-10)) with (-10). change (nofZ (n := Rnum) 10) with 10. destruct (within (N := Rnum) (-10) 10 X) eqn:W; [|reflexivity]. cbn [negb].
        f_equal. apply map_ext_in. intros r R. assert (Wr : within (N := Rnum) (-10) 10 [r] = true). { unfold within in *. rewrite forallb_forall in W. cbn [forallb]. rewrite (W r R). reflexivity. } rewrite Wr. reflexivity.
      + intros r W. unfold holdertable. cbn [Nat.eqb negb]. change (nofZ (n := Rnum) (-10)) with (-10). change (nofZ (n := Rnum) 10) with 10. rewrite W. eexists. reflexivity. }
  destruct ST as (h & g & x & y & AX & AY & AV & (PX & PY & P) & FG & HG & GA & FX & FO). exists x, y, (g x y). do 3 (split; [assumption|]).
  assert (FV : forall a b c, f 2%nat [[a; b]] = Ok [c] -> c = g a b).
  { intros a b c E. rewrite <- FG. refine (formula_claim m M name f 2%nat 1%nat [[a; b]] [c] I _ E 0%nat [a; b] c eq_refl eq_refl). split; [reflexivity|repeat constructor]. }
  split.
  - intros s t S T. assert (W : within (N := Rnum) (-10) 10 [[s * x; t * y]] = true). { apply range_within; destruct S as [-> | ->], T as [-> | ->]; lra. }
    destruct (FO _ W) as (c & E). refine (eq_trans E _). rewrite (FV _ _ _ E), <- GA. do 2 f_equal. rewrite !abs_sign, !Rabs_right by (auto; lra). reflexivity.
  - intros n X costs MX E i r c Xi Ci. rewrite FX in E. destruct (within (N := Rnum) (-10) 10 X) eqn:W; [|discriminate E].
    assert (L2 : length r = 2%nat) by (destruct MX as [_ MX]; rewrite Forall_forall in MX; apply MX; eapply nth_error_In; eauto). destruct (two r L2) as (a & b & RE).
    destruct (within_range X i r a b W Xi RE) as [A B]. destruct (FO [a; b] (range_within a b A B)) as (c' & E'). injection E as E. subst r costs.
    pose proof (eq_trans (eq_sym Ci) (map_nth_error _ i X Xi)) as Z. pose proof (f_equal (fun z : res (list R) => match z with Ok [c] => c | _ => 0 end) E') as K. cbn beta iota in K. assert (CC : c = c') by (injection Z as ->; exact K). subst c. rewrite (FV _ _ _ E'). clear Z K. destruct (P a b A B) as [Q1 Q2]. destruct (HG a b Q1) as [Q3 Q4]. split; [exact Q3|].
    intros Z. destruct (Q2 (Q4 Z)) as [RA RB]. destruct (sign_abs a x RA) as (s & S & ->). destruct (sign_abs b y RB) as (t & T & ->). exists s, t. auto.
Qed.
