(** Minima of the bundled objectives over the reals (C48). *)
From Coq Require Import String ZArith List Arith Bool Reals Lra Lia Psatz.
From Flocq Require Import Core.
From Verif Require Import Prelude ListFacts Num Objectives SpecObj BinFacts ObjFacts.
Import ListNotations.
Local Open Scope string_scope.
Local Open Scope list_scope.
Local Open Scope R_scope.

(** *** Sums *)
Lemma rsum_nonneg : forall l, Forall (fun x => 0 <= x) l -> 0 <= rsum l.
Proof. induction l; intros H; simpl; [lra|]. inversion H; subst. specialize (IHl H3). lra. Qed.
Lemma rsum_zero : forall l, Forall (fun x => 0 <= x) l -> rsum l = 0 -> Forall (fun x => x = 0) l.
Proof.
  induction l; intros H E; constructor; simpl in E; inversion H; subst; pose proof (rsum_nonneg l H3).
  - lra.
  - apply IHl; auto. lra.
Qed.
Lemma rsum_map_le : forall A (f g : A -> R) l, (forall x, f x <= g x) -> rsum (map f l) <= rsum (map g l).
Proof. induction l; intros H; simpl; [lra|]. specialize (IHl H). specialize (H a). lra. Qed.
Lemma rsum_const : forall A (c : R) (l : list A), rsum (map (fun _ => c) l) = INR (length l) * c.
Proof. induction l; [simpl; lra|]. cbn [length map rsum fold_right]. rewrite S_INR. unfold rsum in IHl. rewrite IHl. lra. Qed.
Lemma rsum_repeat : forall c k, rsum (repeat c k) = INR k * c.
Proof. induction k; [simpl; lra|]. cbn [repeat rsum fold_right]. rewrite S_INR. unfold rsum in IHk. rewrite IHk. lra. Qed.
Lemma all_zero : forall (l : list R), Forall (fun x => x = 0) l -> l = repeat 0 (length l).
Proof. induction l; intros H; simpl; auto. inversion H; subst. f_equal. auto. Qed.
Lemma squares_zero : forall l, Forall (fun x => x = 0) (map (fun x : R => x * x) l) -> Forall (fun x => x = 0) l.
Proof. induction l; intros H; simpl in *; constructor; inversion H; subst; auto. nra. Qed.
Lemma sq_nonneg : forall l, Forall (fun x => 0 <= x) (map (fun x : R => x * x) l).
Proof. intros l. apply Forall_forall. intros x I. apply in_map_iff in I. destruct I as (y & <- & _). nra. Qed.
Lemma sq2_zero : forall a b, a * a + b * b = 0 -> a = 0 /\ b = 0. Proof. intros. split; nra. Qed.

Lemma sos2 : forall a b : R, 0 <= a * a + b * b. Proof. intros. nra. Qed.
Lemma sos3 : forall a b c : R, 0 <= a * a + b * b + c * c. Proof. intros. nra. Qed.
Lemma sq3_zero : forall a b c : R, a * a + b * b + c * c = 0 -> a = 0 /\ b = 0 /\ c = 0. Proof. intros. repeat split; nra. Qed.

Lemma quad_s : forall s : R, 0 < 3 * s * s - 14 * s + 19.
Proof. intros. pose proof (Rle_0_sqr (s - 7 / 3)) as Q. unfold Rsqr in Q. lra. Qed.
Lemma quad_t : forall t : R, 0 < 3 * t * t + 2 * t + 3.
Proof. intros. pose proof (Rle_0_sqr (t + 1 / 3)) as Q. unfold Rsqr in Q. lra. Qed.
Lemma quad_u : forall u : R, 0 < 175 / 100 - 105 / 100 * u + u * u / 6.
Proof. intros. pose proof (Rle_0_sqr (u - 315 / 100)) as Q. unfold Rsqr in Q. lra. Qed.
Lemma sqpos : forall a : R, 0 <= a * a. Proof. intros. nra. Qed.
Lemma sqzero : forall a : R, a * a = 0 -> a = 0. Proof. intros. nra. Qed.
Lemma prod_ge : forall a b : R, 1 <= a -> 3 <= b -> 3 <= a * b. Proof. intros. nra. Qed.
Lemma prod_eq : forall a b : R, 1 <= a -> 3 <= b -> a * b = 3 -> a = 1 /\ b = 3. Proof. intros. split; nra. Qed.
Lemma fac_zero : forall a b : R, 0 < b -> a * b = 0 -> a = 0. Proof. intros a b P E. apply Rmult_integral in E. destruct E; lra. Qed.

Definition is_min (f : list R -> R) (d : nat) (p : list R) (v : R) : Prop :=
  length p = d /\ f p = v /\ forall r, length r = d -> v <= f r /\ (f r = v -> r = p).

Section Minima.
Variable m : mathlib Rnum.
Hypothesis M : real_math m.
Let Mpi := proj1 M.
Let Msin := proj1 (proj2 M).
Let Mcos := proj1 (proj2 (proj2 M)).
Let Mexp := proj1 (proj2 (proj2 (proj2 M))).
Let Msqrt := proj1 (proj2 (proj2 (proj2 (proj2 M)))).
Let Mpow := proj1 (proj2 (proj2 (proj2 (proj2 (proj2 M))))).
Let Mrpow := proj1 (proj2 (proj2 (proj2 (proj2 (proj2 (proj2 M)))))).
Let Msum := proj2 (proj2 (proj2 (proj2 (proj2 (proj2 (proj2 M)))))).

Ltac nums := cbn [nadd nsub nmul ndiv nopp nabs nofZ ndec Rnum T sqr col nth].
Lemma two : forall r : list R, length r = 2%nat -> exists x y, r = [x; y].
Proof. intros [|x [|y [|? ?]]] H; try discriminate. eauto. Qed.
Ltac row r L := destruct (two r L) as (x & y & ->).

Lemma sphere_min : forall d, is_min (sphere_row m) d (repeat 0 d) 0.
Proof.
  intros d. unfold sphere_row. split; [apply repeat_length|]. split.
  - rewrite Msum. unfold sqr. nums. replace (map (fun x : R => x * x) (repeat 0 d)) with (repeat 0 d); [rewrite rsum_repeat; lra|].
    induction d; simpl; auto. f_equal; [lra|exact IHd].
  - intros r L. rewrite Msum. change (map (sqr (N := Rnum)) r) with (map (fun x : R => x * x) r). split; [apply rsum_nonneg, sq_nonneg|].
    intros E. rewrite <- L. apply all_zero, squares_zero. apply rsum_zero; [apply sq_nonneg|exact E].
Qed.
Lemma cos_term : forall x, 0 <= x * x - 10 * cos x + 10.
Proof. intros. pose proof (COS_bound x). nra. Qed.
Lemma rastrigin_min : forall d, is_min (rastrigin_row m d) d (repeat 0 d) 0.
Proof.
  intros d. unfold rastrigin_row.
  set (g := fun x : R => x * x - 10 * cos (2 * PI * x)).
  assert (G : forall r, m_sum m (map (fun x : Rnum => nsub (sqr x) (nmul (nofZ 10) (m_cos m (nmul (nmul (nofZ 2) (m_pi m)) x)))) r) = rsum (map g r)).
  { intros r. rewrite Msum. f_equal. apply map_ext. intros x. rewrite Mcos, Mpi. reflexivity. }
  assert (S : forall r, INR (length r) * 10 + rsum (map g r) = rsum (map (fun x => g x + 10) r)).
  { induction r as [|x r IH]; [simpl; lra|]. cbn [length map rsum fold_right]. rewrite S_INR. unfold rsum in IH. rewrite <- IH. lra. }
  assert (P : forall x, 0 <= g x + 10). { intros x. unfold g. pose proof (COS_bound (2 * PI * x)). nra. }
  split; [apply repeat_length|]. split.
  - rewrite G. nums. rewrite <- INR_IZR_INZ. replace (map g (repeat 0 d)) with (repeat (-10) d).
    + rewrite rsum_repeat. lra.
    + assert (Z0 : g 0 = -10) by (unfold g; replace (2 * PI * 0) with 0 by ring; rewrite cos_0; lra). clear -Z0. induction d; simpl; auto. f_equal; [symmetry; exact Z0|exact IHd].
  - intros r L. rewrite G. nums. rewrite <- INR_IZR_INZ, <- L, Rmult_comm, S.
    assert (F : Forall (fun x => 0 <= x) (map (fun x => g x + 10) r)).
    { apply Forall_forall. intros x I. apply in_map_iff in I. destruct I as (y & <- & _). apply P. }
    split; [apply rsum_nonneg; exact F|]. intros E. apply all_zero. apply rsum_zero in E; auto.
    rewrite Forall_forall in *. intros x I. assert (Q : g x + 10 = 0). { apply E. apply in_map_iff. eauto. }
    unfold g in Q. pose proof (COS_bound (2 * PI * x)). nra.
Qed.
Lemma rosenbrock_min : forall d, (2 <= d)%nat -> is_min (rosenbrock_row m) d (repeat 1 d) 0.
Proof.
  intros d D. unfold rosenbrock_row.
  set (g := fun b a : R => 100 * ((b - a * a) * (b - a * a)) + (1 - a) * (1 - a)).
  assert (G : forall r : list R, m_sum m (map2 (fun b a : Rnum => nadd (nmul (nofZ 100) (sqr (nsub b (sqr a)))) (sqr (nsub (nofZ 1) a))) (tl r) (removelast r))
              = rsum (map2 g (tl r) (removelast r))) by (intros; apply Msum).
  assert (P : forall b a, 0 <= g b a).
  { intros b a. unfold g. pose proof (Rle_0_sqr (b - a * a)) as S1. pose proof (Rle_0_sqr (1 - a)) as S2. unfold Rsqr in *. lra. }
  assert (Z0 : forall b a, g b a = 0 -> a = 1 /\ b = 1). { intros b a E. unfold g in E. pose proof (Rle_0_sqr (b - a * a)) as S1. pose proof (Rle_0_sqr (1 - a)) as S2. unfold Rsqr in *.
    assert (A : (1 - a) * (1 - a) = 0) by lra. assert (B : (b - a * a) * (b - a * a) = 0) by lra.
    apply Rmult_integral in A. apply Rmult_integral in B. assert (a = 1) by (destruct A; lra). subst a. split; [reflexivity|]. destruct B; lra. }
  split; [apply repeat_length|]. split.
  - rewrite G. destruct d as [|d]; [lia|]. cbn [repeat tl]. clear D. induction d; [simpl; lra|].
    change (removelast (1 :: repeat 1 (S d))) with (1 :: removelast (1 :: repeat 1 d)). cbn [repeat map2 rsum fold_right]. unfold rsum in IHd. rewrite IHd. unfold g. lra.
  - intros r L. rewrite G.
    assert (F : forall l k, Forall (fun x => 0 <= x) (map2 g l k)).
    { induction l as [|a l IH]; intros [|b k]; simpl; constructor; auto. }
    split; [apply rsum_nonneg, F|]. intros E. apply rsum_zero in E; [|apply F]. subst d.
    destruct r as [|x r]; [simpl in D; lia|]. destruct r as [|y r]; [simpl in D; lia|]. clear D F G. cbn [tl] in E.
    revert x y E. induction r as [|z r IH]; intros x y E.
    + simpl in E. inversion E as [|? ? E1 _]. destruct (Z0 _ _ E1) as [-> ->]. reflexivity.
    + change (removelast (x :: y :: z :: r)) with (x :: removelast (y :: z :: r)) in E. cbn [map2] in E. inversion E as [|? ? E1 E2]; subst.
      destruct (Z0 _ _ E1) as [-> ->]. specialize (IH 1 z E2). cbn [length repeat] in *. f_equal. exact IH.
Qed.
Lemma ackley_min : forall d, (1 <= d)%nat -> is_min (ackley_row m d) d (repeat 0 d) 0.
Proof.
  intros d D. unfold ackley_row.
  assert (D0 : 0 < INR d) by (apply lt_0_INR; lia). assert (D1 : 0 < 1 / INR d) by (apply Rdiv_lt_0_compat; lra).
  assert (G : forall r : list R, ackley_row m d r = -20 * exp (- 2 / 10 * sqrt (1 / INR d * rsum (map (fun x => x * x) r)))
     - exp (1 / INR d * rsum (map (fun x => cos (2 * PI * x)) r)) + 20 + exp 1).
  { intros r. unfold ackley_row. rewrite !Mexp, Msqrt, !Msum. nums. rewrite <- INR_IZR_INZ.
    assert (C : map (fun x : R => m_cos m (2 * m_pi m * x)) r = map (fun x => cos (2 * PI * x)) r).
    { apply map_ext. intros x. rewrite Mcos, Mpi. reflexivity. }
    rewrite <- C.
    replace (IZR (-20) / 1) with (-20) by lra. reflexivity. }
  split; [apply repeat_length|]. split.
  - change (ackley_row m d (repeat 0 d) = 0). rewrite G.
    replace (map (fun x : R => x * x) (repeat 0 d)) with (repeat 0 d).
    2:{ clear. induction d; simpl; auto. f_equal; [lra|exact IHd]. }
    replace (map (fun x : R => cos (2 * PI * x)) (repeat 0 d)) with (repeat 1 d).
    2:{ clear. induction d; simpl; auto. f_equal; [rewrite Rmult_0_r, cos_0; reflexivity|exact IHd]. }
    rewrite !rsum_repeat. replace (1 / INR d * (INR d * 0)) with 0 by lra. replace (1 / INR d * (INR d * 1)) with 1 by (field; lra).
    rewrite sqrt_0, Rmult_0_r, exp_0. lra.
  - intros r L. change (0 <= ackley_row m d r /\ (ackley_row m d r = 0 -> r = repeat 0 d)). rewrite G.
    set (s := 1 / INR d * rsum (map (fun x => x * x) r)). set (c := 1 / INR d * rsum (map (fun x => cos (2 * PI * x)) r)).
    assert (S0 : 0 <= s). { unfold s. pose proof (rsum_nonneg _ (sq_nonneg r)). nra. }
    assert (C0 : c <= 1).
    { unfold c. apply Rle_trans with (1 / INR d * rsum (map (fun _ => 1) r)).
      - apply Rmult_le_compat_l; [lra|]. apply rsum_map_le. intros x. apply COS_bound.
      - rewrite rsum_const, L. right. field. lra. }
    assert (E1 : exp (-2 / 10 * sqrt s) <= 1).
    { rewrite <- exp_0. pose proof (sqrt_pos s). destruct (Req_dec (sqrt s) 0) as [-> | N]; [rewrite Rmult_0_r; lra|]. left. apply exp_increasing. lra. }
    assert (E2 : exp c <= exp 1). { destruct C0 as [C0 | ->]; [left; apply exp_increasing; exact C0|lra]. }
    split; [lra|]. intros E. assert (E3 : exp (-2 / 10 * sqrt s) = 1) by lra.
    assert (Q : sqrt s = 0). { rewrite <- exp_0 in E3. apply exp_inv in E3. lra. }
    apply sqrt_eq_0 in Q; [|exact S0]. unfold s in Q. assert (Z0 : rsum (map (fun x => x * x) r) = 0) by nra.
    apply rsum_zero in Z0; [|apply sq_nonneg]. rewrite <- L. apply all_zero, squares_zero, Z0.
Qed.

Lemma beale_min : is_min (beale_row m) 2 [3; 1 / 2] 0.
Proof.
  assert (G : forall x y, beale_row m [x; y] = (15 / 10 - x + x * y) * (15 / 10 - x + x * y) + (225 / 100 - x + x * (y * y)) * (225 / 100 - x + x * (y * y))
     + (2625 / 1000 - x + x * (y * y * y)) * (2625 / 1000 - x + x * (y * y * y))).
  { intros. unfold beale_row, pw. nums. assert (E : m_pow m y (IZR 3) = y * y * y).
    { replace (IZR 3) with (INR 3) by (simpl; lra). rewrite Mpow. simpl. ring. }
    rewrite E. reflexivity. }
  split; [reflexivity|]. split; [rewrite G; lra|]. intros r L. row r L. rewrite G. split; [apply sos3|]. intros E.
  apply sq3_zero in E. destruct E as (A & B & _).
  (* x(1-y) = 1.5, x(1-y)(1+y) = 2.25 *)
  assert (C : x * (1 - y) = 15 / 10) by lra. assert (D : x * (1 - y) * (1 + y) = 225 / 100) by lra. rewrite C in D.
  assert (y = 1 / 2) by lra. subst y. assert (x = 3) by lra. subst x. reflexivity.
Qed.
Lemma booth_min : is_min (@booth_row Rnum) 2 [1; 3] 0.
Proof.
  split; [reflexivity|]. unfold booth_row. split; [nums; lra|]. intros r L. row r L. nums. split; [apply sos2|]. intros E.
  apply sq2_zero in E. destruct E as [A B].
  assert (x = 1) by lra. assert (y = 3) by lra. subst. reflexivity.
Qed.
Lemma bukin6_min : is_min (bukin6_row m) 2 [-10; 1] 0.
Proof.
  split; [reflexivity|].
  assert (G : forall x y, bukin6_row m [x; y] = 100 * sqrt (Rabs (y - 1 / 100 * (x * x))) + 1 / 100 * Rabs (x + 10)).
  { intros. unfold bukin6_row. rewrite Msqrt. reflexivity. }
  split.
  { rewrite G. replace (1 - 1 / 100 * (-10 * -10)) with 0 by lra. replace (-10 + 10) with 0 by lra. rewrite Rabs_R0, sqrt_0. lra. }
  intros r L. row r L. rewrite G. pose proof (sqrt_pos (Rabs (y - 1 / 100 * (x * x)))). pose proof (Rabs_pos (x + 10)). split; [lra|]. intros E.
  assert (A : Rabs (x + 10) = 0) by lra. assert (B : sqrt (Rabs (y - 1 / 100 * (x * x))) = 0) by lra.
  apply sqrt_eq_0 in B; [|apply Rabs_pos].
  assert (x + 10 = 0). { unfold Rabs in A. destruct (Rcase_abs (x + 10)); lra. } assert (x = -10) by lra. subst x.
  assert (y = 1). { unfold Rabs in B. destruct (Rcase_abs _) in B; lra. } subst. reflexivity.
Qed.
Lemma easom_min : is_min (easom_row m) 2 [PI; PI] (-1).
Proof.
  split; [reflexivity|].
  assert (G : forall x y, easom_row m [x; y] = - (cos x * cos y) * exp (- ((x - PI) * (x - PI) + (y - PI) * (y - PI)))).
  { intros. unfold easom_row. rewrite !Mcos, Mexp, Mpi. nums. replace (-1 * ((x - PI) * (x - PI) + (y - PI) * (y - PI))) with (- ((x - PI) * (x - PI) + (y - PI) * (y - PI))) by ring. ring. }
  split. { rewrite G. rewrite cos_PI. replace (- ((PI - PI) * (PI - PI) + (PI - PI) * (PI - PI))) with 0 by ring. rewrite exp_0. ring. }
  intros r L. row r L. rewrite G. set (q := (x - PI) * (x - PI) + (y - PI) * (y - PI)).
  assert (Q : 0 <= q) by apply sos2.
  assert (E1 : exp (- q) <= 1). { rewrite <- exp_0. destruct Q as [Q | <-]; [left; apply exp_increasing; lra|rewrite Ropp_0; lra]. }
  pose proof (exp_pos (- q)). assert (C : cos x * cos y <= 1). { pose proof (COS_bound x). pose proof (COS_bound y). nra. }
  split; [nra|]. intros E. assert (E2 : exp (- q) = 1) by nra. rewrite <- exp_0 in E2. apply exp_inv in E2.
  unfold q in E2. destruct (sq2_zero (x - PI) (y - PI)) as [A B]; [lra|]. assert (x = PI) by lra. assert (y = PI) by lra. subst. reflexivity.
Qed.
Lemma goldstein_min : is_min (@goldstein_row Rnum) 2 [0; -1] 3.
Proof.
  split; [reflexivity|].
  assert (G : forall x y, @goldstein_row Rnum [x; y] =
    (1 + (x + y + 1) * (x + y + 1) * (3 * (x + y) * (x + y) - 14 * (x + y) + 19)) *
    (3 + (2 * x - 3 * y - 3) * (2 * x - 3 * y - 3) * (3 * (2 * x - 3 * y) * (2 * x - 3 * y) + 2 * (2 * x - 3 * y) + 3))).
  { intros. unfold goldstein_row. nums. ring. }
  split. { rewrite G. ring. }
  intros r L. row r L. rewrite G. set (s := x + y). set (t := 2 * x - 3 * y).
  pose proof (quad_s s) as PS. pose proof (quad_t t) as PT. pose proof (sqpos (s + 1)) as QS. pose proof (sqpos (t - 3)) as QT.
  pose proof (Rmult_le_pos _ _ QS (Rlt_le _ _ PS)) as RS. pose proof (Rmult_le_pos _ _ QT (Rlt_le _ _ PT)) as RT.
  set (a := (s + 1) * (s + 1) * (3 * s * s - 14 * s + 19)) in *. set (b := (t - 3) * (t - 3) * (3 * t * t + 2 * t + 3)) in *.
  split; [apply prod_ge; lra|]. intros E. destruct (prod_eq (1 + a) (3 + b)) as [A1 B1]; [lra|lra|exact E|].
  assert (A2 : a = 0) by lra. assert (B2 : b = 0) by lra. unfold a in A2. unfold b in B2. clear E A1 B1 a b RS RT.
  apply fac_zero in A2; [|exact PS]. apply fac_zero in B2; [|exact PT]. apply sqzero in A2, B2.
   unfold s, t in *. assert (x = 0) by lra. assert (y = -1) by lra. subst. reflexivity.
Qed.
Lemma levi_min : is_min (levi_row m) 2 [1; 1] 0.
Proof.
  split; [reflexivity|].
  assert (G : exists c d : R -> R, (forall x, 1 <= c x) /\ (forall y, 1 <= d y) /\ forall x y, levi_row m [x; y] =
     sin (PI * (1 + (x - 1) / 4)) * sin (PI * (1 + (x - 1) / 4)) + (x - 1) * (x - 1) * c x + ((y - 1) / 4) * ((y - 1) / 4) * d y).
  { exists (fun x => 1 + 10 * (sin (PI * (1 + (x - 1) / 4 + (0 + 0)) + 1) * sin (PI * (1 + (x - 1) / 4 + (0 + 0)) + 1))).
    exists (fun y => 1 + sin (2 * PI * (1 + (y - 1) / 4)) * sin (2 * PI * (1 + (y - 1) / 4))).
    split. { intros x. pose proof (sqpos (sin (PI * (1 + (x - 1) / 4 + (0 + 0)) + 1))). lra. }
    split. { intros y. pose proof (sqpos (sin (2 * PI * (1 + (y - 1) / 4)))). lra. }
    intros. unfold levi_row. rewrite !Msum, !Msin, Mpi. cbn [map rsum fold_right]. nums. ring. }
  destruct G as (c' & d' & C' & D' & G). split.
  { rewrite G. replace (PI * (1 + (1 - 1) / 4)) with PI by field. rewrite sin_PI. field. }
  intros r L. row r L. rewrite G. pose proof (C' x) as C. pose proof (D' y) as D. set (c := c' x) in *. set (d := d' y) in *. set (z := sin (PI * (1 + (x - 1) / 4))).
  pose proof (sqpos z) as Z1. pose proof (Rmult_le_pos _ c (sqpos (x - 1)) ltac:(lra)) as Z2. pose proof (Rmult_le_pos _ d (sqpos ((y - 1) / 4)) ltac:(lra)) as Z3.
  split; [lra|]. intros E. assert (E2 : (x - 1) * (x - 1) * c = 0) by lra. assert (E3 : (y - 1) / 4 * ((y - 1) / 4) * d = 0) by lra.
  apply fac_zero in E2; [|lra]. apply fac_zero in E3; [|lra]. apply sqzero in E2, E3. assert (x = 1) by lra. assert (y = 1) by lra. subst. reflexivity.
Qed.
Lemma matyas_min : is_min (@matyas_row Rnum) 2 [0; 0] 0.
Proof.
  split; [reflexivity|]. unfold matyas_row. split; [nums; lra|]. intros r L. row r L. nums. pose proof (sos2 x y) as S2. pose proof (sqpos (x - y)) as S1. split; [lra|]. intros E.
  assert (B : x * x + y * y = 0) by lra. destruct (sq2_zero x y B) as [-> ->]. reflexivity.
Qed.
Lemma schaffer2_min : is_min (schaffer2_row m) 2 [0; 0] 0.
Proof.
  split; [reflexivity|].
  assert (G : forall x y, schaffer2_row m [x; y] = 5 / 10 + (sin (x * x - y * y) * sin (x * x - y * y) - 5 / 10) /
    ((1 + 1 / 1000 * (x * x + y * y)) * (1 + 1 / 1000 * (x * x + y * y)))).
  { intros. unfold schaffer2_row. rewrite Msin. reflexivity. }
  split. { rewrite G. replace (0 * 0 - 0 * 0) with 0 by ring. rewrite sin_0. field. }
  intros r L. row r L. rewrite G. set (z := sin (x * x - y * y)). set (D := 1 + 1 / 1000 * (x * x + y * y)).
  assert (D1 : 1 <= D) by (unfold D; pose proof (sos2 x y); lra). assert (D2 : 1 <= D * D) by (clear -D1; nra).
  assert (E1 : 5 / 10 + (z * z - 5 / 10) / (D * D) = (5 / 10 * (D * D) + (z * z - 5 / 10)) / (D * D)) by (field; lra).
  rewrite E1. pose proof (sqpos z) as ZZ. split.
  - apply Rmult_le_pos; [lra|]. left. apply Rinv_0_lt_compat. lra.
  - intros E. assert (N : 5 / 10 * (D * D) + (z * z - 5 / 10) = 0).
    { apply (Rmult_eq_reg_r (/ (D * D))); [|apply Rinv_neq_0_compat; lra]. rewrite Rmult_0_l. exact E. }
    assert (DD : D * D = 1) by lra. assert (D3 : D = 1) by (clear -DD D1; nra). unfold D in *. destruct (sq2_zero x y) as [-> ->]; [lra|]. reflexivity.
Qed.
Lemma threehump_min : is_min (threehump_row m) 2 [0; 0] 0.
Proof.
  split; [reflexivity|].
  assert (G : forall x y, threehump_row m [x; y] = (y + x / 2) * (y + x / 2) + x * x * (175 / 100 - 105 / 100 * (x * x) + (x * x) * (x * x) / 6)).
  { intros. unfold threehump_row, pw. nums. replace (IZR 4) with (INR 4) by (simpl; lra). replace (IZR 6) with (INR 6) at 1 by (simpl; lra).
    rewrite !Mpow. simpl. field. }
  split. { rewrite G. field. }
  intros r L. row r L. rewrite G. pose proof (quad_u (x * x)) as Q. pose proof (sqpos (y + x / 2)) as Y.
  pose proof (Rmult_le_pos _ _ (sqpos x) (Rlt_le _ _ Q)) as P. split; [lra|]. intros E.
  assert (E1 : x * x * (175 / 100 - 105 / 100 * (x * x) + x * x * (x * x) / 6) = 0) by lra. apply fac_zero in E1; [|exact Q]. apply sqzero in E1. subst x.
  assert (E2 : (y + 0 / 2) * (y + 0 / 2) = 0) by lra. apply sqzero in E2. assert (y = 0) by lra. subst. reflexivity.
Qed.
End Minima.

Lemma between_R : forall lo hi x : R, lo <= x <= hi -> between (N := Rnum) lo hi x = true.
Proof. intros lo hi x [A B]. unfold between. cbn [nle Rnum]. rewrite !Rle_bool_true by assumption. reflexivity. Qed.
Lemma all_between : forall lo hi l, Forall (fun x => lo <= x <= hi) l -> forallb (between (N := Rnum) lo hi) l = true.
Proof. intros lo hi l F. apply forallb_forall. rewrite Forall_forall in F. intros x I. apply between_R. auto. Qed.
Lemma repeat_Forall : forall (P : R -> Prop) c d, P c -> Forall P (repeat c d).
Proof. intros P c d H. induction d; simpl; constructor; auto. Qed.
Lemma documented_inside : forall m name f d p v, In (name, f) (bundled (N := Rnum) m) -> documented name d p v ->
  ~ wrong_dimension name d /\ row_ok (N := Rnum) name d p = true /\ String.eqb name "ackley" && Nat.eqb d 0 = false.
Proof.
  intros m name f d p v I D. pose proof PI_4 as P4. pose proof PI_RGT_0 as P0.
  assert (W : forall d, ~ wrong_dimension name d \/ any_dimension name = false).
  { intros d'. unfold wrong_dimension. destruct (any_dimension name); [left; intuition discriminate|auto]. }
  destruct D; (split; [unfold wrong_dimension; cbn; intuition (try discriminate; try congruence)|]); (split; [|try reflexivity; try (destruct d; [lia|reflexivity])]);
    cbn -[between col forallb]; try reflexivity;
    try (apply all_between; repeat (apply Forall_cons || apply repeat_Forall || apply Forall_nil); cbn [nofZ ndec Rnum]; lra).
  unfold col. cbn [nth]. rewrite !between_R; [reflexivity| |]; cbn [nofZ Rnum]; lra.
Qed.
Lemma minimum_claim : forall m : mathlib Rnum, real_math m -> forall name f d p v, In (name, f) (bundled m) -> documented name d p v ->
  f d [p] = Ok [v] /\
  forall n X costs, is_matrix n d X -> f d X = Ok costs -> forall i r c, nth_error X i = Some r -> nth_error costs i = Some c ->
    (v <= c) /\ (c = v -> r = p).
Proof.
  intros m M name f d p v I D. destruct (documented_inside m name f d p v I D) as (W & RO & A).
  assert (Q : is_min (row_value m name d) d p v).
  { destruct D; cbn.
    - apply ackley_min; auto.
    - apply beale_min; auto.
    - apply booth_min; auto.
    - apply bukin6_min; auto.
    - apply easom_min; auto.
    - apply goldstein_min; auto.
    - apply levi_min; auto.
    - apply matyas_min; auto.
    - apply rastrigin_min; auto.
    - apply rosenbrock_min; auto.
    - apply schaffer2_min; auto.
    - apply sphere_min; auto.
    - apply threehump_min; auto. }
  destruct Q as (L & V & Q). split.
  - rewrite (right_shape m name f d [p] I W). cbn [forallb]. 
    match goal with |- context [@row_ok ?N ?a ?b ?c] => replace (@row_ok N a b c) with true by (symmetry; exact RO) end. rewrite A. cbn [negb andb map]. do 2 f_equal. exact V.
  - intros n X costs [_ MX] H i r c R C. rewrite (right_shape m name f d X I W) in H. destruct (forallb (row_ok name d) X); [|discriminate].
    rewrite A in H. cbn [negb] in H. injection H as <-. apply nth_map_inv in C. destruct C as (r' & R' & ->).
    pose proof (eq_trans (eq_sym R) R') as E. injection E as ->.
    apply Q. rewrite Forall_forall in MX. apply MX. eapply nth_error_In; eauto.
Qed.

(** *** Himmelblau: four minima *)
Definition himmel (x y : R) : R := (x * x + y - 11) * (x * x + y - 11) + (x + y * y - 7) * (x + y * y - 7).
Lemma himmelblau_value : forall x y, himmelblau_row (N := Rnum) [x; y] = himmel x y. Proof. reflexivity. Qed.
Definition quartic (x : R) : R := x + (11 - x * x) * (11 - x * x) - 7.
Lemma quartic_continuity : continuity quartic.
Proof. unfold quartic. reg. Qed.
Lemma quartic_root : forall a b, a < b -> quartic a * quartic b < 0 -> exists x, a <= x <= b /\ himmel x (11 - x * x) = 0.
Proof.
  intros a b AB S.
  assert (R0 : exists x, a <= x <= b /\ quartic x = 0).
  { destruct (Rlt_le_dec (quartic a) 0) as [A|A].
    - destruct (IVT quartic a b quartic_continuity AB A) as (x & X & Z0); [|eauto]. destruct (Rlt_le_dec 0 (quartic b)); auto. nra.
    - destruct (IVT (opp_fct quartic) a b) as (x & X & Z0); auto.
      + apply continuity_opp, quartic_continuity.
      + unfold opp_fct. destruct A as [A|A]; [lra|]. rewrite <- A in S. lra.
      + unfold opp_fct. nra.
      + exists x. split; auto. unfold opp_fct in Z0. lra. }
  destruct R0 as (x & X & Z0). exists x. split; auto. unfold himmel. unfold quartic in Z0.
  replace (x * x + (11 - x * x) - 11) with 0 by ring. replace (x + (11 - x * x) * (11 - x * x) - 7) with 0 by lra. ring.
Qed.
(** The points of the docstring. *)
Definition himmel_points : list (R * R) :=
  [(3, 2); (-2805118 / 1000000, 3131312 / 1000000); (-3779310 / 1000000, -3283186 / 1000000); (3584428 / 1000000, -1848126 / 1000000)].
Lemma near_root : forall cx cy e, 0 < e -> quartic (cx - e) * quartic (cx + e) < 0 ->
  (forall x, cx - e <= x <= cx + e -> Rabs (11 - x * x - cy) <= 1 / 100000) -> e <= 1 / 100000 ->
  exists x y, himmel x y = 0 /\ Rabs (x - cx) <= 1 / 100000 /\ Rabs (y - cy) <= 1 / 100000.
Proof.
  intros cx cy e E S B L. destruct (quartic_root (cx - e) (cx + e)) as (x & X & Z0); [lra|exact S|].
  exists x, (11 - x * x). split; auto. split; [|apply B; exact X]. apply Rabs_le. lra.
Qed.
Lemma himmelblau_points : forall cx cy, In (cx, cy) himmel_points ->
  exists x y, himmel x y = 0 /\ Rabs (x - cx) <= 1 / 100000 /\ Rabs (y - cy) <= 1 / 100000.
Proof.
  intros cx cy I. unfold himmel_points in I. cbn [In] in I.
  repeat (destruct I as [I|I]; [injection I as <- <-|]); [| | | |contradiction].
  - exists 3, 2. split; [unfold himmel; ring|]. rewrite !Rminus_diag_eq, Rabs_R0 by reflexivity. lra.
  - apply (near_root _ _ (1 / 1000000)); [lra|unfold quartic; lra| |lra]. intros x X. apply Rabs_le. nra.
  - apply (near_root _ _ (1 / 1000000)); [lra|unfold quartic; lra| |lra]. intros x X. apply Rabs_le. nra.
  - apply (near_root _ _ (1 / 1000000)); [lra|unfold quartic; lra| |lra]. intros x X. apply Rabs_le. nra.
Qed.
Lemma himmel_nonneg : forall x y, 0 <= himmel x y. Proof. intros. apply sos2. Qed.
Lemma himmelblau_claim :
  (forall n (X : list (list R)) costs, is_matrix n 2 X -> himmelblau (N := Rnum) 2%nat X = Ok costs -> Forall (fun c : R => 0 <= c) costs) /\
  (forall cx cy, In (cx, cy) himmel_points -> exists x y : R, himmelblau (N := Rnum) 2%nat [[x; y]] = Ok [0] /\
     Rabs (x - cx) <= 1 / 100000 /\ Rabs (y - cy) <= 1 / 100000).
Proof.
  split.
  - intros n X costs [_ M] H. unfold himmelblau in H. cbn [Nat.eqb negb] in H. destruct (within (N := Rnum) _ _ X); [|discriminate]. injection H as <-.
    apply Forall_forall. intros c I. apply in_map_iff in I. destruct I as (r & <- & I). rewrite Forall_forall in M. specialize (M r I).
    destruct (two r M) as (x & y & ->). apply himmel_nonneg.
  - intros cx cy I. destruct (himmelblau_points cx cy I) as (x & y & Z0 & A & B). exists x, y. split; auto.
    assert (Bx : -5 <= x <= 5 /\ -5 <= y <= 5).
    { apply Rabs_le_inv in A. apply Rabs_le_inv in B. unfold himmel_points in I. cbn [In] in I.
      repeat (destruct I as [I|I]; [injection I as <- <-; lra|]). contradiction. }
    destruct Bx as [Bx By]. unfold himmelblau, within. cbn [Nat.eqb negb forallb].
    change (nofZ (n := Rnum) (-5)) with (-5). change (nofZ (n := Rnum) 5) with 5.
    rewrite (between_R (-5) 5 x Bx), (between_R (-5) 5 y By). cbn [andb negb map]. do 2 f_equal. exact Z0.
Qed.
(** *** Sign symmetry *)
Lemma sign_sq : forall s x, sign s -> s * x * (s * x) = x * x. Proof. intros s x [-> | ->]; ring. Qed.
Lemma sin_sign : forall s x, sign s -> sin (s * x) = s * sin x.
Proof. intros s x [-> | ->]; [rewrite !Rmult_1_l; reflexivity|]. replace (-1 * x) with (- x) by ring. rewrite sin_neg. ring. Qed.
Lemma cos_sign : forall s x, sign s -> cos (s * x) = cos x.
Proof. intros s x [-> | ->]; [rewrite !Rmult_1_l; reflexivity|]. replace (-1 * x) with (- x) by ring. rewrite cos_neg. reflexivity. Qed.
Lemma abs_sign : forall s x, sign s -> Rabs (s * x) = Rabs x.
Proof. intros s x [-> | ->]; [rewrite !Rmult_1_l; reflexivity|]. replace (-1 * x) with (- x) by ring. apply Rabs_Ropp. Qed.
Lemma between_sign : forall s x, sign s -> between (N := Rnum) (-10) 10 (s * x) = between (N := Rnum) (-10) 10 x.
Proof.
  intros s x [-> | ->]; [rewrite Rmult_1_l; reflexivity|]. unfold between. cbn [nle Rnum].
  rewrite andb_comm. f_equal; destruct (Rle_bool_spec (-1 * x) 10), (Rle_bool_spec (-10) x), (Rle_bool_spec (-10) (-1 * x)), (Rle_bool_spec x 10); auto; lra.
Qed.
Lemma mirror_claim : forall m : mathlib Rnum, real_math m -> forall s t x y : R, sign s -> sign t ->
  crossintray m 2%nat [[s * x; t * y]] = crossintray m 2%nat [[x; y]] /\ crossintray m 2%nat [[y; x]] = crossintray m 2%nat [[x; y]] /\
  holdertable m 2%nat [[s * x; t * y]] = holdertable m 2%nat [[x; y]].
Proof.
  intros m (Mpi & Msin & Mcos & Mexp & Msqrt & Mpow & Mrpow & Msum) s t x y Ss St.
  assert (W : forall a b : R, within (N := Rnum) (-10) 10 [[a; b]] = between (N := Rnum) (-10) 10 a && between (N := Rnum) (-10) 10 b).
  { intros. unfold within. cbn [forallb]. rewrite !andb_true_r. reflexivity. }
  assert (E : forall a b c : R, a = b -> nabs (n := Rnum) a = nabs (n := Rnum) b) by (intros; subst; reflexivity).
  split; [|split].
  - unfold crossintray. cbn [Nat.eqb negb]. change (nofZ (n := Rnum) (-10)) with (-10). change (nofZ (n := Rnum) 10) with 10. rewrite !W, !between_sign by auto.
    destruct (negb _); [reflexivity|]. cbn [map]. do 2 f_equal. unfold crossintray_row. cbn [col nth sqr nadd nsub nmul ndiv nabs nofZ ndec Rnum T].
    rewrite !Msin, !sin_sign, !sign_sq by auto. do 2 f_equal. f_equal.
    match goal with |- Rabs (s * ?a * (t * ?b) * ?c) = _ => replace (s * a * (t * b) * c) with (s * (t * (a * b * c))) by ring end.
    rewrite !abs_sign by auto. reflexivity.
  - unfold crossintray. cbn [Nat.eqb negb]. change (nofZ (n := Rnum) (-10)) with (-10). change (nofZ (n := Rnum) 10) with 10. rewrite !W.
    rewrite (andb_comm (between (N := Rnum) (-10) 10 y)). destruct (negb _); [reflexivity|]. cbn [map]. do 2 f_equal. unfold crossintray_row. cbn [col nth sqr nadd nsub nmul ndiv nabs nofZ ndec Rnum T].
    rewrite !Msin, (Rplus_comm (y * y)), (Rmult_comm (sin y)). reflexivity.
  - unfold holdertable. cbn [Nat.eqb negb]. change (nofZ (n := Rnum) (-10)) with (-10). change (nofZ (n := Rnum) 10) with 10. rewrite !W, !between_sign by auto.
    destruct (negb _); [reflexivity|]. cbn [map]. do 2 f_equal. unfold holdertable_row. cbn [col nth sqr nadd nsub nmul ndiv nopp nabs nofZ ndec Rnum T].
    rewrite !Msin, !Mcos, !sin_sign, !cos_sign, !sign_sq by auto. f_equal.
    match goal with |- Rabs (s * ?a * ?b * ?c) = _ => replace (s * a * b * c) with (s * (a * b * c)) by ring end.
    rewrite !abs_sign by auto. reflexivity.
Qed.
Lemma real_math_ex : exists m, real_math m.
Proof.
  exists (mkMl (N := Rnum) PI sin cos exp sqrt (fun x y : R => if Rlt_bool 0 x then Rpower x y else x ^ (Z.to_nat (Zfloor y))) rsum).
  unfold real_math. cbn [m_pi m_sin m_cos m_exp m_sqrt m_pow m_sum].
  repeat match goal with |- _ /\ _ => split end; auto.
  - intros x k. destruct (Rlt_bool_spec 0 x); [apply Rpower_pow; auto|]. rewrite INR_IZR_INZ, Zfloor_IZR, Nat2Z.id. reflexivity.
  - intros x y P. rewrite Rlt_bool_true by exact P. reflexivity.
Qed.
