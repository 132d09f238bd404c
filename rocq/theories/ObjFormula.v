(** The bundled objectives compute the formulas of the test functions (C48). *)
From Coq Require Import String ZArith List Arith Bool Reals Lra Lia.
From Flocq Require Import Core.
From Verif Require Import Prelude ListFacts Num Objectives SpecObj ObjFacts ObjReal.
Import ListNotations.
Local Open Scope string_scope.
Local Open Scope list_scope.
Local Open Scope R_scope.

Lemma sum_index : forall (g : R -> R) r, rsum (map g r) = rsum (map (fun i => g (nth i r 0)) (seq 0 (length r))).
Proof.
  intros g r. induction r as [|x r IH]; [reflexivity|]. cbn [length seq map rsum fold_right]. unfold rsum in IH. rewrite IH, <- seq_shift, map_map. reflexivity.
Qed.
Lemma sum_pairs : forall (g : R -> R -> R) r, rsum (map2 g (tl r) (removelast r)) = rsum (map (fun i => g (nth (S i) r 0) (nth i r 0)) (seq 0 (length r - 1))).
Proof.
  intros g r. destruct r as [|x r]; [reflexivity|]. cbn [tl length]. replace (S (length r) - 1)%nat with (length r) by lia.
  revert x. induction r as [|y r IH]; intros x; [reflexivity|]. change (removelast (x :: y :: r)) with (x :: removelast (y :: r)).
  cbn [map2 length seq map rsum fold_right]. specialize (IH y). unfold rsum in IH. rewrite IH, <- seq_shift, map_map. reflexivity.
Qed.
Lemma formula_claim : forall m : mathlib Rnum, real_math m -> forall name f d n X costs, In (name, f) (bundled m) -> is_matrix n d X -> f d X = Ok costs ->
  forall i r c, nth_error X i = Some r -> nth_error costs i = Some c -> c = formula name r.
Proof.
  intros m (Mpi & Msin & Mcos & Mexp & Msqrt & Mpow & Mrpow & Msum) name f d n X costs I MX E i r c Xi Ci.
  assert (LR : length r = d) by (destruct MX as [_ MX]; rewrite Forall_forall in MX; apply MX; eapply nth_error_In; eauto).
  assert (R1 : forall g : list R -> R, costs = map g X -> c = g r).
  { intros g ->. pose proof (eq_trans (eq_sym Ci) (map_nth_error g i X Xi)) as Q. injection Q as ->. reflexivity. }
  assert (P2 : forall x : R, m_pow m x (nofZ (n := Rnum) 3) = x ^ 3 /\ m_pow m x (nofZ (n := Rnum) 4) = x ^ 4 /\ m_pow m x (nofZ (n := Rnum) 6) = x ^ 6).
  { intros x. pose proof (Mpow x 3%nat) as A. pose proof (Mpow x 4%nat) as B. pose proof (Mpow x 6%nat) as D. rewrite INR_IZR_INZ in A, B, D. auto. }
  Ltac fin G R1 E := unfold ackley, beale, booth, bukin6, crossintray, easom, eggholder, goldstein, himmelblau, holdertable, levi, matyas, rastrigin, rosenbrock, schaffer2, sphere, threehump in E; repeat (match type of E with (if ?b then _ else _) = _ => destruct b eqn:?; try discriminate E end); injection E as <-; rewrite (R1 _ eq_refl); clear R1; unfold formula; cbn [String.eqb Ascii.eqb Bool.eqb].
  Ltac nums := cbn [nadd nsub nmul ndiv nopp nabs nofZ ndec Rnum T sqr col nth length].
  repeat (destruct I as [I|I]; [injection I as <- <-|]); [..|destruct I].
  - (* ackley *) fin G R1 E. unfold ackley_row. subst d. rewrite !Msum, !Mexp, Msqrt.
    assert (Q1 : rsum (map (sqr (N := Rnum)) r) = rsum (map (fun i => nth i r 0 ^ 2) (seq 0 (length r)))).
    { etransitivity; [apply (sum_index (sqr (N := Rnum)))|]. f_equal. apply map_ext. intros k. unfold sqr. nums. ring. }
    assert (Q2 : rsum (map (fun x : Rnum => m_cos m (nmul (nmul (nofZ 2) (m_pi m)) x)) r) = rsum (map (fun i => cos (2 * PI * nth i r 0)) (seq 0 (length r)))).
    { etransitivity; [apply (sum_index (fun x : R => m_cos m (nmul (n := Rnum) (nmul (n := Rnum) (nofZ (n := Rnum) 2) (m_pi m)) x)))|]. f_equal. apply map_ext. intros k. rewrite Mcos, Mpi. reflexivity. }
    rewrite Q1, Q2. nums. rewrite <- INR_IZR_INZ. assert (INR (length r) <> 0). {  apply not_0_INR. intros Q. rewrite Q in *. discriminate. }
    unfold Rdiv. rewrite !(Rmult_comm (1 * / INR (length r))), !Rmult_1_l. replace (-20 * / 1) with (-20) by lra. replace (-2 * / 10) with (- / 5) by lra. reflexivity.
  - (* beale *) fin G R1 E. destruct (two r ltac:(match goal with H : negb (Nat.eqb d _) = false |- _ => exact (eq_trans LR (proj1 (Nat.eqb_eq _ _) (proj1 (negb_false_iff _) H))) end)) as (x & y & ->). unfold beale_row, pw. cbn [col nth]. rewrite (proj1 (P2 y)). nums. field.
  - fin G R1 E. destruct (two r ltac:(match goal with H : negb (Nat.eqb d _) = false |- _ => exact (eq_trans LR (proj1 (Nat.eqb_eq _ _) (proj1 (negb_false_iff _) H))) end)) as (x & y & ->). unfold booth_row. nums. ring.
  - fin G R1 E. destruct (two r ltac:(match goal with H : negb (Nat.eqb d _) = false |- _ => exact (eq_trans LR (proj1 (Nat.eqb_eq _ _) (proj1 (negb_false_iff _) H))) end)) as (x & y & ->). unfold bukin6_row. rewrite Msqrt. nums. replace (1 / 100 * (x * x)) with (x ^ 2 / 100) by field. lra.
  - fin G R1 E. destruct (two r ltac:(match goal with H : negb (Nat.eqb d _) = false |- _ => exact (eq_trans LR (proj1 (Nat.eqb_eq _ _) (proj1 (negb_false_iff _) H))) end)) as (x & y & ->). unfold crossintray_row. rewrite !Msin, Mexp, Msqrt, Mpi, Mrpow.
    + nums. replace (x * x + y * y) with (x ^ 2 + y ^ 2) by ring. lra.
    + nums. match goal with |- 0 < Rabs ?a + 1 => pose proof (Rabs_pos a); lra end.
  - fin G R1 E. destruct (two r ltac:(match goal with H : negb (Nat.eqb d _) = false |- _ => exact (eq_trans LR (proj1 (Nat.eqb_eq _ _) (proj1 (negb_false_iff _) H))) end)) as (x & y & ->). unfold easom_row. rewrite !Mcos, Mexp, Mpi. nums. replace (-1 * ((x - PI) * (x - PI) + (y - PI) * (y - PI))) with (- ((x - PI) ^ 2 + (y - PI) ^ 2)) by ring. ring.
  - fin G R1 E. destruct (two r ltac:(match goal with H : negb (Nat.eqb d _) = false |- _ => exact (eq_trans LR (proj1 (Nat.eqb_eq _ _) (proj1 (negb_false_iff _) H))) end)) as (x & y & ->). unfold eggholder_row. rewrite !Msin, !Msqrt. nums. rewrite <- (Rplus_assoc (x / 2)). reflexivity.
  - fin G R1 E. destruct (two r ltac:(match goal with H : negb (Nat.eqb d _) = false |- _ => exact (eq_trans LR (proj1 (Nat.eqb_eq _ _) (proj1 (negb_false_iff _) H))) end)) as (x & y & ->). unfold goldstein_row. nums. ring.
  - fin G R1 E. destruct (two r ltac:(match goal with H : negb (Nat.eqb d _) = false |- _ => exact (eq_trans LR (proj1 (Nat.eqb_eq _ _) (proj1 (negb_false_iff _) H))) end)) as (x & y & ->). unfold himmelblau_row. nums. ring.
  - fin G R1 E. destruct (two r ltac:(match goal with H : negb (Nat.eqb d _) = false |- _ => exact (eq_trans LR (proj1 (Nat.eqb_eq _ _) (proj1 (negb_false_iff _) H))) end)) as (x & y & ->). unfold holdertable_row. rewrite Msin, Mcos, Mexp, Msqrt, Mpi. nums. replace (x * x + y * y) with (x ^ 2 + y ^ 2) by ring. reflexivity.
  - fin G R1 E. destruct (two r ltac:(match goal with H : negb (Nat.eqb d _) = false |- _ => exact (eq_trans LR (proj1 (Nat.eqb_eq _ _) (proj1 (negb_false_iff _) H))) end)) as (x & y & ->). unfold levi_row. cbn [map col nth]. rewrite !Msin, !Msum, !Mpi. cbn [rsum fold_right]. nums. rewrite !Rplus_0_r. ring.
  - fin G R1 E. destruct (two r ltac:(match goal with H : negb (Nat.eqb d _) = false |- _ => exact (eq_trans LR (proj1 (Nat.eqb_eq _ _) (proj1 (negb_false_iff _) H))) end)) as (x & y & ->). unfold matyas_row. nums. ring.
  - fin G R1 E. unfold rastrigin_row. subst d. rewrite Msum. nums. rewrite <- INR_IZR_INZ. f_equal.
    etransitivity; [apply (sum_index (fun x : R => nsub (n := Rnum) (sqr (N := Rnum) x) (nmul (n := Rnum) (nofZ (n := Rnum) 10) (m_cos m (nmul (n := Rnum) (nmul (n := Rnum) (nofZ (n := Rnum) 2) (m_pi m)) x)))))|].
    f_equal. apply map_ext. intros k. rewrite Mcos, Mpi. unfold sqr. nums. ring.
  - fin G R1 E. unfold rosenbrock_row. rewrite Msum.
    etransitivity; [apply (sum_pairs (fun b a : R => nadd (n := Rnum) (nmul (n := Rnum) (nofZ (n := Rnum) 100) (sqr (N := Rnum) (nsub (n := Rnum) b (sqr (N := Rnum) a)))) (sqr (N := Rnum) (nsub (n := Rnum) (nofZ (n := Rnum) 1) a))))|].
    f_equal. apply map_ext. intros k. unfold sqr. nums. ring.
  - fin G R1 E. destruct (two r ltac:(match goal with H : negb (Nat.eqb d _) = false |- _ => exact (eq_trans LR (proj1 (Nat.eqb_eq _ _) (proj1 (negb_false_iff _) H))) end)) as (x & y & ->). unfold schaffer2_row. rewrite Msin. nums. replace (x * x - y * y) with (x ^ 2 - y ^ 2) by ring.
    replace (1 + 1 / 1000 * (x * x + y * y)) with (1 + (x ^ 2 + y ^ 2) / 1000) by field. unfold Rdiv. f_equal; [lra|]. f_equal; [lra|]. f_equal. ring.
  - fin G R1 E. unfold sphere_row. rewrite Msum. etransitivity; [apply (sum_index (sqr (N := Rnum)))|]. f_equal. apply map_ext. intros k. unfold sqr. nums. ring.
  - fin G R1 E. destruct (two r ltac:(match goal with H : negb (Nat.eqb d _) = false |- _ => exact (eq_trans LR (proj1 (Nat.eqb_eq _ _) (proj1 (negb_false_iff _) H))) end)) as (x & y & ->). unfold threehump_row, pw. cbn [col nth]. rewrite (proj1 (proj2 (P2 x))), (proj2 (proj2 (P2 x))). nums. field.
Qed.
(** [levi] is the Levy function on the line [x = 1] only. *)
Lemma levi_levy : forall m : mathlib Rnum, real_math m -> forall x y c, levi m 2%nat [[x; y]] = Ok [c] -> (c = levy x y <-> x = 1).
Proof.
  intros m M x y c E. assert (MX : is_matrix 1 2 [[x; y]]) by (split; [reflexivity|repeat constructor]).
  assert (IN : In ("levi", levi m) (bundled m)) by (cbn; auto 20).
  pose proof (formula_claim m M "levi" (levi m) 2%nat 1%nat [[x; y]] [c] IN MX E 0%nat [x; y] c eq_refl eq_refl) as Q.
  unfold formula in Q. cbn [String.eqb Ascii.eqb Bool.eqb nth] in Q. unfold levy. rewrite Q. set (s := sin (PI * (1 + (x - 1) / 4) + 1) ^ 2).
  assert (P : 0 <= s) by (unfold s; rewrite <- Rsqr_pow2; apply Rle_0_sqr). split; intros H.
  - assert (Z : (x - 1) ^ 2 * (15 / 16 * (1 + 10 * s)) = 0) by lra. apply Rmult_integral in Z. destruct Z as [Z|Z]; [|lra]. rewrite <- Rsqr_pow2 in Z. apply Rsqr_eq_0 in Z. lra.
  - rewrite H. replace (1 + (1 - 1) / 4 - 1) with 0 by lra. lra.
Qed.
Lemma levi_runs : forall m : mathlib Rnum, exists c, levi m 2%nat [[3; 1]] = Ok [c].
Proof.
  intros m. unfold levi. cbn [Nat.eqb negb]. match goal with |- context [if negb ?b then _ else _] => assert (W : b = true) end.
  { unfold within, between. cbn [forallb nle Rnum nofZ]. rewrite !Rle_bool_true by lra. reflexivity. }
  rewrite W. eexists. reflexivity.
Qed.
