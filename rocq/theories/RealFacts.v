(** Numeric bounds and inequalities for the elementary functions over the reals (C48). *)
From Coq Require Import Reals Lra Lia Psatz ZArith.
From Coq Require Import Machin Ratan.
From Coquelicot Require Import Coquelicot.
Local Open Scope R_scope.

(** *** Pi *)
Lemma pi_bounds : 3.1415926535 < PI < 3.1415926536.
Proof.
  pose proof (PI_2_3_7_ineq 5) as [L H].
  unfold sum_f_R0, tg_alt, PI_2_3_7_tg, Ratan_seq in L, H. cbn [Nat.mul Nat.add] in L, H.
  cbn [pow INR Nat.add] in L, H. lra.
Qed.
Lemma pi_lo : 3.1415926535 < PI. Proof. exact (proj1 pi_bounds). Qed.
Lemma pi_hi : PI < 3.1415926536. Proof. exact (proj2 pi_bounds). Qed.

(** *** Sine and cosine of small arguments *)
Lemma sin_lower : forall x, 0 <= x <= 2 -> x - x ^ 3 / 6 + x ^ 5 / 120 - x ^ 7 / 5040 <= sin x.
Proof.
  intros x H. destruct (pre_sin_bound x 1) as [L _]; [lra|lra|]. cbn [Nat.mul Nat.add] in L. unfold sin_approx, sum_f_R0, sin_term in L. cbn [Nat.mul Nat.add] in L.
  rewrite !INR_IZR_INZ in L. eapply Rle_trans; [|exact L]. vm_compute (Z.of_nat _). cbn [pow]. lra.
Qed.
Lemma sin_upper : forall x, 0 <= x <= 2 -> sin x <= x - x ^ 3 / 6 + x ^ 5 / 120 - x ^ 7 / 5040 + x ^ 9 / 362880.
Proof.
  intros x H. destruct (pre_sin_bound x 1) as [_ L]; [lra|lra|]. cbn [Nat.mul Nat.add] in L. unfold sin_approx, sum_f_R0, sin_term in L. cbn [Nat.mul Nat.add] in L.
  rewrite !INR_IZR_INZ in L. eapply Rle_trans; [exact L|]. vm_compute (Z.of_nat _). cbn [pow]. lra.
Qed.
Lemma cos_lower : forall x, 0 <= x <= 2 -> 1 - x ^ 2 / 2 + x ^ 4 / 24 - x ^ 6 / 720 <= cos x.
Proof.
  intros x H. destruct (pre_cos_bound x 1) as [L _]; [lra|lra|]. cbn [Nat.mul Nat.add] in L. unfold cos_approx, sum_f_R0, cos_term in L. cbn [Nat.mul Nat.add] in L.
  rewrite !INR_IZR_INZ in L. eapply Rle_trans; [|exact L]. vm_compute (Z.of_nat _). cbn [pow]. lra.
Qed.
Lemma cos_upper : forall x, 0 <= x <= 2 -> cos x <= 1 - x ^ 2 / 2 + x ^ 4 / 24 - x ^ 6 / 720 + x ^ 8 / 40320.
Proof.
  intros x H. destruct (pre_cos_bound x 1) as [_ L]; [lra|lra|]. cbn [Nat.mul Nat.add] in L. unfold cos_approx, sum_f_R0, cos_term in L. cbn [Nat.mul Nat.add] in L.
  rewrite !INR_IZR_INZ in L. eapply Rle_trans; [exact L|]. vm_compute (Z.of_nat _). cbn [pow]. lra.
Qed.

(** *** The exponential *)
(** A function that is not below its derivative, and is 1 at 0, stays at or below the exponential. *)
Lemma exp_compare : forall (q q' : R -> R) b, (forall x, 0 <= x <= b -> derivable_pt_lim q x (q' x)) -> q 0 = 1 ->
  (forall x, 0 <= x <= b -> q' x <= q x) -> forall x, 0 <= x <= b -> q x <= exp x.
Proof.
  intros q q' b D Q0 HL x [H0 H1]. destruct (Rle_lt_or_eq_dec _ _ H0) as [P|<-]; [|rewrite exp_0; lra].
  pose (g := fun t => q t * exp (- t)).
  assert (DG : forall t, 0 <= t <= x -> derivable_pt_lim g t ((q' t - q t) * exp (- t))).
  { intros t T. unfold g. replace ((q' t - q t) * exp (- t)) with (q' t * exp (- t) + q t * (exp (- t) * (-1))) by ring.
    apply (derivable_pt_lim_mult q (fun t => exp (- t))); [apply D; lra|].
    apply (derivable_pt_lim_comp (fun t => - t) exp); [|apply derivable_pt_lim_exp].
    replace (-1) with (- (1)) by ring. apply (derivable_pt_lim_opp id). apply derivable_pt_lim_id. }
  destruct (MVT_cor2 g _ 0 x P DG) as (c & E & C). unfold g in E at 1 2. rewrite Q0, Ropp_0, exp_0, Rmult_1_l in E.
  assert ((q' c - q c) * exp (- c) * (x - 0) <= 0).
  { pose proof (exp_pos (- c)). specialize (HL c ltac:(lra)). assert (0 <= (q c - q' c) * exp (- c)) by (apply Rmult_le_pos; lra). nra. }
  assert (G : q x * exp (- x) <= 1) by lra. rewrite exp_Ropp in G. pose proof (exp_pos x) as EP.
  apply (Rmult_le_compat_r (exp x)) in G; [|lra]. rewrite Rmult_assoc, Rinv_l in G; lra.
Qed.
Lemma exp_compare' : forall (q q' : R -> R) b, (forall x, 0 <= x <= b -> derivable_pt_lim q x (q' x)) -> q 0 = 1 ->
  (forall x, 0 <= x <= b -> q x <= q' x) -> forall x, 0 <= x <= b -> exp x <= q x.
Proof.
  intros q q' b D Q0 HL x [H0 H1]. destruct (Rle_lt_or_eq_dec _ _ H0) as [P|<-]; [|rewrite exp_0; lra].
  pose (g := fun t => q t * exp (- t)).
  assert (DG : forall t, 0 <= t <= x -> derivable_pt_lim g t ((q' t - q t) * exp (- t))).
  { intros t T. unfold g. replace ((q' t - q t) * exp (- t)) with (q' t * exp (- t) + q t * (exp (- t) * (-1))) by ring.
    apply (derivable_pt_lim_mult q (fun t => exp (- t))); [apply D; lra|].
    apply (derivable_pt_lim_comp (fun t => - t) exp); [|apply derivable_pt_lim_exp].
    replace (-1) with (- (1)) by ring. apply (derivable_pt_lim_opp id). apply derivable_pt_lim_id. }
  destruct (MVT_cor2 g _ 0 x P DG) as (c & E & C). unfold g in E at 1 2. rewrite Q0, Ropp_0, exp_0, Rmult_1_l in E.
  assert (0 <= (q' c - q c) * exp (- c) * (x - 0)).
  { pose proof (exp_pos (- c)). specialize (HL c ltac:(lra)). assert (0 <= (q' c - q c) * exp (- c)) by (apply Rmult_le_pos; lra). nra. }
  assert (G : 1 <= q x * exp (- x)) by lra. rewrite exp_Ropp in G. pose proof (exp_pos x) as EP.
  apply (Rmult_le_compat_r (exp x)) in G; [|lra]. rewrite Rmult_assoc, Rinv_l in G; lra.
Qed.
(** The ninth Taylor polynomial, by Horner's rule; for the upper bound the last coefficient is enlarged. *)
Definition exp_lo (x : R) : R :=
  1 + x * (1 + x / 2 * (1 + x / 3 * (1 + x / 4 * (1 + x / 5 * (1 + x / 6 * (1 + x / 7 * (1 + x / 8 * (1 + x / 9)))))))).
Definition exp_hi (x : R) : R :=
  1 + x * (1 + x / 2 * (1 + x / 3 * (1 + x / 4 * (1 + x / 5 * (1 + x / 6 * (1 + x / 7 * (1 + x / 8 * (1 + x / 8)))))))).
Lemma exp_lower : forall x, 0 <= x -> exp_lo x <= exp x.
Proof.
  intros x H. apply (exp_compare exp_lo (fun x => 1 + x * (1 + x / 2 * (1 + x / 3 * (1 + x / 4 * (1 + x / 5 * (1 + x / 6 * (1 + x / 7 * (1 + x / 8))))))))  x); [| unfold exp_lo; field | | lra].
  - intros t T. apply is_derive_Reals. unfold exp_lo. auto_derive; [exact I|]. field.
  - intros t T. unfold exp_lo. assert (0 <= t ^ 9) by (apply pow_le; lra). assert (E : forall a, a - t ^ 9 / 362880 <= a) by (intros; lra).
    match goal with |- _ <= ?b => replace b with (b - t ^ 9 / 362880 + t ^ 9 / 362880) by ring end. match goal with |- ?a <= ?b - _ + _ => replace (b - t ^ 9 / 362880) with a by field end. lra.
Qed.
Lemma exp_upper : forall x, 0 <= x <= 1 -> exp x <= exp_hi x.
Proof.
  intros x H. apply (exp_compare' exp_hi (fun x => 1 + x * (1 + x / 2 * (1 + x / 3 * (1 + x / 4 * (1 + x / 5 * (1 + x / 6 * (1 + x / 7 * (1 + 9 / 64 * x)))))))) 1); [| unfold exp_hi; field | | lra].
  - intros t T. apply is_derive_Reals. unfold exp_hi. auto_derive; [exact I|]. field.
  - intros t T. unfold exp_hi. assert (0 <= t ^ 8 * (1 - t)) by (apply Rmult_le_pos; [apply pow_le; lra|lra]).
    match goal with |- _ <= ?b => replace b with (b - t ^ 8 * (1 - t) / 322560 + t ^ 8 * (1 - t) / 322560) by ring end. match goal with |- ?a <= ?b - _ + _ => replace (b - t ^ 8 * (1 - t) / 322560) with a by field end. lra.
Qed.
