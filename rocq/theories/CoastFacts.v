(** Binary64 facts behind C80. *)
From Coq Require Import ZArith Bool Reals Lra Lia.
From Flocq Require Import Core IEEE754.BinarySingleNaN.
From Verif Require Import F64 F64Facts F64More SpecTame SpecMirror MirrorFacts Tame Collapse.
Local Open Scope R_scope.

Definition half : f64 := fdec 1 2.
Definition tiny : f64 := fofZe 1 (-1074).
Lemma tiny_R : ffinite tiny = true /\ FR tiny = bpow radix2 (-1074).
Proof.
  assert (F : ffinite tiny = true) by (vm_compute; reflexivity). split; [exact F|]. pose proof (fofZe_round 1 (-1074)) as H. fold tiny in H.
  rewrite (is_round_finite_eq _ _ H F). unfold F2R. cbn [Fnum Fexp]. rewrite (rnd_pow 1 (-1074)) by lia. apply Rmult_1_l.
Qed.
(** Half of the least positive number rounds to zero. *)
Lemma half_tiny : rnd (bpow radix2 (-1075)) = 0.
Proof.
  destruct tiny_R as [FT RT]. destruct dec_half as [RH FH]. pose proof (fmul_round half tiny FH FT) as H.
  assert (Z : feq (fmul half tiny) fzero = true) by (vm_compute; reflexivity). apply zerof_eq in Z. destruct Z as [F Z].
  rewrite (is_round_finite_eq _ _ H F), RT in Z. unfold half in Z. rewrite RH in Z.
  replace (bpow radix2 (-1075)) with (/ 2 * bpow radix2 (-1074)); [exact Z|]. change (/ 2) with (bpow radix2 (-1)). rewrite <- bpow_plus. reflexivity.
Qed.
Lemma below_tiny : forall r, Rabs r <= bpow radix2 (-1075) -> rnd r = 0.
Proof.
  intros r H. apply Rabs_le_inv in H. pose proof half_tiny as Z. assert (A : rnd r <= 0) by (rewrite <- Z; apply rnd_le; lra).
  assert (B : rnd (- bpow radix2 (-1075)) <= rnd r) by (apply rnd_le; lra). rewrite rnd_opp, Z in B. lra.
Qed.
Lemma fabs_fin : forall x, ffinite (fabs x) = ffinite x. Proof. intros []; reflexivity. Qed.
Lemma fabs_R : forall x, FR (fabs x) = Rabs (FR x).
Proof. intros x. unfold FR, fabs. apply B2R_Babs. Qed.
Lemma small_w : forall w, fle (fabs w) half = true -> within (-1) w.
Proof.
  intros w H. destruct dec_half as [RH FH]. assert (F : ffinite w = true). { rewrite <- fabs_fin. apply (le_finite _ half); [destruct w as [| | |]; try reflexivity; discriminate|exact FH|exact H]. }
  split; [exact F|]. apply fle_fin in H; [|rewrite fabs_fin; exact F|exact FH]. rewrite fabs_R in H. unfold half in H. rewrite RH in H. exact H.
Qed.
Lemma halved : forall w v e, (-1073 <= e <= 1024)%Z -> fle (fabs w) half = true -> within e v -> within (e - 1) (fmul w v).
Proof. intros w v e E W V. apply small_w in W. replace (e - 1)%Z with (-1 + e)%Z by lia. apply within_fmul; [lia|exact W|exact V]. Qed.
Lemma gone : forall w v, fle (fabs w) half = true -> within (-1074) v -> feq (fmul w v) fzero = true.
Proof.
  intros w v W [F V]. apply small_w in W. destruct W as [FW W]. apply zerof_eq. pose proof (fmul_round w v FW F) as H.
  assert (Z : rnd (FR w * FR v) = 0).
  { apply below_tiny. rewrite Rabs_mult. replace (bpow radix2 (-1075)) with (bpow radix2 (-1) * bpow radix2 (-1074)) by (rewrite <- bpow_plus; reflexivity).
    apply Rmult_le_compat; auto using Rabs_pos. }
  destruct H as [H _]. rewrite Z, Rabs_R0 in H. destruct H as [A B]; [apply bpow_gt_0|]. split; [exact A|exact B].
Qed.
Lemma finite_within : forall v, ffinite v = true -> within 1024 v.
Proof. intros v F. split; [exact F|]. pose proof (FR_bound v). apply Rabs_le. change (bpow radix2 1024) with bmax. lra. Qed.
Lemma slower : forall w v, ffinite v = true -> fle (fabs w) fone = true -> ffinite (fmul w v) = true /\ Rabs (FR (fmul w v)) <= Rabs (FR v).
Proof.
  intros w v F W. assert (F1 : ffinite fone = true) by reflexivity.
  assert (R1 : FR fone = 1) by exact fone_R.
  assert (FW : ffinite w = true). { rewrite <- fabs_fin. apply (le_finite _ fone); [destruct w as [| | |]; try reflexivity; discriminate|exact F1|exact W]. }
  apply fle_fin in W; [|rewrite fabs_fin; exact FW|exact F1]. rewrite fabs_R, R1 in W.
  assert (FA : ffinite (fabs v) = true) by (rewrite fabs_fin; exact F).
  destruct (dom_round _ _ _ _ (fmul_round w v FW F) (is_round_self (fabs v) FA) FA) as (A & _ & B).
  { rewrite fabs_R, Rabs_mult. pose proof (Rabs_pos (FR v)). nra. }
  split; [exact A|]. rewrite fabs_R in B. exact B.
Qed.
(** More than half of a number that is not zero is not zero. *)
Lemma not_gone : forall w v, flt half (fabs w) = true -> feq v fzero = false -> feq (fmul w v) fzero = false.
Proof.
  intros w v W V. destruct (feq (fmul w v) fzero) eqn:Z; [|reflexivity]. exfalso.
  apply zerof_eq in Z. destruct Z as [FZ Z]. destruct dec_half as [RH FH].
  assert (FF : ffinite w = true /\ ffinite v = true).
  { destruct w as [s|s| |s m e B], v as [s'|s'| |s' m' e' B']; split; try reflexivity; discriminate FZ. }
  destruct FF as [FW FV]. pose proof (fmul_round w v FW FV) as H. pose proof (is_round_finite_eq _ _ H FZ) as E. rewrite Z in E.
  apply flt_fin in W; [|exact FH|rewrite fabs_fin; exact FW]. rewrite fabs_R in W. unfold half in W. rewrite RH in W.
  assert (VB : bpow radix2 (-1074) <= Rabs (FR v)).
  { apply Rnot_lt_le. intros L. assert (Q : feq v fzero = true); [|congruence]. apply zerof_eq. split; [exact FV|].
    destruct (Req_dec (FR v) 0) as [E0|E0]; [exact E0|exfalso]. pose proof (format_B2R v) as G.
    assert (GE : bpow radix2 (-1074) <= Rabs (FR v)).
    { apply (abs_B2R_ge_emin 53 1024 v). destruct v as [s|s| |s m e B]; try reflexivity; try discriminate FV. exfalso. apply E0. reflexivity. }
    lra. }
  set (r := FR w * FR v) in *.
  assert (R0 : bpow radix2 (-1075) < Rabs r).
  { unfold r. rewrite Rabs_mult. replace (bpow radix2 (-1075)) with (/ 2 * bpow radix2 (-1074)); [|change (/ 2) with (bpow radix2 (-1)); rewrite <- bpow_plus; reflexivity].
    pose proof (bpow_gt_0 radix2 (-1074)). pose proof (Rabs_pos (FR v)). nra. }
  destruct (Rlt_or_le (Rabs r) (bpow radix2 (-1021))) as [L|L].
  - pose proof (error_le_half_ulp radix2 fexp64 (fun x => negb (Z.even x)) r) as EH. fold (rnd r) in EH. rewrite <- E in EH.
    pose proof (ulp_FLT_small radix2 (3 - emax - prec) prec r L) as U. change (ulp radix2 (FLT_exp (3 - emax - prec) prec) r) with (ulp radix2 fexp64 r) in U. rewrite U in EH.
    change (bpow radix2 (3 - emax - prec)) with (bpow radix2 (-1074)) in EH. rewrite Rminus_0_l, Rabs_Ropp in EH.
    replace (bpow radix2 (-1075)) with (/ 2 * bpow radix2 (-1074)) in R0; [lra|]. change (/ 2) with (bpow radix2 (-1)). rewrite <- bpow_plus. reflexivity.
  - assert (G : generic_format radix2 fexp64 (bpow radix2 (-1021))). { replace (bpow radix2 (-1021)) with (1 * bpow radix2 (-1021)) by ring. apply pow_format; lia. }
    pose proof (abs_round_ge_generic radix2 fexp64 ZnearestE _ _ G L) as AG. fold (rnd r) in AG. rewrite <- E, Rabs_R0 in AG. pose proof (bpow_gt_0 radix2 (-1021)). lra.
Qed.
