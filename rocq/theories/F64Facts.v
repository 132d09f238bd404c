(** Order and rounding facts about [F64], used by the proofs. *)
From Coq Require Import ZArith Bool Reals Lra Lia.
From Flocq Require Import Core IEEE754.BinarySingleNaN.
From Verif Require Import F64.

Local Open Scope R_scope.

#[local] Arguments bpow : simpl never.
#[local] Arguments SpecFloat.cond_Zopp : simpl never.

Notation bmax := (bpow radix2 emax).
Notation FR x := (@B2R prec emax x).
Notation fexp64 := (SpecFloat.fexp prec emax).
Definition rnd (r : R) : R := round radix2 fexp64 ZnearestE r.

#[global] Instance fexp64_valid : Valid_exp fexp64.
Proof. apply (fexp_correct prec emax). reflexivity. Qed.

Lemma rnd_le : forall x y, x <= y -> rnd x <= rnd y.
Proof. intros. apply round_le; auto with typeclass_instances. Qed.

Lemma rnd_id : forall (x : f64), rnd (FR x) = FR x.
Proof. intros. apply round_generic; auto with typeclass_instances. apply generic_format_B2R. Qed.

Lemma rnd_0 : rnd 0 = 0.
Proof. apply round_0; auto with typeclass_instances. Qed.

Lemma FR_bound : forall x : f64, - bmax < FR x < bmax.
Proof. intros x. apply Rabs_lt_inv, abs_B2R_lt_emax. Qed.

Lemma bmax_pos : 0 < bmax.
Proof. apply bpow_gt_0. Qed.

(** ** Order embedding into the reals *)
Definition fkey (x : f64) : R :=
  match x with
  | B754_infinity false => 2 * bmax
  | B754_infinity true => - (2 * bmax)
  | _ => FR x
  end.

Lemma fkey_finite : forall x, ffinite x = true -> fkey x = FR x.
Proof. intros [s|[]| |s m e H]; simpl; try discriminate; reflexivity. Qed.

Lemma fkey_bound : forall x : f64, ffinite x = true -> - bmax < fkey x < bmax.
Proof. intros x F. rewrite fkey_finite by assumption. apply FR_bound. Qed.

Lemma finite_notnan : forall x, ffinite x = true -> fisnan x = false.
Proof. intros [s|[]| |s m e H]; simpl; congruence. Qed.

Lemma flt_spec : forall a b, flt a b = true <->
  (fisnan a = false /\ fisnan b = false /\ fkey a < fkey b).
Proof.
  intros a b.
  pose proof bmax_pos as P. pose proof (FR_bound a) as Ba. pose proof (FR_bound b) as Bb.
  destruct (ffinite a) eqn:Fa; destruct (ffinite b) eqn:Fb.
  - unfold flt. rewrite Bltb_correct by assumption.
    rewrite !fkey_finite by assumption.
    rewrite (finite_notnan _ Fa), (finite_notnan _ Fb).
    case Rlt_bool_spec; intros; split; intros; intuition; try lra; try congruence.
  - destruct b as [s|[]| |s m e H]; try discriminate;
    destruct a as [s'|[]| |s' m' e' H']; try discriminate; unfold flt, Bltb, SpecFloat.SFltb; simpl in *;
     try (destruct s'); simpl; intuition (try discriminate; try lra).
  - destruct b as [s|[]| |s m e H]; try discriminate;
    destruct a as [s'|[]| |s' m' e' H']; try discriminate; unfold flt, Bltb, SpecFloat.SFltb; simpl in *;
     try (destruct s); simpl; intuition (try discriminate; try lra).
  - destruct b as [s|[]| |s m e H]; try discriminate;
    destruct a as [s'|[]| |s' m' e' H']; try discriminate; unfold flt, Bltb, SpecFloat.SFltb; simpl in *;
     simpl; intuition (try discriminate; try lra).
Qed.

Lemma fle_spec : forall a b, fle a b = true <->
  (fisnan a = false /\ fisnan b = false /\ fkey a <= fkey b).
Proof.
  intros a b.
  pose proof bmax_pos as P. pose proof (FR_bound a) as Ba. pose proof (FR_bound b) as Bb.
  destruct (ffinite a) eqn:Fa; destruct (ffinite b) eqn:Fb.
  - unfold fle. rewrite Bleb_correct by assumption.
    rewrite !fkey_finite by assumption.
    rewrite (finite_notnan _ Fa), (finite_notnan _ Fb).
    case Rle_bool_spec; intros; split; intros; intuition; try lra; try congruence.
  - destruct b as [s|[]| |s m e H]; try discriminate;
    destruct a as [s'|[]| |s' m' e' H']; try discriminate; unfold fle, Bleb, SpecFloat.SFleb; simpl in *;
     try (destruct s'); simpl; intuition (try discriminate; try lra).
  - destruct b as [s|[]| |s m e H]; try discriminate;
    destruct a as [s'|[]| |s' m' e' H']; try discriminate; unfold fle, Bleb, SpecFloat.SFleb; simpl in *;
     try (destruct s); simpl; intuition (try discriminate; try lra).
  - destruct b as [s|[]| |s m e H]; try discriminate;
    destruct a as [s'|[]| |s' m' e' H']; try discriminate; unfold fle, Bleb, SpecFloat.SFleb; simpl in *;
     simpl; intuition (try discriminate; try lra).
Qed.

Lemma feq_spec : forall a b, feq a b = true <->
  (fisnan a = false /\ fisnan b = false /\ fkey a = fkey b).
Proof.
  intros a b.
  pose proof bmax_pos as P. pose proof (FR_bound a) as Ba. pose proof (FR_bound b) as Bb.
  destruct (ffinite a) eqn:Fa; destruct (ffinite b) eqn:Fb.
  - unfold feq. rewrite Beqb_correct by assumption.
    rewrite !fkey_finite by assumption.
    rewrite (finite_notnan _ Fa), (finite_notnan _ Fb).
    case Req_bool_spec; intros; split; intros; intuition; try lra; try congruence.
  - destruct b as [s|[]| |s m e H]; try discriminate;
    destruct a as [s'|[]| |s' m' e' H']; try discriminate; unfold feq, Beqb, SpecFloat.SFeqb; simpl in *;
     try (destruct s'); simpl; intuition (try discriminate; try lra).
  - destruct b as [s|[]| |s m e H]; try discriminate;
    destruct a as [s'|[]| |s' m' e' H']; try discriminate; unfold feq, Beqb, SpecFloat.SFeqb; simpl in *;
     try (destruct s); simpl; intuition (try discriminate; try lra).
  - destruct b as [s|[]| |s m e H]; try discriminate;
    destruct a as [s'|[]| |s' m' e' H']; try discriminate; unfold feq, Beqb, SpecFloat.SFeqb; simpl in *;
     simpl; intuition (try discriminate; try lra).
Qed.

Lemma flt_false_spec : forall a b, flt a b = false <->
  (fisnan a = true \/ fisnan b = true \/ fkey b <= fkey a).
Proof.
  intros a b. destruct (flt a b) eqn:E.
  - apply flt_spec in E. destruct E as (Ha & Hb & H). split; [discriminate|].
    intros [H'|[H'|H']]; try congruence. lra.
  - split; [|reflexivity]. intros _.
    destruct (fisnan a) eqn:Na; auto. destruct (fisnan b) eqn:Nb; auto.
    right; right. apply Rnot_lt_le. intros H.
    assert (flt a b = true) by (apply flt_spec; auto). congruence.
Qed.

Lemma fle_false_spec : forall a b, fle a b = false <->
  (fisnan a = true \/ fisnan b = true \/ fkey b < fkey a).
Proof.
  intros a b. destruct (fle a b) eqn:E.
  - apply fle_spec in E. destruct E as (Ha & Hb & H). split; [discriminate|].
    intros [H'|[H'|H']]; try congruence. lra.
  - split; [|reflexivity]. intros _.
    destruct (fisnan a) eqn:Na; auto. destruct (fisnan b) eqn:Nb; auto.
    right; right. apply Rnot_le_lt. intros H.
    assert (fle a b = true) by (apply fle_spec; auto). congruence.
Qed.

Ltac fkeys :=
  repeat match goal with
  | H : flt _ _ = true |- _ => apply flt_spec in H; destruct H as (? & ? & ?)
  | H : fle _ _ = true |- _ => apply fle_spec in H; destruct H as (? & ? & ?)
  | H : feq _ _ = true |- _ => apply feq_spec in H; destruct H as (? & ? & ?)
  | H : flt _ _ = false |- _ => apply flt_false_spec in H
  | H : fle _ _ = false |- _ => apply fle_false_spec in H
  | |- flt _ _ = true => apply flt_spec
  | |- fle _ _ = true => apply fle_spec
  | |- feq _ _ = true => apply feq_spec
  | |- flt _ _ = false => apply flt_false_spec
  | |- fle _ _ = false => apply fle_false_spec
  end.

Ltac forder := fkeys; intuition (try congruence; try lra).

Lemma flt_irrefl : forall a, flt a a = false.
Proof. intros. forder. Qed.

Lemma flt_trans : forall a b c, flt a b = true -> flt b c = true -> flt a c = true.
Proof. intros. forder. Qed.
Lemma fle_trans : forall a b c, fle a b = true -> fle b c = true -> fle a c = true.
Proof. intros. forder. Qed.
Lemma flt_le_trans : forall a b c, flt a b = true -> fle b c = true -> flt a c = true.
Proof. intros. forder. Qed.
Lemma fle_lt_trans : forall a b c, fle a b = true -> flt b c = true -> flt a c = true.
Proof. intros. forder. Qed.
Lemma flt_le : forall a b, flt a b = true -> fle a b = true.
Proof. intros. forder. Qed.
Lemma flt_asym : forall a b, flt a b = true -> flt b a = false.
Proof. intros. forder. Qed.
Lemma fle_refl : forall a, fisnan a = false -> fle a a = true.
Proof. intros. forder. Qed.
Lemma fle_nlt : forall a b, fle a b = true -> flt b a = false.
Proof. intros. forder. Qed.
Lemma nlt_fle : forall a b, fisnan a = false -> fisnan b = false -> flt b a = false -> fle a b = true.
Proof. intros. forder. Qed.
Lemma flt_notnan_l : forall a b, flt a b = true -> fisnan a = false.
Proof. intros. forder. Qed.
Lemma flt_notnan_r : forall a b, flt a b = true -> fisnan b = false.
Proof. intros. forder. Qed.
Lemma fle_notnan_l : forall a b, fle a b = true -> fisnan a = false.
Proof. intros. forder. Qed.
Lemma fle_notnan_r : forall a b, fle a b = true -> fisnan b = false.
Proof. intros. forder. Qed.

Lemma fkey_finf : fkey finf = 2 * bmax.
Proof. reflexivity. Qed.
Lemma fkey_fninf : fkey fninf = - (2 * bmax).
Proof. reflexivity. Qed.
Lemma fkey_range : forall x, - (2 * bmax) <= fkey x <= 2 * bmax.
Proof.
  intros x. pose proof bmax_pos. pose proof (FR_bound x).
  destruct x as [s|[]| |s m e H']; simpl in *; lra.
Qed.
Lemma nlt_finf : forall x, flt finf x = false.
Proof. intros. fkeys. right; right. rewrite fkey_finf. apply fkey_range. Qed.
Lemma fle_finf : forall x, fisnan x = false -> fle x finf = true.
Proof. intros. fkeys. repeat split; auto. rewrite fkey_finf. apply fkey_range. Qed.
Lemma nlt_fninf : forall x, flt x fninf = false.
Proof. intros. fkeys. right; right. rewrite fkey_fninf. apply fkey_range. Qed.

(** ** Results of rounded operations *)
Definition is_round (r : R) (z : f64) : Prop :=
  (Rabs (rnd r) < bmax -> ffinite z = true /\ FR z = rnd r) /\
  (bmax <= Rabs (rnd r) -> z = B754_infinity (Rlt_bool r 0)).

Lemma is_round_notnan : forall r z, is_round r z -> fisnan z = false.
Proof.
  intros r z [H1 H2]. destruct (Rlt_or_le (Rabs (rnd r)) bmax) as [H|H].
  - apply finite_notnan. apply H1; auto.
  - rewrite H2 by assumption. reflexivity.
Qed.

Lemma is_round_key : forall r z, is_round r z ->
  (Rabs (rnd r) < bmax /\ ffinite z = true /\ fkey z = rnd r) \/
  (r < 0 /\ rnd r <= - bmax /\ z = fninf) \/ (0 <= r /\ bmax <= rnd r /\ z = finf).
Proof.
  intros r z [H1 H2]. destruct (Rlt_or_le (Rabs (rnd r)) bmax) as [H|H].
  - left. destruct (H1 H) as [F E]. rewrite fkey_finite by assumption. auto.
  - right. rewrite (H2 H). case Rlt_bool_spec; intros Hr.
    + left. repeat split; auto. assert (rnd r <= 0) by (rewrite <- rnd_0; apply rnd_le; lra).
      rewrite Rabs_left1 in H by assumption. lra.
    + right. repeat split; auto. assert (0 <= rnd r) by (rewrite <- rnd_0; apply rnd_le; lra).
      rewrite Rabs_pos_eq in H by assumption. lra.
Qed.

Lemma is_round_mono : forall r z r' z', is_round r z -> is_round r' z' -> r <= r' ->
  fle z z' = true.
Proof.
  intros r z r' z' H H' L.
  pose proof (is_round_notnan _ _ H) as N. pose proof (is_round_notnan _ _ H') as N'.
  apply fle_spec. repeat split; auto.
  pose proof (rnd_le _ _ L) as LR. pose proof bmax_pos as P.
  pose proof (fkey_range z) as B1. pose proof (fkey_range z') as B2.
  destruct (is_round_key _ _ H) as [(A & F & K)|[(A & F & K)|(A & F & K)]];
  destruct (is_round_key _ _ H') as [(A' & F' & K')|[(A' & F' & K')|(A' & F' & K')]];
  subst; try (rewrite ?fkey_finf, ?fkey_fninf in *; lra).
  - rewrite fkey_fninf. apply Rabs_lt_inv in A. lra.
  - rewrite fkey_finf, K'. apply Rabs_lt_inv in A'. lra.
Qed.

Lemma is_round_self : forall x, ffinite x = true -> is_round (FR x) x.
Proof.
  intros x F. split.
  - intros _. rewrite rnd_id. auto.
  - rewrite rnd_id. intros H. pose proof (abs_B2R_lt_emax prec emax x). lra.
Qed.

Lemma is_round_le_r : forall r z w, is_round r z -> ffinite w = true -> r <= FR w -> fle z w = true.
Proof. intros. eapply is_round_mono; eauto using is_round_self. Qed.
Lemma is_round_le_l : forall r z w, is_round r z -> ffinite w = true -> FR w <= r -> fle w z = true.
Proof. intros. eapply is_round_mono; eauto using is_round_self. Qed.
Lemma is_round_between : forall r z a b, is_round r z -> ffinite a = true -> ffinite b = true ->
  FR a <= r <= FR b -> ffinite z = true.
Proof.
  intros r z a b H Fa Fb [L1 L2].
  pose proof (is_round_le_l _ _ _ H Fa L1) as A. pose proof (is_round_le_r _ _ _ H Fb L2) as B.
  apply fle_spec in A. apply fle_spec in B. destruct A as (_ & _ & A). destruct B as (_ & _ & B).
  rewrite (fkey_finite a) in A by assumption. rewrite (fkey_finite b) in B by assumption.
  pose proof (FR_bound a). pose proof (FR_bound b). pose proof bmax_pos.
  destruct z as [s|[]| |s m e Hz]; simpl in *; try reflexivity; try lra.
  pose proof (is_round_notnan _ _ H). discriminate.
Qed.

Lemma is_round_finite_eq : forall r z, is_round r z -> ffinite z = true -> FR z = rnd r.
Proof.
  intros r z [H1 H2] F. destruct (Rlt_or_le (Rabs (rnd r)) bmax) as [H|H].
  - apply H1; auto.
  - rewrite H2 in F by assumption. discriminate.
Qed.

Lemma Bsign_neg : forall x : f64, ffinite x = true -> Bsign x = true -> FR x <= 0.
Proof.
  intros [s|s| |s m e H]; simpl; try discriminate; intros _ E; subst; try lra.
  apply F2R_le_0. unfold SpecFloat.cond_Zopp. cbn. lia.
Qed.
Lemma Bsign_pos : forall x : f64, ffinite x = true -> Bsign x = false -> 0 <= FR x.
Proof.
  intros [s|s| |s m e H]; simpl; try discriminate; intros _ E; subst; try lra.
  apply F2R_ge_0. unfold SpecFloat.cond_Zopp. cbn. lia.
Qed.

Lemma rnd_ovf_nonzero : forall r, bmax <= Rabs (rnd r) -> r <> 0.
Proof.
  intros r H E. subst. rewrite rnd_0, Rabs_R0 in H. pose proof bmax_pos. lra.
Qed.

Lemma fadd_round : forall x y, ffinite x = true -> ffinite y = true -> is_round (FR x + FR y) (fadd x y).
Proof.
  intros x y Fx Fy. pose proof (Bplus_correct prec emax _ _ mode_NE x y Fx Fy) as H.
  unfold is_round. fold (rnd (FR x + FR y)) in H. change (round_mode mode_NE) with ZnearestE in H.
  fold (rnd (FR x + FR y)) in H.
  destruct (Rlt_bool_spec (Rabs (rnd (FR x + FR y))) bmax) as [L|L].
  - destruct H as (H1 & H2 & _). split; intros; [|lra]. split; auto.
  - split; intros; [lra|]. destruct H as [H S].
    apply B2SF_inj. unfold fadd. rewrite H. unfold binary_overflow. simpl.
    f_equal. pose proof (rnd_ovf_nonzero _ L). symmetry.
    destruct (Bsign x) eqn:Sx.
    + pose proof (Bsign_neg x Fx Sx). pose proof (Bsign_neg y Fy (eq_sym S)). apply Rlt_bool_true. lra.
    + pose proof (Bsign_pos x Fx Sx). pose proof (Bsign_pos y Fy (eq_sym S)). apply Rlt_bool_false. lra.
Qed.

Lemma fsub_round : forall x y, ffinite x = true -> ffinite y = true -> is_round (FR x - FR y) (fsub x y).
Proof.
  intros x y Fx Fy. pose proof (Bminus_correct prec emax _ _ mode_NE x y Fx Fy) as H.
  unfold is_round. change (round_mode mode_NE) with ZnearestE in H.
  fold (rnd (FR x - FR y)) in H.
  destruct (Rlt_bool_spec (Rabs (rnd (FR x - FR y))) bmax) as [L|L].
  - destruct H as (H1 & H2 & _). split; intros; [|lra]. split; auto.
  - split; intros; [lra|]. destruct H as [H S].
    apply B2SF_inj. unfold fsub. rewrite H. unfold binary_overflow. simpl.
    f_equal. pose proof (rnd_ovf_nonzero _ L). symmetry.
    destruct (Bsign x) eqn:Sx; destruct (Bsign y) eqn:Sy; try discriminate.
    + pose proof (Bsign_neg x Fx Sx). pose proof (Bsign_pos y Fy Sy). apply Rlt_bool_true. lra.
    + pose proof (Bsign_pos x Fx Sx). pose proof (Bsign_neg y Fy Sy). apply Rlt_bool_false. lra.
Qed.

Lemma fmul_round : forall x y, ffinite x = true -> ffinite y = true -> is_round (FR x * FR y) (fmul x y).
Proof.
  intros x y Fx Fy. pose proof (Bmult_correct prec emax _ _ mode_NE x y) as H.
  unfold is_round. change (round_mode mode_NE) with ZnearestE in H.
  fold (rnd (FR x * FR y)) in H.
  unfold ffinite in Fx, Fy.
  destruct (Rlt_bool_spec (Rabs (rnd (FR x * FR y))) bmax) as [L|L].
  - destruct H as (H1 & H2 & _). rewrite Fx, Fy in H2. split; intros; [|lra]. split; auto.
  - split; intros; [lra|].
    apply B2SF_inj. unfold fmul. rewrite H. unfold binary_overflow. simpl.
    f_equal. pose proof (rnd_ovf_nonzero _ L). symmetry.
    destruct (Bsign x) eqn:Sx; destruct (Bsign y) eqn:Sy; simpl.
    + pose proof (Bsign_neg x Fx Sx). pose proof (Bsign_neg y Fy Sy). apply Rlt_bool_false. nra.
    + pose proof (Bsign_neg x Fx Sx). pose proof (Bsign_pos y Fy Sy). apply Rlt_bool_true. nra.
    + pose proof (Bsign_pos x Fx Sx). pose proof (Bsign_neg y Fy Sy). apply Rlt_bool_true. nra.
    + pose proof (Bsign_pos x Fx Sx). pose proof (Bsign_pos y Fy Sy). apply Rlt_bool_false. nra.
Qed.

Lemma fdiv_round : forall x y, ffinite x = true -> ffinite y = true -> FR y <> 0 ->
  is_round (FR x / FR y) (fdiv x y).
Proof.
  intros x y Fx Fy Ny. pose proof (Bdiv_correct prec emax _ _ mode_NE x y Ny) as H.
  unfold is_round. change (round_mode mode_NE) with ZnearestE in H.
  fold (rnd (FR x / FR y)) in H.
  unfold ffinite in Fx, Fy.
  destruct (Rlt_bool_spec (Rabs (rnd (FR x / FR y))) bmax) as [L|L].
  - destruct H as (H1 & H2 & _). rewrite Fx in H2. split; intros; [|lra]. split; auto.
  - split; intros; [lra|].
    apply B2SF_inj. unfold fdiv. rewrite H. unfold binary_overflow. simpl.
    f_equal. pose proof (rnd_ovf_nonzero _ L) as NZ. symmetry.
    assert (NX : FR x <> 0). { intros E. apply NZ. rewrite E. unfold Rdiv. lra. }
    assert (E : FR x = FR x / FR y * FR y) by (field; assumption).
    destruct (Bsign x) eqn:Sx; destruct (Bsign y) eqn:Sy; simpl.
    + pose proof (Bsign_neg x Fx Sx). pose proof (Bsign_neg y Fy Sy). apply Rlt_bool_false. nra.
    + pose proof (Bsign_neg x Fx Sx). pose proof (Bsign_pos y Fy Sy). apply Rlt_bool_true. nra.
    + pose proof (Bsign_pos x Fx Sx). pose proof (Bsign_neg y Fy Sy). apply Rlt_bool_true. nra.
    + pose proof (Bsign_pos x Fx Sx). pose proof (Bsign_pos y Fy Sy). apply Rlt_bool_false. nra.
Qed.

Lemma fnorm_round : forall m e s, is_round (F2R (Float radix2 m e))
   (binary_normalize prec emax _ _ mode_NE m e s).
Proof.
  intros m e s. pose proof (binary_normalize_correct prec emax _ _ mode_NE m e s) as H.
  cbv zeta in H. unfold is_round. change (round_mode mode_NE) with ZnearestE in H.
  fold (rnd (F2R (Float radix2 m e))) in H.
  destruct (Rlt_bool_spec (Rabs (rnd (F2R (Float radix2 m e)))) bmax) as [L|L].
  - destruct H as (H1 & H2 & _). split; intros; [|lra]. split; auto.
  - split; intros; [lra|]. apply B2SF_inj. rewrite H. reflexivity.
Qed.

Lemma fofZe_round : forall m e, is_round (F2R (Float radix2 m e)) (fofZe m e).
Proof. intros. apply fnorm_round. Qed.

(** Constants *)
Lemma fzero_R : FR fzero = 0. Proof. reflexivity. Qed.
Lemma FR_SF : forall (x : f64) y, B2SF x = y -> FR x = SF2R radix2 y.
Proof. intros [s|s| |s m e H] y E; subst; reflexivity. Qed.
Ltac fconst := erewrite FR_SF by (vm_compute; reflexivity); cbn [SF2R];
  unfold F2R, bpow, SpecFloat.cond_Zopp; simpl; lra.
Lemma fone_R : FR fone = 1.
Proof. fconst. Qed.
Lemma ftwo_R : FR ftwo = 2.
Proof. fconst. Qed.
Lemma fhalf_R : FR fhalf = / 2.
Proof. fconst. Qed.
Lemma fone_fin : ffinite fone = true. Proof. reflexivity. Qed.
Lemma ftwo_fin : ffinite ftwo = true. Proof. reflexivity. Qed.
Lemma fhalf_fin : ffinite fhalf = true. Proof. reflexivity. Qed.
