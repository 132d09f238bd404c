(** Boundary strategies on binary64 coordinates. *)
From Coq Require Import String ZArith List Arith Bool Reals Lra Lia.
From Flocq Require Import Core IEEE754.BinarySingleNaN.
From Verif Require Import Prelude F64 F64Facts F64More Num Np Handlers SpecHandlers ListFacts NpFacts ShapeFacts HandlerFacts.
Import ListNotations.
Local Open Scope list_scope.
Local Open Scope nat_scope.
#[local] Arguments fdec : simpl never.
#[local] Arguments fofZ : simpl never.

Ltac ftypes := unfold Handlers.row, Handlers.matrix in *; change (T F64num) with f64 in *.
Notation FN := F64num (only parsing).

(** nearest *)
Lemma nearest_projection : forall x l u : FN, fle l u = true -> projection l u x (nearest_el x l u).
Proof.
  intros x l u L. change (f64) with (T F64num) in *. unfold projection, nearest_el, lower, greater. cbn [nlt F64num].
  destruct (flt x l) eqn:A; destruct (flt u x) eqn:B; cbv zeta.
  - exfalso. forder.
  - repeat split; intros; try solve [forder]; try solve [exfalso; forder].
    apply (flt_fin x l) in A; auto. apply (fle_fin l y) in H3; auto.
      rewrite !Rabs_pos_eq by lra. lra.
  - repeat split; intros; try solve [forder]; try solve [exfalso; forder].
    apply (flt_fin u x) in B; auto. apply (fle_fin y u) in H4; auto.
      rewrite !Rabs_left1 by lra. lra.
  - repeat split; intros; try solve [forder]; auto.
    replace (FR x - FR x)%R with 0%R by ring. rewrite Rabs_R0. apply Rabs_pos.
Qed.
Lemma nearest_clear : forall x l u : FN, fle l u = true ->
  flt (nearest_el x l u) l = false /\ flt u (nearest_el x l u) = false.
Proof.
  intros x l u L. unfold nearest_el, lower, greater. cbn [nlt F64num].
  destruct (flt x l) eqn:A; destruct (flt u x) eqn:B; cbv zeta; split; forder.
Qed.

(** periodic *)
Lemma periodic_inside : forall x l u : FN, ffinite l = true -> ffinite u = true -> ffinite x = true ->
  flt l u = true -> ffinite (fsub u l) = true ->
  (flt x l = true -> ffinite (fsub l x) = true) -> (flt u x = true -> ffinite (fsub x u) = true) ->
  fle l (periodic_el x l u) = true /\ fle (periodic_el x l u) u = true.
Proof.
  intros x l u Fl Fu Fx L Fd HL HU. unfold periodic_el, lower, greater. cbn [nlt nabs nsub nmod nadd F64num].
  assert (L' := L). apply (flt_fin l u Fl Fu) in L'.
  pose proof (fsub_round u l Fu Fl) as RD. pose proof (is_round_finite_eq _ _ RD Fd) as ED.
  assert (ND : rnd (FR u - FR l) <> 0%R).
  { destruct (Rle_or_lt (FR u - FR l) (bpow radix2 (-1021))) as [Q|Q].
    - rewrite small_diff_exact. lra. rewrite Rabs_pos_eq; lra.
    - assert (rnd (bpow radix2 (-1021)) <= rnd (FR u - FR l))%R by (apply rnd_le; lra).
      unfold rnd in H at 1. rewrite round_generic in H; auto with typeclass_instances.
      pose proof (bpow_gt_0 radix2 (-1021)). lra.
      apply generic_format_bpow. unfold fexp64, SpecFloat.fexp, SpecFloat.emin, prec, emax. lia. }
  assert (D0 : (0 < FR (fsub u l))%R).
  { rewrite ED. assert (rnd 0 <= rnd (FR u - FR l))%R by (apply rnd_le; lra). rewrite rnd_0 in H. lra. }
  assert (Fs : ffinite (fabs (fsub u l)) = true) by (unfold fabs, ffinite; rewrite is_finite_Babs; exact Fd).
  assert (Es : FR (fabs (fsub u l)) = FR (fsub u l)) by (unfold fabs; rewrite B2R_Babs; apply Rabs_pos_eq; lra).
  assert (MOD : forall r, ffinite r = true -> (0 <= FR r)%R ->
    let m := fnpmod r (fabs (fsub u l)) in ffinite m = true /\ (0 <= FR m <= FR u - FR l)%R).
  { intros r Fr R0. destruct (fnpmod_exact r (fabs (fsub u l))) as (FM & [M0 M1] & _); auto. lra.
    cbv zeta. split; auto. split; auto. rewrite Es in M1. apply (below_round _ _ _ RD Fd M1). }
  destruct (flt x l) eqn:A; destruct (flt u x) eqn:B; cbv zeta.
  - exfalso. forder.
  - specialize (HL eq_refl). apply (flt_fin x l Fx Fl) in A.
    assert (0 <= FR (fsub l x))%R.
    { rewrite (is_round_finite_eq _ _ (fsub_round l x Fl Fx) HL), <- rnd_0. apply rnd_le. lra. }
    destruct (MOD _ HL H) as (FM & M0 & M1). pose proof (fsub_round _ _ Fu FM) as R. split.
    + apply (is_round_le_l _ _ _ R Fl). lra.
    + apply (is_round_le_r _ _ _ R Fu). lra.
  - specialize (HU eq_refl). apply (flt_fin u x Fu Fx) in B.
    assert (0 <= FR (fsub x u))%R.
    { rewrite (is_round_finite_eq _ _ (fsub_round x u Fx Fu) HU), <- rnd_0. apply rnd_le. lra. }
    destruct (MOD _ HU H) as (FM & M0 & M1). pose proof (fadd_round _ _ Fl FM) as R. split.
    + apply (is_round_le_l _ _ _ R Fl). lra.
    + apply (is_round_le_r _ _ _ R Fu). lra.
  - apply finite_notnan in Fx, Fl, Fu. split; forder.
Qed.
Lemma periodic_nan : forall x l u : FN, ffinite l = true -> ffinite u = true -> fisnan x = false ->
  (flt x l = true \/ flt u x = true) -> (feq l u = true \/ (ffinite x = false /\ fle l u = true)) -> periodic_el x l u = fnan.
Proof.
  intros x l u Fl Fu Nx O H. unfold periodic_el, lower, greater. cbn [nlt nabs nsub nmod nadd F64num].
  assert (M : forall r s, r = l \/ r = u -> s = l \/ s = u -> 
     fnpmod (fsub r x) (fabs (fsub u l)) = fnan /\ fnpmod (fsub x s) (fabs (fsub u l)) = fnan).
  { intros r s Hr Hs. destruct H as [H|[H _]].
    - assert (Z : FR (fabs (fsub u l)) = 0%R /\ ffinite (fabs (fsub u l)) = true).
      { apply (feq_fin l u Fl Fu) in H. pose proof (fsub_round u l Fu Fl) as RD.
        rewrite H, Rminus_diag_eq in RD by auto.
        assert (F : ffinite (fsub u l) = true). { apply (is_round_between _ _ fzero fzero RD); auto. rewrite fzero_R. lra. }
        unfold fabs, ffinite. rewrite is_finite_Babs, B2R_Babs, (is_round_finite_eq _ _ RD F), rnd_0, Rabs_R0. auto. }
      split; apply fnpmod_zero; tauto.
    - assert (Fr : ffinite r = true) by (destruct Hr; subst; auto).
      assert (Fs : ffinite s = true) by (destruct Hs; subst; auto).
      destruct x as [sx|sx| |sx mx ex Bx]; try discriminate.
      assert (E1 : fsub r (B754_infinity sx) = B754_infinity (negb sx)) by (destruct r; try discriminate; reflexivity).
      assert (E2 : fsub (B754_infinity sx) s = B754_infinity sx) by (destruct s; try discriminate; reflexivity).
      rewrite E1, E2. split; apply fnpmod_inf. }
  assert (LU : fle l u = true) by (apply finite_notnan in Fl, Fu; destruct H as [H|[_ H]]; forder).
  destruct (flt x l) eqn:A; destruct (flt u x) eqn:B; cbv zeta.
  - exfalso. forder.
  - rewrite (proj1 (M l l (or_introl eq_refl) (or_introl eq_refl))). destruct u; reflexivity.
  - rewrite (proj2 (M l u (or_introl eq_refl) (or_intror eq_refl))). destruct l; reflexivity.
  - destruct O; discriminate.
Qed.

(** intermediate *)
Lemma intermediate_inside : forall x m l u : FN, ffinite l = true -> ffinite u = true -> fle l m = true -> fle m u = true ->
  ffinite (fadd m l) = true -> ffinite (fadd m u) = true -> fisnan x = false ->
  fle l (intermediate_el x m l u) = true /\ fle (intermediate_el x m l u) u = true.
Proof.
  intros x m l u Fl Fu M1 M2 S1 S2 Nx. unfold intermediate_el, lower, greater. cbn [nlt nmul ndec nadd F64num].
  destruct dec_half as [Eh Fh]. assert (Fm : ffinite m = true) by (eapply fle_between; eauto).
  destruct (flt x l) eqn:A; destruct (flt u x) eqn:B; cbv zeta.
  - exfalso. forder.
  - pose proof (fadd_round m l Fm Fl) as R. rewrite Rplus_comm in R.
    destruct (midpoint_in l m _ Fl Fm M1 R S1 _ Eh Fh). split; forder.
  - pose proof (fadd_round m u Fm Fu) as R.
    destruct (midpoint_in m u _ Fm Fu M2 R S2 _ Eh Fh). split; forder.
  - apply finite_notnan in Fl, Fu. split; forder.
Qed.
