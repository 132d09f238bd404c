(** The bundled objectives in binary64 (C66). *)
From Coq Require Import String ZArith List Arith Bool Reals Permutation Lra Lia Psatz.
From Flocq Require Import Core IEEE754.BinarySingleNaN.
From Verif Require Import Prelude ListFacts F64 F64Facts F64More Num Np NpFacts Handlers Swarms Operators Generators Topology Optimizers Spec SpecHandlers SpecDyn SpecRun
  RunFacts BinFacts GenFacts Tame Objectives SpecObj ObjFacts.
Import ListNotations.
Local Open Scope string_scope.
Local Open Scope list_scope.
Local Open Scope R_scope.

(** *** Bounds that survive rounding *)
Lemma nan_add : forall x y, fisnan x = true \/ fisnan y = true -> fisnan (fadd x y) = true.
Proof. intros [s|s| |s m e B] [s'|s'| |s' m' e' B'] [H|H]; try discriminate; reflexivity. Qed.
Lemma nan_sub : forall x y, fisnan x = true \/ fisnan y = true -> fisnan (fsub x y) = true.
Proof. intros [s|s| |s m e B] [s'|s'| |s' m' e' B'] [H|H]; try discriminate; reflexivity. Qed.
Lemma nan_mul : forall x y, fisnan x = true \/ fisnan y = true -> fisnan (fmul x y) = true.
Proof. intros [s|s| |s m e B] [s'|s'| |s' m' e' B'] [H|H]; try discriminate; reflexivity. Qed.
Lemma nan_div : forall x y, fisnan x = true \/ fisnan y = true -> fisnan (fdiv x y) = true.
Proof. intros [s|s| |s m e B] [s'|s'| |s' m' e' B'] [H|H]; try discriminate; reflexivity. Qed.
(** A float is NaN, infinite or finite. *)
Lemma cases : forall x, fisnan x = true \/ x = finf \/ x = fninf \/ (ffinite x = true /\ fkey x = FR x).
Proof. intros [s|[]| |s m e B]; auto; right; right; right; split; reflexivity. Qed.
Lemma below_cases : forall c x, ffinite c = true -> not_below c x -> fisnan x = true \/ x = finf \/ (ffinite x = true /\ FR c <= FR x).
Proof.
  intros c x C H. unfold not_below in H. destruct (cases x) as [N|[->|[->|[F K]]]]; auto.
  - exfalso. fkeys. rewrite fkey_fninf in H. pose proof (fkey_bound c C). pose proof bmax_pos. rewrite (finite_notnan _ C) in H.
    destruct H as [H|[H|H]]; try discriminate. lra.
  - right. right. split; auto. fkeys. rewrite (finite_notnan _ C), (finite_notnan _ F), K, (fkey_finite _ C) in H.
    destruct H as [H|[H|H]]; try discriminate; exact H.
Qed.
Lemma above_cases : forall c x, ffinite c = true -> not_above c x -> fisnan x = true \/ x = fninf \/ (ffinite x = true /\ FR x <= FR c).
Proof.
  intros c x C H. unfold not_above in H. destruct (cases x) as [N|[->|[->|[F K]]]]; auto.
  - exfalso. fkeys. rewrite fkey_finf in H. pose proof (fkey_bound c C). pose proof bmax_pos. rewrite (finite_notnan _ C) in H.
    destruct H as [H|[H|H]]; try discriminate. lra.
  - right. right. split; auto. fkeys. rewrite (finite_notnan _ C), (finite_notnan _ F), K, (fkey_finite _ C) in H.
    destruct H as [H|[H|H]]; try discriminate; exact H.
Qed.
Lemma nan_below : forall c x, fisnan x = true -> not_below c x.
Proof. intros c x N. unfold not_below. fkeys. auto. Qed.
Lemma nan_above : forall c x, fisnan x = true -> not_above c x.
Proof. intros c x N. unfold not_above. fkeys. auto. Qed.
Lemma inf_below : forall c, not_below c finf. Proof. intros c. apply nlt_finf. Qed.
Lemma ninf_above : forall c, not_above c fninf. Proof. intros c. apply nlt_fninf. Qed.
Lemma round_below_ : forall c r z, ffinite c = true -> is_round r z -> FR c <= r -> not_below c z.
Proof. intros c r z C R L. unfold not_below. pose proof (is_round_le_l _ _ _ R C L) as H. apply fle_nlt. exact H. Qed.
Lemma round_above_ : forall c r z, ffinite c = true -> is_round r z -> r <= FR c -> not_above c z.
Proof. intros c r z C R L. unfold not_above. pose proof (is_round_le_r _ _ _ R C L) as H. apply fle_nlt. exact H. Qed.
Lemma below_self : forall c, not_below c c. Proof. intros c. apply flt_irrefl. Qed.

Lemma below_add : forall a b c x y, ffinite a = true -> ffinite b = true -> ffinite c = true -> FR c <= FR a + FR b ->
  not_below a x -> not_below b y -> not_below c (fadd x y).
Proof.
  intros a b c x y A B C S X Y. destruct (below_cases _ _ A X) as [N|[->|[Fx Kx]]]; [apply nan_below, nan_add; auto| |];
    (destruct (below_cases _ _ B Y) as [N|[->|[Fy Ky]]]; [apply nan_below, nan_add; auto| |]).
  - apply inf_below.
  - destruct y; try discriminate; apply inf_below.
  - destruct x; try discriminate; apply inf_below.
  - apply (round_below_ _ _ _ C (fadd_round _ _ Fx Fy)). lra.
Qed.
Lemma below_sub : forall a b c x y, ffinite a = true -> ffinite b = true -> ffinite c = true -> FR c <= FR a - FR b ->
  not_below a x -> not_above b y -> not_below c (fsub x y).
Proof.
  intros a b c x y A B C S X Y. destruct (below_cases _ _ A X) as [N|[->|[Fx Kx]]]; [apply nan_below, nan_sub; auto| |];
    (destruct (above_cases _ _ B Y) as [N|[->|[Fy Ky]]]; [apply nan_below, nan_sub; auto| |]).
  - apply inf_below.
  - destruct y; try discriminate; apply inf_below.
  - destruct x; try discriminate; apply inf_below.
  - apply (round_below_ _ _ _ C (fsub_round _ _ Fx Fy)). lra.
Qed.
Lemma inf_mul : forall y, ffinite y = true -> 0 <= FR y -> fmul finf y = fnan \/ fmul finf y = finf.
Proof.
  intros [s|s| |s m e B] F P; try discriminate; [left; reflexivity|]. destruct s; [|right; reflexivity].
  exfalso. cbn in P. unfold F2R in P. cbn [Fnum Fexp cond_Zopp] in P. pose proof (bpow_gt_0 radix2 e).
  assert (IZR (Z.opp (Z.pos m)) < 0) by (apply IZR_lt; lia). apply (Rlt_not_le _ _ (Rmult_lt_compat_r _ _ _ H H0)). rewrite Rmult_0_l. exact P.
Qed.
Lemma mul_inf : forall x, ffinite x = true -> 0 <= FR x -> fmul x finf = fnan \/ fmul x finf = finf.
Proof.
  intros [s|s| |s m e B] F P; try discriminate; [left; reflexivity|]. destruct s; [|right; reflexivity].
  exfalso. cbn in P. unfold F2R in P. cbn [Fnum Fexp cond_Zopp] in P. pose proof (bpow_gt_0 radix2 e).
  assert (IZR (Z.opp (Z.pos m)) < 0) by (apply IZR_lt; lia). apply (Rlt_not_le _ _ (Rmult_lt_compat_r _ _ _ H H0)). rewrite Rmult_0_l. exact P.
Qed.
Lemma below_mul : forall a b c x y, ffinite a = true -> ffinite b = true -> ffinite c = true -> 0 <= FR a -> 0 <= FR b -> FR c <= FR a * FR b ->
  not_below a x -> not_below b y -> not_below c (fmul x y).
Proof.
  intros a b c x y A B C PA PB S X Y. destruct (below_cases _ _ A X) as [N|[->|[Fx Kx]]]; [apply nan_below, nan_mul; auto| |];
    (destruct (below_cases _ _ B Y) as [N|[->|[Fy Ky]]]; [apply nan_below, nan_mul; auto| |]).
  - apply inf_below.
  - destruct (inf_mul y Fy) as [->| ->]; [lra|apply nan_below; reflexivity|apply inf_below].
  - destruct (mul_inf x Fx) as [->| ->]; [lra|apply nan_below; reflexivity|apply inf_below].
  - apply (round_below_ _ _ _ C (fmul_round _ _ Fx Fy)). nra.
Qed.
Lemma below_sqr : forall x, not_below fzero (fmul x x).
Proof.
  intros x. destruct (cases x) as [N|[->|[->|[F K]]]]; [apply nan_below, nan_mul; auto|apply inf_below|apply inf_below|].
  apply (round_below_ fzero _ _ eq_refl (fmul_round _ _ F F)). rewrite fzero_R. nra.
Qed.
Lemma below_abs : forall x, not_below fzero (fabs x).
Proof.
  intros x. destruct (cases x) as [N|[->|[->|[F K]]]].
  - apply nan_below. destruct x; try discriminate; reflexivity.
  - apply inf_below.
  - apply inf_below.
  - unfold not_below. fkeys. right. right. rewrite (fkey_finite fzero), (fkey_finite (fabs x)), fzero_R; auto.
    + unfold fabs. rewrite B2R_Babs. apply Rabs_pos.
    + unfold ffinite, fabs. rewrite is_finite_Babs. exact F.
Qed.
Lemma fofZ_exact : forall n, (Z.abs n <= 2 ^ 53)%Z -> ffinite (fofZ n) = true /\ FR (fofZ n) = IZR n.
Proof.
  intros n N. pose proof (fofZe_round n 0) as R. change (fofZe n 0) with (fofZ n) in R.
  assert (V : F2R (Float radix2 n 0) = IZR n) by (unfold F2R; cbn; lra). rewrite V in R.
  assert (G : rnd (IZR n) = IZR n).
  { apply round_generic; [apply valid_rnd_N|]. replace (IZR n) with (IZR n * bpow radix2 0) by (cbn; lra). apply pow_format; lia. }
  destruct R as [R _]. rewrite G in R. apply R. rewrite <- abs_IZR.
  apply Rle_lt_trans with (bpow radix2 53); [change (bpow radix2 53) with (IZR (2 ^ 53)); apply IZR_le; lia|]. apply bpow_lt. reflexivity.
Qed.
Lemma fm1_R : FR (fofZ (-1)) = -1.
Proof. apply (fofZ_exact (-1)). lia. Qed.
Lemma neg_mul : forall x, not_below fzero x -> not_above fzero (fmul (fofZ (-1)) x).
Proof.
  intros x X. destruct (below_cases fzero _ eq_refl X) as [N|[->|[F K]]].
  - apply nan_above, nan_mul; auto.
  - unfold not_above. vm_compute. reflexivity.
  - apply (round_above_ fzero _ _ eq_refl (fmul_round (fofZ (-1)) x eq_refl F)). rewrite fzero_R in *. rewrite fm1_R. lra.
Qed.
(** Magnitude at most 1. *)
Definition unitary (x : f64) : Prop := not_below (fofZ (-1)) x /\ not_above fone x.
Lemma unitary_cases : forall x, unitary x -> fisnan x = true \/ (ffinite x = true /\ -1 <= FR x <= 1).
Proof.
  intros x [L U]. destruct (below_cases (fofZ (-1)) _ eq_refl L) as [N|[->|[F K]]]; auto.
  - destruct (above_cases fone _ eq_refl U) as [N|[->|[_ K']]]; auto. right. rewrite fm1_R in K. rewrite fone_R in K'. auto.
Qed.
Lemma unitary_mul : forall x y, unitary x -> unitary y -> unitary (fmul x y).
Proof.
  intros x y X Y. destruct (unitary_cases _ X) as [N|[Fx Kx]]; [split; [apply nan_below|apply nan_above]; apply nan_mul; auto|].
  destruct (unitary_cases _ Y) as [N|[Fy Ky]]; [split; [apply nan_below|apply nan_above]; apply nan_mul; auto|].
  pose proof (fmul_round _ _ Fx Fy) as R. split.
  - apply (round_below_ (fofZ (-1)) _ _ eq_refl R). rewrite fm1_R. nra.
  - apply (round_above_ fone _ _ eq_refl R). rewrite fone_R. nra.
Qed.
Lemma below_trans : forall a b x, ffinite b = true -> fle a b = true -> not_below b x -> not_below a x.
Proof. intros a b x B L H. unfold not_below in *. destruct (flt x a) eqn:E; auto. exfalso. pose proof (flt_le_trans _ _ _ E L). congruence. Qed.

Lemma above_mul10 : forall x, unitary x -> not_above (fofZ 10) (fmul (fofZ 10) x).
Proof.
  intros x X. destruct (unitary_cases _ X) as [N|[F K]]; [apply nan_above, nan_mul; auto|].
  apply (round_above_ (fofZ 10) _ _ eq_refl (fmul_round (fofZ 10) x eq_refl F)).
  assert (E : FR (fofZ 10) = 10) by (apply (fofZ_exact 10); lia).
  rewrite E. lra.
Qed.
Lemma div_below : forall a x y, ffinite a = true -> FR a <= 0 -> not_below a x -> not_below fone y -> not_below a (fdiv x y).
Proof.
  intros a x y A P X Y. destruct (below_cases fone y eq_refl Y) as [N|[->|[Fy Ky]]]; [apply nan_below, nan_div; auto| |];
    (destruct (below_cases a x A X) as [N|[->|[Fx Kx]]]; [apply nan_below, nan_div; auto| |]).
  - apply nan_below. reflexivity.
  - assert (Z : exists s, fdiv x finf = B754_zero s) by (destruct x; try discriminate; eexists; reflexivity). destruct Z as [s ->].
    unfold not_below. fkeys. right. right. rewrite (fkey_finite a A). exact P.
  - rewrite fone_R in Ky. destruct y as [s|s| |s m e B]; try discriminate. destruct s; [|apply inf_below].
    exfalso. cbn in Ky. unfold F2R in Ky. cbn [Fnum Fexp cond_Zopp] in Ky. pose proof (bpow_gt_0 radix2 e) as G.
    assert (H0 : IZR (Z.opp (Z.pos m)) < 0) by (apply IZR_lt; lia). pose proof (Rmult_lt_compat_r _ _ _ G H0) as Q. rewrite Rmult_0_l in Q.
    apply (Rlt_irrefl 0). apply Rlt_trans with 1; [lra|]. eapply Rle_lt_trans; [exact Ky|exact Q].
  - rewrite fone_R in Ky. assert (NZ : FR y <> 0) by lra. apply (round_below_ a _ _ A (fdiv_round x y Fx Fy NZ)).
    assert (I : 0 < / FR y <= 1). { split; [apply Rinv_0_lt_compat; lra|]. rewrite <- Rinv_1. apply Rinv_le_contravar; lra. }
    unfold Rdiv. destruct (Rle_or_lt 0 (FR x)) as [L|L]; [|nra]. apply Rle_trans with 0; [exact P|]. apply Rmult_le_pos; lra.
Qed.
Lemma same_SF : forall a b : f64, B2SF a = B2SF b -> FR a = FR b.
Proof. intros a b H. rewrite (FR_SF a _ H). symmetry. apply FR_SF. reflexivity. Qed.
(** Sums *)
Lemma tree_below0 : forall l, (forall x, In x l -> not_below fzero x) -> forall t, not_below fzero (tree_sum t l).
Proof.
  intros l H. induction t as [i|a IHa b IHb]; cbn [tree_sum].
  - destruct (nth_in_or_default i l fzero) as [I| ->]; [apply H; exact I|apply below_self].
  - apply (below_add fzero fzero fzero); auto. rewrite fzero_R. lra.
Qed.
Lemma tree_below10 : forall l t, (10 * Z.of_nat (length (leaves t)) <= 2 ^ 53)%Z -> (forall i, In i (leaves t) -> not_below (fofZ (-10)) (nth i l fzero)) ->
  not_below (fofZ (-10 * Z.of_nat (length (leaves t)))) (tree_sum t l).
Proof.
  intros l. induction t as [i|a IHa b IHb]; intros K H; cbn [tree_sum leaves] in *.
  - apply H. left. reflexivity.
  - rewrite app_length, Nat2Z.inj_add in *. set (p := Z.of_nat (length (leaves a))) in *. set (q := Z.of_nat (length (leaves b))) in *.
    assert (0 <= p /\ 0 <= q)%Z by (unfold p, q; lia).
    destruct (fofZ_exact (-10 * p)) as [Fa Ra]; [lia|]. destruct (fofZ_exact (-10 * q)) as [Fb Rb]; [lia|].
    destruct (fofZ_exact (-10 * (p + q))) as [Fc Rc]; [lia|].
    apply (below_add (fofZ (-10 * p)) (fofZ (-10 * q))); auto.
    + rewrite Ra, Rb, Rc, <- plus_IZR. apply IZR_le. lia.
    + apply IHa; [lia|]. intros i I. apply H. apply in_or_app. left. exact I.
    + apply IHb; [lia|]. intros i I. apply H. apply in_or_app. right. exact I.
Qed.

Section Floor.
Variable m : mathlib F64num.
Hypothesis M : libm_range m.
Lemma sum_below0 : forall l : list F64num, (forall x, In x l -> not_below fzero x) -> not_below fzero (m_sum m l).
Proof.
  intros l H. destruct M as (_ & _ & _ & _ & _ & Z & T). destruct l as [|x l]; [rewrite Z; apply below_self|].
  destruct (T (x :: l)) as (t & _ & ->); [discriminate|]. apply tree_below0. exact H.
Qed.
Lemma add0 : forall x y, not_below fzero x -> not_below fzero y -> not_below fzero (fadd x y).
Proof. intros x y. apply (below_add fzero fzero fzero); try reflexivity. rewrite fzero_R. lra. Qed.
Lemma mul0 : forall x y, not_below fzero x -> not_below fzero y -> not_below fzero (fmul x y).
Proof. intros x y. apply (below_mul fzero fzero fzero); try reflexivity; rewrite fzero_R; lra. Qed.
Lemma sqrt0 : forall x, not_below fzero (m_sqrt m x). Proof. apply M. Qed.
Ltac floor0 := lazymatch goal with
  | |- not_below fzero (fadd _ _) => apply add0; floor0
  | |- not_below fzero (fmul ?x ?x) => apply (below_sqr x)
  | |- not_below fzero (fmul _ _) => apply mul0; floor0
  | |- not_below fzero (m_sqrt _ _) => apply sqrt0
  | |- not_below fzero (fabs _) => apply below_abs
  | |- not_below fzero (fofZ _) => unfold not_below; vm_compute; reflexivity
  | |- not_below fzero (fdec _ _) => unfold not_below; vm_compute; reflexivity
  | _ => idtac end.

Lemma levi_floor : forall r, not_below fzero (levi_row m r).
Proof.
  intros r. unfold levi_row, sqr. cbn [nadd nsub nmul ndiv nofZ F64num T].
  apply add0; [apply add0; [apply below_sqr|apply mul0; [|floor0]]|apply mul0; [apply below_sqr|floor0]].
  apply sum_below0. intros x [<-|[<-|[]]]; [apply below_sqr|floor0].
Qed.
Lemma easom_floor : forall r, not_below (fofZ (-1)) (easom_row m r).
Proof.
  intros r. unfold easom_row, sqr. cbn [nadd nsub nmul ndiv nofZ F64num T].
  destruct M as (_ & C & E0 & E1 & _). apply unitary_mul; [apply unitary_mul; [apply unitary_mul|]|].
  - split; unfold not_below, not_above; vm_compute; reflexivity.
  - apply C.
  - apply C.
  - split; [|apply E1, neg_mul, add0; apply below_sqr]. apply (below_trans _ fzero); [reflexivity|vm_compute; reflexivity|apply E0].
Qed.
Lemma schaffer_floor : forall r, not_below fzero (schaffer2_row m r).
Proof.
  intros r. unfold schaffer2_row, sqr. cbn [nadd nsub nmul ndiv nofZ ndec F64num T].
  assert (H5 : FR (fdec 5 10) = / 2) by (rewrite <- fhalf_R; apply same_SF; vm_compute; reflexivity).
  assert (G5 : FR (fdec (-5) 10) = - / 2) by (rewrite <- fhalf_R, <- fopp_R; apply same_SF; vm_compute; reflexivity).
  apply (below_add (fdec 5 10) (fdec (-5) 10) fzero); [vm_compute; reflexivity|vm_compute; reflexivity|reflexivity|rewrite H5, G5, fzero_R; lra|apply below_self|].
  apply div_below; [vm_compute; reflexivity|rewrite G5; lra| |].
  - apply (below_sub fzero (fdec 5 10)); [reflexivity|vm_compute; reflexivity|vm_compute; reflexivity|rewrite H5, G5, fzero_R; lra|apply below_sqr|apply below_self].
  - assert (B1 : not_below fone (fadd (fofZ 1) (fmul (fdec 1 1000) (fadd (fmul (col 0 r) (col 0 r)) (fmul (col 1 r) (col 1 r)))))).
    { apply (below_add fone fzero fone); [reflexivity|reflexivity|reflexivity|rewrite fone_R, fzero_R; lra|apply below_self|floor0]. }
    apply (below_mul fone fone fone); try reflexivity; auto; rewrite fone_R; lra.
Qed.
Lemma rastrigin_floor : forall d r, length r = d -> (10 * Z.of_nat d <= 2 ^ 53)%Z -> not_below fzero (rastrigin_row m d r).
Proof.
  intros d r L K. unfold rastrigin_row. cbn [nadd nsub nmul nofZ F64num T].
  match goal with |- context [m_sum m ?v] => set (l := v) end. assert (LL : length l = d) by (unfold l; rewrite map_length; exact L).
  destruct (fofZ_exact (Z.of_nat d)) as [Fd Rd]; [lia|]. destruct (fofZ_exact (-10 * Z.of_nat d)) as [Fn Rn]; [lia|].
  destruct (fofZ_exact 10) as [F10 R10]; [lia|]. destruct (fofZ_exact (10 * Z.of_nat d)) as [Fp Rp]; [lia|].
  apply (below_add (fofZ (10 * Z.of_nat d)) (fofZ (-10 * Z.of_nat d)) fzero); auto.
  - rewrite Rp, Rn, fzero_R, <- plus_IZR. apply IZR_le. lia.
  - apply (round_below_ _ _ _ Fp (fmul_round _ _ F10 Fd)). rewrite R10, Rd, Rp, <- mult_IZR. lra.
  - destruct M as (_ & C & _ & _ & _ & Z0 & TS).
    assert (E : forall x, In x l -> not_below (fofZ (-10)) x).
    { intros x I. unfold l in I. apply in_map_iff in I. destruct I as (y & <- & _). unfold sqr. cbn [nmul F64num].
      destruct (fofZ_exact (-10)) as [F R]; [lia|]. apply (below_sub fzero (fofZ 10)); auto; [rewrite R, R10, fzero_R; lra|apply below_sqr|].
      apply above_mul10. apply C. }
    clearbody l. destruct (length l) as [|k] eqn:LK.
    + destruct l; [|discriminate]. rewrite <- LL. cbn [T F64num] in *. rewrite Z0. vm_compute. reflexivity.
    + destruct (TS l) as (t & P & S); [intros ->; discriminate|]. rewrite S.
      assert (Q : length (leaves t) = d) by (rewrite (Permutation_length P), seq_length; exact (eq_trans LK LL)).
      rewrite <- Q. apply tree_below10; [rewrite Q; exact K|]. intros i I. apply E, nth_In.
      apply (Permutation_in _ P) in I. apply in_seq in I. exact (proj2 I).
Qed.
Lemma floor_row : forall name d r z, float_floor name = Some z -> length r = d -> (10 * Z.of_nat d <= 2 ^ 53)%Z -> In name (map fst (bundled m)) ->
  not_below (fofZ z) (row_value m name d r).
Proof.
  intros name d r z FF L K I. cbn in I.
  repeat match type of I with _ \/ _ => destruct I as [<-|I] end; try discriminate FF; try destruct I; injection FF as <-;
    unfold row_value; cbn [String.eqb Ascii.eqb Bool.eqb]; try change (fofZ 0) with fzero.
  - unfold beale_row, sqr. cbn [nadd nsub nmul nofZ ndec F64num T]. floor0.
  - unfold booth_row, sqr. cbn [nadd nsub nmul nofZ ndec F64num T]. floor0.
  - unfold bukin6_row, sqr. cbn [nadd nsub nmul nabs nofZ ndec F64num T]. floor0.
  - apply easom_floor.
  - unfold himmelblau_row, sqr. cbn [nadd nsub nmul nofZ ndec F64num T]. floor0.
  - apply levi_floor.
  - apply rastrigin_floor; auto.
  - unfold rosenbrock_row. apply sum_below0. intros x I.
    assert (G : forall a b : list F64num, In x (map2 (fun b a : F64num => nadd (nmul (nofZ 100) (sqr (nsub b (sqr a)))) (sqr (nsub (nofZ 1) a))) a b) -> not_below fzero x).
    { induction a as [|u a IH]; intros [|v b] H; [destruct H|destruct H|destruct H|]. destruct H as [<-|H]; [|exact (IH b H)]. unfold sqr. cbn [nadd nsub nmul nofZ F64num T]. floor0. }
    exact (G _ _ I).
  - apply schaffer_floor.
  - unfold sphere_row. apply sum_below0. intros x I. apply in_map_iff in I. destruct I as (y & <- & _). apply below_sqr.
Qed.
End Floor.
Lemma floor_claim : forall (m : mathlib F64num) name f n d X cs z, In (name, f) (bundled m) -> libm_range m -> float_floor name = Some z ->
  is_matrix n d X -> (10 * Z.of_nat d <= 2 ^ 53)%Z -> f d X = Ok cs -> forall i c, nth_error cs i = Some c -> flt c (fofZ z) = false.
Proof.
  intros m name f n d X cs z I M FF S K E i c C. rewrite (bundled_shape m name f I) in E.
  destruct (negb (any_dimension name) && negb (Nat.eqb d 2)); [discriminate|]. destruct (negb (forallb (row_ok name d) X)); [discriminate|].
  destruct (String.eqb name "ackley" && Nat.eqb d 0); [discriminate|]. injection E as <-.
  destruct (nth_map_inv _ _ _ _ _ _ C) as (r & R & ->).
  apply (floor_row m M); auto.
  - destruct S as [_ S]. rewrite Forall_forall in S. apply S. eapply nth_error_In; eauto.
  - apply in_map_iff. exists (name, f). auto.
Qed.

(** *** Exact values *)
Definition near_zero (x : f64) : Prop := feq x fzero = true.
Lemma zero_cases : forall x, near_zero x -> exists s, x = B754_zero s.
Proof.
  intros [s|s| |s m e B] H; try (destruct s; discriminate H); [eauto|discriminate H].
Qed.
Lemma zero_add : forall x y, near_zero x -> near_zero y -> near_zero (fadd x y).
Proof. intros x y X Y. destruct (zero_cases x X) as [s ->]. destruct (zero_cases y Y) as [s' ->]. destruct s, s'; reflexivity. Qed.
Lemma tree_zero : forall l, (forall x, In x l -> near_zero x) -> forall t, near_zero (tree_sum t l).
Proof.
  intros l H. induction t as [i|a IHa b IHb]; cbn [tree_sum].
  - destruct (nth_in_or_default i l fzero) as [I| ->]; [apply H; exact I|reflexivity].
  - apply zero_add; auto.
Qed.
Lemma tree_ten : forall l t, (10 * Z.of_nat (length (leaves t)) <= 2 ^ 53)%Z -> (forall i, In i (leaves t) -> ffinite (nth i l fzero) = true /\ FR (nth i l fzero) = -10) ->
  ffinite (tree_sum t l) = true /\ FR (tree_sum t l) = IZR (-10 * Z.of_nat (length (leaves t))).
Proof.
  intros l. induction t as [i|a IHa b IHb]; intros K H; cbn [tree_sum leaves] in *.
  - apply H. left. reflexivity.
  - rewrite app_length, Nat2Z.inj_add in *. set (p := Z.of_nat (length (leaves a))) in *. set (q := Z.of_nat (length (leaves b))) in *.
    assert (PQ : (0 <= p /\ 0 <= q)%Z) by (unfold p, q; lia).
    destruct IHa as [Fa Ra]; [lia|intros i I; apply H; apply in_or_app; left; exact I|].
    destruct IHb as [Fb Rb]; [lia|intros i I; apply H; apply in_or_app; right; exact I|].
    destruct (fofZ_exact (-10 * (p + q))) as [Fc Rc]; [lia|]. pose proof (fadd_round _ _ Fa Fb) as R.
    rewrite Ra, Rb, <- plus_IZR in R. replace (-10 * p + -10 * q)%Z with (-10 * (p + q))%Z in R by lia.
    rewrite <- Rc in R. destruct R as [R _]. rewrite rnd_id in R. destruct (R (abs_B2R_lt_emax prec emax _)) as [F E]. split; [exact F|]. rewrite E. exact Rc.
Qed.
Lemma map_rep : forall A B (f : A -> B) a n, map f (repeat a n) = repeat (f a) n.
Proof. induction n as [|n IH]; cbn; [reflexivity|]. rewrite IH. reflexivity. Qed.
Lemma in_removelast : forall A (y : A) l, In y (removelast l) -> In y l.
Proof. induction l as [|a l IH]; [intros []|]. destruct l as [|b l]; [intros []|]. intros [<-|H]; [left; reflexivity|]. right. apply IH. exact H. Qed.
Section Values.
Variable m : mathlib F64num.
Hypothesis M : libm_values m.
Lemma sum_zero : forall l : list F64num, (forall x, In x l -> near_zero x) -> near_zero (m_sum m l).
Proof.
  intros l H. destruct M as (_ & _ & _ & _ & _ & _ & _ & _ & _ & Z0 & TS). destruct l as [|x l]; [rewrite Z0; reflexivity|].
  destruct (TS (x :: l)) as (t & _ & ->); [discriminate|]. apply tree_zero. exact H.
Qed.
Lemma exact_row : forall name d p z, float_documented m name d p z -> feq (row_value m name d p) (fofZ z) = true.
Proof.
  intros name d p z D. destruct M as (MP & S0 & C0 & CP & E0 & Q0 & P4 & P6 & P3 & Z0 & TS).
  destruct D; unfold row_value; cbn [String.eqb Ascii.eqb Bool.eqb].
  - unfold beale_row, pw. cbn [col nth nadd nsub nmul nofZ ndec F64num T]. rewrite P3. vm_compute. reflexivity.
  - vm_compute. reflexivity.
  - unfold bukin6_row. cbn [col nth nadd nsub nmul nabs nofZ ndec F64num T].
    assert (E : fabs (fsub (fofZ 1) (fmul (fdec 1 100) (sqr (N := F64num) (fofZ (-10))))) = fzero) by (vm_compute; reflexivity). rewrite E, Q0. vm_compute. reflexivity.
  - unfold easom_row. cbn [col nth nadd nsub nmul nabs nofZ ndec F64num T]. rewrite CP, MP.
    assert (E : feq (fmul (fofZ (-1)) (fadd (sqr (N := F64num) (fsub (fofZe 884279719003555 (-48)) (fofZe 884279719003555 (-48)))) (sqr (N := F64num) (fsub (fofZe 884279719003555 (-48)) (fofZe 884279719003555 (-48)))))) fzero = true) by (vm_compute; reflexivity).
    rewrite (E0 _ E). vm_compute. reflexivity.
  - vm_compute. reflexivity.
  - vm_compute. reflexivity.
  - vm_compute. reflexivity.
  - unfold rastrigin_row. cbn [nadd nsub nmul nabs nofZ ndec F64num T].
    set (v := fsub (sqr (N := F64num) fzero) (fmul (fofZ 10) fone)).
    assert (MV : map (fun x : F64num => fsub (sqr x) (fmul (fofZ 10) (m_cos m (fmul (fmul (fofZ 2) (m_pi m)) x)))) (repeat (fzero : F64num) d) = repeat (v : F64num) d).
    { rewrite map_rep. f_equal. unfold v. assert (E : fmul (fmul (fofZ 2) (m_pi m)) fzero = fzero) by (rewrite MP; vm_compute; reflexivity). rewrite E, C0. reflexivity. }
    cbn [T F64num] in *. rewrite MV.
    assert (V : ffinite v = true /\ FR v = -10).
    { split; [vm_compute; reflexivity|]. rewrite <- (proj2 (fofZ_exact (-10) ltac:(lia))). apply same_SF. vm_compute. reflexivity. }
    destruct (fofZ_exact (Z.of_nat d)) as [Fd Rd]; [lia|]. destruct (fofZ_exact 10) as [F10 R10]; [lia|].
    destruct (fofZ_exact (10 * Z.of_nat d)) as [Fp Rp]; [lia|]. pose proof (fmul_round _ _ F10 Fd) as RM.
    rewrite R10, Rd, <- mult_IZR, <- Rp in RM. destruct RM as [RM _]. rewrite rnd_id in RM. destruct (RM (abs_B2R_lt_emax prec emax _)) as [Fm Em].
    assert (SM : ffinite (m_sum m (repeat v d)) = true /\ FR (m_sum m (repeat v d)) = IZR (-10 * Z.of_nat d)).
    { destruct d as [|d]; [cbn [repeat]; rewrite Z0; split; reflexivity|]. destruct (TS (repeat v (S d))) as (t & P & ->); [discriminate|].
      assert (Q : length (leaves t) = S d) by (rewrite (Permutation_length P), seq_length, repeat_length; reflexivity).
      rewrite <- Q at 3. apply tree_ten; [rewrite Q; exact H|]. intros i I. apply (Permutation_in _ P) in I. apply in_seq in I. rewrite repeat_length in I.
      assert (J : nth i (repeat v (S d)) fzero = v) by (apply nth_error_nth, repeat_nth; exact (proj2 I)). cbn [T F64num] in *. rewrite J. exact V. }
    destruct SM as [Fs Es]. pose proof (fadd_round _ _ Fm Fs) as RA. rewrite Em, Rp, Es, <- plus_IZR in RA.
    replace (10 * Z.of_nat d + -10 * Z.of_nat d)%Z with 0%Z in RA by lia. destruct RA as [RA _]. rewrite rnd_0, Rabs_R0 in RA. destruct (RA bmax_pos) as [FA EA].
    apply feq_fin; auto.
  - unfold rosenbrock_row. apply sum_zero. intros x I.
    assert (G : forall a b : list F64num, (forall y, In y a -> y = fone) -> (forall y, In y b -> y = fone) ->
       In x (map2 (fun b a : F64num => nadd (nmul (nofZ 100) (sqr (nsub b (sqr a)))) (sqr (nsub (nofZ 1) a))) a b) -> near_zero x).
    { induction a as [|u a IH]; intros [|v b] A B H; [destruct H|destruct H|destruct H|]. destruct H as [<-|H].
      - rewrite (A u), (B v) by (left; reflexivity). vm_compute. reflexivity.
      - apply (IH b); auto; intros y Y; [apply A|apply B]; right; exact Y. }
    apply (G _ _) in I; auto.
    + intros y Y. apply (repeat_spec d fone). destruct d; [destruct Y|]. right. exact Y.
    + intros y Y. apply (repeat_spec d fone). apply in_removelast. exact Y.
  - unfold schaffer2_row. cbn [col nth nadd nsub nmul nabs nofZ ndec F64num T].
    assert (E : fsub (sqr (N := F64num) fzero) (sqr (N := F64num) fzero) = fzero) by (vm_compute; reflexivity). rewrite E, S0. vm_compute. reflexivity.
  - unfold sphere_row. apply sum_zero. intros x I. apply in_map_iff in I. destruct I as (y & <- & Y). apply repeat_spec in Y. subst y. vm_compute. reflexivity.
  - unfold threehump_row, pw. cbn [col nth nadd nsub nmul nabs nofZ ndec ndiv F64num T]. rewrite P4, P6. vm_compute. reflexivity.
Qed.
End Values.
Lemma forallb_rep : forall A (f : A -> bool) a n, f a = true -> forallb f (repeat a n) = true.
Proof. intros A f a n H. induction n as [|n IH]; cbn; [reflexivity|]. rewrite H. exact IH. Qed.
Lemma exact_domain : forall (m : mathlib F64num) name d p z, libm_values m -> float_documented m name d p z ->
  row_ok (N := F64num) name d p = true /\ negb (any_dimension name) && negb (Nat.eqb d 2) = false /\ String.eqb name "ackley" = false.
Proof.
  intros m name d p z M D. destruct M as (MP & _). split; [|destruct D; split; reflexivity].
  destruct D; try rewrite MP;
    lazymatch goal with
    | |- context [repeat fzero _] => unfold row_ok; cbn [String.eqb Ascii.eqb Bool.eqb orb];
        lazymatch goal with |- true = true => reflexivity | _ => apply forallb_rep; vm_compute; reflexivity end
    | |- context [repeat fone _] => reflexivity
    | _ => vm_compute; reflexivity
    end.
Qed.
Lemma exact_claim : forall (m : mathlib F64num) name f d p z, In (name, f) (bundled m) -> libm_values m -> float_documented m name d p z ->
  exists c, f d [p] = Ok [c] /\ feq c (fofZ z) = true.
Proof.
  intros m name f d p z I M D. destruct (exact_domain m name d p z M D) as (A & B & C).
  exists (row_value m name d p). split; [|apply exact_row; auto].
  rewrite (bundled_shape m name f I). cbn [forallb map]. unfold frow in *. cbn [T F64num] in *. rewrite B, A, C. reflexivity.
Qed.

(** *** Where binary64 misses the documented minimum *)
Lemma bundled_name : forall (m : mathlib F64num) name f g, In (name, f) (bundled m) -> In (name, g) (bundled m) -> f = g.
Proof.
  intros m name f g I J. cbn [bundled In] in I, J.
  repeat match type of I with _ \/ _ => destruct I as [I|I] end; try exact (False_ind _ I);
    pose proof (f_equal fst I) as I1; pose proof (f_equal snd I) as I2; cbn [fst snd] in I1, I2; clear I; subst name f;
    repeat match type of J with _ \/ _ => destruct J as [J|J] end; try exact (False_ind _ J);
    pose proof (f_equal fst J) as J1; cbn [fst] in J1; first [discriminate J1|exact (f_equal snd J)].
Qed.
Lemma goldstein_test : match goldstein (N := F64num) 2%nat [[fofZe 1 (-27); fofZe (1 - 2 ^ 27) (-27)]] with Ok [c] => flt c (fofZ 3) | _ => false end = true.
Proof. vm_compute. reflexivity. Qed.
Lemma one_cost : forall (r : res (list F64num)) (P : f64 -> bool), match r with Ok [c] => P c | _ => false end = true -> exists c, r = Ok [c] /\ P c = true.
Proof. intros [[|c [|c' l]]|x] P H; try discriminate. exists c. split; [reflexivity|exact H]. Qed.
Lemma goldstein_lower : forall (m : mathlib F64num) f, In ("goldstein", f) (bundled m) ->
  exists x y c, f 2%nat [[x; y]] = Ok [c] /\ flt c (fofZ 3) = true.
Proof.
  intros m f I. rewrite (bundled_name m "goldstein" f goldstein I) by (unfold bundled; do 7 right; left; reflexivity).
  exists (fofZe 1 (-27)), (fofZe (1 - 2 ^ 27) (-27)). apply (one_cost (goldstein (N := F64num) 2%nat [[fofZe 1 (-27); fofZe (1 - 2 ^ 27) (-27)]]) (fun c => flt c (fofZ 3))). exact goldstein_test.
Qed.
Lemma same_f64 : forall a b : f64, B2SF a = B2SF b -> a = b. Proof. intros a b H. apply B2SF_inj. exact H. Qed.
Lemma two_tree : forall t, proper_sum t 2 -> exists i j, t = Node (Leaf i) (Leaf j) /\ (i < 2)%nat /\ (j < 2)%nat.
Proof.
  intros t P. pose proof (Permutation_length P) as L. cbn in L.
  assert (LP : forall t, (1 <= length (leaves t))%nat) by (induction t0; cbn; [lia|rewrite app_length; lia]).
  assert (L1 : forall t, length (leaves t) = 1%nat -> exists i, t = Leaf i).
  { intros [i|a b] H; eauto. cbn in H. rewrite app_length in H. pose proof (LP a). pose proof (LP b). lia. }
  destruct t as [i|a b]; [discriminate|]. cbn in L. rewrite app_length in L. pose proof (LP a) as La. pose proof (LP b) as Lb.
  destruct (L1 a) as [i ->]; [lia|]. destruct (L1 b) as [j ->]; [lia|]. exists i, j.
  assert (B : forall k, In k [i; j] -> (k < 2)%nat) by (intros k K; apply (Permutation_in _ P) in K; apply in_seq in K; lia).
  split; [reflexivity|]. split; apply B; cbn; auto.
Qed.
Lemma two_sum : forall (m : mathlib F64num) (x : F64num), (forall l, l <> [] -> exists t, proper_sum t (length l) /\ m_sum m l = tree_sum t l) ->
  m_sum m [x; x] = fadd x x.
Proof.
  intros m x TS. destruct (TS [x; x]) as (t & P & ->); [discriminate|]. destruct (two_tree t P) as (i & j & -> & I & J). cbn [tree_sum].
  destruct i as [|[|i]]; [| |lia]; (destruct j as [|[|j]]; [| |lia]); reflexivity.
Qed.
Lemma ackley_higher : forall (m : mathlib F64num) f, In ("ackley", f) (bundled m) -> libm_values m -> m_exp m fone = e64 ->
  exists c, f 2%nat [[fzero; fzero]] = Ok [c] /\ flt fzero c = true.
Proof.
  intros m f I M E1. rewrite (bundled_name m "ackley" f (ackley m) I) by (left; reflexivity).
  destruct M as (MP & S0 & C0 & CP & E0 & Q0 & P4 & P6 & P3 & Z0 & TS).
  exists (ackley_row m 2%nat [fzero; fzero]). split; [reflexivity|].
  unfold ackley_row. cbn [map nadd nsub nmul ndiv nofZ ndec F64num T].
  assert (A1 : fmul (fmul (fofZ 2) (m_pi m)) fzero = fzero) by (rewrite MP; vm_compute; reflexivity).
  rewrite A1, C0. pose proof (two_sum m (sqr (N := F64num) fzero) TS) as T1. pose proof (two_sum m fone TS) as T2. cbn [T F64num] in *. rewrite T1, T2.
  assert (A2 : fmul (fdiv (fofZ 1) (fofZ (Z.of_nat 2))) (fadd (sqr (N := F64num) fzero) (sqr (N := F64num) fzero)) = fzero) by (vm_compute; reflexivity).
  rewrite A2, Q0.
  assert (A3 : feq (fmul (fdec (-2) 10) fzero) fzero = true) by (vm_compute; reflexivity). rewrite (E0 _ A3).
  assert (A4 : fmul (fdiv (fofZ 1) (fofZ (Z.of_nat 2))) (fadd fone fone) = fone) by (apply same_f64; vm_compute; reflexivity).
  rewrite A4. change (m_exp m (fofZ 1)) with (m_exp m fone). rewrite E1. vm_compute. reflexivity.
Qed.
Lemma levi_higher : forall (m : mathlib F64num) f, In ("levi", f) (bundled m) -> libm_values m -> libm_range m -> m_sin m (m_pi m) = sinpi64 ->
  exists c, f 2%nat [[fone; fone]] = Ok [c] /\ feq c fzero = false.
Proof.
  intros m f I M R SP. rewrite (bundled_name m "levi" f (levi m) I) by (unfold bundled; do 10 right; left; reflexivity).
  exists (levi_row m [fone; fone]). split; [reflexivity|]. destruct M as (MP & _).
  assert (G : not_below (fmul sinpi64 sinpi64) (levi_row m [fone; fone])).
  { unfold levi_row, sqr. cbn [map col nth nadd nsub nmul ndiv nofZ ndec F64num T].
    assert (A1 : fmul (m_pi m) (fadd (fofZ 1) (fdiv (fsub fone (fofZ 1)) (fofZ 4))) = m_pi m) by (rewrite MP; apply same_f64; vm_compute; reflexivity).
    rewrite A1, SP.
    apply (below_add (fmul sinpi64 sinpi64) fzero); [vm_compute; reflexivity|reflexivity|vm_compute; reflexivity|rewrite fzero_R; lra| |].
    - apply (below_add (fmul sinpi64 sinpi64) fzero); [vm_compute; reflexivity|reflexivity|vm_compute; reflexivity|rewrite fzero_R; lra|apply below_self|].
      apply mul0; [apply (sum_below0 m R); intros x [<-|[<-|[]]]; [apply below_sqr|unfold not_below; vm_compute; reflexivity]|].
      apply add0; [unfold not_below; vm_compute; reflexivity|]. apply mul0; [unfold not_below; vm_compute; reflexivity|apply below_sqr].
    - apply mul0; [apply below_sqr|]. apply add0; [unfold not_below; vm_compute; reflexivity|apply below_sqr]. }
  assert (P : flt fzero (fmul sinpi64 sinpi64) = true) by (vm_compute; reflexivity).
  destruct (feq (levi_row m [fone; fone]) fzero) eqn:E; auto. exfalso. unfold not_below in G.
  assert (Q : flt (levi_row m [fone; fone]) (fmul sinpi64 sinpi64) = true); [|congruence].
  apply feq_spec in E. destruct E as (N1 & N2 & K). apply flt_spec in P. destruct P as (N3 & N4 & K'). apply flt_spec. repeat split; auto. rewrite K. exact K'.
Qed.
