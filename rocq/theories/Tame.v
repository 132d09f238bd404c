(** Magnitudes of binary64 results. *)
From Coq Require Import ZArith Bool Reals Lra Lia.
From Flocq Require Import Core IEEE754.BinarySingleNaN.
From Verif Require Import F64 F64Facts F64More SpecTame.
Local Open Scope R_scope.

Lemma pow_format : forall k m, (Z.abs k <= 2 ^ 53)%Z -> (-1074 <= m)%Z -> generic_format radix2 fexp64 (IZR k * bpow radix2 m).
Proof.
  intros k m K M. destruct (Z.eq_dec (Z.abs k) (2 ^ 53)) as [E|E].
  - assert (B : generic_format radix2 fexp64 (bpow radix2 (53 + m))).
    { apply generic_format_bpow. unfold SpecFloat.fexp, SpecFloat.emin, prec, emax. lia. }
    assert (Q : IZR (2 ^ 53) * bpow radix2 m = bpow radix2 (53 + m)). { rewrite bpow_plus. f_equal. }
    destruct (Z.abs_eq_or_opp k) as [A|A]; rewrite A in E.
    + rewrite E, Q. exact B.
    + replace k with (- 2 ^ 53)%Z by lia. rewrite opp_IZR, Ropp_mult_distr_l_reverse, Q. apply generic_format_opp. exact B.
  - apply generic_format_FLT. exists (Float radix2 k m); cbn; [reflexivity| |unfold prec, emax; lia]. unfold prec. lia.
Qed.
Lemma rnd_pow : forall k m, (Z.abs k <= 2 ^ 53)%Z -> (-1074 <= m)%Z -> rnd (IZR k * bpow radix2 m) = IZR k * bpow radix2 m.
Proof. intros. apply round_generic; auto with typeclass_instances. apply pow_format; auto. Qed.
Lemma rnd_abs_le : forall r k m, (0 <= k <= 2 ^ 53)%Z -> (-1074 <= m)%Z -> Rabs r <= IZR k * bpow radix2 m -> Rabs (rnd r) <= IZR k * bpow radix2 m.
Proof.
  intros r k m K M H. apply Rabs_le. apply Rabs_le_inv in H. split.
  - replace (- (IZR k * bpow radix2 m)) with (IZR (- k) * bpow radix2 m) by (rewrite opp_IZR; ring).
    rewrite <- (rnd_pow (- k) m) by lia. apply rnd_le. rewrite opp_IZR. lra.
  - rewrite <- (rnd_pow k m) by lia. apply rnd_le. lra.
Qed.
Lemma round_below : forall r z k m, is_round r z -> (0 <= k <= 2 ^ 53)%Z -> (-1074 <= m)%Z -> Rabs r <= IZR k * bpow radix2 m ->
  IZR k * bpow radix2 m < bmax -> ffinite z = true /\ Rabs (FR z) <= IZR k * bpow radix2 m.
Proof.
  intros r z k m H K M A B. pose proof (rnd_abs_le r k m K M A) as L. destruct H as [H _]. destruct H as [F E]; [lra|]. split; auto. rewrite E. exact L.
Qed.
Lemma within_round : forall r z e, is_round r z -> Rabs r <= bpow radix2 e -> (-1074 <= e < 1024)%Z -> within e z.
Proof.
  intros r z e H A E. replace (bpow radix2 e) with (IZR 1 * bpow radix2 e) in A by ring.
  destruct (round_below r z 1 e H) as [F L]; try lia; auto. { rewrite Rmult_1_l. apply bpow_lt. unfold emax. lia. }
  split; auto. rewrite Rmult_1_l in L. exact L.
Qed.
Lemma within_le : forall a b x, (a <= b)%Z -> within a x -> within b x.
Proof. intros a b x L [F A]. split; auto. eapply Rle_trans; [exact A|]. apply bpow_le. exact L. Qed.
Lemma within_fmul : forall a b x y, (-1074 <= a + b < 1024)%Z -> within a x -> within b y -> within (a + b) (fmul x y).
Proof.
  intros a b x y L [Fx Ax] [Fy Ay]. eapply within_round; [apply fmul_round; auto| |exact L].
  rewrite Rabs_mult, bpow_plus. apply Rmult_le_compat; auto using Rabs_pos.
Qed.
Lemma within_fadd : forall a x y, (-1075 <= a < 1023)%Z -> within a x -> within a y -> within (a + 1) (fadd x y).
Proof.
  intros a x y L [Fx Ax] [Fy Ay]. eapply within_round; [apply fadd_round; auto| |lia].
  rewrite bpow_plus. change (bpow radix2 1) with 2. eapply Rle_trans; [apply Rabs_triang|]. lra.
Qed.
Lemma within_fsub : forall a x y, (-1075 <= a < 1023)%Z -> within a x -> within a y -> within (a + 1) (fsub x y).
Proof.
  intros a x y L [Fx Ax] [Fy Ay]. eapply within_round; [apply fsub_round; auto| |lia].
  rewrite bpow_plus. change (bpow radix2 1) with 2. unfold Rminus. eapply Rle_trans; [apply Rabs_triang|]. rewrite Rabs_Ropp. lra.
Qed.
Lemma within_between : forall e l x u, within e l -> within e u -> fle l x = true -> fle x u = true -> within e x.
Proof.
  intros e l x u [Fl Al] [Fu Au] A B. assert (Fx : ffinite x = true) by (apply (fle_between l x u); auto). split; auto.
  apply (fle_fin l x Fl Fx) in A. apply (fle_fin x u Fx Fu) in B. apply Rabs_le. apply Rabs_le_inv in Al. apply Rabs_le_inv in Au. lra.
Qed.
Lemma within_unit : forall r, fle fzero r = true -> flt r fone = true -> within 0 r.
Proof.
  intros r A B. destruct (unit_draw r A B) as [F U]. split; auto. change (bpow radix2 0) with 1. apply Rabs_le. lra.
Qed.
Lemma raw_within : forall w c1 c2 r1 r2 x v p g, within 500 w -> within 500 c1 -> within 500 c2 -> within 0 r1 -> within 0 r2 ->
  within 500 x -> within 500 v -> within 500 p -> within 500 g ->
  within 1003 (fadd (fadd (fmul w v) (fmul (fmul c1 r1) (fsub p x))) (fmul (fmul c2 r2) (fsub g x))).
Proof.
  intros w c1 c2 r1 r2 x v p g W C1 C2 R1 R2 X V P G.
  assert (T : forall c r q, within 500 c -> within 0 r -> within 500 q -> within 1001 (fmul (fmul c r) (fsub q x))).
  { intros c r q C R Q. apply (within_fmul 500 501); [lia|apply (within_fmul 500 0); auto; lia|apply (within_fsub 500); auto; lia]. }
  apply (within_fadd 1002); [lia| |apply (within_le 1001); [lia|apply T; auto]].
  apply (within_fadd 1001); [lia| |apply T; auto]. apply (within_le 1000); [lia|]. apply (within_fmul 500 500); auto; lia.
Qed.

(** [x] is finite and at most [X] in magnitude. *)
Definition dom (x X : f64) : Prop := ffinite x = true /\ ffinite X = true /\ Rabs (FR x) <= FR X.
Lemma dom_round : forall r z R Z, is_round r z -> is_round R Z -> ffinite Z = true -> Rabs r <= R -> dom z Z.
Proof.
  intros r z R Z H H' F L. apply Rabs_le_inv in L. pose proof (is_round_finite_eq _ _ H' F) as E.
  assert (A1 : rnd r <= rnd R) by (apply rnd_le; lra).
  assert (A2 : - rnd R <= rnd r). { replace (- rnd R) with (rnd (- R)) by (unfold rnd; apply round_NE_opp). apply rnd_le. lra. }
  pose proof (FR_bound Z) as B. destruct H as [H _]. destruct H as [Fz Ez]. { apply Rabs_lt. lra. }
  split; auto. split; auto. rewrite Ez, E. apply Rabs_le. lra.
Qed.
Lemma dom_mul : forall x X y Y, dom x X -> dom y Y -> ffinite (fmul X Y) = true -> dom (fmul x y) (fmul X Y).
Proof.
  intros x X y Y (F1 & G1 & A1) (F2 & G2 & A2) F. eapply dom_round; [apply fmul_round; auto|apply fmul_round; auto|exact F|].
  rewrite Rabs_mult. apply Rmult_le_compat; auto using Rabs_pos.
Qed.
Lemma dom_add : forall x X y Y, dom x X -> dom y Y -> ffinite (fadd X Y) = true -> dom (fadd x y) (fadd X Y).
Proof.
  intros x X y Y (F1 & G1 & A1) (F2 & G2 & A2) F. eapply dom_round; [apply fadd_round; auto|apply fadd_round; auto|exact F|].
  eapply Rle_trans; [apply Rabs_triang|]. lra.
Qed.
Lemma dom_trans : forall x X Y, dom x X -> ffinite Y = true -> fle X Y = true -> dom x Y.
Proof. intros x X Y (F & G & A) FY L. split; auto. split; auto. apply (fle_fin X Y G FY) in L. lra. Qed.
Lemma dom_pos : forall x X, dom x X -> fle fzero X = true.
Proof. intros x X (F & G & A). apply (fle_fin fzero X eq_refl G). change (FR fzero) with 0. pose proof (Rabs_pos (FR x)). lra. Qed.
(** A finite sum of nonnegative numbers has finite terms. *)
Lemma add_finite : forall a b, fle fzero a = true -> fle fzero b = true -> ffinite (fadd a b) = true -> ffinite a = true /\ ffinite b = true.
Proof.
  intros a b A B F. destruct a as [sa|[]| |sa ma ea Ha]; try discriminate A; destruct b as [sb|[]| |sb mb eb Hb]; try discriminate B; try discriminate F; split; reflexivity.
Qed.
Lemma mul_pos : forall a b, fle fzero a = true -> fle fzero b = true -> ffinite a = true -> ffinite b = true -> fle fzero (fmul a b) = true.
Proof.
  intros a b A B Fa Fb. apply (fle_fin fzero _ eq_refl Fa) in A. apply (fle_fin fzero _ eq_refl Fb) in B. change (FR fzero) with 0 in *.
  apply (is_round_le_l _ _ fzero (fmul_round a b Fa Fb) eq_refl). change (FR fzero) with 0. apply Rmult_le_pos; auto.
Qed.
Lemma add_pos : forall a b, fle fzero a = true -> fle fzero b = true -> fle fzero (fadd a b) = true.
Proof.
  intros a b A B. destruct (ffinite a) eqn:Fa; [destruct (ffinite b) eqn:Fb|].
  - apply (fle_fin fzero _ eq_refl Fa) in A. apply (fle_fin fzero _ eq_refl Fb) in B. change (FR fzero) with 0 in *.
    apply (is_round_le_l _ _ fzero (fadd_round a b Fa Fb) eq_refl). change (FR fzero) with 0. lra.
  - destruct a as [sa|[]| |sa ma ea Ha]; try discriminate A; try discriminate Fa; destruct b as [sb|[]| |sb mb eb Hb]; try discriminate B; try discriminate Fb; reflexivity.
  - destruct a as [sa|[]| |sa ma ea Ha]; try discriminate A; try discriminate Fa; destruct b as [sb|[]| |sb mb eb Hb]; try discriminate B; reflexivity.
Qed.
Lemma le_finite : forall a b, fle fzero a = true -> ffinite b = true -> fle a b = true -> ffinite a = true.
Proof. intros a b A F L. apply (fle_between fzero a b); auto. Qed.
(** The unclamped velocity stays below [V]. *)
Lemma raw_dom : forall W C1 C2 D V w c1 c2 r1 r2 l u x v p g, dom w W -> dom c1 C1 -> dom c2 C2 -> dom v V ->
  ffinite D = true -> ffinite (fsub u l) = true -> fle (fsub u l) D = true -> ffinite l = true -> ffinite u = true ->
  fle l x = true -> fle x u = true -> fle l p = true -> fle p u = true -> fle l g = true -> fle g u = true ->
  fle fzero r1 = true -> flt r1 fone = true -> fle fzero r2 = true -> flt r2 fone = true ->
  fle (fadd (fadd (fmul W V) (fmul C1 D)) (fmul C2 D)) V = true ->
  dom (fadd (fadd (fmul w v) (fmul (fmul c1 r1) (fsub p x))) (fmul (fmul c2 r2) (fsub g x))) V.
Proof.
  intros W C1 C2 D V w c1 c2 r1 r2 l u x v p g Hw H1 H2 Hv FD FW LD Fl Fu X1 X2 P1 P2 G1 G2 U1 U1' U2 U2' LE.
  assert (FV : ffinite V = true) by apply Hv. 
  assert (Fx : ffinite x = true) by (apply (fle_between l x u); auto).
  assert (DQ : forall q, fle l q = true -> fle q u = true -> dom (fsub q x) D).
  { intros q Q1 Q2. assert (Fq : ffinite q = true) by (apply (fle_between l q u); auto).
    apply (dom_trans _ (fsub u l)); auto. eapply dom_round; [apply fsub_round; auto|apply fsub_round; auto|exact FW|].
    apply (fle_fin l x Fl Fx) in X1. apply (fle_fin x u Fx Fu) in X2. apply (fle_fin l q Fl Fq) in Q1. apply (fle_fin q u Fq Fu) in Q2.
    apply Rabs_le. lra. }
  assert (PD : fle fzero D = true) by exact (dom_pos _ _ (DQ p P1 P2)).
  pose proof (dom_pos _ _ Hw) as PW. pose proof (dom_pos _ _ H1) as PC1. pose proof (dom_pos _ _ H2) as PC2. pose proof (dom_pos _ _ Hv) as PV.
  destruct Hw as (Fw & FWW & Aw) eqn:Ew. clear Ew. pose proof (conj Fw (conj FWW Aw)) as Hw'. clear Hw.
  assert (FC1 : ffinite C1 = true) by apply H1. assert (FC2 : ffinite C2 = true) by apply H2.
  pose proof (mul_pos W V PW PV FWW FV) as M1. pose proof (mul_pos C1 D PC1 PD FC1 FD) as M2. pose proof (mul_pos C2 D PC2 PD FC2 FD) as M3.
  pose proof (add_pos _ _ M1 M2) as S1. pose proof (add_pos _ _ S1 M3) as S2.
  pose proof (le_finite _ _ S2 FV LE) as FS2. destruct (add_finite _ _ S1 M3 FS2) as [FS1 FM3]. destruct (add_finite _ _ M1 M2 FS1) as [FM1 FM2].
  assert (DC : forall c C r, dom c C -> fle fzero r = true -> flt r fone = true -> dom (fmul c r) C).
  { intros c C r (Fc & FC & Ac) A B. destruct (unit_draw r A B) as [Fr Ur].
    eapply dom_round; [apply fmul_round; auto|apply is_round_self; auto|exact FC|].
    rewrite Rabs_mult. rewrite (Rabs_pos_eq (FR r)) by lra. pose proof (Rabs_pos (FR c)). nra. }
  apply (dom_trans _ (fadd (fadd (fmul W V) (fmul C1 D)) (fmul C2 D))); auto.
  apply dom_add; auto. { apply dom_add; auto. { apply dom_mul; auto. } apply dom_mul; auto. }
  apply dom_mul; auto.
Qed.
