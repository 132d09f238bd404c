(** Rounding commutes with a change of the unit (used for C84). *)
From Coq Require Import ZArith List Bool Reals Lra Lia.
From Flocq Require Import Core IEEE754.BinarySingleNaN.
From Verif Require Import Prelude F64 F64Facts F64More Num Handlers Swarms Operators SpecHandlers SpecTame Tame CoastFacts ObjFloat SpecScale.
Local Open Scope R_scope.

(** *** Multiples of a power of two *)
Definition mult (l : Z) (r : R) : Prop := exists z, r = IZR z * bpow radix2 l.
Lemma mult_le : forall l l' r, (l' <= l)%Z -> mult l r -> mult l' r.
Proof.
  intros l l' r L (z & ->). exists (z * 2 ^ (l - l'))%Z. rewrite mult_IZR, (IZR_Zpower radix2) by lia. rewrite Rmult_assoc, <- bpow_plus. f_equal. f_equal. lia.
Qed.
Lemma mult_add : forall l a b, mult l a -> mult l b -> mult l (a + b).
Proof. intros l a b (x & ->) (y & ->). exists (x + y)%Z. rewrite plus_IZR. ring. Qed.
Lemma mult_opp : forall l a, mult l a -> mult l (- a).
Proof. intros l a (x & ->). exists (- x)%Z. rewrite opp_IZR. ring. Qed.
Lemma mult_sub : forall l a b, mult l a -> mult l b -> mult l (a - b).
Proof. intros l a b A B. apply mult_add; [exact A|apply mult_opp; exact B]. Qed.
Lemma mult_mul : forall l m a b, mult l a -> mult m b -> mult (l + m) (a * b).
Proof. intros l m a b (x & ->) (y & ->). exists (x * y)%Z. rewrite mult_IZR, bpow_plus. ring. Qed.
Lemma mult_Z : forall l a k, mult l a -> mult l (IZR k * a).
Proof. intros l a k (x & ->). exists (k * x)%Z. rewrite mult_IZR. ring. Qed.
Lemma mult_big : forall l r, mult l r -> r <> 0 -> bpow radix2 l <= Rabs r.
Proof.
  intros l r (z & ->) N. assert (z <> 0%Z) by (intros ->; apply N; ring). rewrite Rabs_mult, (Rabs_pos_eq (bpow radix2 l)) by apply bpow_ge_0.
  assert (1 <= Rabs (IZR z)) by (rewrite <- abs_IZR; apply IZR_le; lia). pose proof (bpow_ge_0 radix2 l). nra.
Qed.
Lemma mag_ge : forall l r, mult l r -> r <> 0 -> (l < mag radix2 r)%Z.
Proof. intros l r M N. apply lt_bpow with radix2. eapply Rle_lt_trans; [exact (mult_big _ _ M N)|]. apply bpow_mag_gt. Qed.
Lemma cexp_normal : forall l r, (-1000 <= l)%Z -> mult l r -> r <> 0 -> cexp radix2 fexp64 r = (mag radix2 r - 53)%Z.
Proof. intros l r L M N. pose proof (mag_ge _ _ M N). unfold cexp. rewrite fexp64_FLT. unfold FLT_exp, emax, prec. lia. Qed.
Lemma rnd_scale : forall l k r, (-900 <= l)%Z -> (-100 <= k <= 100)%Z -> mult l r -> rnd (bpow radix2 k * r) = bpow radix2 k * rnd r.
Proof.
  intros l k r L K M. destruct (Req_dec r 0) as [->|N]. { rewrite Rmult_0_r, rnd_0. ring. }
  assert (N' : r * bpow radix2 k <> 0) by (apply Rmult_integral_contrapositive_currified; [exact N|apply Rgt_not_eq, bpow_gt_0]).
  assert (M' : mult (l + k) (r * bpow radix2 k)) by (destruct M as (z & ->); exists z; rewrite bpow_plus; ring).
  rewrite (Rmult_comm _ r). unfold rnd, round, scaled_mantissa. rewrite (cexp_normal l r) by (auto; lia). rewrite (cexp_normal (l + k) (r * bpow radix2 k)) by (auto; lia).
  rewrite mag_mult_bpow by exact N. unfold F2R. cbn [Fnum Fexp].
  replace (r * bpow radix2 k * bpow radix2 (- (mag radix2 r + k - 53))) with (r * bpow radix2 (- (mag radix2 r - 53))).
  - replace (mag radix2 r + k - 53)%Z with (k + (mag radix2 r - 53))%Z by lia. rewrite bpow_plus. ring.
  - rewrite Rmult_assoc, <- bpow_plus. f_equal. f_equal. lia.
Qed.
Lemma rnd_mult : forall l r, (-1000 <= l)%Z -> mult l r -> mult l (rnd r).
Proof.
  intros l r L M. destruct (Req_dec r 0) as [->|N]. { rewrite rnd_0. exact M. }
  pose proof (cexp_normal l r L M N) as C. destruct (Z_le_gt_dec l (mag radix2 r - 53)) as [G|G].
  - apply mult_le with (mag radix2 r - 53)%Z; [exact G|]. unfold rnd, round, F2R. cbn [Fnum Fexp]. rewrite C. exists (ZnearestE (scaled_mantissa radix2 fexp64 r)). reflexivity.
  - assert (R : rnd r = r); [|rewrite R; exact M]. unfold rnd. apply round_generic; [apply valid_rnd_N|]. destruct M as (z & E). rewrite E. rewrite E in C, G.
    change (generic_format radix2 fexp64 (F2R (Float radix2 z l))). apply generic_format_F2R. intros _. change (F2R (Float radix2 z l)) with (IZR z * bpow radix2 l). rewrite C. lia.
Qed.

(** *** Numbers on a grid, and the same numbers in another unit *)
Definition on (k l m : Z) (x y : f64) : Prop := rescaled k x y /\ grid l m x.
Lemma on_finite : forall k l m x y, on k l m x y -> ffinite x = true /\ ffinite y = true.
Proof. intros k l m x y ((A & B & _) & _). auto. Qed.
Lemma grid_le : forall l m l' m' x, (l' <= l)%Z -> (m <= m')%Z -> grid l m x -> grid l' m' x.
Proof. intros l m l' m' x L M (F & G & B). split; [exact F|]. split; [exact (mult_le _ _ _ L G)|]. eapply Rle_trans; [exact B|apply bpow_le; exact M]. Qed.
Lemma on_le : forall k l m l' m' x y, (l' <= l)%Z -> (m <= m')%Z -> on k l m x y -> on k l' m' x y.
Proof. intros k l m l' m' x y L M [R G]. split; [exact R|]. eapply grid_le; eauto. Qed.
Lemma on_round : forall k l m r r' x y, (-900 <= l)%Z -> (-900 <= m <= 900)%Z -> (-100 <= k <= 100)%Z -> is_round r x -> is_round r' y -> r' = bpow radix2 k * r -> mult l r -> Rabs r <= bpow radix2 m -> on k l m x y.
Proof.
  intros k l m r r' x y L M K X Y E G B. destruct (within_round _ _ m X B) as [FX BX]; [lia|].
  assert (B' : Rabs r' <= bpow radix2 (k + m)).
  { rewrite E, Rabs_mult, (Rabs_pos_eq (bpow radix2 k)) by apply bpow_ge_0. rewrite bpow_plus. apply Rmult_le_compat_l; [apply bpow_ge_0|exact B]. }
  destruct (within_round _ _ (k + m) Y B') as [FY BY]; [lia|]. pose proof (is_round_finite_eq _ _ X FX) as EX. pose proof (is_round_finite_eq _ _ Y FY) as EY.
  split; [|split; [exact FX|split; [|exact BX]]].
  - split; [exact FX|]. split; [exact FY|]. rewrite EY, EX, E. apply (rnd_scale l); assumption.
  - rewrite EX. apply rnd_mult; [lia|exact G].
Qed.
Lemma bpow_two : forall m a b, Rabs a <= bpow radix2 m -> Rabs b <= bpow radix2 m -> Rabs (a + b) <= bpow radix2 (m + 1).
Proof.
  intros m a b A B. rewrite bpow_plus. change (bpow radix2 1) with 2. eapply Rle_trans; [apply Rabs_triang|]. lra.
Qed.
Section K.
Variable k : Z.
Hypothesis K : (-100 <= k <= 100)%Z.
Lemma on_add : forall l m a a' b b', (-900 <= l)%Z -> (-900 <= m <= 890)%Z -> on k l m a a' -> on k l m b b' -> on k l (m + 1) (fadd a b) (fadd a' b').
Proof.
  intros l m a a' b b' L M ((A1 & A2 & A3) & (_ & AG & AB)) ((B1 & B2 & B3) & (_ & BG & BB)).
  apply (on_round k l (m + 1) (FR a + FR b) (FR a' + FR b')); try lia; try (apply fadd_round; assumption).
  - rewrite A3, B3. ring.
  - apply mult_add; assumption.
  - apply bpow_two; assumption.
Qed.
Lemma on_sub : forall l m a a' b b', (-900 <= l)%Z -> (-900 <= m <= 890)%Z -> on k l m a a' -> on k l m b b' -> on k l (m + 1) (fsub a b) (fsub a' b').
Proof.
  intros l m a a' b b' L M ((A1 & A2 & A3) & (_ & AG & AB)) ((B1 & B2 & B3) & (_ & BG & BB)).
  apply (on_round k l (m + 1) (FR a - FR b) (FR a' - FR b')); try lia; try (apply fsub_round; assumption).
  - rewrite A3, B3. ring.
  - apply mult_sub; assumption.
  - apply bpow_two; [assumption|]. rewrite Rabs_Ropp. assumption.
Qed.
Lemma on_mul : forall l m l' m' c a a', (-900 <= l + l')%Z -> (-900 <= m + m' <= 900)%Z -> grid l m c -> on k l' m' a a' -> on k (l + l') (m + m') (fmul c a) (fmul c a').
Proof.
  intros l m l' m' c a a' L M (C1 & CG & CB) ((A1 & A2 & A3) & (_ & AG & AB)).
  apply (on_round k _ _ (FR c * FR a) (FR c * FR a')); try lia; try (apply fmul_round; assumption).
  - rewrite A3. ring.
  - apply mult_mul; assumption.
  - rewrite Rabs_mult, bpow_plus. apply Rmult_le_compat; auto using Rabs_pos.
Qed.
Lemma on_mul_r : forall l m l' m' c a a', (-900 <= l + l')%Z -> (-900 <= m + m' <= 900)%Z -> grid l m c -> on k l' m' a a' -> on k (l + l') (m + m') (fmul a c) (fmul a' c).
Proof.
  intros l m l' m' c a a' L M (C1 & CG & CB) ((A1 & A2 & A3) & (_ & AG & AB)).
  apply (on_round k _ _ (FR a * FR c) (FR a' * FR c)); try lia; try (apply fmul_round; assumption).
  - rewrite A3. ring.
  - rewrite Rmult_comm. apply mult_mul; assumption.
  - rewrite Rabs_mult, bpow_plus, Rmult_comm. apply Rmult_le_compat; auto using Rabs_pos.
Qed.
Lemma on_opp : forall l m a a', on k l m a a' -> on k l m (fopp a) (fopp a').
Proof.
  intros l m a a' ((A1 & A2 & A3) & (_ & AG & AB)). assert (FO : forall x, ffinite x = true -> ffinite (fopp x) = true) by (intros [| | |]; auto).
  split; [split; [auto|split; [auto|]]|split; [auto|split]]; rewrite ?fopp_R.
  - rewrite A3. ring.
  - apply mult_opp. exact AG.
  - rewrite Rabs_Ropp. exact AB.
Qed.
Lemma lt_re : forall a a' b b', rescaled k a a' -> rescaled k b b' -> flt a' b' = flt a b.
Proof.
  intros a a' b b' (A1 & A2 & A3) (B1 & B2 & B3). pose proof (flt_fin a b A1 B1) as P. pose proof (flt_fin a' b' A2 B2) as Q. rewrite A3, B3 in Q. pose proof (bpow_gt_0 radix2 k).
  destruct (flt a b), (flt a' b'); try reflexivity; exfalso.
  - assert (FR a < FR b) by (apply P; reflexivity). assert (bpow radix2 k * FR a < bpow radix2 k * FR b) by (apply Rmult_lt_compat_l; assumption). apply Q in H1. discriminate.
  - assert (bpow radix2 k * FR a < bpow radix2 k * FR b) by (apply Q; reflexivity). assert (FR a < FR b) by (apply Rmult_lt_reg_l with (bpow radix2 k); assumption). apply P in H1. discriminate.
Qed.
Lemma on_lt : forall l m l2 m2 a a' b b', on k l m a a' -> on k l2 m2 b b' -> flt a' b' = flt a b.
Proof. intros l m l2 m2 a a' b b' [A _] [B _]. apply lt_re; assumption. Qed.
Lemma on_le_b : forall l m l2 m2 a a' b b', on k l m a a' -> on k l2 m2 b b' -> fle a' b' = fle a b.
Proof.
  intros l m l2 m2 a a' b b' ((A1 & A2 & A3) & _) ((B1 & B2 & B3) & _). pose proof (fle_fin a b A1 B1) as P. pose proof (fle_fin a' b' A2 B2) as Q. rewrite A3, B3 in Q. pose proof (bpow_gt_0 radix2 k).
  destruct (fle a b), (fle a' b'); try reflexivity; exfalso.
  - assert (FR a <= FR b) by (apply P; reflexivity). assert (bpow radix2 k * FR a <= bpow radix2 k * FR b) by (apply Rmult_le_compat_l; lra). apply Q in H1. discriminate.
  - assert (bpow radix2 k * FR a <= bpow radix2 k * FR b) by (apply Q; reflexivity). assert (FR a <= FR b) by (apply Rmult_le_reg_l with (bpow radix2 k); assumption). apply P in H1. discriminate.
Qed.

(** *** The handlers and the velocity, one coordinate *)
Lemma grid_mul : forall l m l' m' a b, (-900 <= l + l')%Z -> (-900 <= m + m' <= 900)%Z -> grid l m a -> grid l' m' b -> grid (l + l') (m + m') (fmul a b).
Proof.
  intros l m l' m' a b L M (A1 & AG & AB) (B1 & BG & BB). pose proof (fmul_round a b A1 B1) as R.
  assert (B : Rabs (FR a * FR b) <= bpow radix2 (m + m')) by (rewrite Rabs_mult, bpow_plus; apply Rmult_le_compat; auto using Rabs_pos).
  destruct (within_round _ _ _ R B) as [F W]; [lia|]. split; [exact F|]. split; [|exact W]. rewrite (is_round_finite_eq _ _ R F). apply rnd_mult; [lia|]. apply mult_mul; assumption.
Qed.
Lemma grid_half : grid (-1) 0 (fdec 1 2).
Proof.
  destruct dec_half as [E F]. split; [exact F|]. split; [exists 1%Z; rewrite E; cbn; lra|]. rewrite E. cbn. rewrite Rabs_pos_eq; lra.
Qed.
Lemma grid_two : grid 0 1 (fofZ 2).
Proof.
  destruct (fofZ_exact 2) as [F E]; [lia|]. split; [exact F|]. split; [exists 2%Z; rewrite E; cbn; lra|]. rewrite E. cbn. rewrite Rabs_pos_eq; lra.
Qed.
Lemma velocity_on : forall c1 c2 w u1 u2 x x' v v' p p' b b', grid (-60) 60 c1 -> grid (-60) 60 c2 -> grid (-60) 60 w -> grid (-60) 0 u1 -> grid (-60) 0 u2 ->
  on k (-400) 400 x x' -> on k (-400) 400 v v' -> on k (-400) 400 p p' -> on k (-400) 400 b b' ->
  on k (-520) 464 (velocity_el (N := F64num) c1 c2 w u1 u2 x v p b) (velocity_el (N := F64num) c1 c2 w u1 u2 x' v' p' b').
Proof.
  intros c1 c2 w u1 u2 x x' v v' p p' b b' C1 C2 W U1 U2 X V P B. unfold velocity_el. cbn [nadd nsub nmul F64num].
  assert (A1 : on k (-520) 462 (fmul w v) (fmul w v')) by (apply on_le with (-60 + -400)%Z (60 + 400)%Z; try lia; apply on_mul; auto; lia).
  assert (G1 : grid (-120) 60 (fmul c1 u1)) by (apply (grid_mul (-60) 60 (-60) 0); auto; lia).
  assert (G2 : grid (-120) 60 (fmul c2 u2)) by (apply (grid_mul (-60) 60 (-60) 0); auto; lia).
  assert (A2 : on k (-520) 462 (fmul (fmul c1 u1) (fsub p x)) (fmul (fmul c1 u1) (fsub p' x'))).
  { apply on_le with (-120 + -400)%Z (60 + 401)%Z; try lia. apply on_mul; auto; try lia. apply (on_sub (-400) 400); auto; lia. }
  assert (A3 : on k (-520) 463 (fmul (fmul c2 u2) (fsub b x)) (fmul (fmul c2 u2) (fsub b' x'))).
  { apply on_le with (-120 + -400)%Z (60 + 401)%Z; try lia. apply on_mul; auto; try lia. apply (on_sub (-400) 400); auto; lia. }
  apply (on_add (-520) 463); try lia; [|exact A3]. apply (on_add (-520) 462); auto; lia.
Qed.
Section E.
Variables (l m : Z).
Hypothesis L : (-600 <= l <= -400)%Z.
Hypothesis M : (402 <= m <= 880)%Z.
Lemma up : forall x x', on k (-400) 400 x x' -> on k l m x x'.
Proof. intros x x'. apply on_le; lia. Qed.
Lemma clamp_on : forall v v' a a' b b', on k l m v v' -> on k (-400) 400 a a' -> on k (-400) 400 b b' -> on k l m (clamp_el (N := F64num) v a b) (clamp_el (N := F64num) v' a' b').
Proof.
  intros v v' a a' b b' V A B. unfold clamp_el. cbn [nle F64num]. rewrite (on_le_b _ _ _ _ _ _ _ _ V A), (on_le_b _ _ _ _ _ _ _ _ B V). apply up in A, B. destruct (fle b v); [exact B|]. destruct (fle v a); assumption.
Qed.
Lemma nearest_on : forall x x' a a' b b', on k l m x x' -> on k (-400) 400 a a' -> on k (-400) 400 b b' -> on k l m (nearest_el (N := F64num) x a b) (nearest_el (N := F64num) x' a' b').
Proof.
  intros x x' a a' b b' X A B. unfold nearest_el, lower, greater. cbn [nlt F64num]. rewrite (on_lt _ _ _ _ _ _ _ _ X A), (on_lt _ _ _ _ _ _ _ _ B X). apply up in A, B. destruct (flt b x); [exact B|]. destruct (flt x a); assumption.
Qed.
Lemma flt_trans_no : forall a b x, ffinite a = true -> ffinite b = true -> ffinite x = true -> flt a b = true -> flt x a = true -> flt b x = false.
Proof.
  intros a b x A B X AB XA. apply flt_fin in AB; auto. apply flt_fin in XA; auto. destruct (flt b x) eqn:E; [|reflexivity]. apply flt_fin in E; auto. lra.
Qed.
Lemma reflect_on : forall x x' a a' b b', on k l m x x' -> on k (-400) 400 a a' -> on k (-400) 400 b b' -> flt a b = true ->
  on k l (m + 1) (reflect_el (N := F64num) x a b) (reflect_el (N := F64num) x' a' b').
Proof.
  intros x x' a a' b b' X A B O. unfold reflect_el, lower, greater. cbn [nlt nsub nmul nofZ F64num]. rewrite (on_lt _ _ _ _ _ _ _ _ X A), (on_lt _ _ _ _ _ _ _ _ B X).
  assert (D : forall q q', on k (-400) 400 q q' -> on k l (m + 1) (fsub (fmul (fofZ 2) q) x) (fsub (fmul (fofZ 2) q') x')).
  { intros q q' Q. apply (on_sub l m); try lia; [|exact X]. apply on_le with (0 + -400)%Z (1 + 400)%Z; try lia. apply on_mul; try lia; [exact grid_two|exact Q]. }
  destruct (on_finite _ _ _ _ _ X) as [FX _]. destruct (on_finite _ _ _ _ _ A) as [FA _]. destruct (on_finite _ _ _ _ _ B) as [FB _].
  destruct (flt x a) eqn:E1.
  - rewrite (flt_trans_no _ _ _ FA FB FX O E1). apply D. exact A.
  - destruct (flt b x); [apply D; exact B|]. apply on_le with l m; try lia. exact X.
Qed.
Lemma intermediate_on : forall x x' y y' a a' b b', (l <= -401)%Z -> on k l m x x' -> on k (-400) 400 y y' -> on k (-400) 400 a a' -> on k (-400) 400 b b' ->
  on k l m (intermediate_el (N := F64num) x y a b) (intermediate_el (N := F64num) x' y' a' b').
Proof.
  intros x x' y y' a a' b b' L1 X Y A B. unfold intermediate_el, lower, greater. cbn [nlt nadd nmul ndec F64num]. rewrite (on_lt _ _ _ _ _ _ _ _ X A), (on_lt _ _ _ _ _ _ _ _ B X).
  assert (D : forall q q', on k (-400) 400 q q' -> on k l m (fmul (fdec 1 2) (fadd y q)) (fmul (fdec 1 2) (fadd y' q'))).
  { intros q q' Q. apply on_le with (-1 + -400)%Z (0 + 401)%Z; try lia. apply on_mul; try lia; [exact grid_half|]. apply (on_add (-400) 400); auto; lia. }
  destruct (flt b x); [apply D; exact B|]. destruct (flt x a); [apply D; exact A|exact X].
Qed.
Lemma resample_on : forall u a a' b b', (l <= -460)%Z -> grid (-60) 0 u -> on k (-400) 400 a a' -> on k (-400) 400 b b' ->
  on k l m (fadd (fmul (fsub b a) u) a) (fadd (fmul (fsub b' a') u) a').
Proof.
  intros u a a' b b' L1 U A B. apply on_le with (-460)%Z (401 + 1)%Z; try lia. apply on_add; try lia.
  - apply on_le with (-60 + -400)%Z (0 + 401)%Z; try lia. apply on_mul_r; try lia; [exact U|]. apply (on_sub (-400) 400); auto; lia.
  - apply on_le with (-400)%Z 400%Z; try lia. exact A.
Qed.
Lemma mod_gen : forall m' a a' s s', ffinite a = true -> ffinite a' = true -> FR a' = bpow radix2 k * FR a -> mult l (FR a) -> 0 <= FR a -> on k l m' s s' -> 0 < FR s -> on k l m' (fnpmod a s) (fnpmod a' s').
Proof.
  intros m' a a' s s' A1 A2 A3 AG A0 ((S1 & S2 & S3) & (_ & SG & SB)) S0. pose proof (bpow_gt_0 radix2 k) as P.
  destruct (fnpmod_exact a s) as (F & (R0 & R1) & j & E); auto.
  destruct (fnpmod_exact a' s') as (F' & (R0' & R1') & j' & E'); auto. { rewrite A3. apply Rmult_le_pos; lra. } { rewrite S3. apply Rmult_lt_0_compat; lra. }
  assert (J : j = j').
  { rewrite A3, S3 in E'. rewrite S3 in R1'. replace (bpow radix2 k * FR a - IZR j' * (bpow radix2 k * FR s)) with (bpow radix2 k * (FR a - IZR j' * FR s)) in E' by ring. rewrite E' in R0', R1'.
    assert (H0 : 0 <= FR a - IZR j' * FR s) by (apply Rmult_le_reg_l with (bpow radix2 k); [exact P|rewrite Rmult_0_r; exact R0']).
    assert (H1 : FR a - IZR j' * FR s < FR s) by (apply Rmult_lt_reg_l with (bpow radix2 k); [exact P|exact R1']). rewrite E in R0, R1.
    assert (D1 : (IZR j - IZR j') * FR s < 1 * FR s) by lra. assert (D2 : (-1) * FR s < (IZR j - IZR j') * FR s) by lra.
    apply Rmult_lt_reg_r in D1; [|exact S0]. apply Rmult_lt_reg_r in D2; [|exact S0]. rewrite <- minus_IZR in D1, D2. apply lt_IZR in D1. apply lt_IZR in D2. lia. }
  subst j'. split; [split; [exact F|split; [exact F'|]]|split; [exact F|split]].
  - rewrite E', E, A3, S3. ring.
  - rewrite E. apply mult_sub; [exact AG|]. apply mult_Z. exact SG.
  - rewrite Rabs_pos_eq by exact R0. apply Rle_trans with (FR s); [lra|]. rewrite Rabs_pos_eq in SB by lra. exact SB.
Qed.
Lemma on_abs : forall l m a a', on k l m a a' -> on k l m (fabs a) (fabs a').
Proof.
  intros l0 m0 a a' ((A1 & A2 & A3) & (_ & AG & AB)). split; [split; [rewrite fabs_fin; exact A1|split; [rewrite fabs_fin; exact A2|]]|split; [rewrite fabs_fin; exact A1|split]]; rewrite ?fabs_R.
  - rewrite A3, Rabs_mult, (Rabs_pos_eq (bpow radix2 k)) by apply bpow_ge_0. reflexivity.
  - unfold Rabs. destruct (Rcase_abs (FR a)); [apply mult_opp|]; exact AG.
  - rewrite Rabs_Rabsolu. exact AB.
Qed.
Lemma periodic_on : forall x x' a a' b b', on k l m x x' -> on k (-400) 400 a a' -> on k (-400) 400 b b' -> flt a b = true ->
  on k l m (periodic_el (N := F64num) x a b) (periodic_el (N := F64num) x' a' b').
Proof.
  intros x x' a a' b b' X A B O. unfold periodic_el, lower, greater. cbn [nlt nsub nadd nabs nmod F64num]. rewrite (on_lt _ _ _ _ _ _ _ _ X A), (on_lt _ _ _ _ _ _ _ _ B X).
  destruct (on_finite _ _ _ _ _ X) as [FX _]. destruct (on_finite _ _ _ _ _ A) as [FA _]. destruct (on_finite _ _ _ _ _ B) as [FB _].
  assert (SD : on k (-400) 401 (fsub b a) (fsub b' a')) by (apply (on_sub (-400) 400); auto; lia).
  assert (S : on k l 401 (fabs (fsub b a)) (fabs (fsub b' a'))) by (apply on_abs; apply on_le with (-400)%Z 401%Z; try lia; exact SD).
  assert (S0 : 0 < FR (fabs (fsub b a))).
  { rewrite fabs_R. apply Rabs_pos_lt. destruct (on_finite _ _ _ _ _ SD) as [FS _]. rewrite (is_round_finite_eq _ _ (fsub_round b a FB FA) FS). pose proof (proj1 (flt_fin a b FA FB) O) as LT.
    destruct A as (_ & (_ & AG & _)). destruct B as (_ & (_ & BG & _)). pose proof (mult_big _ _ (mult_sub _ _ _ BG AG)) as BIG. rewrite Rabs_pos_eq in BIG by lra.
    assert (LE : bpow radix2 (-400) <= FR b - FR a) by (apply BIG; lra). apply rnd_le in LE. pose proof (rnd_pow 1 (-400)) as RP. rewrite Rmult_1_l in RP. rewrite RP in LE by lia. pose proof (bpow_gt_0 radix2 (-400)). lra. }
  assert (MD : forall p p' q q', on k l m p p' -> on k (-400) 400 q q' -> (flt p q = true -> on k l 401 (fnpmod (fsub q p) (fabs (fsub b a))) (fnpmod (fsub q' p') (fabs (fsub b' a')))) /\
    (flt q p = true -> on k l 401 (fnpmod (fsub p q) (fabs (fsub b a))) (fnpmod (fsub p' q') (fabs (fsub b' a'))))).
  { intros p p' q q' P Q. pose proof (up _ _ Q) as Q1. destruct (on_finite _ _ _ _ _ P) as [FP _]. destruct (on_finite _ _ _ _ _ Q) as [FQ _].
    assert (Z : forall y z, ffinite y = true -> ffinite z = true -> ffinite (fsub y z) = true -> flt z y = true -> 0 <= FR (fsub y z)).
    { intros y z Y Zf F T. apply flt_fin in T; auto. rewrite (is_round_finite_eq _ _ (fsub_round y z Y Zf) F). rewrite <- rnd_0. apply rnd_le. lra. }
    pose proof (on_sub l m _ _ _ _ ltac:(lia) ltac:(lia) Q1 P) as D1. pose proof (on_sub l m _ _ _ _ ltac:(lia) ltac:(lia) P Q1) as D2. split; intros T.
    - destruct (on_finite _ _ _ _ _ D1) as [FD _]. revert D1. generalize (fsub q p) (fsub q' p') (Z _ _ FQ FP FD T). intros y y' Y0 D1. destruct D1 as ((A1 & A2 & A3) & (_ & AG & _)).
      exact (mod_gen 401 y y' _ _ A1 A2 A3 AG Y0 S S0).
    - destruct (on_finite _ _ _ _ _ D2) as [FD _]. revert D2. generalize (fsub p q) (fsub p' q') (Z _ _ FP FQ FD T). intros y y' Y0 D3. destruct D3 as ((A1 & A2 & A3) & (_ & AG & _)).
      exact (mod_gen 401 y y' _ _ A1 A2 A3 AG Y0 S S0). }
  destruct (flt x a) eqn:E1.
  - rewrite (flt_trans_no _ _ _ FA FB FX O E1). apply on_le with l (401 + 1)%Z; try lia. apply on_sub; try lia; [apply on_le with (-400)%Z 400%Z; try lia; exact B|]. apply (MD x x' a a' X A). exact E1.
  - destruct (flt b x) eqn:E2; [|exact X]. apply on_le with l (401 + 1)%Z; try lia. apply on_add; try lia; [apply on_le with (-400)%Z 400%Z; try lia; exact A|]. apply (MD x x' b b' X B). exact E2.
Qed.
End E.
End K.
