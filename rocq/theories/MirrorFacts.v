(** Numbers up to the sign of zero and their opposites (used for C75). *)
From Coq Require Import ZArith List Bool Reals Lra Lia.
From Flocq Require Import Core IEEE754.BinarySingleNaN.
From Verif Require Import Prelude F64 F64Facts F64More Num SpecMirror.
Local Open Scope R_scope.

Lemma feq_self : forall x, fisnan x = false -> feq x x = true.
Proof. intros x H. apply feq_spec. auto. Qed.
Lemma same_refl : forall x, same x x.
Proof. intros x. destruct (fisnan x) eqn:E; [right; auto|left; apply feq_self; exact E]. Qed.
Lemma same_sym : forall x y, same x y -> same y x.
Proof. intros x y [H|[A B]]; [left; apply feq_spec; apply feq_spec in H; intuition|right; auto]. Qed.
Lemma same_nan : forall x y, same x y -> fisnan y = fisnan x.
Proof. intros x y [H|[A B]]; [apply feq_spec in H; destruct H as (A & B & _)|]; congruence. Qed.
Lemma same_key : forall x y, same x y -> fisnan x = false -> fkey y = fkey x.
Proof. intros x y [H|[A B]] N; [apply feq_spec in H; destruct H as (_ & _ & E); congruence|congruence]. Qed.
Lemma key_same : forall x y, fisnan x = false -> fisnan y = false -> fkey x = fkey y -> same x y.
Proof. intros x y A B E. left. apply feq_spec. auto. Qed.
Lemma same_trans : forall x y z, same x y -> same y z -> same x z.
Proof.
  intros x y z H G. pose proof (same_nan _ _ H) as N1. pose proof (same_nan _ _ G) as N2.
  destruct (fisnan x) eqn:E; [right; split; congruence|]. apply key_same; [exact E|congruence|]. rewrite (same_key _ _ G) by congruence. rewrite (same_key _ _ H E). reflexivity.
Qed.
(** Equal numbers are the same datum, or two zeros. *)
Lemma same_cases : forall x y, same x y -> x = y \/ exists s s', x = B754_zero s /\ y = B754_zero s'.
Proof.
  intros x y [H|[A B]].
  - apply feq_spec in H. destruct H as (A & B & E). pose proof bmax_pos as P. pose proof (FR_bound x) as BX. pose proof (FR_bound y) as BY.
    assert (SZ : forall s m e p, @B2R prec emax (B754_finite s m e p) <> 0).
    { intros s m e p Z. cbn in Z. apply eq_0_F2R in Z. destruct s; discriminate. }
    destruct x as [s|[]| |s m e p], y as [s'|[]| |s' m' e' p']; try discriminate A; try discriminate B; auto;
      try (exfalso; cbn [fkey] in *; cbn [B2R] in *; lra).
    + right. exists s, s'. auto.
    + exfalso. apply (SZ s' m' e' p'). symmetry. exact E.
    + exfalso. apply (SZ s m e p). exact E.
    + left. apply B2R_inj; [reflexivity|reflexivity|exact E].
  - left. destruct x, y; try discriminate; reflexivity.
Qed.
Ltac two H := destruct (same_cases _ _ H) as [<-|(? & ? & -> & ->)]; clear H.

(** *** Operations on equal numbers *)
Lemma zeros_same : forall s s', same (B754_zero s) (B754_zero s').
Proof. intros s s'. left. destruct s, s'; reflexivity. Qed.
Lemma fadd_zero_l : forall s s' y, same (fadd (B754_zero s) y) (fadd (B754_zero s') y).
Proof. intros s s' [t|t| |t m e p]; try (apply same_refl). destruct s, s', t; left; reflexivity. Qed.
Lemma fadd_zero_r : forall s s' y, same (fadd y (B754_zero s)) (fadd y (B754_zero s')).
Proof. intros s s' [t|t| |t m e p]; try (apply same_refl). destruct s, s', t; left; reflexivity. Qed.
Lemma fmul_zero_r : forall s s' y, same (fmul y (B754_zero s)) (fmul y (B754_zero s')).
Proof. intros s s' [t|t| |t m e p]; try (right; split; reflexivity); destruct s, s', t; left; reflexivity. Qed.
Lemma add_same : forall a a' b b', same a a' -> same b b' -> same (fadd a b) (fadd a' b').
Proof.
  intros a a' b b' A B. apply same_trans with (fadd a' b).
  - two A; [apply same_refl|apply fadd_zero_l].
  - two B; [apply same_refl|apply fadd_zero_r].
Qed.
Lemma mul_same : forall a b b', same b b' -> same (fmul a b) (fmul a b').
Proof. intros a b b' B. two B; [apply same_refl|apply fmul_zero_r]. Qed.
Lemma opp_same : forall a b, same a b -> same (fopp a) (fopp b).
Proof. intros a b H. two H; [apply same_refl|cbn; apply zeros_same]. Qed.
Lemma abs_same : forall a b, same a b -> same (fabs a) (fabs b).
Proof. intros a b H. two H; [apply same_refl|cbn; apply zeros_same]. Qed.
Lemma lt_same : forall a a' b b', same a a' -> same b b' -> flt a' b' = flt a b.
Proof.
  intros a a' b b' A B. pose proof (same_nan _ _ A) as NA. pose proof (same_nan _ _ B) as NB. apply eq_true_iff_eq. rewrite !flt_spec, NA, NB.
  split; intros (X & Y & Z); (split; [exact X|split; [exact Y|]]); pose proof (same_key _ _ A X) as KA; pose proof (same_key _ _ B Y) as KB; rewrite ?KA, ?KB in *; exact Z.
Qed.
Lemma le_same : forall a a' b b', same a a' -> same b b' -> fle a' b' = fle a b.
Proof.
  intros a a' b b' A B. pose proof (same_nan _ _ A) as NA. pose proof (same_nan _ _ B) as NB. apply eq_true_iff_eq. rewrite !fle_spec, NA, NB.
  split; intros (X & Y & Z); (split; [exact X|split; [exact Y|]]); pose proof (same_key _ _ A X) as KA; pose proof (same_key _ _ B Y) as KB; rewrite ?KA, ?KB in *; exact Z.
Qed.
Lemma sub_opp : forall a b, fsub a b = fadd a (fopp b).
Proof. intros a [s|s| |s m e p]; destruct a as [t|t| |t n f q]; try reflexivity; destruct s, t; reflexivity. Qed.
Lemma sub_same : forall a a' b b', same a a' -> same b b' -> same (fsub a b) (fsub a' b').
Proof. intros a a' b b' A B. rewrite !sub_opp. apply add_same; [exact A|apply opp_same; exact B]. Qed.
Lemma mod_same : forall a a' b b', same a a' -> same b b' -> same (fnpmod a b) (fnpmod a' b').
Proof.
  intros a a' b b' A B. apply same_trans with (fnpmod a' b).
  - two A; [apply same_refl|]. destruct b as [t|t| |t m e p]; try apply same_refl; try (destruct t; apply same_refl).
    all: unfold fnpmod; cbn [ffmod]; repeat match goal with |- context [if ?c then _ else _] => destruct c end; try apply same_refl; try apply zeros_same; try (apply fadd_zero_l).
  - two B; [apply same_refl|]. destruct a' as [t|t| |t m e p]; destruct x, x0; apply same_refl.
Qed.

(** *** Opposites *)
Lemma opp_opp : forall a, fopp (fopp a) = a.
Proof. intros [s|s| |s m e p]; cbn; rewrite ?Bool.negb_involutive; reflexivity. Qed.
Lemma opp_fin : forall a, ffinite (fopp a) = ffinite a.
Proof. intros [s|s| |s m e p]; reflexivity. Qed.
Lemma opp_nan : forall a, fisnan (fopp a) = fisnan a.
Proof. intros [s|s| |s m e p]; reflexivity. Qed.
Lemma opp_R : forall a, FR (fopp a) = - FR a.
Proof. intros a. apply B2R_Bopp. Qed.
Lemma opp_key : forall a, fkey (fopp a) = - fkey a.
Proof.
  intros a. destruct (ffinite a) eqn:E; [rewrite !fkey_finite by (rewrite ?opp_fin; exact E); apply opp_R|].
  destruct a as [s|[]| |s m e p]; cbn; try discriminate; try lra.
Qed.
Lemma abs_opp : forall a, fabs (fopp a) = fabs a.
Proof. intros [s|s| |s m e p]; reflexivity. Qed.
Lemma lt_opp : forall a b, flt (fopp a) (fopp b) = flt b a.
Proof. intros a b. apply eq_true_iff_eq. rewrite !flt_spec, !opp_nan, !opp_key. split; intros (X & Y & Z); repeat split; auto; lra. Qed.
Lemma le_opp : forall a b, fle (fopp a) (fopp b) = fle b a.
Proof. intros a b. apply eq_true_iff_eq. rewrite !fle_spec, !opp_nan, !opp_key. split; intros (X & Y & Z); repeat split; auto; lra. Qed.
Lemma round_same : forall r z z', is_round r z -> is_round r z' -> same z z'.
Proof.
  intros r z z' H G. pose proof (is_round_mono _ _ _ _ H G (Rle_refl r)) as A. pose proof (is_round_mono _ _ _ _ G H (Rle_refl r)) as B.
  apply fle_spec in A. apply fle_spec in B. destruct A as (N1 & N2 & A), B as (_ & _ & B). apply key_same; [exact N1|exact N2|lra].
Qed.
Lemma round_opp : forall r z, is_round r z -> is_round (- r) (fopp z).
Proof.
  intros r z [H1 H2]. split; rewrite rnd_opp, Rabs_Ropp; intros H.
  - destruct (H1 H) as [F E]. rewrite opp_fin, opp_R, E. auto.
  - rewrite (H2 H). cbn. f_equal. pose proof (rnd_ovf_nonzero _ H). destruct (Rlt_bool_spec r 0), (Rlt_bool_spec (- r) 0); try reflexivity; lra.
Qed.
Lemma add_opp : forall a b, same (fadd (fopp a) (fopp b)) (fopp (fadd a b)).
Proof.
  intros a b. destruct (ffinite a) eqn:A.
  - destruct (ffinite b) eqn:B.
    + apply round_same with (- (FR a + FR b)).
      * replace (- (FR a + FR b)) with (FR (fopp a) + FR (fopp b)) by (rewrite !opp_R; ring). apply fadd_round; rewrite opp_fin; assumption.
      * apply round_opp, fadd_round; assumption.
    + destruct a as [s|s| |s m e p]; try discriminate; destruct b as [t|[]| |t n f q]; try discriminate; try (left; reflexivity); right; split; reflexivity.
  - destruct a as [s|[]| |s m e p]; try discriminate; destruct b as [t|[]| |t n f q]; try (left; reflexivity); right; split; reflexivity.
Qed.
Lemma mul_opp : forall a b, same (fmul a (fopp b)) (fopp (fmul a b)).
Proof.
  intros a b. destruct (ffinite a) eqn:A.
  - destruct (ffinite b) eqn:B.
    + apply round_same with (- (FR a * FR b)).
      * replace (- (FR a * FR b)) with (FR a * FR (fopp b)) by (rewrite !opp_R; ring). apply fmul_round; rewrite ?opp_fin; assumption.
      * apply round_opp, fmul_round; assumption.
    + destruct a as [s|s| |[] m e p]; try discriminate; destruct b as [t|[]| |t n f q]; try discriminate; try (left; reflexivity); right; split; reflexivity.
  - destruct a as [s|[]| |s m e p]; try discriminate; destruct b as [t|[]| |[] n f q]; try (left; reflexivity); right; split; reflexivity.
Qed.
Lemma add_comm : forall a b, same (fadd a b) (fadd b a).
Proof.
  intros a b. destruct (ffinite a) eqn:A.
  - destruct (ffinite b) eqn:B.
    + apply round_same with (FR a + FR b); [apply fadd_round; assumption|]. rewrite Rplus_comm. apply fadd_round; assumption.
    + destruct a as [s|s| |s m e p]; try discriminate; destruct b as [t|[]| |t n f q]; try discriminate; try (left; reflexivity); right; split; reflexivity.
  - destruct a as [s|[]| |s m e p]; try discriminate; destruct b as [t|[]| |t n f q]; try (left; reflexivity); right; split; reflexivity.
Qed.
Lemma sub_swap : forall a b, same (fsub (fopp a) (fopp b)) (fsub b a).
Proof. intros a b. rewrite !sub_opp, opp_opp. apply add_comm. Qed.
Lemma opp_sub : forall a b, same (fopp (fsub a b)) (fsub (fopp a) (fopp b)).
Proof. intros a b. rewrite !sub_opp. apply same_sym, add_opp. Qed.

(** *** One coordinate *)
Lemma turned_add : forall m x x' y y', turned m x x' -> turned m y y' -> turned m (fadd x y) (fadd x' y').
Proof. intros [] x x' y y' X Y; unfold turned in *; [|apply add_same; assumption]. eapply same_trans; [apply same_sym, add_opp|apply add_same; assumption]. Qed.
Lemma turned_sub : forall m x x' y y', turned m x x' -> turned m y y' -> turned m (fsub x y) (fsub x' y').
Proof. intros [] x x' y y' X Y; unfold turned in *; [|apply sub_same; assumption]. eapply same_trans; [apply opp_sub|apply sub_same; assumption]. Qed.
Lemma turned_mul : forall m c x x', turned m x x' -> turned m (fmul c x) (fmul c x').
Proof. intros [] c x x' X; unfold turned in *; [|apply mul_same; assumption]. eapply same_trans; [apply same_sym, mul_opp|apply mul_same; assumption]. Qed.
Definition edge (m : bool) (l h l' h' : f64) : Prop := if m then same (fopp h) l' /\ same (fopp l) h' else same l l' /\ same h h'.
Lemma edge_map : forall m f f' l h l' h', (forall y y', turned m y y' -> turned m (f y) (f' y')) -> edge m l h l' h' -> edge m (f l) (f h) (f' l') (f' h').
Proof. intros [] f f' l h l' h' F [A B]; split; apply F; assumption. Qed.
Lemma edge_lt : forall m x x' l h l' h', turned m x x' -> edge m l h l' h' ->
  (flt x' l', flt h' x') = (if m then (flt h x, flt x l) else (flt x l, flt h x)).
Proof.
  intros [] x x' l h l' h' X [A B]; unfold turned in X.
  - rewrite (lt_same _ _ _ _ X A), (lt_same _ _ _ _ B X), !lt_opp. reflexivity.
  - rewrite (lt_same _ _ _ _ X A), (lt_same _ _ _ _ B X). reflexivity.
Qed.
Lemma edge_le : forall m x x' l h l' h', turned m x x' -> edge m l h l' h' ->
  (fle x' l', fle h' x') = (if m then (fle h x, fle x l) else (fle x l, fle h x)).
Proof.
  intros [] x x' l h l' h' X [A B]; unfold turned in X.
  - rewrite (le_same _ _ _ _ X A), (le_same _ _ _ _ B X), !le_opp. reflexivity.
  - rewrite (le_same _ _ _ _ X A), (le_same _ _ _ _ B X). reflexivity.
Qed.
Lemma not_both : forall x l h, flt h l = false -> flt x l = true -> flt h x = false.
Proof. intros x l h P A. destruct (flt h x) eqn:B; [|reflexivity]. rewrite (flt_trans _ _ _ B A) in P. discriminate. Qed.
(** Choosing among the lower, the upper and the middle value. *)
Lemma sel_turned : forall m x x' l h l' h' vl vh vl' vh' (w w' : f64), turned m x x' -> edge m l h l' h' -> flt h l = false -> edge m vl vh vl' vh' ->
  (flt x l = false -> flt h x = false -> turned m w w') ->
  turned m (if flt h x then vh else if flt x l then vl else w) (if flt h' x' then vh' else if flt x' l' then vl' else w').
Proof.
  intros m x x' l h l' h' vl vh vl' vh' w w' X E P V W. pose proof (edge_lt _ _ _ _ _ _ _ X E) as L. pose proof (not_both x l h P) as N.
  destruct m; injection L as -> ->; destruct V as [V1 V2]; destruct (flt x l) eqn:A, (flt h x) eqn:B; try exact V1; try exact V2; try (apply W; reflexivity); discriminate (N eq_refl).
Qed.
Lemma nearest_turned : forall m x x' l h l' h', turned m x x' -> edge m l h l' h' -> flt h l = false ->
  turned m (Handlers.nearest_el (N := F64num) x l h) (Handlers.nearest_el (N := F64num) x' l' h').
Proof. intros m x x' l h l' h' X E P. apply sel_turned; auto. Qed.
Lemma reflect_turned : forall m x x' l h l' h', turned m x x' -> edge m l h l' h' -> flt h l = false ->
  turned m (Handlers.reflect_el (N := F64num) x l h) (Handlers.reflect_el (N := F64num) x' l' h').
Proof.
  intros m x x' l h l' h' X E P.
  assert (Q : flt h' l' = false). { destruct m, E as [A B]; [rewrite (lt_same _ _ _ _ B A), lt_opp|rewrite (lt_same _ _ _ _ B A)]; exact P. }
  assert (G : forall x l h : f64, flt h l = false -> Handlers.reflect_el (N := F64num) x l h =
     if flt h x then fsub (fmul (fofZ 2) h) x else if flt x l then fsub (fmul (fofZ 2) l) x else x).
  { clear. intros x l h P. unfold Handlers.reflect_el, Handlers.lower, Handlers.greater. cbn [nlt nsub nmul nofZ F64num]. pose proof (not_both x l h P) as N.
    destruct (flt h x) eqn:B, (flt x l) eqn:A; try reflexivity. discriminate (N eq_refl). }
  rewrite (G x l h P), (G x' l' h' Q). apply sel_turned; auto.
  apply edge_map with (f := fun y => fsub (fmul (fofZ 2) y) x) (f' := fun y => fsub (fmul (fofZ 2) y) x'); [|exact E].
  intros y y' Y. apply turned_sub; [apply turned_mul; exact Y|exact X].
Qed.
Lemma intermediate_turned : forall m x x' q q' l h l' h', turned m x x' -> turned m q q' -> edge m l h l' h' -> flt h l = false ->
  turned m (Handlers.intermediate_el (N := F64num) x q l h) (Handlers.intermediate_el (N := F64num) x' q' l' h').
Proof.
  intros m x x' q q' l h l' h' X Q E P. unfold Handlers.intermediate_el, Handlers.lower, Handlers.greater. cbn [nlt nadd nmul ndec F64num].
  apply sel_turned; auto. apply edge_map with (f := fun y => fmul (fdec 1 2) (fadd q y)) (f' := fun y => fmul (fdec 1 2) (fadd q' y)); [|exact E].
  intros y y' Y. apply turned_mul, turned_add; assumption.
Qed.
Lemma span_same : forall m l h l' h', edge m l h l' h' -> same (fabs (fsub h l)) (fabs (fsub h' l')).
Proof.
  intros [] l h l' h' [A B]; apply abs_same; [|apply sub_same; assumption].
  eapply same_trans; [|apply sub_same; [exact B|exact A]]. apply same_sym, sub_swap.
Qed.
Lemma periodic_turned : forall m x x' l h l' h', turned m x x' -> edge m l h l' h' -> flt h l = false ->
  turned m (Handlers.periodic_el (N := F64num) x l h) (Handlers.periodic_el (N := F64num) x' l' h').
Proof.
  intros m x x' l h l' h' X E P.
  assert (Q : flt h' l' = false). { destruct m, E as [A B]; [rewrite (lt_same _ _ _ _ B A), lt_opp|rewrite (lt_same _ _ _ _ B A)]; exact P. }
  assert (G : forall x l h : f64, flt h l = false -> Handlers.periodic_el (N := F64num) x l h =
     if flt h x then fadd l (fnpmod (fsub x h) (fabs (fsub h l))) else if flt x l then fsub h (fnpmod (fsub l x) (fabs (fsub h l))) else x).
  { clear. intros x l h P. unfold Handlers.periodic_el, Handlers.lower, Handlers.greater. cbn [nlt nsub nadd nmod nabs F64num]. pose proof (not_both x l h P) as N.
    destruct (flt h x) eqn:B, (flt x l) eqn:A; try reflexivity. discriminate (N eq_refl). }
  rewrite (G x l h P), (G x' l' h' Q). pose proof (span_same _ _ _ _ _ E) as S. apply sel_turned; auto. clear G. destruct m, E as [A B]; unfold turned in X; split.
  - assert (M : same (fnpmod (fsub x h) (fabs (fsub h l))) (fnpmod (fsub l' x') (fabs (fsub h' l')))).
    { apply mod_same; [|exact S]. eapply same_trans; [apply same_sym, sub_swap|apply sub_same; assumption]. }
    rewrite (sub_opp h'). eapply same_trans; [apply same_sym, add_opp|]. apply add_same; [exact B|apply opp_same; exact M].
  - assert (M : same (fnpmod (fsub l x) (fabs (fsub h l))) (fnpmod (fsub x' h') (fabs (fsub h' l')))).
    { apply mod_same; [|exact S]. eapply same_trans; [apply same_sym, sub_swap|apply sub_same; assumption]. }
    rewrite (sub_opp h). eapply same_trans; [apply same_sym, add_opp|]. rewrite opp_opp. apply add_same; [exact A|exact M].
  - apply sub_same; [exact B|]. apply mod_same; [apply sub_same; assumption|exact S].
  - apply add_same; [exact A|]. apply mod_same; [apply sub_same; assumption|exact S].
Qed.
Lemma clamp_turned : forall m x x' l h l' h', turned m x x' -> edge m l h l' h' -> flt h l = false ->
  turned m (Handlers.clamp_el (N := F64num) x l h) (Handlers.clamp_el (N := F64num) x' l' h').
Proof.
  intros m x x' l h l' h' X E P. unfold Handlers.clamp_el. cbn [nle F64num]. pose proof (edge_le _ _ _ _ _ _ _ X E) as L.
  assert (N : fle x l = true -> fle h x = true -> same l h).
  { intros A B. apply fle_spec in A. apply fle_spec in B. destruct A as (N1 & N2 & A), B as (N3 & _ & B). apply key_same; [exact N2|exact N3|]. apply flt_false_spec in P. destruct P as [P|[P|P]]; try congruence. lra. }
  destruct m; injection L as -> ->; destruct E as [V1 V2]; destruct (fle x l) eqn:A, (fle h x) eqn:B; try exact V1; try exact V2; try exact X.
  unfold turned. apply same_trans with (fopp l); [apply opp_same, same_sym, N; reflexivity|exact V2].
Qed.
