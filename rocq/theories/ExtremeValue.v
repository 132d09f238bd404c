(** A function of two variables that is Lipschitz in each attains its maximum on a rectangle (C48). *)
From Coq Require Import Reals Lra Lia.
From Coquelicot Require Import Coquelicot.
Local Open Scope R_scope.

Definition clip (a b x : R) : R := Rmax a (Rmin b x).
Lemma clip_range : forall a b x, a <= b -> a <= clip a b x <= b.
Proof. intros a b x H. unfold clip, Rmax, Rmin. destruct (Rle_dec b x), (Rle_dec a _); lra. Qed.
Lemma clip_id : forall a b x, a <= x <= b -> clip a b x = x.
Proof. intros a b x H. unfold clip, Rmax, Rmin. destruct (Rle_dec b x), (Rle_dec a _); lra. Qed.
Lemma clip_lip : forall a b x y, a <= b -> Rabs (clip a b x - clip a b y) <= Rabs (x - y).
Proof. intros a b x y H. unfold clip, Rmax, Rmin. destruct (Rle_dec b x), (Rle_dec b y). all: repeat match goal with |- context [Rle_dec ?p ?q] => destruct (Rle_dec p q) end; unfold Rabs; repeat match goal with |- context [Rcase_abs ?p] => destruct (Rcase_abs p) end; try lra. Qed.
Lemma lip_cont : forall (f : R -> R) k, 0 <= k -> (forall x y, Rabs (f x - f y) <= k * Rabs (x - y)) -> forall x, continuity_pt f x.
Proof.
  intros f k K L x e E. exists (e / (k + 1)). assert (0 < e / (k + 1)) by (apply Rdiv_lt_0_compat; lra). split; [exact H|].
  intros y [_ Y]. cbn [dist R_met Base] in *. unfold R_dist in *. eapply Rle_lt_trans; [apply L|].
  apply Rle_lt_trans with (k * (e / (k + 1))); [apply Rmult_le_compat_l; lra|]. apply (Rmult_lt_reg_r (k + 1)); [lra|].
  replace (k * (e / (k + 1)) * (k + 1)) with (k * e) by (field; lra). nra.
Qed.
Lemma attains_2d : forall (f : R -> R -> R) a b c d k, a <= b -> c <= d -> 0 <= k ->
  (forall x x' y, a <= x <= b -> a <= x' <= b -> c <= y <= d -> Rabs (f x y - f x' y) <= k * Rabs (x - x')) ->
  (forall x y y', a <= x <= b -> c <= y <= d -> c <= y' <= d -> Rabs (f x y - f x y') <= k * Rabs (y - y')) ->
  exists x y, a <= x <= b /\ c <= y <= d /\ forall x' y', a <= x' <= b -> c <= y' <= d -> f x' y' <= f x y.
Proof.
  intros f a b c d k AB CD K LX LY. set (g := fun x y => f (clip a b x) (clip c d y)).
  assert (RX : forall x, a <= clip a b x <= b) by (intros; apply clip_range; auto). assert (RY : forall x, c <= clip c d x <= d) by (intros; apply clip_range; auto).
  assert (GX : forall x x' y, Rabs (g x y - g x' y) <= k * Rabs (x - x')).
  { intros x x' y. unfold g. eapply Rle_trans; [apply LX; auto|]. apply Rmult_le_compat_l; [auto|apply clip_lip; auto]. }
  assert (GY : forall x y y', Rabs (g x y - g x y') <= k * Rabs (y - y')).
  { intros x y y'. unfold g. eapply Rle_trans; [apply LY; auto|]. apply Rmult_le_compat_l; [auto|apply clip_lip; auto]. }
  assert (MY : forall x, exists y, (forall y', c <= y' <= d -> g x y' <= g x y) /\ c <= y <= d).
  { intros x. apply continuity_ab_maj; [exact CD|]. intros y _. apply (lip_cont (g x) k K). intros. apply GY. }
  set (F := fun x => real (Lub_Rbar (fun v => exists y, c <= y <= d /\ v = g x y))).
  assert (FM : forall x y, c <= y <= d -> (forall y', c <= y' <= d -> g x y' <= g x y) -> F x = g x y).
  { intros x y Y M. unfold F. rewrite (is_lub_Rbar_unique _ (Finite (g x y))); [reflexivity|]. split.
    - intros v (y' & Y' & ->). apply M; auto.
    - intros u U. apply (U (g x y)). exists y. auto. }
  assert (FL : forall x x', F x <= F x' + k * Rabs (x - x')).
  { intros x x'. destruct (MY x) as (y & M & Y). destruct (MY x') as (y' & M' & Y'). rewrite (FM x y Y M), (FM x' y' Y' M'). specialize (GX x x' y). specialize (M' y Y).
    apply Rabs_le_between in GX. lra. }
  assert (FC : forall x, continuity_pt F x).
  { apply (lip_cont F k K). intros x y. apply Rabs_le_between. pose proof (FL x y). pose proof (FL y x) as Q. rewrite (Rabs_minus_sym y x) in Q. lra. }
  destruct (continuity_ab_maj F a b AB (fun x _ => FC x)) as (x & M & X). destruct (MY x) as (y & My & Y). exists x, y. split; [exact X|]. split; [exact Y|].
  intros x' y' X' Y'. destruct (MY x') as (z & Mz & Z). pose proof (M x' X') as Q. rewrite (FM x' z Z Mz), (FM x y Y My) in Q. specialize (Mz y' Y').
  unfold g in Q, Mz. rewrite (clip_id a b x'), (clip_id c d y'), (clip_id c d z) in Mz by auto. rewrite (clip_id a b x'), (clip_id c d z), (clip_id a b x), (clip_id c d y) in Q by auto. lra.
Qed.
