(** The minimum of the eggholder function (C48). *)
From Coq Require Import String ZArith List Arith Bool Reals Lra Lia.
From Flocq Require Import Core.
From Verif Require Import Prelude ListFacts Num Objectives SpecObj ObjFacts ObjReal ObjFormula RealFacts ObjEgg ObjEggMin.
Import ListNotations.
Local Open Scope string_scope.
Local Open Scope list_scope.
Local Open Scope R_scope.

Lemma egg_within : forall (X : list (list R)) i x y, within (N := Rnum) (-512) 512 X = true -> nth_error X i = Some [x; y] -> -512 <= x <= 512 /\ -512 <= y <= 512.
Proof.
  intros X i x y W Xi. pose proof (forallb_nth _ _ X i [x; y] W Xi) as Q. cbn [forallb] in Q. unfold between in Q. cbn [nle Rnum] in Q. rewrite !andb_true_r in Q.
  apply andb_true_iff in Q. destruct Q as [A B]. apply andb_true_iff in A. apply andb_true_iff in B. destruct A as [A1 A2], B as [B1 B2].
  destruct (Rle_bool_spec (-512) x), (Rle_bool_spec x 512), (Rle_bool_spec (-512) y), (Rle_bool_spec y 512); try discriminate; lra.
Qed.
Lemma eggholder_point : forall m : mathlib Rnum, real_math m -> forall x y, -512 <= x <= 512 -> -512 <= y <= 512 -> eggholder m 2%nat [[x; y]] = Ok [- egg x (y + 47)].
Proof.
  intros m M x y X Y. assert (E : exists c, eggholder m 2%nat [[x; y]] = Ok [c]).
  { unfold eggholder. cbn [Nat.eqb negb]. change (nofZ (n := Rnum) (-512)) with (-512). change (nofZ (n := Rnum) 512) with 512. replace (within (N := Rnum) (-512) 512 [[x; y]]) with true; [eexists; reflexivity|].
    unfold within. cbn [forallb]. rewrite !between_R by lra. reflexivity. }
  destruct E as (c & E). refine (eq_trans E _). do 2 f_equal.
  pose proof (formula_claim m M "eggholder" (eggholder m) 2%nat 1%nat [[x; y]] [c] ltac:(cbn; auto 20) ltac:(split; [reflexivity|repeat constructor]) E 0%nat [x; y] c eq_refl eq_refl) as Q.
  rewrite Q. unfold formula, egg. cbn [String.eqb Ascii.eqb Bool.eqb nth]. change (T Rnum) with R. ring.
Qed.
Lemma eggholder_minimum : forall m : mathlib Rnum, real_math m ->
  exists y v, Rabs (y - 404.23181) <= 1 / 100000 /\ Rabs (v - (-959.6407)) <= 5 / 100000 /\ eggholder m 2%nat [[512; y]] = Ok [v] /\
  forall n X costs, is_matrix n 2 X -> eggholder m 2%nat X = Ok costs -> forall i r c, nth_error X i = Some r -> nth_error costs i = Some c ->
    v <= c /\ (c = v -> r = [512; y]).
Proof.
  intros m M. destruct egg_peak as (u & U & V & B). exists (u - 47), (- egg 512 u). split; [apply Rabs_le; lra|]. split; [apply Rabs_le; lra|]. split.
  - rewrite (eggholder_point m M) by lra. do 3 f_equal. f_equal. ring.
  - intros n X costs MX E i r c Xi Ci. assert (L2 : length r = 2%nat) by (destruct MX as [_ MX]; rewrite Forall_forall in MX; apply MX; eapply nth_error_In; eauto). destruct (two r L2) as (a & b & ->).
    pose proof (formula_claim m M "eggholder" (eggholder m) 2%nat n X costs ltac:(cbn; auto 20) MX E i [a; b] c Xi Ci) as Q. unfold eggholder in E. cbn [Nat.eqb negb] in E.
    change (nofZ (n := Rnum) (-512)) with (-512) in E. change (nofZ (n := Rnum) 512) with 512 in E. destruct (within (N := Rnum) (-512) 512 X) eqn:W; [|discriminate E]. clear E.
    destruct (egg_within X i a b W Xi) as [A1 A2]. assert (QE : c = - egg a (b + 47)) by (rewrite Q; unfold formula, egg; cbn [String.eqb Ascii.eqb Bool.eqb nth]; change (T Rnum) with R; ring). clear Q.
    destruct (B a (b + 47) ltac:(lra) ltac:(lra)) as [B1 B2]. split; [lra|]. intros E. destruct (B2 ltac:(lra)) as [-> Bu]. f_equal. f_equal. lra.
Qed.
Lemma eggholder_docstring : forall m : mathlib Rnum, real_math m ->
  exists c y v, eggholder m 2%nat [[512; 404.3219]] = Ok [c] /\ -959.632 <= c /\ eggholder m 2%nat [[512; y]] = Ok [v] /\ v < c.
Proof.
  intros m M. destruct (eggholder_minimum m M) as (y & v & Y & V & E & _). exists (- egg 512 (404.3219 + 47)), y, v. split; [apply (eggholder_point m M); lra|].
  assert (D : -959.632 <= - egg 512 (404.3219 + 47)). { replace (404.3219 + 47) with 451.3219 by lra. rewrite egg_edge by lra. pose proof edge_docstring. lra. }
  split; [exact D|]. split; [exact E|]. unfold Rabs in V. destruct (Rcase_abs _); lra.
Qed.
