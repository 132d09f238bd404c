(** Boundary strategies in exact arithmetic, and the reflective loop. *)
From Coq Require Import String ZArith List Arith Bool Reals Lra Lia.
From Flocq Require Import Core IEEE754.BinarySingleNaN.
From Verif Require Import Prelude F64 F64Facts F64More Num Np Handlers SpecHandlers ListFacts NpFacts ShapeFacts HandlerFacts.
Import ListNotations.
Local Open Scope list_scope.
Local Open Scope nat_scope.

(** *** The loop of [reflective] on one coordinate *)
Fixpoint it {A} (k : nat) (f : A -> A) (x : A) : A := match k with O => x | S k => it k f (f x) end.
Lemma it_fix : forall {A} k (f : A -> A) x, f x = x -> it k f x = x.
Proof. induction k; simpl; intros; auto. rewrite H. auto. Qed.

Section Loop.
Context {N : Num}.
Definition clear_el (x l u : N) : Prop := nlt x l = false /\ nlt u x = false.
Lemma reflective_loop_it : forall n d (b : bounds N) k m, box_dim d b -> is_matrix n d m ->
  (forall i j x l u, entry m i j = Some x -> column b j l u -> clear_el (it k (fun y => reflect_el y l u) x) l u) ->
  forall fuel, k <= fuel ->
  exists m', reflective_loop fuel b m = Ok m' /\ is_matrix n d m' /\
    forall i j x l u, entry m i j = Some x -> column b j l u -> entry m' i j = Some (it k (fun y => reflect_el y l u) x).
Proof.
  intros n d b. induction k; intros m B M H fuel F.
  - exists m. assert (E : any_out m b = false). { apply (any_out_false d); auto. }
    split; [destruct fuel; simpl; rewrite E; auto|]. split; [exact M|]. intros i j x l u X C. exact X.
  - destruct fuel; [lia|]. simpl. destruct (any_out m b) eqn:E.
    + assert (H' : forall i j x l u, entry (reflect_pass b m) i j = Some x -> column b j l u ->
        clear_el (it k (fun y => reflect_el y l u) x) l u).
      { intros i j x l u X C. destruct (entry_lt n d _ i j x (map3_matrix n d b m reflect_el M B) X) as [I J].
        destruct (entry_in n d m i j M I J) as [y Y]. unfold reflect_pass in X.
        rewrite (entry_map3 d b m reflect_el i j y l u Y C B) in X. injection X as <-. apply (H i j y l u Y C). }
      destruct (IHk (reflect_pass b m) B (map3_matrix n d b m reflect_el M B) H' fuel ltac:(lia)) as (m' & R & M' & K).
      exists m'. split; auto. split; auto. intros i j x l u X C. apply K; auto.
      unfold reflect_pass. apply entry_map3 with d; auto.
    + exists m. split; auto. split; auto. intros i j x l u X C.
      destruct (proj1 (any_out_false d b m B) E i j x l u X C) as [C1 C2].
      rewrite X. f_equal. rewrite (reflect_in x l u C1 C2). symmetry. apply it_fix. apply reflect_in; auto.
Qed.
Lemma reflective_loop_stuck : forall d (b : bounds N) fuel m i j x l u, box_dim d b ->
  entry m i j = Some x -> column b j l u -> (forall k, ~ clear_el (it k (fun y => reflect_el y l u) x) l u) ->
  reflective_loop fuel b m = Err OutOfFuel.
Proof.
  intros d b. induction fuel; intros m i j x l u B X C H; simpl.
  - destruct (any_out m b) eqn:E; auto. exfalso. apply (H 0). apply (proj1 (any_out_false d b m B) E i j); auto.
  - destruct (any_out m b) eqn:E.
    + apply IHfuel with i j (reflect_el x l u) l u; auto.
      * unfold reflect_pass. apply entry_map3 with d; auto.
      * intros k. apply (H (S k)).
    + exfalso. apply (H 0). apply (proj1 (any_out_false d b m B) E i j); auto.
Qed.
Lemma reflective_loop_exit : forall d (b : bounds N) fuel m m', box_dim d b -> reflective_loop fuel b m = Ok m' ->
  forall i j x l u, entry m' i j = Some x -> column b j l u -> clear_el x l u.
Proof.
  intros d b. induction fuel; simpl; intros m m' B H; destruct (any_out m b) eqn:E; try discriminate; eauto;
  injection H as <-; intros; eapply any_out_false; eauto.
Qed.
Lemma reflective_result : forall (b : bounds N) dr mem m m' mem', bh_call "reflective" dr mem b m = Ok (m', mem') ->
  bounds_fit m b = true /\ reflective_loop (bd_fuel dr) b m = Ok m' /\ mem' = mem.
Proof.
  unfold bh_call, reflective. intros b dr mem m m' mem' H. simpl in H. destruct (bounds_fit m b); [|discriminate]. simpl in H.
  apply bind_Ok in H. destruct H as (q & Q & H). injection H as <- <-. destruct (_ && _); [discriminate|auto].
Qed.
Lemma reflective_call : forall n d (b : bounds N) dr mem m, is_matrix n d m -> box_dim d b -> b_arr b = true ->
  bh_call "reflective" dr mem b m = match reflective_loop (bd_fuel dr) b m with Ok p => Ok (p, mem) | Err e => Err e end.
Proof.
  intros n d b dr mem m M B A. unfold bh_call, reflective. rewrite (fit_box n d b m M B), A, andb_false_r. simpl.
  destruct (reflective_loop _ _ _); reflexivity.
Qed.
End Loop.

Lemma bounded_choice : forall (n : nat) (P : nat -> nat -> Prop),
  (forall i, i < n -> exists k, forall k', k <= k' -> P i k') -> exists k, forall k', k <= k' -> forall i, i < n -> P i k'.
Proof.
  induction n; intros P H.
  - exists 0. intros. lia.
  - destruct (IHn P) as [k1 K1]. { intros i I. apply H. lia. }
    destruct (H n ltac:(lia)) as [k2 K2]. exists (max k1 k2). intros k' L i I.
    destruct (Nat.eq_dec i n) as [->|Q]; [apply K2; lia | apply K1; lia].
Qed.

Lemma INR_above : forall r : R, exists n, (r < INR n)%R.
Proof.
  intros r. exists (Z.to_nat (up r)). destruct (archimed r) as [A _].
  destruct (Z.le_gt_cases 0 (up r)) as [H|H].
  - rewrite INR_IZR_INZ, Z2Nat.id by auto. lra.
  - assert (IZR (up r) < 0)%R by (apply (IZR_lt _ 0); lia). pose proof (pos_INR (Z.to_nat (up r))). lra.
Qed.

(** *** Exact arithmetic *)
Notation RN := Rnum (only parsing).
Ltac rlt := repeat match goal with
  | |- context[Rlt_bool ?a ?b] => destruct (Rlt_bool_spec a b)
  | H : context[Rlt_bool ?a ?b] |- _ => destruct (Rlt_bool_spec a b)
  end.
Local Open Scope R_scope.

Lemma nearest_R : forall x l u : RN, (l <= u)%R ->
  l <= nearest_el x l u <= u /\ forall y, l <= y <= u -> Rabs (nearest_el x l u - x) <= Rabs (y - x).
Proof.
  intros x l u L. unfold nearest_el, lower, greater. cbn [nlt Rnum T] in *. rlt; cbv zeta; try (exfalso; lra); split; try lra; intros y Y.
  - rewrite !Rabs_left1 by lra. lra.
  - rewrite !Rabs_pos_eq by lra. lra.
  - replace (x - x) with 0 by ring. rewrite Rabs_R0. apply Rabs_pos.
Qed.
Lemma Rnpmod_range : forall a b, 0 < b -> 0 <= Rnpmod a b < b.
Proof.
  intros a b B. unfold Rnpmod. pose proof (Zfloor_lb (a / b)) as L. pose proof (Zfloor_ub (a / b)) as U.
  assert (E : a = b * (a / b)) by (field; lra). set (q := a / b) in *. set (k := IZR (Zfloor q)) in *. split; nra.
Qed.
Lemma periodic_R : forall x l u : RN, l < u ->
  l <= periodic_el x l u <= u /\ exists k : Z, periodic_el x l u = x + IZR k * (u - l).
Proof.
  intros x l u L. cbn [T Rnum] in *. unfold periodic_el, lower, greater. cbn [nlt nabs nsub nmod nadd Rnum].
  rewrite Rabs_pos_eq by lra. rlt; cbv zeta; try (exfalso; lra).
  - destruct (Rnpmod_range (x - u) (u - l)) as [A B]; [lra|]. split; [lra|].
    unfold Rnpmod. exists (- Zfloor ((x - u) / (u - l)) - 1)%Z. rewrite minus_IZR, opp_IZR. ring.
  - destruct (Rnpmod_range (l - x) (u - l)) as [A B]; [lra|]. split; [lra|].
    unfold Rnpmod. exists (Zfloor ((l - x) / (u - l)) + 1)%Z. rewrite plus_IZR. ring.
  - split; [lra|]. exists 0%Z. ring.
Qed.
Lemma reflect_R : forall l u : RN, l < u -> forall k (x : RN), x - u <= INR k * (u - l) -> l - x <= INR k * (u - l) ->
  l <= it k (fun y => reflect_el y l u) x <= u.
Proof.
  intros l u L. cbn [T Rnum] in *. induction k; intros x A B.
  - simpl in *. lra.
  - cbn [it]. rewrite S_INR in A, B. pose proof (pos_INR k). assert (0 <= INR k * (u - l)) by nra. apply IHk;
    unfold reflect_el, lower, greater; cbn [nlt nsub nmul nofZ Rnum]; rlt; cbv zeta; lra.
Qed.
Lemma reflect_orbit : forall (l u : RN) k (x y : RN),
  (exists z : Z, y = x + IZR z * (2 * (u - l)) \/ y = 2 * l - x + IZR z * (2 * (u - l))) ->
  exists z : Z, it k (fun y => reflect_el y l u) y = x + IZR z * (2 * (u - l)) \/
                it k (fun y => reflect_el y l u) y = 2 * l - x + IZR z * (2 * (u - l)).
Proof.
  intros l u. cbn [T Rnum] in *. induction k; intros x y H; [exact H|]. cbn [it]. apply IHk.
  unfold reflect_el, lower, greater; cbn [nlt nsub nmul nofZ Rnum]. destruct H as [z [H|H]]; rlt; cbv zeta.
  - exists (z + 1)%Z. left. rewrite plus_IZR. subst. ring.
  - exists (1 - z)%Z. right. rewrite minus_IZR. subst. ring.
  - exists (- z)%Z. right. rewrite opp_IZR. subst. ring.
  - exists z. left. auto.
  - exists (z + 1)%Z. right. rewrite plus_IZR. subst. ring.
  - exists (1 - z)%Z. left. rewrite minus_IZR. subst. ring.
  - exists (- z)%Z. left. rewrite opp_IZR. subst. ring.
  - exists z. right. auto.
Qed.
Lemma reflect_flat : forall (l : RN) k (x : RN), x <> l -> it k (fun y => reflect_el y l l) x <> l.
Proof.
  intros l. cbn [T Rnum] in *. induction k; intros x H; [exact H|]. cbn [it]. apply IHk.
  unfold reflect_el, lower, greater; cbn [nlt nsub nmul nofZ Rnum]. rlt; cbv zeta; lra.
Qed.
